(** Concrete instances of C92: three nodes, the last with a tag. *)
From Coq Require Import ZArith List Bool Strings.Byte Strings.String Lia.
From Verif Require Import Base BaseFacts Types ApidbText ApidbWrite ApidbRead FileFormat DumpReadFails DumpReadFailsSpec PropDumpReadFails ExTools TocData ExApidb.
Import ListNotations.
Local Notation length := List.length.
Open Scope Z_scope.

Definition ex_l20 : node := Node 20 1 (at_grid 1 2) 1600000000000 10 7 ann true [].
Definition ex_l21 : node := Node 21 1 (at_grid 3 4) 1600000000000 10 7 ann true [].
Definition ex_l121 : node := Node 121 1 (at_grid 5 6) 1600000000000 10 7 ann true [Tag (str "name") (str "x")].
Definition ex_lstream : list element := [ENode ex_l20; ENode ex_l21; ENode ex_l121; EWay ex_w].
Definition ex_lfiles : table -> bytes := match ApidbWrite.dump ex_escape ex_order ex_clock ex_lib ex_lstream with Ok w => files w | _ => fun _ => [] end.
Definition ex_lrd : reader := Eval vm_compute in match ApidbRead.reader_new ex_sort (ex_directory ex_lfiles) with Ok rd => rd | _ => [] end.
Fixpoint run_list {S A} (next : S -> res (option A * S)) (fuel : nat) (s : S) : option (list A * ending) :=
  match fuel with
  | O => None
  | S f => match next s with
           | Ok (Some a, s') => match run_list next f s' with Some (l, o) => Some (a :: l, o) | None => None end
           | Ok (None, _) => Some ([], Ended)
           | Panic => Some ([], Panicked)
           | Err => None
           end
  end.
Lemma run_list_run {S A} (next : S -> res (option A * S)) fuel : forall s l o, run_list next fuel s = Some (l, o) -> run next s l o.
Proof.
  induction fuel as [|f IH]; intros s l o H; [discriminate H|]. cbn [run_list] in H. destruct (next s) as [[[b|] s']| |] eqn:E; try discriminate H.
  - destruct (run_list next f s') as [[l' o']|] eqn:E2; [|discriminate H]. injection H as <- <-. eapply run_step; eauto.
  - injection H as <- <-. eapply run_end; eauto.
  - injection H as <- <-. eapply run_panic; eauto.
Qed.
Definition tags_seen (e : element) : Z * list tag := match e with ENode n => (n_id n, n_tags n) | EWay w => (w_id w, w_tags w) | ERelation r => (r_id r, r_tags r) | ESentinel => (0, []) end.
Definition seen (r : res (creators * eiter)) : option (list (Z * list tag) * ending) :=
  match r with Ok (k, s) => match run_list (element_next k) 50 s with Some (l, o) => Some (map tags_seen l, o) | None => None end | _ => None end.
Lemma seen_run r v o : seen r = Some (v, o) -> exists k s l, r = Ok (k, s) /\ run (element_next k) s l o /\ map tags_seen l = v.
Proof.
  unfold seen. destruct r as [(k, s)| |]; try discriminate. destruct (run_list (element_next k) 50 s) as [(l, o')|] eqn:E; [|discriminate]. intros H. injection H as <- <-.
  exists k, s, l. split; auto. split; auto. eapply run_list_run; eauto.
Qed.
Example ex_l_sound : exists k s l, ApidbRead.elements ex_unescape ex_lrd = Ok (k, s) /\ run (element_next k) s l Ended /\
  map tags_seen l = [(20, []); (21, []); (121, [Tag (str "name") (str "x")]); (0, []); (5, [Tag (str "highway") (str "path")]); (0, []); (0, [])].
Proof. apply seen_run. vm_compute. reflexivity. Qed.
(** two rows of nodes, then every read of that table fails: the third node is not there *)
Definition ex_two_nodes (t : table) : list bytes := match t with T_nodes => firstn 2 (lines_of (data_of ex_lrd T_nodes)) | _ => lines_of (data_of ex_lrd t) end.
Example ex_two_nodes_dies t : dies (data_of ex_lrd t) (ex_two_nodes t).
Proof.
  assert (G : exists a b c, data_of ex_lrd T_nodes = a ++ x0a :: b ++ x0a :: c /\ ex_two_nodes T_nodes = [a ++ [x0a]; b ++ [x0a]] /\ existsb (Byte.eqb x0a) (a ++ b) = false).
  { exists (removelast (nth 0 (lines_of (data_of ex_lrd T_nodes)) [])), (removelast (nth 1 (lines_of (data_of ex_lrd T_nodes)) [])), (nth 2 (lines_of (data_of ex_lrd T_nodes)) []). vm_compute. auto. }
  destruct t; try (apply lines_dies). destruct G as (a & b & c & -> & -> & N).
  assert (F : forall x, In x0a x -> existsb (Byte.eqb x0a) x = true) by (intros x I; apply existsb_exists; exists x0a; split; auto; apply byte_dec_lb; auto).
  rewrite existsb_app in N. apply orb_false_iff in N. destruct N as (N1 & N2). apply di_line; [intros I; apply F in I; congruence|]. apply di_line; [intros I; apply F in I; congruence|]. apply di_stop.
Qed.
Example ex_two_nodes_left : exists k s l, elements_on ex_unescape ex_lrd (fun _ => true) ex_two_nodes = Ok (k, s) /\ run (element_next k) s l Ended /\
  map tags_seen l = [(20, []); (21, []); (0, []); (5, [Tag (str "highway") (str "path")]); (0, []); (0, [])].
Proof. apply seen_run. vm_compute. reflexivity. Qed.
(** the first read of node_tags fails after one byte of the row of node 121, later reads succeed: the tag is given to node 21 *)
Definition ex_misread (t : table) : list bytes := match t with T_node_tags => failed :: lines_of (skipn 1 (data_of ex_lrd T_node_tags)) | _ => lines_of (data_of ex_lrd t) end.
Theorem C92_tag_moves : (forall t, read_lines (data_of ex_lrd t) (ex_misread t)) /\
  exists k s l, elements_on ex_unescape ex_lrd (fun _ => true) ex_misread = Ok (k, s) /\ run (element_next k) s l Ended /\
  map tags_seen l = [(20, []); (21, [Tag (str "name") (str "x")]); (121, []); (0, []); (5, [Tag (str "highway") (str "path")]); (0, []); (0, [])].
Proof.
  split; [|apply seen_run; vm_compute; reflexivity]. intros t.
  assert (G : data_of ex_lrd T_node_tags = [x31] ++ skipn 1 (data_of ex_lrd T_node_tags)) by (vm_compute; reflexivity).
  destruct t; try (apply dies_reads, lines_dies). rewrite G. apply rl_error; [intros [X|[]]; discriminate X|]. apply dies_reads, lines_dies.
Qed.
