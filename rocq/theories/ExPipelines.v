(** Concrete instances of C62, C64, C67, C68. *)
From Coq Require Import ZArith List Bool Lia Strings.Byte Strings.String Reals Lra.
From Verif Require Import Base BaseFacts Types Proto ProtoFacts Block BlockFacts FloatFacts FileFormat FileFacts WriterFacts Spec SpecFacts FileSpec FormatSpec ModelSpec Model2 ModelFacts
  PropBlock PropFile WireSpec WireFacts PropWire PropLegal CallSpec PropCalls FileInfoModel InfoSpec PropInfo Pipelines PropPipelines ExBlock ExFile.
Import ListNotations.
Local Notation length := List.length.
Local Notation concat := List.concat.
Open Scope Z_scope.

Lemma ok_eq {A} (a b : A) : Ok a = Ok b -> a = b. Proof. intros H. injection H. auto. Qed.
(** the element iterator as a function, for concrete files *)
Fixpoint el_list (fuel : nat) m c file s (it : option (list element)) : option (list element) :=
  match fuel with
  | O => None
  | S f => match it with
           | None => Some []
           | Some (e :: r) => option_map (cons e) (el_list f m c file s (Some r))
           | Some [] => match create_element_iterator m c file s with Ok (it', s') => el_list f m c file s' it' | _ => None end
           end
  end.
Lemma el_list_run fuel m c file : forall s it l, el_list fuel m c file s it = Some l -> el_run m c file s it l Ended.
Proof.
  induction fuel as [|f IH]; intros s it l H; [discriminate H|]. cbn [el_list] in H. destruct it as [[|e r]|].
  - destruct (create_element_iterator m c file s) as [(it', s')| |] eqn:E; try discriminate H. eapply elr_refill; eauto.
  - destruct (el_list f m c file s (Some r)) as [l'|] eqn:E; [|discriminate H]. injection H as <-. constructor; auto.
  - injection H as <-. constructor.
Qed.
Definition els_list (fuel : nat) m c file : option (list element) :=
  match fb_next m c file bit_new with
  | Ok (_, s) => match create_element_iterator m c file s with Ok (it, s') => el_list fuel m c file s' it | _ => None end
  | _ => None
  end.
Lemma els_list_run fuel m c file l : els_list fuel m c file = Some l -> elements_run m c file l Ended.
Proof.
  unfold els_list. destruct (fb_next m c file bit_new) as [(ob, s)| |] eqn:E; try discriminate.
  destruct (create_element_iterator m c file s) as [(it, s')| |] eqn:E2; try discriminate. intros H. eapply els_loop; eauto. eapply el_list_run; eauto.
Qed.

(** C64: a file with a tree, another node, a way and a relation is copied by pbf-io *)
Definition ex_tree := Node 3 1 (Coordinate (grid_f64 515074456) (grid_f64 (-1277583))) 1000 7 8 (str "bob") true [Tag (str "natural") (str "tree")].
Definition ex_in_elements : list element := [ENode ex_tree; ENode ex_node1; EWay ex_way; ERelation ex_rel].
Definition ex_in : bytes := match write_file Checked ex_codec ex_info Zlib ex_in_elements with Ok f => f | _ => [] end.
Definition ex_in_read : list element := match els_list 100 Checked ex_codec ex_in with Some l => l | None => [] end.
Lemma ex_in_run : elements_run Checked ex_codec ex_in ex_in_read Ended.
Proof. apply (els_list_run 100). vm_compute. reflexivity. Qed.
Definition ex_in_info : file_info := match reader_new Checked ex_codec ex_in with Ok i => i | _ => ex_info end.
Lemma ex_in_new : reader_new Checked ex_codec ex_in = Ok ex_in_info. Proof. vm_compute. reflexivity. Qed.
Definition ex_kept : list element := filter (fun e => negb (pbf_io_filter_out e)) ex_in_read.
Lemma ex_kept_3 : length ex_in_read = 4%nat /\ length ex_kept = 3%nat. Proof. vm_compute. auto. Qed.
Lemma ex_kept_ok : Forall coordinates_ok ex_kept.
Proof.
  assert (G : exists k l, match ex_kept with ENode n :: EWay _ :: ERelation _ :: [] => lat (n_coord n) = grid_f64 k /\ lon (n_coord n) = grid_f64 l | _ => False end /\ Z.abs k <= 1800000000 /\ Z.abs l <= 1800000000).
  { exists 515074456, (-1277583). split; [vm_compute; auto|]. lia. }
  destruct G as (k & l & G & K & L). destruct ex_kept as [|[n| | |] [|[|w| |] [|[| |r|] [|]]]]; try (destruct G; fail).
  destruct G as (G1 & G2). constructor; [|constructor; [exact I|constructor; [exact I|constructor]]]. cbn [coordinates_ok]. rewrite G1, G2. split; apply ex_deg; auto.
Qed.
Example ex_copy : exists output i' es', pbf_io Checked ex_codec ex_in (Ok output) /\
  reader_new Checked ex_codec output = Ok i' /\ fi_program i' = Some (str "pbf-io-example") /\
  elements_run Checked ex_codec output es' Ended /\ Forall2 written_read ex_kept es' /\ length es' = 3%nat.
Proof.
  assert (W : exists output, write_file Checked ex_codec (set_field ex_in_info (SetProgramStr (str "pbf-io-example"))) Zlib ex_kept = Ok output) by (eexists; vm_compute; reflexivity).
  destruct W as (output & W). assert (CP : pbf_io Checked ex_codec ex_in (Ok output)).
  { unfold pbf_io. rewrite <- W. eapply cp_write; [exact ex_in_new|exact ex_in_run]. }
  destruct (C64_copy Checked ex_codec pbf_io_filter_out (str "pbf-io-example") Zlib ex_in ex_in_info ex_in_read ex_kept output) as (i' & es' & A & _ & B & D & F).
  - exact ex_codec_ok.
  - reflexivity.
  - exact ex_in_new.
  - exact ex_in_run.
  - apply picked_filter.
  - split; [vm_compute; congruence|]. intros m w H. rewrite write_header_spec in H. apply ok_eq in H. rewrite <- H. clear H. vm_compute; congruence.
  - exact ex_kept_ok.
  - apply pieces_fit. vm_compute. reflexivity.
  - exact CP.
  - exists output, i', es'. sconj; auto. destruct ex_kept_3 as (_ & K). clear - F K. apply F2_length in F. congruence.
Qed.
Example ex_counts : exists a, count_file Checked ex_codec ex_in (Ok a) /\ ct_nodes a = 2 /\ ct_ways a = 1 /\ ct_relations a = 1.
Proof. eexists. split; [eapply cf_done; [exact ex_in_new|exact ex_in_run]|]. vm_compute. auto. Qed.
Example ex_acceptable : acceptable ex_in_read.
Proof.
  assert (G : match ex_in_read with [ENode _; ENode _; EWay _; ERelation _] => True | _ => False end) by (vm_compute; exact I).
  destruct ex_in_read as [|[a| | |] [|[b| | |] [|[|w| |] [|[| |r|] [|]]]]]; try (destruct G; fail).
  exists [ENode a; ENode b], [EWay w], [ERelation r]. split; auto. unfold all_nodes, all_ways, all_relations. sconj; try (repeat constructor; eauto; fail). intros _ X. discriminate X.
Qed.

(** C62: the setters, twice on one field *)
Example ex_setters : fi_program (set_fields fi_default [SetProgramStr (str "a"); SetTimestamp (Some 5); SetProgram None; SetProgramStr (str "b")]) = Some (str "b").
Proof. reflexivity. Qed.
Example ex_new : exists file i', new_writer_file Checked ex_codec (str "p") (str "s") (Some 9) None None None Zlib true ex_stream = Ok file /\
  reader_new Checked ex_codec file = Ok i' /\ fi_is_required i' (str "HistoricalInformation") = true /\ fi_ts i' = Some 9.
Proof. eexists _, _. split; [vm_compute; reflexivity|]. split; [vm_compute; reflexivity|]. split; vm_compute; reflexivity. Qed.

(** C67: what the reader yields for this file *)
Example ex_legal : Forall legal ex_in_read /\ legal_info ex_in_info.
Proof. split; [exact (C67_elements_are_legal _ _ _ _ _ ex_in_run)|exact (C67_header_is_legal _ _ _ _ ex_in_new)]. Qed.

(** C68: a way ends the nodes that count *)
Example ex_block_box : compute_bbox None [ENode ex_tree; ENode ex_node2; EWay ex_way; ENode (Node 1 1 (Coordinate (f_of_Z (-80)) (f_of_Z 0)) 0 0 0 [] true [])] =
  Some (BBox (grid_f64 (-1277583)) (f_of_Z 51) (f_of_Z 180) (grid_f64 515074456)).
Proof. vm_compute. reflexivity. Qed.
Example ex_block_points : forall n, leading [ENode ex_tree; ENode ex_node2; EWay ex_way] n -> point_ok (n_coord n).
Proof.
  intros n H. apply leading_cons in H. destruct H as [->|H]; [|apply leading_cons in H; destruct H as [->|H]; [|exfalso; revert H; apply leading_stop; discriminate]].
  - cbn [n_coord ex_tree]. assert (A := ex_deg 515074456). assert (B := ex_deg (-1277583)). destruct A as (A1 & A2 & _); [lia|]. destruct B as (B1 & B2 & _); [lia|].
    unfold point_ok. cbn [lat lon]. split; split; auto; intros E; rewrite E in *; discriminate.
  - unfold point_ok. cbn [n_coord ex_node2 lat lon]. assert (A := ex_degZ 51). assert (B := ex_degZ 180). destruct A as (A1 & A2 & _); [lia|]. destruct B as (B1 & B2 & _); [lia|].
    split; split; auto; intros E; rewrite E in *; discriminate.
Qed.
Example ex_merged : fi_bbox (fold_left fi_merge_bbox [None; Some (BBox (f_of_Z 1) (f_of_Z 2) (f_of_Z 3) (f_of_Z 4)); Some (BBox (f_of_Z (-1)) (f_of_Z 3) (f_of_Z 2) (f_of_Z 5))] fi_default) =
  Some (BBox (f_of_Z (-1)) (f_of_Z 2) (f_of_Z 3) (f_of_Z 5)).
Proof. vm_compute. reflexivity. Qed.
