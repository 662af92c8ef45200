(** Concrete cases meeting the hypotheses of the theorems of PropBlock. *)
From Coq Require Import ZArith List Bool Strings.Byte Strings.String Reals Lia Lra ZifyBool.
From Verif Require Import Base BaseFacts Types Proto ProtoFacts Block BlockFacts FloatFacts.
From Verif Require Import Spec SpecFacts BlockOverflow FormatSpec BlockRead PropBlock.
Import ListNotations.
Open Scope Z_scope.

Definition ex_tag1 := Tag (str "highway") (str "residential").
Definition ex_tag2 := Tag (str "name") (str "").
(** London, with a timestamp not on a whole second *)
Definition ex_node1 := Node 5000000001 3 (Coordinate (grid_f64 515074456) (grid_f64 (-1277583))) 1577836800999 77 12 (str "alice") true [ex_tag1; ex_tag2].
(** a smaller id after a larger one, negative timestamp, deleted, degrees off the grid (51, 180) *)
Definition ex_node2 := Node (-7) 1 (Coordinate (f_of_Z 51) (f_of_Z 180)) (-1500) 76 (-1) (str "bob") false [].
Definition ex_way := Way 10 2 1000 5 6 (str "alice") true [3; -4; 9223372036854775800] [ex_tag1].
Definition ex_rel := Relation 20 2 1000 5 6 (str "carol") true
  [Member MWay 10 (str "outer"); Member MNode 5000000001 (str ""); Member MRelation (-3) (str "outer")] [ex_tag1; ex_tag2].

Lemma ex_deg k : Z.abs k <= 1800000000 -> degrees (grid_f64 k).
Proof. intros. apply on_grid_degrees. exists k. split; auto. apply grid_f64_value; auto. Qed.
Lemma ex_degZ k : Z.abs k <= 180 -> degrees (f_of_Z k).
Proof.
  intros H. destruct (f_of_Z_ok k) as (A & B & C); [lia|]. split; auto. split; auto. rewrite C.
  rewrite <- abs_IZR. apply IZR_le. lia.
Qed.
Ltac wf := repeat match goal with |- _ /\ _ => split | |- Forall _ _ => constructor end;
           try reflexivity; try (unfold I64, I32; cbn; lia).
Example ex_node1_ok : node_ok ex_node1.
Proof. split; [unfold wf_node, tag_utf8; wf|]. split; apply ex_deg; lia. Qed.
Example ex_node2_ok : node_ok ex_node2.
Proof. split; [unfold wf_node, tag_utf8; wf|]. split; apply ex_degZ; lia. Qed.
Example ex_way_ok : wf_way ex_way.
Proof. unfold wf_way, tag_utf8; wf. Qed.
Example ex_rel_ok : wf_relation ex_rel.
Proof. unfold wf_relation, wf_member, tag_utf8; wf. Qed.

(** C01, C06-C08, C11: two nodes written and read in both modes; the second id is smaller and
    the timestamps are truncated toward zero *)
Example ex_nodes_block : exists bs ns, osm_data_serialize Checked [ENode ex_node1; ENode ex_node2] = Ok bs /\
  osm_data_serialize Wrapping [ENode ex_node1; ENode ex_node2] = Ok bs /\ below_2GiB bs /\
  osm_data_new Checked bs = Ok (map ENode ns) /\ map n_id ns = [5000000001; -7] /\
  map n_timestamp ns = [1577836800000; -1000] /\ map n_tags ns = [[ex_tag1; ex_tag2]; []] /\
  map n_coord ns = [n_coord ex_node1; n_coord ex_node2].
Proof. eexists _, [_; _]. split; [vm_compute; reflexivity|]. repeat (split; [vm_compute; first [reflexivity|congruence]|]). vm_compute. reflexivity. Qed.
Example ex_ways_block : exists bs ws, osm_data_serialize Checked [EWay ex_way] = Ok bs /\ below_2GiB bs /\
  osm_data_new Checked bs = Ok (map EWay ws) /\ ws = [ex_way].
Proof. eexists _, [_]. split; [vm_compute; reflexivity|]. repeat (split; [vm_compute; first [reflexivity|congruence]|]). vm_compute. reflexivity. Qed.
Example ex_rels_block : exists bs rs, osm_data_serialize Checked [ERelation ex_rel] = Ok bs /\ below_2GiB bs /\
  osm_data_new Checked bs = Ok (map ERelation rs) /\ rs = [ex_rel].
Proof. eexists _, [_]. split; [vm_compute; reflexivity|]. repeat (split; [vm_compute; first [reflexivity|congruence]|]). vm_compute. reflexivity. Qed.

(** C04 *)
Example ex_strings : exists b, intern_all Checked stb_new [str "a"; str ""; str "a"; str "b"] = Ok ([1; 2; 1; 3], b) /\
  stb_build b = [ []; str "a"; []; str "b"].
Proof. eexists. vm_compute. split; reflexivity. Qed.

(** C09: a gap of more than 2^63-1 between neighbouring references makes a checked build panic,
    and a release build writes and recovers it *)
Definition ex_wide := Way 1 1 0 0 0 (str "u") true [9223372036854775807; -9223372036854775808; 0] [].
Example ex_wide_checked : osm_data_serialize Checked [EWay ex_wide] = Panic /\ wf_way ex_wide /\ ~ neighbours_fit [EWay ex_wide].
Proof.
  split; [vm_compute; reflexivity|]. split; [unfold wf_way, tag_utf8; wf|].
  intros (_ & F & _). apply Forall_inv in F. cbn in F. unfold I64 in F. lia.
Qed.
Example ex_wide_release : exists bs, osm_data_serialize Wrapping [EWay ex_wide] = Ok bs /\ osm_data_new Wrapping bs = Ok [EWay ex_wide].
Proof. eexists. split; [vm_compute; reflexivity|vm_compute; reflexivity]. Qed.

(** C05 refuted as stated: a block written from a node and a way loses the way *)
Theorem C05_refuted_mixed_block : exists es bs, Forall element_ok es /\ es = [ENode ex_node2; EWay ex_way] /\
  osm_data_serialize Checked es = Ok bs /\ below_2GiB bs /\
  exists n, osm_data_new Checked bs = Ok [ENode n].
Proof.
  exists [ENode ex_node2; EWay ex_way]. eexists. split; [|split; [reflexivity|split; [vm_compute; reflexivity|split; [vm_compute; congruence|eexists; vm_compute; reflexivity]]]].
  constructor; [exact ex_node2_ok|]. constructor; [exact ex_way_ok|constructor].
Qed.

(** C47, C48: a hand-made block: dense nodes without info, a way without info, and one with a bad index *)
Definition ex_dense := Dense [7; 1] None [0; 10] [0; -10] [1; 2; 0; 0].
Definition ex_block := PBlock [ []; str "k"; str "v"] [PGroup [] (Some ex_dense) [PWay 5 [1] [2] None [4; 1] [] []] [] []] None None None None.
Example ex_defaults : exists n1 n2 w, read_block Checked ex_block = Ok [ENode n1; ENode n2; EWay w] /\
  n_tags n1 = [Tag (str "k") (str "v")] /\ n_tags n2 = [] /\ n_id n2 = 8 /\ n_timestamp n1 = 0 /\ w_timestamp w = -1 /\ w_refs w = [4; 5].
Proof. eexists _, _, _. vm_compute. sconj; reflexivity. Qed.
Definition ex_bad := PBlock [ []; str "k"; str "v"] [PGroup [] None [PWay 5 [1] [3] None [] [] []] [] []] None None None None.
Example ex_bad_index : read_block Checked ex_bad = Panic /\
  exists g, In g (pb_groups ex_bad) /\ used_indexes g 3 /\ out_of_table (pb_strings ex_bad) 3.
Proof.
  split; [vm_compute; reflexivity|]. eexists. split; [left; reflexivity|]. split.
  - right; left. eexists. split; [left; reflexivity|]. right; left. exists 0%nat. cbn. split; [lia|reflexivity].
  - right. vm_compute. congruence.
Qed.
