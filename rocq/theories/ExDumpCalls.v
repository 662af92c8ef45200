(** Non-vacuity of C88: an object whose versions are written before and after a close. *)
From Coq Require Import ZArith List Bool Strings.Byte Strings.String Lia Permutation.
From Verif Require Import Base BaseFacts Types ApidbText ApidbSpec DumpSpec ApidbWrite ApidbWriteFacts PropLimits ExTools ExApidb DumpCalls DumpCallsSpec PropDumpCalls.
Import ListNotations.
Local Notation length := List.length.
Open Scope Z_scope.

Definition ex_n1v3 : node := Node 1 3 (at_grid 515000001 (-1234567)) 1600000060000 11 8 zoe true [Tag (str "k") (str "v")].
Definition ex_history : list dcall := [DElement (ENode ex_n1); DElement (EWay ex_w); DClose; DElement (ENode ex_n1v3); DElement (ENode ex_n2); DClose; DElement (ERelation ex_r)].
Definition ex_clocks (j i : nat) : Z := ex_clock (Nat.add j i).
Example ex_history_sections : sections ex_history = ([[ENode ex_n1; EWay ex_w]; [ENode ex_n1v3; ENode ex_n2]], [ERelation ex_r]).
Proof. reflexivity. Qed.
Lemma ex_clocks_ok j i : in_calendar (ex_clocks j i / 1000000).
Proof. apply ex_clock_ok. Qed.
Example ex_history_ok : exists w, dcalls ex_escape ex_order ex_clocks ex_lib 0 ex_history writer_new = Ok w.
Proof.
  apply (proj1 (C88_total ex_escape ex_order ex_lib ex_clocks ex_clocks_ok ex_history)). rewrite ex_history_sections. cbn [fst snd List.concat app].
  repeat (apply Forall_cons; [cbn [dumpable]; unfold in_calendar; vm_compute; split; discriminate|]). apply Forall_nil.
Qed.
(** node 1 is in current_node_tags twice, users 7 twice *)
Definition tabbed (l : list bytes) : bytes := join_cols l ++ [x0a].
Example ex_history_tags : match dcalls ex_escape ex_order ex_clocks ex_lib 0 ex_history writer_new with
  | Ok w => bytes_eqb (files w T_current_node_tags)
      (tabbed [str "1"; str "name"; ex_escape odd_text] ++ tabbed [str "1"; str "amenity"; str "pub"] ++ str "\." ++ [x0a] ++
       tabbed [str "1"; str "k"; str "v"] ++ tabbed [str "2"; str "k"; []] ++ str "\." ++ [x0a])
  | _ => false end = true.
Proof. vm_compute. reflexivity. Qed.
Example ex_history_users : match dcalls ex_escape ex_order ex_clocks ex_lib 0 ex_history writer_new with
  | Ok w => existsb (bytes_eqb (files w T_users))
     [user_line 7 ann (match to_sql_time_micros (ex_clocks 0 0) with Ok s => s | _ => [] end) ++ str "\." ++ [x0a] ++
      user_line 7 ann (match to_sql_time_micros (ex_clocks 1 0) with Ok s => s | _ => [] end) ++ user_line 8 zoe (match to_sql_time_micros (ex_clocks 1 1) with Ok s => s | _ => [] end) ++ str "\." ++ [x0a]]
  | _ => false end = true.
Proof. vm_compute. reflexivity. Qed.
