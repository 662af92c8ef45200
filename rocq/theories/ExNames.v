(** Non-vacuity of C84: a name with one TAB, and a name with twelve that happens to fit the columns. *)
From Coq Require Import ZArith List Bool Strings.Byte Strings.String Lia Permutation.
From Verif Require Import Base BaseFacts Types ApidbText ApidbSpec ApidbTextFacts DumpSpec ApidbWrite ApidbWriteFacts ApidbRead DumpReadSpec FileFormat
  ApidbReadFacts TocFacts JoinFacts ReaderFacts PropApidbRead RoundSpec PropRoundTrip PropLimits ExTools TocData PropToc ExApidb NameSpec PropNames.
Import ListNotations.
Open Scope Z_scope.

Definition one_tab : bytes := str "ann" ++ [x09] ++ str "lee".
Fixpoint tabbed (ps : list bytes) : bytes := match ps with [] => [] | [p] => p | p :: r => p ++ [x09] ++ tabbed r end.
Definition twelve_tabs : bytes := tabbed [str "ann"; str "t"; str "f"; str "html"; str "1"; str "2"; str "3"; str "t"; []; []; []; str "active"; zoe].
Definition way_by (name : bytes) : element := EWay (Way 5 1 1600000000000 10 7 name true [2; 1; 2] [Tag (str "highway") (str "path")]).
Definition by_name (name : bytes) : list element := [ENode ex_n3; way_by name].
Example ex_tab_counts : tabs one_tab = 1%nat /\ tabs twelve_tabs = 12%nat /\ never (tabs one_tab) /\ ~ never (tabs twelve_tabs).
Proof. repeat split; try reflexivity; unfold never; change (tabs one_tab) with 1%nat; change (tabs twelve_tabs) with 12%nat; lia. Qed.
Lemma by_name_ok name : one_line name -> nearly_readable ex_escape ex_unescape ex_clock (by_name name) /\ exists w, ApidbWrite.dump ex_escape ex_order ex_clock ex_lib (by_name name) = Ok w.
Proof.
  intros N. split.
  - pose proof ex_storable as S. pose proof ex_readable as (_ & _ & _ & CK). unfold ex_stream in S. unfold nearly_readable. split; [|split; [|split; [|exact CK]]].
    + inversion S as [|? ? S1 S2]; subst. constructor; [exact S1|]. constructor; [|constructor]. rewrite Forall_forall in S. specialize (S (EWay ex_w) ltac:(cbn; tauto)). exact S.
    + unfold distinct_versions. repeat split; repeat constructor; cbn; intuition discriminate.
    + repeat constructor; try exact (proj1 N); try exact (proj1 (proj2 N)); try exact (proj2 (proj2 N)); cbn; intuition discriminate.
  - apply (proj1 (C55_dump_total _ _ _ _ ex_clock_ok _)). repeat constructor; vm_compute; discriminate.
Qed.
Lemma one_tab_line : one_line one_tab. Proof. repeat split; try reflexivity; cbn; intuition discriminate. Qed.
Lemma twelve_line : one_line twelve_tabs. Proof. repeat split; try reflexivity; cbn; intuition discriminate. Qed.
(** a dump with the name "ann<TAB>lee" cannot be read *)
Example ex_one_tab : exists w rd, ApidbWrite.dump ex_escape ex_order ex_clock ex_lib (by_name one_tab) = Ok w /\
  ApidbRead.reader_new ex_sort (ex_directory (files w)) = Ok rd /\ ApidbRead.elements ex_unescape rd = Panic.
Proof.
  destruct (by_name_ok one_tab one_tab_line) as (R & w & W).
  destruct (C84_tabs_panic _ _ _ _ _ ex_any_order _ ex_sorts _ _ _ W R (ex_directory_ok w) 7 one_tab) as (rd & A & B); eauto.
  - exists [(8, zoe)], []. split; [reflexivity|intros []].
  - apply ex_tab_counts.
Qed.
(** with the twelve TABs it can *)
Definition twelve_read : bool :=
  match ApidbWrite.dump ex_escape ex_order ex_clock ex_lib (by_name twelve_tabs) with
  | Ok w => match ApidbRead.reader_new ex_sort (ex_directory (files w)) with
            | Ok rd => match ApidbRead.elements ex_unescape rd with Ok _ => true | _ => false end
            | _ => false end
  | _ => false end.
Lemma twelve_read_ok : twelve_read = true. Proof. vm_compute. reflexivity. Qed.
(** and the name that comes back is "ann" *)
Example ex_twelve_tabs : exists w rd k s l e, ApidbWrite.dump ex_escape ex_order ex_clock ex_lib (by_name twelve_tabs) = Ok w /\
  ApidbRead.reader_new ex_sort (ex_directory (files w)) = Ok rd /\ ApidbRead.elements ex_unescape rd = Ok (k, s) /\ run (element_next k) s l Ended /\
  In (EWay e) l /\ w_id e = 5 /\ w_refs e = [2; 1; 2] /\ w_user e = ann.
Proof.
  destruct (by_name_ok twelve_tabs twelve_line) as (R & w & W). pose proof twelve_read_ok as T. unfold twelve_read in T. rewrite W in T.
  destruct (ApidbRead.reader_new ex_sort (ex_directory (files w))) as [rd| |] eqn:A; try discriminate T.
  destruct (ApidbRead.elements ex_unescape rd) as [(k & s)| |] eqn:B; try discriminate T. clear T.
  destruct (C84_names_cut _ _ _ _ _ ex_any_order _ ex_sorts _ _ _ W R (ex_directory_ok w) rd k s A B) as (nodes & ways & rels & C & _ & (ws & P & _ & F) & _).
  cbn in P. apply Permutation_sym, Permutation_length_1_inv in P. subst ws. inversion F as [|? ? ? ? (e' & full & p & BK & NM & CT & ->) F']; subst.
  destruct BK as (uid & name & tags & M1 & M2 & _ & ->). cbn in NM. injection NM as ->.
  eexists w, rd, k, s, _, _. split; [exact W|]. split; [exact A|]. split; [exact B|]. split; [exact C|]. split; [apply in_app_iff; right; right; left; reflexivity|].
  split; [reflexivity|]. split; [reflexivity|]. cbn [w_user].
  assert (uid = 7 /\ full = twelve_tabs) as (-> & ->).
  { apply recent_in in M1. cbn in M1. destruct M1 as [M1|[M1|[]]]; [discriminate M1|]. injection M1 as <-. apply recent_in in M2. cbn in M2. destruct M2 as [M2|[M2|[]]]; [discriminate M2|]. injection M2 as <-. auto. }
  eapply (NameFacts.cut_unique twelve_tabs); [exact CT|]. split; [cbn; intuition discriminate|]. right. eexists. reflexivity.
Qed.
