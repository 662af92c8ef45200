(** Non-vacuity of C86. *)
From Coq Require Import ZArith List Bool Strings.Byte Strings.String Lia Permutation.
From Verif Require Import Base BaseFacts Types Proto Block BlockFacts FloatFacts Spec SpecFacts FileFormat FileFacts FileSpec PropFile.
From Verif Require Import ModelSpec ModelFacts Pool ParallelSpec PoolFacts ParallelRead ParallelReadFacts PropParallelRead ExBlock ExFile ExParallelRead FailPool FailSpec PropFails.
Import ListNotations.
Open Scope Z_scope.
Local Notation length := List.length.
Local Notation concat := List.concat.

(** runs without recovering workers are runs of the pool of Pool.v *)
Definition lifted {A S} (act : nat -> A -> S -> option S) (w : nat) (a : A) (s : S) : S * bool := match act w a s with Some s' => (s', true) | None => (s, false) end.
Lemma exec_fexec {It J A S} next plan (act : nat -> A -> S -> option S) cap (p : @pool It J A S) tr k p' : exec next plan act cap p tr k p' -> fexec next plan (lifted act) cap p tr k p'.
Proof.
  induction 1 as [p|p tr k p1 o p2 E IH H]; [constructor|]. econstructor; [exact IH|]. destruct H; econstructor; eauto; unfold lifted; match goal with X : act _ _ _ = _ |- _ => rewrite X end; reflexivity.
Qed.
(** a function that fails for way 5 after two other calls *)
Definition picky (w : nat) (e : element) (s : list Z) : option (list Z) := match e with EWay _ => None | _ => Some (s ++ [element_id e]) end.
Definition joinedb {It J A S} (p : @pool It J A S) : bool :=
  match p_main p, p_queue p with ShutDown, [] => forallb (fun w => match w with Exited | Failed => true | _ => false end) (p_workers p) | _, _ => false end.
Lemma joinedb_spec {It J A S} (p : @pool It J A S) : joinedb p = true -> joined p.
Proof.
  unfold joinedb, joined. destruct (p_main p), (p_queue p); try discriminate. intros H. split; auto. split; auto. apply Forall_forall. intros w I. rewrite forallb_forall in H. specialize (H w I). destruct w; auto; discriminate.
Qed.
(** the block of nodes is passed completely; of the block with the way only the way *)
Example ex_picky : exists tr k p, fail_exec Checked ex_codec ex_two_blocks 2 (lifted picky) [] tr k p /\ joined p /\
  existsb is_way (map snd tr) = true /\ existsb is_node (map snd tr) = true /\ In Failed (p_workers p) /\ length (filter is_sentinel (map snd tr)) = 1%nat.
Proof.
  destruct (sched_exec (blob_next ex_two_blocks) (iteration_calls Checked ex_codec ex_two_blocks) picky for_each_queue
    (fun tr p => (joinedb p, existsb is_way (map snd tr), existsb is_node (map snd tr), existsb (fun w => match w with Failed => true | _ => false end) (p_workers p), length (filter is_sentinel (map snd tr))))
    (true, true, true, true, 1%nat) (round_robin 20 [0; 1; 2]%nat) (pool_new bit_new 2 [])) as (tr & k & p & X & E); [vm_compute; reflexivity|].
  exists tr, k, p. split; [apply exec_fexec; exact X|]. split; [apply joinedb_spec; exact (f_equal (fun x => fst (fst (fst (fst x)))) E)|].
  split; [exact (f_equal (fun x => snd (fst (fst (fst x)))) E)|]. split; [exact (f_equal (fun x => snd (fst (fst x))) E)|].
  split; [|exact (f_equal snd E)]. pose proof (f_equal (fun x => snd (fst x)) E) as F. cbn [fst snd] in F. apply existsb_exists in F as (w & I & F). destruct w; try discriminate F. exact I.
Qed.
(** a file of 1200 blobs that cannot be decoded and one worker that stops at the first: nothing ever ends *)
Definition bad_blob : blob_header * bytes := (BlobHeader (str "OSMData") None 3, [x01; x02; x03]).
Definition bad_file : bytes := file_of_blobs (repeat bad_blob 1200).
Example ex_stuck : exists p, fail_exec Checked ex_codec bad_file 1 (lifted log) [] [] 2 p /\ Forall (fun w => w = Failed) (p_workers p) /\
  forall p', stops_exec Checked ex_codec bad_file (lifted log) p p' -> ~ joined p' /\ p_main p' <> Dead.
Proof.
  assert (H : Forall consistent_blob (repeat bad_blob 1200)).
  { apply Forall_forall. intros b I. apply repeat_spec in I. subst. repeat constructor; vm_compute; congruence. }
  destruct (C15_blob_framing _ H) as (ds & R & L & _). rewrite repeat_length in L.
  destruct (blob_next bad_file bit_new) as [([d|] & it)| |] eqn:N.
  2-4: exfalso; assert (X : match blob_next bad_file bit_new with Ok (Some _, _) => true | _ => false end = true) by (vm_compute; reflexivity); rewrite N in X; discriminate X.
  assert (B : iteration_calls Checked ex_codec bad_file d = None).
  { assert (X : match blob_next bad_file bit_new with Ok (Some d, _) => match iteration_calls Checked ex_codec bad_file d with None => true | _ => false end | _ => false end = true) by (vm_compute; reflexivity).
    rewrite N in X. destruct (iteration_calls Checked ex_codec bad_file d); [discriminate X|reflexivity]. }
  fold bad_file in R. inversion R as [s1 s2 N1|s1 N1|s1 a s2 l o N1 R']; subst; rewrite N in N1; try discriminate N1. injection N1 as <- <-.
  exists (Pool (Submitting it) [] [Failed] []). split; [|split].
  - unfold fail_exec. change (@nil (nat * element)) with (([] ++ []) ++ @nil (nat * element)). eapply (fe_snoc _ _ _ _ _ _ _ (Pool (Submitting it) [d] [Idle] []) None).
    + eapply (fe_snoc _ _ _ _ _ _ _ _ None); [constructor|]. apply (fs_submit _ _ _ _ bit_new d it []); [exact N|unfold for_each_queue; cbn [length]; lia].
    + apply (fs_bad _ _ _ _ _ d [] 0 [Idle]); [reflexivity|exact B].
  - repeat constructor.
  - intros p' E. eapply (C86_stuck _ _ _ _ _ [] [Failed] [] l); [repeat constructor|cbn [length]; lia|exact R'| |exact E]. cbn [length] in *. lia.
Qed.
