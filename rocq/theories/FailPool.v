(** parallel_for_each with a function that can fail, on a file with blobs that cannot be decoded.

    External code: the crate command-executor (see Pool.v). What a worker does after a command that returned Err or panicked
    is left open: it may go on with the next command ([fs_on]) or stay where it is. *)
From Coq Require Import ZArith List Bool.
From Verif Require Import Base Types FileFormat Pool ParallelRead.
Import ListNotations.

Section FailPool.
  Context {It J A S : Type}.
  (** the iterator of the submitting thread *)
  Variable next : It -> res (option J * It).
  (** what [Command::execute] does for a job: a sequence of actions, or a failure before the first one *)
  Variable plan : J -> option (list A).
  (** effect of an action executed by a worker on the shared state, and whether it succeeds; a command stops at the
      first action that fails ([?] in parallel_element_iteration_command.rs 29 and 31) *)
  Variable act : nat -> A -> S -> S * bool.
  Variable cap : nat.
  Notation pool := (@pool It J A S).

  (** as [Pool.step] (src/osm/pbf/reader.rs 183-204), the state can change in an action that fails *)
  Inductive fstep : pool -> option (nat * A) -> pool -> Prop :=
  | fs_submit it j it' q ws s : next it = Ok (Some j, it') -> (length q < cap)%nat ->
      fstep (Pool (Submitting it) q ws s) None (Pool (Submitting it') (q ++ [j]) ws s)
  | fs_shutdown it it' q ws s : next it = Ok (None, it') ->
      fstep (Pool (Submitting it) q ws s) None (Pool ShutDown q ws s)
  | fs_dead it q ws s : next it = Panic \/ next it = Err ->
      fstep (Pool (Submitting it) q ws s) None (Pool Dead q ws s)
  | fs_take mn j q w ws s l : nth_error ws w = Some Idle -> plan j = Some l ->
      fstep (Pool mn (j :: q) ws s) None (Pool mn q (set_nth w (Busy l) ws) s)
  | fs_bad mn j q w ws s : nth_error ws w = Some Idle -> plan j = None ->
      fstep (Pool mn (j :: q) ws s) None (Pool mn q (set_nth w Failed ws) s)
  | fs_act mn q w ws s a l s' : nth_error ws w = Some (Busy (a :: l)) -> act w a s = (s', true) ->
      fstep (Pool mn q ws s) (Some (w, a)) (Pool mn q (set_nth w (Busy l) ws) s')
  | fs_act_bad mn q w ws s a l s' : nth_error ws w = Some (Busy (a :: l)) -> act w a s = (s', false) ->
      fstep (Pool mn q ws s) (Some (w, a)) (Pool mn q (set_nth w Failed ws) s')
  | fs_done mn q w ws s : nth_error ws w = Some (Busy []) ->
      fstep (Pool mn q ws s) None (Pool mn q (set_nth w Idle ws) s)
  | fs_exit w ws s : nth_error ws w = Some Idle ->
      fstep (Pool ShutDown [] ws s) None (Pool ShutDown [] (set_nth w Exited ws) s)
  (** the worker goes on after a failed command *)
  | fs_on mn q w ws s : nth_error ws w = Some Failed ->
      fstep (Pool mn q ws s) None (Pool mn q (set_nth w Idle ws) s).

  Inductive fexec : pool -> list (nat * A) -> nat -> pool -> Prop :=
  | fe_nil p : fexec p [] 0 p
  | fe_snoc p tr k p' o p'' : fexec p tr k p' -> fstep p' o p'' ->
      fexec p (tr ++ match o with Some x => [x] | None => [] end) (Datatypes.S k) p''.

  (** [join] can return: everything has been submitted and taken, every worker has left or stopped after a failed command *)
  Definition joined (p : pool) : Prop :=
    p_main p = ShutDown /\ p_queue p = [] /\ Forall (fun w => w = Exited \/ w = Failed) (p_workers p).
End FailPool.

(** src/osm/pbf/reader.rs 183-204: parallel_for_each, [f] any function on a shared state that may fail *)
Definition fail_exec {S} (m : mode) (c : codec) (file : bytes) (tasks : nat) (f : nat -> element -> S -> S * bool) (s0 : S) :=
  fexec (blob_next file) (iteration_calls m c file) f for_each_queue (pool_new bit_new tasks s0).
