(** A thread pool of the command-executor crate driven by one submitting thread, as a transition
    system. It models the use made of it in
      src/osm/pbf/reader.rs 183-204 (parallel_for_each),
      src/osm/pbf/bounding_box_calculator.rs 22-51 (calc):
    [ThreadPoolBuilder] with a number of tasks and a queue size, [submit] for every item of an
    iterator (blocking while the queue is full), then [shutdown] in mode CompletePending and [join].

    External code: the crate command-executor is represented by its documented behaviour: a bounded
    FIFO queue, each command executed once by one worker, a worker leaves when the pool is shut down
    and the queue is empty. A command that fails (Err or panic) leaves its worker in [Failed]; nothing
    is claimed here about runs with a failure (see FailPool.v and C86). *)
From Coq Require Import ZArith List Bool Lia.
From Verif Require Import Base.
Import ListNotations.

Section Pool.
  Context {It J A S : Type}.
  (** the iterator of the submitting thread *)
  Variable next : It -> res (option J * It).
  (** what [Command::execute] does for a job: a sequence of atomic actions, or a failure *)
  Variable plan : J -> option (list A).
  (** effect of an action executed by worker [w] on the shared state; None = the action fails *)
  Variable act : nat -> A -> S -> option S.
  Variable cap : nat.

  Inductive worker := Idle | Busy (l : list A) | Exited | Failed.
  Inductive submitter := Submitting (it : It) | ShutDown | Dead.
  Record pool := Pool { p_main : submitter; p_queue : list J; p_workers : list worker; p_shared : S }.

  Definition pool_new (it : It) (n : nat) (s : S) : pool := Pool (Submitting it) [] (repeat Idle n) s.

  (** [l] with element [i] replaced *)
  Fixpoint set_nth {X} (i : nat) (x : X) (l : list X) : list X :=
    match l, i with
    | [], _ => []
    | _ :: r, O => x :: r
    | y :: r, Datatypes.S j => y :: set_nth j x r
    end.

  (** one step; the label is the action performed, if any *)
  Inductive step : pool -> option (nat * A) -> pool -> Prop :=
  | st_submit it j it' q ws s : next it = Ok (Some j, it') -> (length q < cap)%nat ->
      step (Pool (Submitting it) q ws s) None (Pool (Submitting it') (q ++ [j]) ws s)
  | st_shutdown it it' q ws s : next it = Ok (None, it') ->
      step (Pool (Submitting it) q ws s) None (Pool ShutDown q ws s)
  | st_dead it q ws s : next it = Panic \/ next it = Err ->
      step (Pool (Submitting it) q ws s) None (Pool Dead q ws s)
  | st_take mn j q w ws s l : nth_error ws w = Some Idle -> plan j = Some l ->
      step (Pool mn (j :: q) ws s) None (Pool mn q (set_nth w (Busy l) ws) s)
  | st_bad mn j q w ws s : nth_error ws w = Some Idle -> plan j = None ->
      step (Pool mn (j :: q) ws s) None (Pool mn q (set_nth w Failed ws) s)
  | st_act mn q w ws s a l s' : nth_error ws w = Some (Busy (a :: l)) -> act w a s = Some s' ->
      step (Pool mn q ws s) (Some (w, a)) (Pool mn q (set_nth w (Busy l) ws) s')
  | st_act_bad mn q w ws s a l : nth_error ws w = Some (Busy (a :: l)) -> act w a s = None ->
      step (Pool mn q ws s) (Some (w, a)) (Pool mn q (set_nth w Failed ws) s)
  | st_done mn q w ws s : nth_error ws w = Some (Busy []) ->
      step (Pool mn q ws s) None (Pool mn q (set_nth w Idle ws) s)
  | st_exit w ws s : nth_error ws w = Some Idle ->
      step (Pool ShutDown [] ws s) None (Pool ShutDown [] (set_nth w Exited ws) s).

  (** executions with the list of the actions performed, in the order in which they happened,
      and the number of steps *)
  Inductive exec : pool -> list (nat * A) -> nat -> pool -> Prop :=
  | ex_nil p : exec p [] 0 p
  | ex_snoc p tr k p' o p'' : exec p tr k p' -> step p' o p'' ->
      exec p (tr ++ match o with Some x => [x] | None => [] end) (Datatypes.S k) p''.

  (** [join] has returned: shut down and every worker has left *)
  Definition finished (p : pool) : Prop :=
    p_main p = ShutDown /\ p_queue p = [] /\ Forall (fun w => w = Exited) (p_workers p).
  (** no command has failed and the submitting thread has not panicked *)
  Definition no_failure (p : pool) : Prop := p_main p <> Dead /\ Forall (fun w => w <> Failed) (p_workers p).
End Pool.
Arguments Idle {A}. Arguments Busy {A}. Arguments Exited {A}. Arguments Failed {A}.
Arguments Submitting {It}. Arguments ShutDown {It}. Arguments Dead {It}.
Arguments Pool {It J A S}. Arguments p_main {It J A S}. Arguments p_queue {It J A S}.
Arguments p_workers {It J A S}. Arguments p_shared {It J A S}.
Arguments pool_new {It J A S}.
Arguments finished {It J A S}. Arguments no_failure {It J A S}.
