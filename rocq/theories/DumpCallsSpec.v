(** Specification vocabulary for histories of the dump writer. *)
From Coq Require Import List.
From Verif Require Import Types DumpCalls.
Import ListNotations.

(** the elements written before each close (since the one before), and those after the last *)
Fixpoint sections (cs : list dcall) : list (list element) * list element :=
  match cs with
  | [] => ([], [])
  | DElement e :: r => match sections r with ([], tail) => ([], e :: tail) | (s :: ss, tail) => ((e :: s) :: ss, tail) end
  | DClose :: r => let '(ss, tail) := sections r in ([] :: ss, tail)
  end.
(** all that was written before each close *)
Fixpoint so_far (before : list element) (ss : list (list element)) : list (list element) :=
  match ss with [] => [] | s :: r => (before ++ s) :: so_far (before ++ s) r end.
