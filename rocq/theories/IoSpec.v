(** Specification vocabulary for property C82. *)
From Coq Require Import ZArith List Bool Strings.Byte Strings.String.
From Verif Require Import Base Types FileFormat Spec FileSpec CallSpec LowCalls LowSpec IoCalls.
Import ListNotations.
Open Scope Z_scope.

(** After these calls of a writer, each with whether it returned Ok: the blocks in the file, the blocks that were to be written by the
    calls that failed, the single elements pending and the kind of the last one. A call that writes nothing cannot fail. *)
Inductive laid_io (i : file_info) : list (lcall * bool) -> list part -> list part -> list element -> kind -> Prop :=
| lio_nothing : laid_io i [] [] [] [] KNode
| lio_quiet cs ps lost p k x p' k' : laid_io i cs ps lost p k -> effect i x p k None p' k' -> laid_io i (cs ++ [(x, true)]) ps lost p' k'
| lio_written cs ps lost p k x q p' k' : laid_io i cs ps lost p k -> effect i x p k (Some q) p' k' -> laid_io i (cs ++ [(x, true)]) (ps ++ [q]) lost p' k'
| lio_failed cs ps lost p k x q p' k' : laid_io i cs ps lost p k -> effect i x p k (Some q) p' k' -> laid_io i (cs ++ [(x, false)]) ps (lost ++ [q]) p' k'.

(** the elements of some blocks *)
Definition elements_of (ps : list part) : list element := flat_map (fun p => match p with PHeader _ => [] | PData es => es end) ps.
(** a program that gives its elements one by one *)
Definition one_by_one (x : lcall) : Prop := match x with LHeader | LElement _ | LClose => True | _ => False end.
(** failing writes that leave nothing in the file *)
Definition clean (d : outcome) : Prop := d = Written \/ d = Broken 0.
(** the calls, each with whether it returned Ok *)
Definition report (cs : list (lcall * outcome)) (oks : list bool) : list (lcall * bool) := combine (map fst cs) oks.
