(** Specification vocabulary for property C84: user names with TABs in a dump. *)
From Coq Require Import ZArith List Bool Strings.Byte Strings.String.
From Verif Require Import Base Types ApidbText ApidbSpec DumpSpec ApidbWrite DumpReadSpec RoundSpec.
Import ListNotations.
Open Scope Z_scope.

(** the text before the first TAB, or all of it *)
Definition cut_at_tab (s p : bytes) : Prop := ~ In x09 p /\ (s = p \/ exists r, s = p ++ x09 :: r).
(** how many TABs *)
Definition tabs (s : bytes) : nat := count_occ Byte.byte_eq_dec s x09.
(** any text on one line *)
Definition one_line (s : bytes) : Prop := utf8_ok s = true /\ ~ In x0a s /\ ~ In x0d s.
(** elements whose names are such text; for the rest as in C53 *)
Definition nearly_readable (esc : bytes -> bytes) (unescape : bytes -> option bytes) (clock : nat -> Z) (es : list element) : Prop :=
  Forall (storable esc unescape) es /\ distinct_versions es /\ Forall (fun u => one_line (snd u)) (users_in es) /\ forall i, four_digit_year (clock i / 1000000).
(** the user name of an element, and the element with another name *)
Definition name_of (e : element) : option bytes :=
  match e with ENode n => Some (n_user n) | EWay w => Some (w_user w) | ERelation r => Some (r_user r) | ESentinel => None end.
Definition with_name (s : bytes) (e : element) : element :=
  match e with
  | ENode n => ENode (Node (n_id n) (n_version n) (n_coord n) (n_timestamp n) (n_changeset n) (n_uid n) s (n_visible n) (n_tags n))
  | EWay w => EWay (Way (w_id w) (w_version w) (w_timestamp w) (w_changeset w) (w_uid w) s (w_visible w) (w_refs w) (w_tags w))
  | ERelation r => ERelation (Relation (r_id r) (r_version r) (r_timestamp r) (r_changeset r) (r_uid r) s (r_visible r) (r_members r) (r_tags r))
  | ESentinel => ESentinel
  end.
(** what comes back according to [back] (as in C53), with the name cut *)
Definition with_cut_name {A} (back : A -> element -> Prop) (x : A) (e : element) : Prop :=
  exists e' s p, back x e' /\ name_of e' = Some s /\ cut_at_tab s p /\ e = with_name p e'.
(** names with these numbers of TABs are never read: 1 to 11 and 14 to 19 *)
Definition never (n : nat) : Prop := (1 <= n <= 11 \/ 14 <= n <= 19)%nat.
