(** What is left of the element iterator of a dump Reader after its [next] panicked because a changeset or user is missing, for a program that
    catches the panic (std::panic::catch_unwind). *)
From Coq Require Import ZArith List Strings.Byte.
From Verif Require Import Base Types ApidbRead.
Import ListNotations.
Open Scope Z_scope.

(** src/osm/apidb_dump/read/element_iterator.rs 105-242. The unwraps of lines 121-122, 160-161 and 199-200 come after the iterator over the rows has
    moved on (lines 112, 151, 190) and leave iteration_state as it is; Start has become Nodes (line 108). Simplification: what is left after a panic
    inside the iterators over the rows (a row that cannot be parsed) is not modelled, the answer then is Err. *)
Definition dump_try (k : creators) (s : eiter) : res (option element) * eiter :=
  match element_next k s with
  | Ok (o, s') => (Ok o, s')
  | Err => (Err, s)
  | Panic =>
    match ei_state s with
    | Start | Nodes => match node_next k (ei_nodes s) with
      | Ok (_, ni) => (Panic, EIter (ei_users s) (ei_changesets s) Nodes ni (ei_ways s) (ei_rels s)) | _ => (Err, s) end
    | Ways => match way_next k (ei_ways s) with
      | Ok (_, wi) => (Panic, EIter (ei_users s) (ei_changesets s) Ways (ei_nodes s) wi (ei_rels s)) | _ => (Err, s) end
    | Relations => match rel_next k (ei_rels s) with
      | Ok (_, ri) => (Panic, EIter (ei_users s) (ei_changesets s) Relations (ei_nodes s) (ei_ways s) ri) | _ => (Err, s) end
    | End_ => (Err, s) (* does not occur *)
    end
  end.
