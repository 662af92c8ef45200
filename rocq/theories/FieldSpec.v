(** Specification vocabulary for property C75: which texts the fields of a dump row may have and
    what they mean. Nothing here uses a function of the model of the dump code; from the model of
    the reader only the record types of the rows are used. *)
From Coq Require Import ZArith List Bool Strings.Byte Strings.String.
From Verif Require Import Base Types ApidbSpec ApidbWrite ApidbRead.
Import ListNotations.
Local Notation length := List.length.
Open Scope Z_scope.

(** one or more decimal digits, leading zeros allowed *)
Definition number (s : bytes) (v : Z) : Prop := decimal s v /\ s <> [].
(** an integer from [lo] to [hi]: digits, with a sign in front or not *)
Inductive reads_int (lo hi : Z) : bytes -> Z -> Prop :=
| int_bare s v : number s v -> lo <= v <= hi -> reads_int lo hi s v
| int_plus s v : number s v -> lo <= v <= hi -> reads_int lo hi (str "+" ++ s) v
| int_minus s v : number s v -> lo <= - v <= hi -> reads_int lo hi (str "-" ++ s) (- v).
Definition reads_i64 : bytes -> Z -> Prop := reads_int (-9223372036854775808) 9223372036854775807.
Definition reads_i32 : bytes -> Z -> Prop := reads_int (-2147483648) 2147483647.
Definition reads_i16 : bytes -> Z -> Prop := reads_int (-32768) 32767.
(** an integer, or any other text for "none" *)
Definition reads_nullable (s : bytes) (o : option Z) : Prop :=
  match o with Some z => reads_i32 s z | None => forall z, ~ reads_i32 s z end.
Definition reads_bool (s : bytes) (b : bool) : Prop :=
  (s = str "t" /\ b = true) \/ (s = str "f" /\ b = false).

(** one or two digits *)
Definition two_digits (s : bytes) (v : Z) : Prop := number s v /\ zlen s <= 2.
(** up to four digits, or a sign and any number of digits *)
Inductive reads_year : bytes -> Z -> Prop :=
| year_bare s v : number s v -> zlen s <= 4 -> reads_year s v
| year_plus s v : number s v -> reads_year (str "+" ++ s) v
| year_minus s v : number s v -> reads_year (str "-" ++ s) (- v).
(** nothing, or a point and digits: the nanoseconds, digits after the ninth without effect *)
Inductive reads_fraction : bytes -> Z -> Prop :=
| no_fraction : reads_fraction [] 0
| short_fraction s v k : number s v -> zlen s = k -> k <= 9 -> reads_fraction (str "." ++ s) (v * 10 ^ (9 - k))
| long_fraction s v r w : padded 9 s v -> decimal r w -> reads_fraction (str "." ++ s ++ r) v.
(** "year-month-day hour:minute:second" and a fraction; the seconds since 1970 and the nanoseconds.
    The date must exist and lie in the years -262143 to 262142. *)
Definition reads_time (s : bytes) (t : Z * Z) : Prop :=
  exists sy sm sd sh smi ss sf y m d h mi se day,
    s = sy ++ str "-" ++ sm ++ str "-" ++ sd ++ str " " ++ sh ++ str ":" ++ smi ++ str ":" ++ ss ++ sf /\
    reads_year sy y /\ two_digits sm m /\ two_digits sd d /\ two_digits sh h /\ two_digits smi mi /\ two_digits ss se /\
    reads_fraction sf (snd t) /\ calendar day (y, m, d) /\ h <= 23 /\ mi <= 59 /\ se <= 59 /\ -262143 <= y <= 262142 /\
    fst t = 86400 * day + 3600 * h + 60 * mi + se.

Definition reads_kind (s : bytes) (k : mtype) : Prop :=
  match k with
  | MNode => s = str "n" \/ s = str "Node"
  | MWay => s = str "w" \/ s = str "Way"
  | MRelation => s = str "r" \/ s = str "Relation"
  end.

(** the text of a row under the (first) column called [name] *)
Definition under (names cells : list bytes) (name s : bytes) : Prop :=
  exists before after, names = before ++ name :: after /\ ~ In name before /\ nth_error cells (length before) = Some s.

(** the rows with property [P] are accepted as what they mean; any other makes the call panic *)
Definition reads_exactly {A} (x : res A) (P : A -> Prop) : Prop :=
  (forall r, x = Ok r <-> P r) /\ ((forall r, ~ P r) -> x = Panic).

Section Rows.
Variable unescape : bytes -> option bytes.
(** text that cannot be unescaped stands for itself *)
Definition reads_text (c s : bytes) : Prop := unescape c = Some s \/ (unescape c = None /\ c = s).
Section Row.
Variables names cells : list bytes.
(** the column is there and its text means [v] *)
Definition has {A} (name : string) (reads : bytes -> A -> Prop) (v : A) : Prop :=
  exists s, under names cells (str name) s /\ reads s v.
(** the column is there and its text means something *)
Definition has_some {A} (reads : bytes -> A -> Prop) (name : string) : Prop := exists v, has name reads v.

Definition node_row (r : node_rec) : Prop :=
  has "node_id" reads_i64 (nr_id r) /\ has "latitude" reads_i32 (nr_lat r) /\ has "longitude" reads_i32 (nr_lon r) /\
  has "changeset_id" reads_i64 (nr_changeset r) /\ has "visible" reads_bool (nr_visible r) /\
  has """timestamp""" reads_time (nr_time r) /\ has "tile" reads_i64 (nr_tile r) /\
  has "version" reads_i64 (nr_version r) /\ has "redaction_id" reads_nullable (nr_redaction r).
(** tags of nodes, ways and relations; [idc] names the id column *)
Definition tag_row (idc : string) (r : tag_rec) : Prop :=
  has idc reads_i64 (tr_id r) /\ has "version" reads_i64 (tr_version r) /\
  has "k" reads_text (tr_k r) /\ has "v" reads_text (tr_v r).
(** ways and relations *)
Definition object_row (idc : string) (r : obj_rec) : Prop :=
  has idc reads_i64 (or_id r) /\ has "changeset_id" reads_i64 (or_changeset r) /\
  has """timestamp""" reads_time (or_time r) /\ has "version" reads_i64 (or_version r) /\
  has "visible" reads_bool (or_visible r) /\ has "redaction_id" reads_nullable (or_redaction r).
Definition way_node_row (r : way_node_rec) : Prop :=
  has "way_id" reads_i64 (wn_way r) /\ has "node_id" reads_i64 (wn_node r) /\
  has "version" reads_i64 (wn_version r) /\ has "sequence_id" reads_i64 (wn_seq r).
Definition member_row (r : member_rec) : Prop :=
  has "relation_id" reads_i64 (mr_relation r) /\ has "member_type" reads_kind (mr_type r) /\
  has "member_id" reads_i64 (mr_id r) /\ has "member_role" reads_text (mr_role r) /\
  has "version" reads_i64 (mr_version r) /\ has "sequence_id" reads_i64 (mr_seq r).
Definition changeset_row (r : changeset_rec) : Prop :=
  has "id" reads_i64 (cr_id r) /\ has "user_id" reads_i64 (cr_user r) /\ has "created_at" reads_time (cr_created r) /\
  has "min_lat" reads_i32 (cr_min_lat r) /\ has "max_lat" reads_i32 (cr_max_lat r) /\
  has "min_lon" reads_i32 (cr_min_lon r) /\ has "max_lon" reads_i32 (cr_max_lon r) /\
  has "closed_at" reads_time (cr_closed r) /\ has "num_changes" reads_i32 (cr_num r).
(** the display name as it is; every other column must be there and some must be well formed *)
Definition user_row (r : user_rec) : Prop :=
  has "id" reads_i64 (ur_id r) /\ has "display_name" eq (ur_name r) /\
  has_some reads_time "creation_time" /\ has_some reads_i16 "home_zoom" /\
  Forall (has_some reads_bool) ["data_public"; "email_valid"; "consider_pd"; "terms_seen"; "image_use_gravatar"]%string /\
  Forall (has_some reads_i32) ["changesets_count"; "traces_count"; "diary_entries_count"]%string /\
  (exists s, has "status" eq s /\ In s [str "pending"; str "active"; str "confirmed"; str "suspended"; str "deleted"]) /\
  (exists s, has "description_format" eq s /\ In s [str "html"; str "markdown"; str "text"]) /\
  Forall (has_some eq) ["email"; "pass_crypt"; "description"; "home_lat"; "home_lon"; "pass_salt"; "new_email"; "creation_ip";
    "languages"; "terms_agreed"; "auth_uid"; "preferred_editor"; "auth_provider"; "home_tile"; "tou_agreed"]%string.
End Row.
End Rows.
