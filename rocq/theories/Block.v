(** Building and reading one OSMData block:
    src/osm/pbf/{string_table_builder,dense_group_builder,ways_group_builder,
    relations_group_builder,osm_data}.rs. *)
From Coq Require Import ZArith List Bool Strings.Byte Strings.String.
From Verif Require Import Base Types Proto.
Import ListNotations.
Open Scope Z_scope.

(** ** StringTableBuilder *)

(** string_table_builder.rs 5-8; the HashMap is an association list *)
Record stb := Stb { stb_table : list bytes; stb_index : list (bytes * Z) }.

(** string_table_builder.rs 11-18: entry 0 is the empty string, not in the index *)
Definition stb_new : stb := Stb [ [] ] [].

Fixpoint assoc (s : bytes) (l : list (bytes * Z)) : option Z :=
  match l with
  | [] => None
  | (k, v) :: r => if bytes_eqb s k then Some v else assoc s r
  end.

(** string_table_builder.rs 20-31: [len() as i32 - 1] for a new string *)
Definition stb_add (m : mode) (b : stb) (s : bytes) : res (Z * stb) :=
  match assoc s (stb_index b) with
  | Some i => Ok (i, b)
  | None =>
    let t := stb_table b ++ [s] in
    i <- arith32 m (wrap32 (zlen t) - 1) ;;
    Ok (i, Stb t ((s, i) :: stb_index b))
  end.

(** string_table_builder.rs 33-38 *)
Definition stb_build (b : stb) : list bytes := stb_table b.

(** tags, in order: the interleaved key and value indexes; the loops of
    dense_group_builder.rs 64-69 and 120-125, ways_group_builder.rs 36-41,
    relations_group_builder.rs 55-60 *)
Fixpoint add_tags (m : mode) (b : stb) (ts : list tag) : res (list (Z * Z) * stb) :=
  match ts with
  | [] => Ok ([], b)
  | t :: r =>
    ' (k, b1) <- stb_add m b (t_k t) ;;
    ' (v, b2) <- stb_add m b1 (t_v t) ;;
    ' (l, b3) <- add_tags m b2 r ;;
    Ok ((k, v) :: l, b3)
  end.

(** ** DenseGroupBuilder *)

(** dense_group_builder.rs 5-18 *)
Record dgb := Dgb {
  db_granularity : Z; db_date : Z; db_lat_off : Z; db_lon_off : Z;
  db_dense : dense;
  db_last_id : Z; db_last_lon : Z; db_last_lat : Z; db_last_ts : Z;
  db_last_uid : Z; db_last_cs : Z; db_last_sid : Z }.

(** dense_group_builder.rs 42, 44, 93, 96:
    [(x * 1E9f64 / granularity as f64 - offset as f64).round() as i64] *)
Definition enc_coord (granularity off : Z) (x : f64) : Z :=
  f_round_i64 (fsub (fdiv (fmul x (f_of_Z 1000000000)) (f_of_Z granularity)) (f_of_Z off)).

Definition kv_list (l : list (Z * Z)) : list Z := flat_map (fun p => [fst p; snd p]) l ++ [0].

(** dense_group_builder.rs 22-86 (new: the first node, absolute values).
    [timestamp / date_granularity] is Z.quot: date_granularity is the constant 1000,
    so neither division by zero nor MIN / -1 arises. *)
Definition dgb_new (m : mode) (gran date lat_off lon_off : Z) (n : node) (b : stb) : res (dgb * stb) :=
  let id := n_id n in
  let lo := enc_coord gran lon_off (lon (n_coord n)) in
  let la := enc_coord gran lat_off (lat (n_coord n)) in
  let ts := Z.quot (n_timestamp n) date in
  ' (sid, b1) <- stb_add m b (n_user n) ;;
  ' (tg, b2) <- add_tags m b1 (n_tags n) ;;
  Ok (Dgb gran date lat_off lon_off
        (Dense [id]
           (Some (DenseInfo [n_version n] [ts] [n_changeset n] [n_uid n] [sid] [n_visible n]))
           [la] [lo] (kv_list tg))
        id lo la ts (n_uid n) (n_changeset n) sid, b2).

(** dense_group_builder.rs 88-127 (add: deltas to the previous node) *)
Definition dgb_add (m : mode) (s : dgb) (n : node) (b : stb) : res (dgb * stb) :=
  did <- arith64 m (n_id n - db_last_id s) ;;
  let lo := enc_coord (db_granularity s) (db_lon_off s) (lon (n_coord n)) in
  dlo <- arith64 m (lo - db_last_lon s) ;;
  let la := enc_coord (db_granularity s) (db_lat_off s) (lat (n_coord n)) in
  dla <- arith64 m (la - db_last_lat s) ;;
  let ts := Z.quot (n_timestamp n) (db_date s) in
  dts <- arith64 m (ts - db_last_ts s) ;;
  dui <- arith32 m (n_uid n - db_last_uid s) ;;
  dcs <- arith64 m (n_changeset n - db_last_cs s) ;;
  ' (sid, b1) <- stb_add m b (n_user n) ;;
  dsid <- arith32 m (sid - db_last_sid s) ;;
  ' (tg, b2) <- add_tags m b1 (n_tags n) ;;
  match db_dense s with
  | Dense ids (Some (DenseInfo ve tss css uis uss vis)) las los kv =>
    Ok (Dgb (db_granularity s) (db_date s) (db_lat_off s) (db_lon_off s)
          (Dense (ids ++ [did])
             (Some (DenseInfo (ve ++ [n_version n]) (tss ++ [dts]) (css ++ [dcs]) (uis ++ [dui])
                              (uss ++ [dsid]) (vis ++ [n_visible n])))
             (las ++ [dla]) (los ++ [dlo]) (kv ++ kv_list tg))
          (n_id n) lo la ts (n_uid n) (n_changeset n) sid, b2)
  | _ => Panic (* denseinfo.as_mut().unwrap() *)
  end.

(** ** WaysGroupBuilder::convert and RelationsGroupBuilder::convert *)

(** the [x - last; last = x] loops of ways_group_builder.rs 30-34 and
    relations_group_builder.rs 31-53 *)
Fixpoint deltas (m : mode) (last : Z) (l : list Z) : res (list Z) :=
  match l with
  | [] => Ok []
  | x :: r => d <- arith64 m (x - last) ;; ds <- deltas m x r ;; Ok (d :: ds)
  end.

(** ways_group_builder.rs 27-50 *)
Definition way_convert (m : mode) (date : Z) (w : way) (b : stb) : res (pway * stb) :=
  refs <- deltas m 0 (w_refs w) ;;
  ' (tg, b1) <- add_tags m b (w_tags w) ;;
  ' (sid, b2) <- stb_add m b1 (w_user w) ;;
  Ok (PWay (w_id w) (map (fun p => fst p mod two32) tg) (map (fun p => snd p mod two32) tg)
        (Some (Info (Some (w_version w)) (Some (Z.quot (w_timestamp w) date)) (Some (w_changeset w))
                    (Some (w_uid w)) (Some (sid mod two32)) (Some (w_visible w))))
        refs [] [], b2).

Definition mtype_z (t : mtype) : Z := match t with MNode => 0 | MWay => 1 | MRelation => 2 end.

(** relations_group_builder.rs 31-53: roles interned in member order *)
Fixpoint add_members (m : mode) (last : Z) (b : stb) (ms : list member)
  : res (list Z * list Z * list Z * stb) :=
  match ms with
  | [] => Ok ([], [], [], b)
  | x :: r =>
    ' (role, b1) <- stb_add m b (m_role x) ;;
    d <- arith64 m (m_id x - last) ;;
    ' (rs, ds, ts, b2) <- add_members m (m_id x) b1 r ;;
    Ok (role :: rs, d :: ds, mtype_z (m_type x) :: ts, b2)
  end.

(** relations_group_builder.rs 27-70 *)
Definition relation_convert (m : mode) (date : Z) (r : relation) (b : stb) : res (prelation * stb) :=
  ' (roles, memids, types, b1) <- add_members m 0 b (r_members r) ;;
  ' (tg, b2) <- add_tags m b1 (r_tags r) ;;
  ' (sid, b3) <- stb_add m b2 (r_user r) ;;
  Ok (PRelation (r_id r) (map (fun p => fst p mod two32) tg) (map (fun p => snd p mod two32) tg)
        (Some (Info (Some (r_version r)) (Some (Z.quot (r_timestamp r) date)) (Some (r_changeset r))
                    (Some (r_uid r)) (Some (sid mod two32)) (Some (r_visible r))))
        roles memids types, b3).

(** ** OsmData::serialize *)

Record bstate := BState { bs_dense : option dgb; bs_ways : option (list pway); bs_rels : option (list prelation); bs_st : stb }.

(** osm_data.rs 327-358: one step of the element loop *)
Definition ser_step (m : mode) (s : bstate) (e : element) : res bstate :=
  match e with
  | ENode n =>
    match bs_dense s with
    | None => ' (d, b) <- dgb_new m 100 1000 0 0 n (bs_st s) ;;
              Ok (BState (Some d) (bs_ways s) (bs_rels s) b)
    | Some d => ' (d', b) <- dgb_add m d n (bs_st s) ;;
              Ok (BState (Some d') (bs_ways s) (bs_rels s) b)
    end
  | EWay w =>
    ' (p, b) <- way_convert m 1000 w (bs_st s) ;;
    Ok (BState (bs_dense s)
          (Some (match bs_ways s with None => [p] | Some l => l ++ [p] end)) (bs_rels s) b)
  | ERelation r =>
    ' (p, b) <- relation_convert m 1000 r (bs_st s) ;;
    Ok (BState (bs_dense s) (bs_ways s)
          (Some (match bs_rels s with None => [p] | Some l => l ++ [p] end)) b)
  | ESentinel => Ok s
  end.
Fixpoint ser_loop (m : mode) (s : bstate) (es : list element) : res bstate :=
  match es with
  | [] => Ok s
  | e :: r => s' <- ser_step m s e ;; ser_loop m s' r
  end.

(** osm_data.rs 316-377: the PrimitiveBlock; a single group, the dense one if any node was
    seen, else the ways, else the relations, else an empty group *)
Definition build_block (m : mode) (es : list element) : res pblock :=
  s <- ser_loop m (BState None None None stb_new) es ;;
  let g := match bs_dense s with
           | Some d => PGroup [] (Some (db_dense d)) [] [] []
           | None =>
             match bs_ways s with
             | Some l => PGroup [] None l [] []
             | None => match bs_rels s with Some l => PGroup [] None [] l [] | None => pgroup_default end
             end
           end in
  Ok (PBlock (stb_build (bs_st s)) [g] (Some 100) (Some 0) (Some 0) (Some 1000)).

(** osm_data.rs 316-382; encoding into a Vec cannot fail *)
Definition osm_data_serialize (m : mode) (es : list element) : res bytes :=
  b <- build_block m es ;; Ok (pblock_encode b).

(** ** OsmData::new *)

(** osm_data.rs 149-150, 173-174:
    [(offset + granularity * x) as f64 / 1000000000f64] *)
Definition dec_coord (m : mode) (gran off x : Z) : res f64 :=
  p <- arith64 m (gran * x) ;;
  s <- arith64 m (off + p) ;;
  Ok (fdiv (f_of_Z s) (f_of_Z 1000000000)).

(** osm_data.rs 133-146: consume one node's tags from the shared keys_vals iterator *)
Fixpoint read_kv (st : list bytes) (kv : list Z) : res (list tag * list Z) :=
  match kv with
  | [] => Ok ([], [])
  | k :: r =>
    if k =? 0 then Ok ([], r)
    else match r with
         | [] => Panic
         | v :: r' =>
           ks <- index st k ;;
           vs <- index st v ;;
           ' (ts, rest) <- read_kv st r' ;;
           Ok (Tag ks vs :: ts, rest)
         end
  end.

Record dstate := DState {
  ds_id : Z; ds_lat : Z; ds_lon : Z; ds_ts_acc : Z; ds_ts : Z; ds_cs : Z; ds_uid : Z; ds_sid : Z;
  ds_visible : bool; ds_kv : list Z }.

(** osm_data.rs 90-106: initial values *)
Definition dstate_init (d : dense) : dstate :=
  match d_info d with
  | Some _ => DState 0 0 0 0 0 0 0 0 true (d_kv d)
  | None => DState 0 0 0 0 0 (-1) (-1) 0 true (d_kv d)
  end.

(** osm_data.rs 109-165: one dense node, [i] is the enumerate index *)
Definition read_dense_one (m : mode) (st : list bytes) (gran date lat_off lon_off : Z) (d : dense)
  (i : Z) (idd : Z) (s : dstate) : res (node * dstate) :=
  id <- arith64 m (ds_id s + idd) ;;
  dla <- index (d_lat d) i ;; la <- arith64 m (ds_lat s + dla) ;;
  dlo <- index (d_lon d) i ;; lo <- arith64 m (ds_lon s + dlo) ;;
  ' (tsa, ts, cs, uid, sid, vis, ver, user) <-
    match d_info d with
    | Some inf =>
      dts <- index (di_timestamp inf) i ;; tsa <- arith64 m (ds_ts_acc s + dts) ;;
      ts <- arith64 m (tsa * date) ;;
      dcs <- index (di_changeset inf) i ;; cs <- arith64 m (ds_cs s + dcs) ;;
      dui <- index (di_uid inf) i ;; uid <- arith32 m (ds_uid s + dui) ;;
      dsi <- index (di_user_sid inf) i ;; sid <- arith32 m (ds_sid s + dsi) ;;
      vis <- (if i <? zlen (di_visible inf) then index (di_visible inf) i else Ok true) ;;
      ver <- index (di_version inf) i ;;
      user <- index st sid ;;
      Ok (tsa, ts, cs, uid, sid, vis, ver, user)
    | None => Ok (ds_ts_acc s, ds_ts s, ds_cs s, ds_uid s, ds_sid s, ds_visible s, 0, [])
    end ;;
  ' (tags, kv) <- read_kv st (ds_kv s) ;;
  flat <- dec_coord m gran lat_off la ;;
  flon <- dec_coord m gran lon_off lo ;;
  Ok (Node id ver (Coordinate flat flon) ts cs uid user vis tags,
      DState id la lo tsa ts cs uid sid vis kv).

Fixpoint read_dense_loop (m : mode) (st : list bytes) (gran date lat_off lon_off : Z) (d : dense)
  (i : Z) (ids : list Z) (s : dstate) : res (list node) :=
  match ids with
  | [] => Ok []
  | idd :: r =>
    ' (n, s') <- read_dense_one m st gran date lat_off lon_off d i idd s ;;
    ns <- read_dense_loop m st gran date lat_off lon_off d (i + 1) r s' ;;
    Ok (n :: ns)
  end.

(** osm_data.rs 88-167 *)
Definition read_dense (m : mode) (st : list bytes) (gran date lat_off lon_off : Z) (od : option dense)
  : res (list node) :=
  match od with
  | None => Ok []
  | Some d => read_dense_loop m st gran date lat_off lon_off d 0 (d_id d) (dstate_init d)
  end.

(** osm_data.rs 202-221: (timestamp, changeset, uid, user, visible, version) *)
Definition read_info (m : mode) (st : list bytes) (date : Z) (oi : option info)
  : res (Z * Z * Z * bytes * bool * Z) :=
  match oi with
  | None => Ok (-1, -1, -1, [], true, 0)
  | Some i =>
    ts <- arith64 m (or_default 0 (i_timestamp i) * date) ;;
    user <- index st (or_default 0 (i_user_sid i)) ;;
    Ok (ts, or_default (-1) (i_changeset i), or_default (-1) (i_uid i), user,
        or_default true (i_visible i), or_default (-1) (i_version i))
  end.

(** osm_data.rs 180-185, 237-242, 288-293: [for i in 0..keys.len()] *)
Fixpoint read_tags (st : list bytes) (i : Z) (keys vals : list Z) : res (list tag) :=
  match keys with
  | [] => Ok []
  | k :: r =>
    ks <- index st k ;;
    v <- index vals i ;;
    vs <- index st v ;;
    ts <- read_tags st (i + 1) r vals ;;
    Ok (Tag ks vs :: ts)
  end.

(** osm_data.rs 169-200: one plain node *)
Definition read_node (m : mode) (st : list bytes) (gran date lat_off lon_off : Z) (p : pnode) : res node :=
  flat <- dec_coord m gran lat_off (pn_lat p) ;;
  flon <- dec_coord m gran lon_off (pn_lon p) ;;
  ' (ts, cs, uid, user, vis, ver) <- read_info m st date (pn_info p) ;;
  tags <- read_tags st 0 (pn_keys p) (pn_vals p) ;;
  Ok (Node (pn_id p) ver (Coordinate flat flon) ts cs uid user vis tags).

(** osm_data.rs 230-235: running sum of the reference deltas *)
Fixpoint sums (m : mode) (last : Z) (l : list Z) : res (list Z) :=
  match l with
  | [] => Ok []
  | d :: r => x <- arith64 m (last + d) ;; xs <- sums m x r ;; Ok (x :: xs)
  end.

(** osm_data.rs 224-257: one way *)
Definition read_way (m : mode) (st : list bytes) (date : Z) (p : pway) : res way :=
  ' (ts, cs, uid, user, vis, ver) <- read_info m st date (pw_info p) ;;
  refs <- sums m 0 (pw_refs p) ;;
  tags <- read_tags st 0 (pw_keys p) (pw_vals p) ;;
  Ok (Way (pw_id p) ver ts cs uid user vis refs tags).

(** prost-osmpbf.rs 300 (MemberType), generated try_from *)
Definition mtype_of_z (z : Z) : option mtype :=
  if z =? 0 then Some MNode else if z =? 1 then Some MWay else if z =? 2 then Some MRelation else None.

(** osm_data.rs 265-286: members, [i] indexes the three parallel arrays *)
Fixpoint read_members (m : mode) (st : list bytes) (p : prelation) (i last : Z) (memids : list Z)
  : res (list member) :=
  match memids with
  | [] => Ok []
  | d :: r =>
    x <- arith64 m (last + d) ;;
    sid <- index (pr_roles p) i ;;
    role <- index st sid ;;
    tz <- index (pr_types p) i ;;
    t <- unwrap (mtype_of_z tz) ;;
    ms <- read_members m st p (i + 1) x r ;;
    Ok (Member t x role :: ms)
  end.

(** osm_data.rs 259-308: one relation *)
Definition read_relation (m : mode) (st : list bytes) (date : Z) (p : prelation) : res relation :=
  ' (ts, cs, uid, user, vis, ver) <- read_info m st date (pr_info p) ;;
  ms <- read_members m st p 0 0 (pr_memids p) ;;
  tags <- read_tags st 0 (pr_keys p) (pr_vals p) ;;
  Ok (Relation (pr_id p) ver ts cs uid user vis ms tags).

(** osm_data.rs 37-43: one group; 310-314: any changeset panics *)
Definition read_group (m : mode) (st : list bytes) (gran date lat_off lon_off : Z) (g : pgroup)
  : res (list element) :=
  ds <- read_dense m st gran date lat_off lon_off (g_dense g) ;;
  ns <- mapM (read_node m st gran date lat_off lon_off) (g_nodes g) ;;
  ws <- mapM (read_way m st date) (g_ways g) ;;
  rs <- mapM (read_relation m st date) (g_relations g) ;;
  _ <- match g_changesets g with [] => Ok tt | _ => Panic end ;;
  Ok (map ENode ds ++ map ENode ns ++ map EWay ws ++ map ERelation rs).

(** osm_data.rs 25-31: String::from_utf8(..).unwrap() of every entry *)
Definition read_strings (l : list bytes) : res (list bytes) :=
  mapM (fun s => if utf8_ok s then Ok s else Panic) l.

(** osm_data.rs 32-43: PrimitiveBlock accessors give the proto defaults *)
Definition read_block (m : mode) (b : pblock) : res (list element) :=
  st <- read_strings (pb_strings b) ;;
  gs <- mapM (read_group m st (or_default 100 (pb_granularity b)) (or_default 1000 (pb_date_granularity b))
                (or_default 0 (pb_lat_offset b)) (or_default 0 (pb_lon_offset b))) (pb_groups b) ;;
  Ok (List.concat gs).

(** osm_data.rs 23-47 *)
Definition osm_data_new (m : mode) (data : bytes) : res (list element) :=
  b <- of_option (pblock_decode data) ;;
  read_block m b.

(** osm_data.rs 62-86: recompute_bounding_box, stops at the first non-node *)
Fixpoint recompute_bbox_from (acc : option bbox) (es : list element) : option bbox :=
  match es with
  | ENode n :: r =>
    recompute_bbox_from
      (Some (match acc with
             | None => BBox (lon (n_coord n)) (lat (n_coord n)) (lon (n_coord n)) (lat (n_coord n))
             | Some b => bb_merge_point b (n_coord n)
             end)) r
  | _ => acc
  end.
Definition recompute_bbox (es : list element) : option bbox := recompute_bbox_from None es.
(** osm_data.rs 53-59: compute_bounding_box *)
Definition compute_bbox (bb : option bbox) (es : list element) : option bbox :=
  match bb with Some b => Some b | None => recompute_bbox es end.
