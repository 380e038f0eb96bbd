(** Model of python/dlisio/dlis/file.py: ObjectStore and the queries of
    LogicalFile. *)
From Verif Require Import Bytes Stream DlisTypes DlisRecords CommonPy.
Local Open Scope Z_scope.

(** ** Text *)

(** == of str and bytes; a str never equals a bytes *)
Definition pystr_eqb (a b : pystr) : bool :=
  match a, b with
  | Str u, Str v => if list_eq_dec Z.eq_dec u v then true else false
  | Raw s, Raw t => bytes_eqb s t
  | _, _ => false
  end.
(** a literal *)
Definition lit (s : bytes) : pystr := Str (map b2z s).
(** truth value: whether it is non-empty *)
Definition truthy (s : pystr) : bool := match s with Str [] | Raw [] => false | _ => true end.

(** dict: an association list in order of insertion *)
Fixpoint dict_get {A} (k : pystr) (d : list (pystr * A)) : option A :=
  match d with
  | [] => None
  | (k', v) :: d => if pystr_eqb k k' then Some v else dict_get k d
  end.
Fixpoint dict_put {A} (k : pystr) (v : A) (d : list (pystr * A)) : list (pystr * A) :=
  match d with
  | [] => [(k, v)]
  | (k', v') :: d => if pystr_eqb k k' then (k', v) :: d else (k', v') :: dict_put k v d
  end.

(** ** Objects *)

(** file.py 308-331: the dispatch table, by its keys *)
Definition known_types : list bytes :=
  [ text "AXIS"; text "FILE-HEADER"; text "ORIGIN"; text "LONG-NAME"; text "FRAME"; text "CHANNEL"; text "ZONE";
    text "TOOL"; text "PARAMETER"; text "EQUIPMENT"; text "CALIBRATION-MEASUREMENT"; text "CALIBRATION-COEFFICIENT";
    text "CALIBRATION"; text "COMPUTATION"; text "SPLICE"; text "WELL-REFERENCE"; text "GROUP"; text "PROCESS";
    text "PATH"; text "MESSAGE"; text "COMMENT"; text "NO-FORMAT" ].

(** basicobject.py 154-162: a Python object refers to the attic; [po_class] is its
    class, by the key in the dispatch table, [None] for Unknown *)
Record pyobject := mk_pyobject { po_class : option pystr; po_attic : object }.

(** utils/matcher.py: whether it is an instance of exact_matcher, and its match;
    None is an exception *)
Record pymatcher := mk_matcher { pm_exact : bool; pm_match : pystr -> pystr -> option bool }.
(** matcher.py 39-52 *)
Definition exact : pymatcher := mk_matcher true (fun p c => Some (pystr_eqb p c)).

(** ** The store *)

(** file.py 156-163.  The logical file is given by the parameters below. *)
Record store := mk_store {
  st_pool : list object_set; st_caching : bool; st_cache : list (pystr * list (pystr * list pyobject)) }.
Definition new_store (sets : list object_set) : store := mk_store sets true [].
Definition with_pool (st : store) (p : list object_set) := mk_store p (st_caching st) (st_cache st).
Definition with_cache (st : store) c := mk_store (st_pool st) (st_caching st) c.

Section store.
(** from std::string to Python (CommonPy.decode_str with the settings in force; the
    case where it raises is not modelled) and back *)
Variable dec : bytes -> pystr.
Variable enc : pystr -> bytes.
(** the logical file's error handler *)
Variable esc : severity -> bool.
(** the iteration order of a set of str, which is up to Python *)
Variable set_order : list pystr -> list pystr.

(** file.py 256-271 *)
Definition promote (o : object) : pyobject :=
  let type := dec (obj_type o) in
  mk_pyobject (if existsb (fun t => pystr_eqb (lit t) type) known_types then Some type else None) o.
(** the name of a promoted object (basicobject.py 156) *)
Definition po_name (o : pyobject) : pystr := dec (ob_id (obj_name (po_attic o))).

(** a matcher as the pool sees it (ext/dlis.cpp 747-763): text goes to Python and
    back *)
Definition in_pool (m : pymatcher) (pattern candidate : bytes) : option bool :=
  pm_match m (dec pattern) (dec candidate).

(** file.py 165-166 *)
Definition types (st : store) : list pystr := set_order (map dec (pool_types (st_pool st))).

(** file.py 196-198 *)
Definition by_name (objs : list pyobject) : list (pystr * list pyobject) :=
  fold_left (fun d o => dict_put (po_name o) (match dict_get (po_name o) d with Some l => l | None => [] end ++ [o]) d)
    objs [].

(** file.py 187-206 (__getitem__) *)
Definition get_item (st : store) (object_type : pystr) : store * io (list (pystr * list pyobject)) :=
  match dict_get object_type (st_cache st) with
  | Some objects => (st, ret objects)
  | None =>
      let '(pool, attics) := pool_get esc (in_pool exact) (enc object_type) None (st_pool st) in
      let st := with_pool st pool in
      match attics with
      | (l, Ok attics) =>
          let objects := by_name (map promote attics) in
          (if st_caching st then with_cache st (dict_put object_type objects (st_cache st)) else st, (l, Ok objects))
      | (l, Exn) => (st, (l, Exn))
      | (l, UB) => (st, (l, UB))
      | (l, Fuel) => (st, (l, Fuel))
      end
  end.

(** file.py 208-210 and 384-398 *)
Definition cache_metadata (st : store) (cache : bool) : store := mk_store (st_pool st) cache [].

(** [x for x in .. if ..] with a predicate that may raise *)
Fixpoint filter_raising {A} (f : A -> option bool) (l : list A) : option (list A) :=
  match l with
  | [] => Some []
  | x :: l => do b <- f x; do r <- filter_raising f l; Some (if (b : bool) then x :: r else r)
  end.

(** file.py 248-253: the loops over the types and names *)
Fixpoint collect (m : pymatcher) (object_name : option pystr) (ts : list pystr) (st : store)
    : store * io (list pyobject) :=
  match ts with
  | [] => (st, ret [])
  | t :: ts =>
      match get_item st t with
      | (st, (l, Ok objects)) =>
          match filter_raising (fun e => match object_name with
                                         | None => Some true
                                         | Some n => pm_match m n (fst e)
                                         end) objects with
          | None => (st, (l, Exn))
          | Some found =>
              let '(st, r) := collect m object_name ts st in
              (st, let* _ := (l, Ok tt) in let* rest := r in ret (flat_map snd found ++ rest))
          end
      | (st, (l, Exn)) => (st, (l, Exn))
      | (st, (l, UB)) => (st, (l, UB))
      | (st, (l, Fuel)) => (st, (l, Fuel))
      end
  end.

(** file.py 212-254.  A result list that is part of the cache is shared with it; see
    [alter]. *)
Definition store_find (st : store) (object_type : pystr) (object_name : option pystr) (matcher : option pymatcher)
    : store * io (list pyobject) :=
  let m := match matcher with Some m => m | None => exact end in
  if negb (st_caching st) then
    let '(pool, r) :=
      pool_get esc (in_pool m) (enc object_type)
        (match object_name with Some n => if truthy n then Some (enc n) else None | None => None end) (st_pool st) in
    (with_pool st pool, let* attics := r in ret (map promote attics))
  else
    match pm_exact m, object_name with
    | true, Some n =>
        match get_item st object_type with
        | (st, (l, Ok objects)) =>
            match dict_get n objects with
            | Some found => (st, (l, Ok found))
            (* defaultdict: the missing key is added *)
            | None => (with_cache st (dict_put object_type (dict_put n [] objects) (st_cache st)), (l, Ok []))
            end
        | (st, (l, Exn)) => (st, (l, Exn))
        | (st, (l, UB)) => (st, (l, UB))
        | (st, (l, Fuel)) => (st, (l, Fuel))
        end
    | _, _ =>
        match filter_raising (pm_match m object_type) (types st) with
        | None => (st, fail)
        | Some ts => collect m object_name ts st
        end
    end.

(** file.py 239-240: with the exact matcher the list that is returned is the one in
    the cache; a caller who changes it to [l] changes the cache *)
Definition alter (st : store) (object_type object_name : pystr) (l : list pyobject) : store :=
  match dict_get object_type (st_cache st) with
  | Some objects => with_cache st (dict_put object_type (dict_put object_name l objects) (st_cache st))
  | None => st
  end.

(** ** Equality of objects *)

(** IEEE equality of bit patterns with [m] fraction and [e] exponent bits: NaN
    differs from everything, the zeros are equal *)
Definition float_eqb (m e : Z) (a b : Z) : bool :=
  let nan x := (Z.land (Z.shiftr x m) (2 ^ e - 1) =? 2 ^ e - 1) && negb (Z.land x (2 ^ m - 1) =? 0) in
  let zero x := Z.land x (2 ^ (m + e) - 1) =? 0 in
  negb (nan a) && negb (nan b) && ((a =? b) || (zero a && zero b)).
Definition obname_eqb (a b : obname) : bool :=
  (ob_origin a =? ob_origin b) && (ob_copy a =? ob_copy b) && bytes_eqb (ob_id a) (ob_id b).
Definition objref_eqb (a b : objref) : bool :=
  bytes_eqb (or_type a) (or_type b) && obname_eqb (or_name a) (or_name b).
Definition attref_eqb (a b : attref) : bool :=
  bytes_eqb (ar_type a) (ar_type b) && obname_eqb (ar_name a) (ar_name b) && bytes_eqb (ar_label a) (ar_label b).
Definition dtime_eqb (a b : dtime) : bool :=
  (dt_Y a =? dt_Y b) && (dt_TZ a =? dt_TZ b) && (dt_M a =? dt_M b) && (dt_D a =? dt_D b) && (dt_H a =? dt_H b)
  && (dt_MN a =? dt_MN b) && (dt_S a =? dt_S b) && (dt_MS a =? dt_MS b).
(** types.hpp 66-245: == of the element type of a representation code *)
Definition number_eqb (reprc : Z) : Z -> Z -> bool :=
  match reprc with
  | 1 | 2 | 3 | 4 | 5 | 6 | 10 => float_eqb 23 8
  | 7 | 8 | 9 | 11 => float_eqb 52 11
  | _ => Z.eqb
  end.
Definition value_eqb (reprc : Z) (a b : value) : bool :=
  match a, b with
  | VNum x, VNum y => number_eqb reprc x y
  | VNums xs, VNums ys => (length xs =? length ys)%nat && forallb (fun p => number_eqb reprc (fst p) (snd p)) (combine xs ys)
  | VText s, VText t => bytes_eqb s t
  | VTime s, VTime t => dtime_eqb s t
  | VName m, VName n => obname_eqb m n
  | VRef m, VRef n => objref_eqb m n
  | VAttr m, VAttr n => attref_eqb m n
  | _, _ => false
  end.
(** records.cpp 549-574, 580-589 *)
Definition attribute_eqb (a b : attribute) : bool :=
  bytes_eqb (at_label a) (at_label b) && (at_count a =? at_count b) && (at_reprc a =? at_reprc b)
  && bytes_eqb (at_units a) (at_units b)
  && values_eqb (value_eqb (match at_value a with Vec c _ => c | Mono => 0 end)) (at_value a) (at_value b).
(** records.cpp 646-652 *)
Definition object_eqb (a b : object) : bool :=
  obname_eqb (obj_name a) (obj_name b) && (length (obj_attrs a) =? length (obj_attrs b))%nat
  && forallb (fun p => attribute_eqb (fst p) (snd p)) (combine (obj_attrs a) (obj_attrs b)).

(** ** LogicalFile *)

(** file.py 552-611 (object).  [None] in the result is the ValueError. *)
Definition lf_object (st : store) (type name : pystr) (origin copynr : option Z) : store * io (option pyobject) :=
  let '(st, r) := store_find st type (Some name) (Some exact) in
  (st,
   let* matches := r in
   let keep (crit : option Z) (get : obname -> Z) (l : list pyobject) :=
     match crit with
     | None => l
     | Some z => filter (fun o => get (obj_name (po_attic o)) =? z) l
     end in
   let matches := keep copynr ob_copy (keep origin ob_origin matches) in
   ret match matches with
       | [] => None
       | [o] => Some o
       | o :: _ => if forallb (fun x => object_eqb (po_attic x) (po_attic o)) matches then Some o else None
       end).

(** file.py 409-426: the result is None unless there is exactly one *)
Definition fileheader (st : store) : store * io (option pyobject) :=
  let '(st, r) := store_find st (lit (text "FILE-HEADER")) None (Some exact) in
  (st, let* values := r in ret match values with [o] => Some o | _ => None end).

(** file.py 400-407, 428-448: f.frames, f.channels, .. *)
Definition objects_of_type (st : store) (t : bytes) : store * io (list pyobject) :=
  store_find st (lit t) None (Some exact).
End store.
