(** Model of lib/src/dlis/records.cpp: parsing of explicitly formatted logical
    records (object sets) and queries on the metadata pool.

    The cursor into the record is the list of remaining bytes.  The parser does
    not check that a field ends before the end of the record; a read past the
    end is [UB].  Log messages are kept as one constructor per message (the
    formatted numbers in the texts are dropped). *)
From Verif Require Import Bytes DlisTypes DlisCore Stream.
Local Open Scope Z_scope.

(** ** Values *)

(** one element of a value_vector (records.hpp 36-65): a number (integers, and
    floats as bit patterns), several numbers (validated and complex floats), a
    string, a date, a name or a reference *)
Inductive value :=
  | VNum (z : Z)
  | VNums (zs : list Z)
  | VText (s : bytes)
  | VTime (t : dtime)
  | VName (n : obname)
  | VRef (r : objref)
  | VAttr (a : attref).

(** records.hpp 36-65: monostate, or a vector of the C++ type that belongs to a
    representation code *)
Inductive values :=
  | Mono
  | Vec (reprc : Z) (vs : list value).

(** types.hpp 20-49, types.h 195-223: representation codes *)
Definition RC_IDENT : Z := 19.
Definition RC_UNDEF : Z := 66.

(** records.cpp 164-452: the [cast] overload selected by the type that belongs
    to the code (typeinfo, types.hpp 249-356).  For a code outside 1..27 there
    is no overload; such codes are handled by the callers. *)
Definition num (r : option (Z * bytes)) : option (value * bytes) :=
  do (z, xs) <- r; Some (VNum z, xs).
Definition num2 (r : option ((Z * Z) * bytes)) : option (value * bytes) :=
  do ((a, b), xs) <- r; Some (VNums [a; b], xs).
Definition num3 (r : option ((Z * Z * Z) * bytes)) : option (value * bytes) :=
  do ((a, b, c), xs) <- r; Some (VNums [a; b; c], xs).
Definition str (r : option (bytes * bytes)) : option (value * bytes) :=
  do (s, xs) <- r; Some (VText s, xs).

Definition cast_value (reprc : Z) (xs : bytes) : option (value * bytes) :=
  match reprc with
  | 1 => num (dlis_fshort xs)
  | 2 => num (dlis_fsingl xs)
  | 3 => num2 (dlis_fsing1 xs)
  | 4 => num3 (dlis_fsing2 xs)
  | 5 => num (dlis_isingl xs)
  | 6 => num (dlis_vsingl xs)
  | 7 => num (dlis_fdoubl xs)
  | 8 => num2 (dlis_fdoub1 xs)
  | 9 => num3 (dlis_fdoub2 xs)
  | 10 => num2 (dlis_csingl xs)
  | 11 => num2 (dlis_cdoubl xs)
  | 12 => num (dlis_sshort xs)
  | 13 => num (dlis_snorm xs)
  | 14 => num (dlis_slong xs)
  | 15 => num (dlis_ushort xs)
  | 16 => num (dlis_unorm xs)
  | 17 => num (dlis_ulong xs)
  | 18 => num (dlis_uvari xs)
  | 19 => str (dlis_ident xs)
  | 20 => str (dlis_ascii xs)
  | 21 => do (t, r) <- dlis_dtime xs; Some (VTime t, r)
  | 22 => num (dlis_origin xs)
  | 23 => do (n, r) <- dlis_obname xs; Some (VName n, r)
  | 24 => do (n, r) <- dlis_objref xs; Some (VRef n, r)
  | 25 => do (n, r) <- dlis_attref xs; Some (VAttr n, r)
  | 26 => num (dlis_status xs)
  | 27 => str (dlis_units xs)
  | _ => None
  end.

(** value-initialised element of a vector, std::vector<T>::resize (records.cpp
    751, 825-851): zero numbers, empty strings *)
Definition default_value (reprc : Z) : value :=
  match reprc with
  | 3 | 8 | 10 | 11 => VNums [0; 0]
  | 4 | 9 => VNums [0; 0; 0]
  | 19 | 20 | 27 => VText []
  | 21 => VTime (mk_dtime 0 0 0 0 0 0 0 0)
  | 23 => VName (mk_obname 0 0 [])
  | 24 => VRef (mk_objref [] (mk_obname 0 0 []))
  | 25 => VAttr (mk_attref [] (mk_obname 0 0 []) [])
  | _ => VNum 0
  end.

(** the cases of the switches in records.cpp 510-546 and 824-871 *)
Definition known_reprc (reprc : Z) : bool := (1 <=? reprc) && (reprc <=? 27).

(** ** Log *)

(** the dlis_error messages created in records.cpp *)
Inductive problem :=
  | P_redundant_set        (* 1052-1059 *)
  | P_replacement_set      (* 1064-1072 *)
  | P_type_not_set         (* 1089-1096 *)
  | P_absent_in_template   (* 675-682 *)
  | P_label_not_set        (* 690-697 *)
  | P_no_objects           (* 711-716 *)
  | P_invalid_reprc        (* 464-471 *)
  | P_name_not_set         (* 913-920 *)
  | P_invariant_in_object  (* 948-954 *)
  | P_label_in_object      (* 959-965 *)
  | P_reprc_changed        (* 1002-1008 "value defaulted based on representation code from attribute" *)
  | P_value_shrunk         (* 783-790 "shrank template value to new attribute count" *)
  | P_value_left           (* 803-810 "value is left as in template" *)
  | P_undefined_default    (* 862-867 "attribute value is left as template default" *)
  | P_attribute_violation  (* 1022-1026 *)
  | P_interrupted.         (* 1128-1133 *)

(** the severities at the same places *)
Definition severity_of (p : problem) : severity :=
  match p with
  | P_redundant_set => MINOR
  | P_replacement_set => MAJOR
  | P_type_not_set => MAJOR
  | P_absent_in_template => MAJOR
  | P_label_not_set => MAJOR
  | P_no_objects => INFO
  | P_invalid_reprc => MINOR
  | P_name_not_set => MAJOR
  | P_invariant_in_object => MAJOR
  | P_label_in_object => MAJOR
  | P_reprc_changed => MAJOR
  | P_value_shrunk => MAJOR
  | P_value_left => CRITICAL
  | P_undefined_default => CRITICAL
  | P_attribute_violation => MINOR
  | P_interrupted => CRITICAL
  end.

(** records.cpp 874-879: no entry with severity >= MINOR *)
Definition is_log_clear (l : list problem) : bool :=
  negb (existsb (fun p => match severity_of p with INFO => false | _ => true end) l).

(** ** Attributes and objects *)

(** records.hpp 131-143 *)
Record attribute := mk_attr {
  at_label : bytes; at_count : Z; at_reprc : Z; at_units : bytes;
  at_value : values; at_invariant : bool; at_log : list problem }.

(** the member initialisers, records.hpp 132-138 *)
Definition new_attribute : attribute := mk_attr [] 1 RC_IDENT [] Mono false [].

Definition with_label (a : attribute) x := mk_attr x (at_count a) (at_reprc a) (at_units a) (at_value a) (at_invariant a) (at_log a).
Definition with_count (a : attribute) x := mk_attr (at_label a) x (at_reprc a) (at_units a) (at_value a) (at_invariant a) (at_log a).
Definition with_reprc (a : attribute) x := mk_attr (at_label a) (at_count a) x (at_units a) (at_value a) (at_invariant a) (at_log a).
Definition with_units (a : attribute) x := mk_attr (at_label a) (at_count a) (at_reprc a) x (at_value a) (at_invariant a) (at_log a).
Definition with_value (a : attribute) x := mk_attr (at_label a) (at_count a) (at_reprc a) (at_units a) x (at_invariant a) (at_log a).
Definition with_invariant (a : attribute) x := mk_attr (at_label a) (at_count a) (at_reprc a) (at_units a) (at_value a) x (at_log a).
(** attr.log.push_back *)
Definition add_log (a : attribute) p := mk_attr (at_label a) (at_count a) (at_reprc a) (at_units a) (at_value a) (at_invariant a) (at_log a ++ [p]).

(** records.hpp 187-202 *)
Record object := mk_object {
  obj_name : obname; obj_type : bytes; obj_attrs : list attribute; obj_log : list problem }.

(** records.cpp 591-607 *)
Fixpoint set_attr (attr : attribute) (attrs : list attribute) : list attribute :=
  match attrs with
  | [] => [attr]
  | x :: t => if bytes_eqb (at_label attr) (at_label x) then attr :: t
              else x :: set_attr attr t
  end.
(** records.cpp 609-622 *)
Definition remove_attr (attr : attribute) (attrs : list attribute) : list attribute :=
  filter (fun x => negb (bytes_eqb (at_label attr) (at_label x))) attrs.
(** records.cpp 628-644; None is std::out_of_range *)
Definition attr_at (key : bytes) (attrs : list attribute) : option attribute :=
  find (fun a => bytes_eqb (at_label a) key) attrs.

(** records.cpp 549-574: value_variant_eq; the vectors must have the same
    element type.  Simplified: elements are compared as values (C++ compares
    floats with ==, so NaN <> NaN and 0.0 == -0.0 there). *)
Definition values_eqb (veq : value -> value -> bool) (l r : values) : bool :=
  match l, r with
  | Mono, Mono => true
  | Vec c xs, Vec d ys =>
      (c =? d) && (length xs =? length ys)%nat
      && forallb (fun p => veq (fst p) (snd p)) (combine xs ys)
  | _, _ => false
  end.

(** ** Descriptors *)

(** records.cpp 24-52: (role, type, name); None is the exception *)
Definition parse_set_descriptor (d : byte) : option (Z * bool * bool) :=
  let role := dlis_component (b2z d) in
  do (t, n) <- dlis_component_set (b2z d) role;
  Some (role, negb (t =? 0), negb (n =? 0)).

(** records.cpp 54-121 *)
Record aflags := mk_aflags {
  f_label : bool; f_count : bool; f_reprc : bool; f_units : bool; f_value : bool;
  f_invariant : bool }.
Inductive adescr := DObject | DAbsent | DAttr (f : aflags) | DInvalid.
Definition parse_attribute_descriptor (d : byte) : adescr :=
  let role := dlis_component (b2z d) in
  if role =? ROLE_OBJECT then DObject
  else if role =? ROLE_ABSATR then DAbsent
  else match dlis_component_attrib (b2z d) role with
       | Some (l, c, r, u, v) =>
           DAttr (mk_aflags (negb (l =? 0)) (negb (c =? 0)) (negb (r =? 0))
                            (negb (u =? 0)) (negb (v =? 0)) (role =? ROLE_INVATR))
       | None => DInvalid
       end.

(** records.cpp 127-161 *)
Definition parse_object_descriptor (d : byte) : option bool :=
  do n <- dlis_component_object (b2z d) (dlis_component (b2z d));
  Some (negb (n =? 0)).

(** ** Attribute fields *)

(** an unchecked read *)
Definition unchecked {A} (r : option A) : res A :=
  match r with Some a => Ok a | None => UB end.
Definition rbind {A B} (m : res A) (k : A -> res B) : res B :=
  match m with Ok a => k a | Exn => Exn | UB => UB | Fuel => Fuel end.
Notation "'let!' x := m 'in' k" := (rbind m (fun x => k))
  (at level 200, x pattern, m at level 100, k at level 200, right associativity).

(** records.cpp 438-452 and 454-476 *)
Definition repcode (a : attribute) (xs : bytes) : res (attribute * bytes) :=
  let! (x, r) := unchecked (dlis_ushort xs) in
  if (x <? 1) || (x >? 27)
  then Ok (add_log (with_reprc a RC_UNDEF) P_invalid_reprc, r)
  else Ok (with_reprc a x, r).

(** records.cpp 478-492 *)
Fixpoint cast_values (reprc : Z) (n : nat) (xs : bytes) : option (list value * bytes) :=
  match n with
  | O => Some ([], xs)
  | S k =>
      do (v, r) <- cast_value reprc xs;
      do (vs, r') <- cast_values reprc k r;
      Some (v :: vs, r')
  end.

(** records.cpp 499-547 *)
Definition elements (a : attribute) (xs : bytes) : res (attribute * bytes) :=
  if at_count a =? 0 then Ok (with_value a Mono, xs)
  else if known_reprc (at_reprc a) then
    let! (vs, r) := unchecked (cast_values (at_reprc a) (Z.to_nat (at_count a)) xs) in
    Ok (with_value a (Vec (at_reprc a) vs), r)
  else Exn.

(** the common part of records.cpp 702-705 and 969-972 *)
Definition read_fields (f : aflags) (a : attribute) (xs : bytes) : res (attribute * bytes) :=
  let! (a, xs) := (if f_count f then
                     let! (c, r) := unchecked (dlis_uvari xs) in Ok (with_count a c, r)
                   else Ok (a, xs)) in
  let! (a, xs) := (if f_reprc f then repcode a xs else Ok (a, xs)) in
  let! (a, xs) := (if f_units f then
                     let! (u, r) := unchecked (dlis_units xs) in Ok (with_units a u, r)
                   else Ok (a, xs)) in
  (if f_value f then elements a xs else Ok (a, xs)).

(** ** Template *)

(** records.cpp 659-721.  Returns the template, the messages added to the set's
    log, and the remaining bytes.  Every round reads a descriptor, so
    [length xs + 1] rounds suffice. *)
Fixpoint parse_template (fuel : nat) (tmpl : list attribute) (lg : list problem) (xs : bytes)
    : list attribute * list problem * res bytes :=
  match fuel with
  | O => (tmpl, lg, Fuel)
  | S fuel =>
      match xs with
      | [] => (tmpl, lg, Exn)
      | d :: xs1 =>
          match parse_attribute_descriptor d with
          | DInvalid => (tmpl, lg, Exn)
          | DObject => (tmpl, lg, Ok xs)
          | DAbsent => parse_template fuel tmpl (lg ++ [P_absent_in_template]) xs1
          | DAttr f =>
              let lg := if f_label f then lg else lg ++ [P_label_not_set] in
              let r :=
                let! (l, xs2) := unchecked (dlis_ident xs1) in
                let! (a, xs3) := read_fields f (with_label new_attribute l) xs2 in
                Ok (with_invariant a (f_invariant f), xs3) in
              match r with
              | Exn => (tmpl, lg, Exn)
              | UB => (tmpl, lg, UB)
              | Fuel => (tmpl, lg, Fuel)
              | Ok (a, xs3) =>
                  let tmpl := tmpl ++ [a] in
                  match xs3 with
                  | [] => (tmpl, lg ++ [P_no_objects], Ok [])
                  | _ => parse_template fuel tmpl lg xs3
                  end
              end
          end
      end
  end.

(** ** Objects *)

(** records.cpp 725-732 *)
Definition defaulted_object (tmpl : list attribute) : list attribute :=
  fold_left (fun attrs a => set_attr a attrs) tmpl [].

(** records.cpp 824-871: initialise a missing value *)
Definition default_values (a : attribute) : attribute :=
  if known_reprc (at_reprc a)
  then with_value a (Vec (at_reprc a) (repeat (default_value (at_reprc a)) (Z.to_nat (at_count a))))
  else add_log a P_undefined_default.

(** records.cpp 759-872 *)
Definition patch_missing_value (a : attribute) : attribute :=
  match at_value a with
  | Mono => default_values a
  | Vec c vs =>
      let size := Z.of_nat (length vs) in
      if size =? at_count a then a
      else if size >? at_count a then
        add_log (with_value a (Vec c (firstn (Z.to_nat (at_count a)) vs))) P_value_shrunk
      else default_values (add_log a P_value_left)
  end.

(** records.cpp 940-1014: one attribute component of an object, given the
    template attribute and the descriptor *)
Definition object_attr (t : attribute) (f : aflags) (xs : bytes) : res (attribute * bytes) :=
  let a := t in
  let a := if f_invariant f then add_log a P_invariant_in_object else a in
  let a := if f_label f then add_log a P_label_in_object else a in
  let! (a, xs) := read_fields f a xs in
  let a :=
    if at_count a =? 0 then with_value a Mono
    else if negb (f_value f) then
      let a := if f_reprc f && negb (at_reprc a =? at_reprc t)
               then with_value (add_log a P_reprc_changed) Mono else a in
      patch_missing_value a
    else a in
  Ok (a, xs).

(** records.cpp 926-1019: the loop over the template.  [cur] is
    current.attributes, [clear] is object_clear. *)
Fixpoint object_attrs (tmpl : list attribute) (cur : list attribute) (clear : bool) (xs : bytes)
    : res (list attribute * bool * bytes) :=
  match tmpl with
  | [] => Ok (cur, clear, xs)
  | t :: tmpl =>
      if at_invariant t then object_attrs tmpl cur clear xs
      else match xs with
      | [] => Ok (cur, clear, xs)
      | d :: xs1 =>
          match parse_attribute_descriptor d with
          | DInvalid => Exn
          | DObject => Ok (cur, clear, xs)
          | DAbsent => object_attrs tmpl (remove_attr t cur) clear xs1
          | DAttr f =>
              let! (a, xs2) := object_attr t f xs1 in
              object_attrs tmpl (set_attr a cur) (clear && is_log_clear (at_log a)) xs2
          end
      end
  end.

(** records.cpp 905-1028: one object *)
Definition parse_object (type : bytes) (tmpl : list attribute) (d : byte) (xs : bytes)
    : res (object * bytes) :=
  match parse_object_descriptor d with
  | None => Exn
  | Some named =>
      let lg := if named then [] else [P_name_not_set] in
      let! (name, xs) := unchecked (dlis_obname xs) in
      let! (attrs, clear, xs) := object_attrs tmpl (defaulted_object tmpl) true xs in
      let lg := if clear then lg else lg ++ [P_attribute_violation] in
      Ok (mk_object name type attrs lg, xs)
  end.

(** records.cpp 896-1034.  The objects completed before an exception are kept. *)
Fixpoint parse_objects (fuel : nat) (type : bytes) (tmpl : list attribute) (objs : list object)
    (xs : bytes) : list object * res unit :=
  match xs with
  | [] => (objs, Ok tt)
  | d :: xs1 =>
      match fuel with
      | O => (objs, Fuel)
      | S fuel =>
          match parse_object type tmpl d xs1 with
          | Ok (o, xs2) => parse_objects fuel type tmpl (objs ++ [o]) xs2
          | Exn => (objs, Exn)
          | UB => (objs, UB)
          | Fuel => (objs, Fuel)
          end
      end
  end.

(** ** Object sets *)

(** records.hpp 241-263 *)
Record object_set := mk_set {
  os_role : Z; os_type : bytes; os_name : bytes; os_log : list problem;
  os_data : bytes; os_objs : list object; os_parsed : bool }.

(** records.cpp 1036-1107: (log, result (role, type, name, rest)) *)
Definition parse_set_component (xs : bytes) : list problem * res (Z * bytes * bytes * bytes) :=
  match xs with
  | [] => ([], Exn)
  | d :: xs1 =>
      match parse_set_descriptor d with
      | None => ([], Exn)
      | Some (role, has_type, has_name) =>
          match xs1 with
          | [] => ([], Exn)
          | _ =>
              let lg := if role =? ROLE_RDSET then [P_redundant_set]
                        else if role =? ROLE_RSET then [P_replacement_set] else [] in
              let lg := if has_type then lg else lg ++ [P_type_not_set] in
              (lg,
               let! (type, xs2) := unchecked (dlis_ident xs1) in
               let! (name, xs3) := (if has_name then unchecked (dlis_ident xs2)
                                    else Ok ([], xs2)) in
               Ok (role, type, name, xs3))
          end
      end
  end.

(** records.cpp 1109-1112 (constructor) *)
Definition new_set (data : bytes) : res object_set :=
  match parse_set_component data with
  | (lg, Ok (role, type, name, _)) => Ok (mk_set role type name lg data [] false)
  | (_, Exn) => Exn
  | (_, UB) => UB
  | (_, Fuel) => Fuel
  end.

(** records.cpp 1114-1143.  Returns the set after parsing; UB when the parser
    reads outside the record. *)
Definition parse_set (s : object_set) : res object_set :=
  if os_parsed s then Ok s
  else
    let finish role type name lg objs (ok : res unit) :=
      match ok with
      | Ok _ => Ok (mk_set role type name lg (os_data s) objs true)
      | Exn => Ok (mk_set role type name (lg ++ [P_interrupted]) (os_data s) objs true)
      | UB => UB
      | Fuel => Fuel
      end in
    match parse_set_component (os_data s) with
    | (lg, Ok (role, type, name, xs)) =>
        let '(tmpl, lg, r) := parse_template (S (length xs)) [] lg xs in
        match r with
        | Ok ys =>
            let '(objs, ok) := parse_objects (length ys) type tmpl (os_objs s) ys in
            finish role type name lg objs ok
        | Exn => finish role type name lg (os_objs s) Exn
        | UB => UB
        | Fuel => Fuel
        end
    | (lg, Exn) => finish (os_role s) (os_type s) (os_name s) lg (os_objs s) Exn
    | (_, UB) => UB
    | (_, Fuel) => Fuel
    end.

(** python/dlisio/ext/dlis.cpp 1034-1051 (core.parse_objects): encrypted records
    are skipped, a set whose construction throws is logged and skipped. *)
Fixpoint parse_sets (esc : severity -> bool) (recs : list (bool * bytes)) : io (list object_set) :=
  match recs with
  | [] => ret []
  | (encrypted, data) :: t =>
      if encrypted then parse_sets esc t
      else match new_set data with
           | Ok s => let* r := parse_sets esc t in ret (s :: r)
           | Exn => let* _ := log esc CRITICAL in parse_sets esc t
           | UB => ([], UB)
           | Fuel => ([], Fuel)
           end
  end.

(** ** Pool *)

(** records.cpp 1150-1156 *)
Definition pool_types (p : list object_set) : list bytes := map os_type p.

(** records.cpp 881-892: every message of the set's log goes to the handler *)
Fixpoint report_set_errors (esc : severity -> bool) (l : list problem) : io unit :=
  match l with
  | [] => ret tt
  | p :: t => let* _ := log esc (severity_of p) in report_set_errors esc t
  end.

(** records.cpp 1158-1194: the pool after the query (sets parsed on the way are
    cached) and the result.  [name = None] is the overload without a name.
    [m pattern candidate] is the matcher; it is a Python object and may raise
    (None). *)
Fixpoint pool_get (esc : severity -> bool) (m : bytes -> bytes -> option bool)
    (type : bytes) (name : option bytes) (p : list object_set)
    : list object_set * io (list object) :=
  match p with
  | [] => ([], ret [])
  | s :: t =>
      match m type (os_type s) with
      | None => (s :: t, fail)
      | Some false =>
          let '(t', r) := pool_get esc m type name t in (s :: t', r)
      | Some true =>
          match parse_set s with
          | Ok s' =>
              let matching :=
                match name with
                | None => Some (os_objs s')
                | Some n =>
                    fold_right (fun o acc =>
                      do b <- m n (ob_id (obj_name o));
                      do acc <- acc;
                      Some (if (b : bool) then o :: acc else acc)) (Some []) (os_objs s')
                end in
              match matching with
              | None => (s' :: t, fail)
              | Some objs =>
                  match report_set_errors esc (os_log s') with
                  | (l, Ok _) =>
                      let '(t', r) := pool_get esc m type name t in
                      (s' :: t', let* _ := (l, Ok tt) in let* rest := r in ret (objs ++ rest))
                  | (l, _) => (s' :: t, (l, Exn))
                  end
              end
          | Exn => (s :: t, fail)
          | UB => (s :: t, ([], UB))
          | Fuel => (s :: t, ([], Fuel))
          end
      end
  end.
