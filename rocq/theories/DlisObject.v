(** Model of python/dlisio/dlis/basicobject.py, utils/valuetypes.py,
    utils/linkage.py and Channel.frame: attributes of metadata objects. *)
From Verif Require Import Bytes Stream PyBase DlisTypes DlisCore DlisRecords CommonPy DlisStore DlisSchema.
Local Open Scope Z_scope.

(** ** Values *)

(** the Python objects that values turn into (ext/dlis.cpp 65-170) and the objects
    that references are replaced with *)
Inductive pyval :=
  | PNumber (reprc z : Z)            (* int or float *)
  | PNumbers (reprc : Z) (zs : list Z)   (* tuple or complex *)
  | PText (s : pystr)
  | PTime (t : datetime)
  | PName (n : obname)
  | PRef (r : objref)
  | PAttr (a : attref)
  | PObject (o : pyobject)
  | PNone.

(** str.strip: the characters str.isspace accepts (CPython, unicodetype_db.h) *)
Definition is_space (c : Z) : bool :=
  ((9 <=? c) && (c <=? 13)) || ((28 <=? c) && (c <=? 32)) || (c =? 133) || (c =? 160) || (c =? 5760)
  || ((8192 <=? c) && (c <=? 8202)) || (c =? 8232) || (c =? 8233) || (c =? 8239) || (c =? 8287) || (c =? 12288).
Fixpoint lstrip (u : list Z) : list Z :=
  match u with [] => [] | c :: t => if is_space c then lstrip t else u end.
Definition strip (u : list Z) : list Z := rev (lstrip (rev (lstrip u))).
(** [v.strip() if isinstance(v, str) else v] *)
Definition stripped (v : pyval) : pyval := match v with PText (Str u) => PText (Str (strip u)) | _ => v end.

(** bool(v); the zeros are false, NaN is true, objects of classes without __bool__ and
    __len__ are true *)
Definition zero_bits (reprc z : Z) : bool :=
  match reprc with
  | 1 | 2 | 3 | 4 | 5 | 6 | 10 => Z.land z (2 ^ 31 - 1) =? 0
  | 7 | 8 | 9 | 11 => Z.land z (2 ^ 63 - 1) =? 0
  | _ => z =? 0
  end.
Definition truth (v : pyval) : bool :=
  match v with
  | PNumber c z => negb (zero_bits c z)
  | PNumbers c zs => if (c =? 10) || (c =? 11) then negb (forallb (zero_bits c) zs) else true
  | PText s => truthy s
  | PNone => false
  | _ => true
  end.

(** what reading an attribute gives *)
Inductive result := RNone | ROne (v : pyval) | RMany (l : list pyval) | RBool (b : bool).
(** valuetypes.py 23-28 *)
Definition defaultvalue (r : rule) : result :=
  match r with Scalar | Boolean => RNone | Vector | Reverse => RMany [] end.
(** valuetypes.py 30-59, for a value that is not empty.  Warnings are not modelled. *)
Definition parsevalue (value : list pyval) (r : rule) : result :=
  match r with
  | Scalar => ROne (hd PNone value)
  | Vector => RMany value
  | Reverse => RMany (rev value)
  | Boolean => RBool (truth (hd PNone value))
  end.
(** linkage.py 36-41 *)
Definition isreference (v : pyval) : bool := match v with PName _ | PRef _ | PAttr _ => true | _ => false end.

Section object.
Variable dec : bytes -> pystr.
Variable enc : pystr -> bytes.
Variable esc : severity -> bool.
Variable set_order : list pystr -> list pystr.

(** ext/dlis.cpp 93-170; None is the ValueError of datetime *)
Definition to_py (reprc : Z) (v : value) : option pyval :=
  match v with
  | VNum z => Some (PNumber reprc z)
  | VNums zs => Some (PNumbers reprc zs)
  | VText s => Some (PText (dec s))
  | VTime t => do t <- to_pydatetime t; Some (PTime t)
  | VName n => Some (PName n)
  | VRef r => Some (PRef r)
  | VAttr a => Some (PAttr a)
  end.
Fixpoint map_opt {A B} (f : A -> option B) (l : list A) : option (list B) :=
  match l with
  | [] => Some []
  | x :: t => do y <- f x; do r <- map_opt f t; Some (y :: r)
  end.
(** attribute.value (ext/dlis.cpp 885): Some None is Python's None *)
Definition attribute_value (a : attribute) : option (option (list pyval)) :=
  match at_value a with
  | Mono => Some None
  | Vec c vs => do l <- map_opt (to_py c) vs; Some (Some l)
  end.

(** attic.keys() (ext/dlis.cpp 907-913) *)
Definition keys (o : object) : list pystr := map (fun a => dec (at_label a)) (obj_attrs o).
(** attic[key] (ext/dlis.cpp 899-902) *)
Definition attic_get (o : object) (key : pystr) : option attribute := attr_at (enc key) (obj_attrs o).

(** basicobject.py 197-205, 214-219: the fingerprint is computed for the context
    (240-256); there is none if the type is empty (C16) *)
Definition report (o : object) (lg : list problem) : io unit :=
  match lg with
  | [] => ret tt
  | _ =>
      match py_fingerprint (enc (dec (obj_type o))) (enc (dec (ob_id (obj_name o)))) (ob_origin (obj_name o)) (ob_copy (obj_name o)) with
      | FpOk _ => report_set_errors esc lg
      | FpInvalid => fail
      | FpOverrun => ([], UB)
      end
  end.

(** linkage.py 16-34.  Warnings are not modelled. *)
Definition lookup (st : store) (l : link) (v : pyval) : store * io pyval :=
  let find (type : pystr) (n : obname) :=
    let '(st, r) := lf_object dec enc esc set_order st type (dec (ob_id n)) (Some (ob_origin n)) (Some (ob_copy n)) in
    (st, let* o := r in ret match o with Some o => PObject o | None => PNone end) in
  match l, v with
  | ToName t, PName n => find t n
  | ToRef, PRef r => find (dec (or_type r)) (or_name r)
  | _, _ => (st, ret PNone)
  end.
Fixpoint lookups (st : store) (l : link) (vs : list pyval) : store * io (list pyval) :=
  match vs with
  | [] => (st, ret [])
  | v :: vs =>
      match lookup st l v with
      | (st, (lg, Ok x)) =>
          let '(st, r) := lookups st l vs in
          (st, let* _ := (lg, Ok tt) in let* xs := r in ret (x :: xs))
      | (st, (lg, Exn)) => (st, (lg, Exn))
      | (st, (lg, UB)) => (st, (lg, UB))
      | (st, (lg, Fuel)) => (st, (lg, Fuel))
      end
  end.

(** basicobject.py 171-231 (__getitem__).  None is the KeyError. *)
Definition getitem (st : store) (sc : schema) (o : object) (key : pystr) : store * io (option result) :=
  if negb (existsb (fun e => pystr_eqb key (fst e)) (sc_attributes sc)) && negb (existsb (pystr_eqb key) (keys o))
  then (st, ret None)
  else
    let parse_as := match dict_get key (sc_attributes sc) with Some r => r | None => Vector end in
    match report o (obj_log o) with
    | (l1, Ok _) =>
        match attic_get o key with
        | None => (st, (l1, Ok (Some (defaultvalue parse_as))))
        | Some a =>
            match attribute_value a with
            | None => (st, (l1, Exn))
            | Some rp66value =>
                match report o (at_log a) with
                | (l2, Ok _) =>
                    match rp66value with
                    | None | Some [] => (st, (l1 ++ l2, Ok (Some (defaultvalue parse_as))))
                    | Some ((v :: _) as vs) =>
                        match dict_get key (sc_linkage sc), isreference v with
                        | Some reftype, true =>
                            let '(st, r) := lookups st reftype vs in
                            (st, let* _ := (l1 ++ l2, Ok tt) in let* value := r in ret (Some (parsevalue value parse_as)))
                        | _, _ => (st, (l1 ++ l2, Ok (Some (parsevalue (map stripped vs) parse_as))))
                        end
                    end
                | (l2, Exn) => (st, (l1 ++ l2, Exn))
                | (l2, UB) => (st, (l1 ++ l2, UB))
                | (l2, Fuel) => (st, (l1 ++ l2, Fuel))
                end
            end
        end
    | (l1, Exn) => (st, (l1, Exn))
    | (l1, UB) => (st, (l1, UB))
    | (l1, Fuel) => (st, (l1, Fuel))
    end.

(** basicobject.py 257-281 (stash); None is an exception: the key is not found, the
    value cannot be converted or is None *)
Definition stash (sc : schema) (o : object) : option (list (pystr * list pyval)) :=
  do entries <- map_opt (fun k => do a <- attic_get o k; do v <- attribute_value a; Some (k, v))
                  (filter (fun k => negb (existsb (fun e => pystr_eqb k (fst e)) (sc_attributes sc))) (keys o));
  let d := fold_left (fun d e => dict_put (fst e) (snd e) d) entries [] in
  map_opt (fun e => do v <- snd e; Some (fst e, map stripped v)) d.

(** ** Channel.frame *)

(** frame.channels (frame.py 122-123) *)
Definition frame_channels (st : store) (frame : pyobject) : store * io (list pyval) :=
  let '(st, r) := getitem st frame_schema (po_attic frame) (lit (text "CHANNELS")) in
  (st, let* v := r in match v with Some (RMany l) => ret l | _ => fail end).

(** channel.py 114-123, one frame: whether it was found to contain the channel.  What
    has no attic is an AttributeError. *)
Fixpoint claims (self : obname) (channels : list pyval) : option bool :=
  match channels with
  | [] => Some false
  | PObject c :: t => do r <- claims self t; Some (obname_eqb (obj_name (po_attic c)) self || r)
  | _ :: _ => None
  end.
(** the loop over the frames; [frame not in frames] compares the objects with == *)
Fixpoint claiming (self : obname) (st : store) (fs found : list pyobject) : store * io (list pyobject) :=
  match fs with
  | [] => (st, ret found)
  | frame :: fs =>
      match frame_channels st frame with
      | (st, (l, Ok channels)) =>
          match claims self channels with
          | None => (st, (l, Exn))
          | Some c =>
              let found := if c && negb (existsb (fun f => object_eqb (po_attic f) (po_attic frame)) found)
                           then found ++ [frame] else found in
              let '(st, r) := claiming self st fs found in
              (st, let* _ := (l, Ok tt) in r)
          end
      | (st, (l, Exn)) => (st, (l, Exn))
      | (st, (l, UB)) => (st, (l, UB))
      | (st, (l, Fuel)) => (st, (l, Fuel))
      end
  end.
(** channel.py 105-136, for a channel of a logical file *)
Definition channel_frame (st : store) (self : object) : store * io (option pyobject) :=
  match objects_of_type dec enc esc set_order st (text "FRAME") with
  | (st, (l, Ok fs)) =>
      let '(st, r) := claiming (obj_name self) st fs [] in
      (st, let* _ := (l, Ok tt) in let* found := r in ret match found with [f] => Some f | _ => None end)
  | (st, (l, Exn)) => (st, (l, Exn))
  | (st, (l, UB)) => (st, (l, UB))
  | (st, (l, Fuel)) => (st, (l, Fuel))
  end.
End object.
