(** Independent specification for C35 and C36: which objects a query is about. *)
From Flocq Require Import IEEE754.Binary IEEE754.Bits.
From Verif Require Import Bytes Stream DlisTypes DlisRecords CommonPy DlisStore.
Local Open Scope Z_scope.

Section queries.
Variable dec : bytes -> pystr.
Variable enc : pystr -> bytes.
Variable esc : severity -> bool.
Variable set_order : list pystr -> list pystr.

(** the objects of a set, and whether reporting what is wrong with the set raises *)
Definition objects_in (s : object_set) : list object :=
  match parse_set s with Ok s' => os_objs s' | _ => [] end.
Definition raising (s : object_set) : bool :=
  match parse_set s with Ok s' => existsb (fun p => esc (severity_of p)) (os_log s') | _ => false end.

(** the objects of the sets whose type satisfies [ft] that have a name that
    satisfies [fn], in the order of the file *)
Definition selected (ft fn : pystr -> bool) (sets : list object_set) : list object :=
  flat_map (fun s => filter (fun o => fn (dec (ob_id (obj_name o)))) (objects_in s))
    (filter (fun s => ft (dec (os_type s))) sets).
Definition selected_raises (ft : pystr -> bool) (sets : list object_set) : bool :=
  existsb (fun s => ft (dec (os_type s)) && raising s) sets.

(** a name that may be left out *)
Definition wanted (f : pystr -> pystr -> bool) (name : option pystr) : pystr -> bool :=
  match name with Some n => f n | None => fun _ => true end.

(** texts that survive the way to C++ and back: all but those with a NUL *)
Definition kept (t : pystr) : Prop := dec (enc t) = t.
(** what is known of Python's sets *)
Definition a_set_order : Prop := forall l, NoDup (set_order l) /\ forall x, In x (set_order l) <-> In x l.
(** sets that have just been constructed from their records *)
Definition as_loaded (sets : list object_set) : Prop :=
  Forall (fun s => new_set (os_data s) = Ok s) sets.
(** the parser stays inside the records (see C63) *)
Definition parsable (sets : list object_set) : Prop := Forall (fun s => parse_set s <> UB) sets.

(** the objects [LogicalFile.object] chooses from; a criterion may be left out *)
Definition agrees (crit : option Z) (z : Z) : bool := match crit with Some c => z =? c | None => true end.
Definition candidates (type name : pystr) (origin copynr : option Z) (sets : list object_set) : list object :=
  filter (fun o => agrees origin (ob_origin (obj_name o)) && agrees copynr (ob_copy (obj_name o)))
    (selected (pystr_eqb type) (pystr_eqb name) sets).

(** ** Histories *)

(** what a user can do *)
Inductive operation :=
  | Find (type : pystr) (name : option pystr) (m : option pymatcher)
  | Object (type name : pystr) (origin copynr : option Z)
  | Fileheader
  | Objects (t : bytes)
  | Cache (on : bool).
Definition perform (st : store) (op : operation) : store :=
  match op with
  | Find t n m => fst (store_find dec enc esc set_order st t n m)
  | Object t n o c => fst (lf_object dec enc esc set_order st t n o c)
  | Fileheader => fst (fileheader dec enc esc set_order st)
  | Objects t => fst (objects_of_type dec enc esc set_order st t)
  | Cache on => cache_metadata st on
  end.
Definition after (sets : list object_set) (ops : list operation) : store := fold_left perform ops (new_store sets).

(** the texts in an operation survive the way to C++ and back, and what calls itself
    an exact matcher is one *)
Definition matcher_ok (m : option pymatcher) : Prop :=
  forall x, m = Some x -> pm_exact x = true -> forall p c, pm_match x p c = Some (pystr_eqb p c).
Definition op_ok (op : operation) : Prop :=
  match op with
  | Find t n m => kept t /\ matcher_ok m
  | Object t n _ _ => kept t
  | Fileheader => kept (lit (text "FILE-HEADER"))
  | Objects t => kept (lit t)
  | Cache _ => True
  end.
End queries.

(** ** Equality of objects: same name and copy, same attributes in the same order *)

(** numbers as C++ compares them: floating point by their IEEE value (NaN equals
    nothing, the zeros are equal), others by their value *)
Definition same_number (reprc x y : Z) : Prop :=
  if existsb (Z.eqb reprc) [1; 2; 3; 4; 5; 6; 10] then Bcompare 24 128 (b32_of_bits x) (b32_of_bits y) = Some Eq
  else if existsb (Z.eqb reprc) [7; 8; 9; 11] then Bcompare 53 1024 (b64_of_bits x) (b64_of_bits y) = Some Eq
  else x = y.
Inductive same_value (reprc : Z) : value -> value -> Prop :=
  | same_VNum x y : same_number reprc x y -> same_value reprc (VNum x) (VNum y)
  | same_VNums xs ys : Forall2 (same_number reprc) xs ys -> same_value reprc (VNums xs) (VNums ys)
  | same_VText s : same_value reprc (VText s) (VText s)
  | same_VTime t : same_value reprc (VTime t) (VTime t)
  | same_VName n : same_value reprc (VName n) (VName n)
  | same_VRef n : same_value reprc (VRef n) (VRef n)
  | same_VAttr n : same_value reprc (VAttr n) (VAttr n).
Inductive same_values : values -> values -> Prop :=
  | same_Mono : same_values Mono Mono
  | same_Vec c xs ys : Forall2 (same_value c) xs ys -> same_values (Vec c xs) (Vec c ys).
Definition same_attribute (a b : attribute) : Prop :=
  at_label a = at_label b /\ at_count a = at_count b /\ at_reprc a = at_reprc b /\ at_units a = at_units b /\
  same_values (at_value a) (at_value b).
Definition same_object (a b : object) : Prop :=
  obj_name a = obj_name b /\ Forall2 same_attribute (obj_attrs a) (obj_attrs b).

(** whether the store caches after a history *)
Definition caching (ops : list operation) : bool :=
  fold_left (fun b op => match op with Cache on => on | _ => b end) ops true.
(** the empty name is a name only while the store caches *)
Definition named (ops : list operation) (name : pystr) : Prop := name <> Str [] /\ name <> Raw [] \/ caching ops = true.
