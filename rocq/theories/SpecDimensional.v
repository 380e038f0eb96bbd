(** Independent specification for C38: samples of a shape, and the values in them. *)
From Verif Require Import Bytes Stream PyBase DlisTypes DlisRecords CommonPy DlisStore DlisObject Dimensional.
Local Open Scope Z_scope.

(** an array of the given dimensions; none for an item *)
Inductive of_shape : list Z -> nd -> Prop :=
  | shape_item v : of_shape [] (Item v)
  | shape_array d ds l : Z.of_nat (length l) = d -> Forall (of_shape ds) l -> of_shape (d :: ds) (Arr l).
(** its items, first to last: [items_in a l] *)
Inductive items_in : nd -> list pyval -> Prop :=
  | in_item v : items_in (Item v) [v]
  | in_array l ls : Forall2 items_in l ls -> items_in (Arr l) (concat ls).
(** number of values in a sample *)
Definition volume (shape : list Z) : Z := fold_right Z.mul 1 shape.

(** values of an attribute: all of one kind *)
Inductive one_kind : list pyval -> Prop :=
  | numbers c zs : one_kind (map (PNumber c) zs)
  | complexes c zs : c = 10 \/ c = 11 -> one_kind (map (fun z => PNumbers c [fst z; snd z]) zs)
  | pairs c zs : c = 3 \/ c = 8 -> one_kind (map (fun z => PNumbers c [fst z; snd z]) zs)
  | triples c zs : c = 4 \/ c = 9 -> one_kind (map (fun z => PNumbers c [fst (fst z); snd (fst z); snd z]) zs)
  | strs us : one_kind (map (fun u => PText (Str u)) us)
  | byte_strings us : one_kind (map (fun u => PText (Raw u)) us)
  | times ts : one_kind (map PTime ts)
  | names ns : one_kind (map PName ns)
  | refs rs : one_kind (map PRef rs)
  | attrs rs : one_kind (map PAttr rs).
(** the values a value has: those of a tuple, or itself *)
Inductive parts : pyval -> list pyval -> Prop :=
  | part_pair c a b : c = 3 \/ c = 8 -> parts (PNumbers c [a; b]) [PNumber c a; PNumber c b]
  | part_triple c a b d : c = 4 \/ c = 9 -> parts (PNumbers c [a; b; d]) [PNumber c a; PNumber c b; PNumber c d]
  | part_self v : (forall c zs, v = PNumbers c zs -> c = 10 \/ c = 11) -> parts v [v].
(** dimensions of each value: tuples are arrays *)
Inductive inner : pyval -> list Z -> Prop :=
  | inner_pair c a b : c = 3 \/ c = 8 -> inner (PNumbers c [a; b]) [2]
  | inner_triple c a b d : c = 4 \/ c = 9 -> inner (PNumbers c [a; b; d]) [3]
  | inner_self v : (forall c zs, v = PNumbers c zs -> c = 10 \/ c = 11) -> inner v [].
(** what an array keeps of a value: all of it, except for NUL characters at the end of
    text *)
Inductive keeps : pyval -> pyval -> Prop :=
  | keeps_str u n : (forall t, u <> t ++ [0]) -> keeps (PText (Str (u ++ repeat 0 n))) (PText (Str u))
  | keeps_bytes u n : (forall t, u <> t ++ [x00]) -> keeps (PText (Raw (u ++ repeat x00 n))) (PText (Raw u))
  | keeps_other v : (forall s, v <> PText s) -> keeps v v.

(** the samples: each of the shape, with all values exactly once, in order *)
Definition samples_of (data : list pyval) (shape : list Z) (samples : list nd) : Prop :=
  (exists v e, hd_error data = Some v /\ inner v e /\
     Forall (of_shape ((if list_eq_dec Z.eq_dec shape [1] then [] else shape) ++ e)) samples) /\
  Z.of_nat (length samples) * volume shape = Z.of_nat (length data) /\
  exists ps ks, Forall2 parts data ps /\ Forall2 keeps (concat ps) ks /\ items_in (Arr samples) ks.

(** the memory a value needs in an array *)
Definition memory (v : pyval) : Z :=
  match v with
  | PNumber _ _ => 8
  | PNumbers c zs => 8 * Z.of_nat (length zs)
  | PText (Str u) => 4 * Z.max 1 (Z.of_nat (length u))
  | PText (Raw u) => Z.max 1 (Z.of_nat (length u))
  | _ => 8
  end.
(** a sample is smaller than 2 GiB and has not too many dimensions *)
Definition small (maxdims : nat) (data : list pyval) (shape : list Z) : Prop :=
  (3 + length shape <= maxdims)%nat /\ exists w, Forall (fun v => memory v <= w) data /\ volume shape * w < 2 ^ 31.

(** what becomes of values with a shape, for a number of zones if there is one: samples,
    or none if they are refused.  Without a shape every value is a sample, if there is
    one for each zone or only one. *)
Inductive outcome (data : list pyval) (shape : list Z) (count : option Z) : option (list nd) -> Prop :=
  | sampled_by_shape l : shape <> [] -> (volume shape | Z.of_nat (length data)) -> samples_of data shape l -> outcome data shape count (Some l)
  | refused_by_shape : shape <> [] -> ~ (volume shape | Z.of_nat (length data)) -> outcome data shape count None
  | sampled_by_count l : shape = [] -> count = Some (Z.of_nat (length data)) \/ length data = 1%nat -> samples_of data [1] l -> outcome data shape count (Some l)
  | refused_by_count : shape = [] -> count <> Some (Z.of_nat (length data)) -> length data <> 1%nat -> outcome data shape count None.
(** representation codes of integers: SSHORT, SNORM, SLONG, USHORT, UNORM, ULONG, UVARI,
    ORIGIN, STATUS *)
Definition integer_codes : list Z := [12; 13; 14; 15; 16; 17; 18; 22; 26].
(** the Python value of a value in the file *)
Inductive stands (dec : bytes -> pystr) (c : Z) : value -> pyval -> Prop :=
  | stands_number z : stands dec c (VNum z) (PNumber c z)
  | stands_numbers zs : stands dec c (VNums zs) (PNumbers c zs)
  | stands_text s : stands dec c (VText s) (PText (dec s))
  | stands_time t d : to_pydatetime t = Some d -> stands dec c (VTime t) (PTime d)
  | stands_name n : stands dec c (VName n) (PName n)
  | stands_ref n : stands dec c (VRef n) (PRef n)
  | stands_attr n : stands dec c (VAttr n) (PAttr n).
