(** Specification for C51 and C55-C57. *)
From Verif Require Import Bytes SpecTypes SpecCore Stream LisTypes LisProtocol LisPy LisInfo SpecLisCurves.
Local Open Scope Z_scope.

(** ** C57: numbered labels *)

(** how often a label occurs *)
Definition occurs (x : pystr) (l : list pystr) : nat := count_occ (list_eq_dec Z.eq_dec) l x.
(** [y] is [x(n)] *)
Definition numbered (x : pystr) (n : nat) (y : pystr) : Prop :=
  exists s, is_numeral s (Z.of_nat n) /\ y = x ++ str_of (text "(") ++ str_of s ++ str_of (text ")").
(** [u] is [l] with labels that occur more than once numbered from 0 on, in order *)
Definition made_unique (l u : list pystr) : Prop :=
  length u = length l /\
  forall i x, nth_error l i = Some x ->
    exists y, nth_error u i = Some y /\
      ((occurs x l = 1%nat /\ y = x) \/ ((1 < occurs x l)%nat /\ numbered x (occurs x (firstn i l)) y)).
(** no label already looks like a numbered repeated one *)
Definition unnumbered (l : list pystr) : Prop :=
  forall x y n, In x l -> (1 < occurs x l)%nat -> numbered x n y -> ~ In y l.

(** ** C55: the metadata of the curves *)

(** what is recorded about the index, and its label *)
Definition index_block (l : layout) : option spec_block := match l with Mode0 s0 _ => Some s0 | Mode1 _ _ _ => None end.
Definition index_label (dec : bytes -> pystr) (l : layout) : pystr :=
  match l with Mode0 s0 _ => dec (sp_mnemonic s0) | Mode1 _ _ _ => str_of (text "DEPT") end.
(** the channels with the sampling rate, suppressed or not *)
Definition at_rate (rate : Z) (l : layout) : list spec_block := filter (fun s => sp_samples s =? rate) (layout_channels l).

(** ** C56: entry blocks *)

(** there are several entries of the type *)
Definition repeated (es : list entry_block) (t : Z) : Prop :=
  exists a x b y c, es = a ++ x :: b ++ y :: c /\ eb_type x = t /\ eb_type y = t.
(** the property is the value of the entry block of type [t], with this default, and
    an exception if there are several *)
Definition reads (f : dfsr -> res pv) (t : Z) (default : pv) : Prop :=
  forall d, (forall v, f d = Ok v <-> entry_of (df_entries d) t default v) /\ (f d = Exn <-> repeated (df_entries d) t) /\
            f d <> UB /\ f d <> Fuel.

(** ** C51: information tables *)

(** rows start with a component of type 0 and have no other of type 0 *)
Inductive row_of : list component_block -> Prop :=
| ro c cs : cb_type_nb c = 0 -> (forall x, In x cs -> cb_type_nb x <> 0) -> row_of (c :: cs).
(** the last component of the row with this mnemonic *)
Definition last_with (dec : bytes -> pystr) (m : pystr) (row : list component_block) (c : component_block) : Prop :=
  exists a b, row = a ++ c :: b /\ dec (cb_mnemonic c) = m /\ forall x, In x b -> dec (cb_mnemonic x) <> m.
(** the distinct mnemonics in order of their first occurrence *)
Inductive first_seen (dec : bytes -> pystr) : list component_block -> list pystr -> Prop :=
| fs_nil : first_seen dec [] []
| fs_old cs ms c : first_seen dec cs ms -> In (dec (cb_mnemonic c)) ms -> first_seen dec (cs ++ [c]) ms
| fs_new cs ms c : first_seen dec cs ms -> ~ In (dec (cb_mnemonic c)) ms -> first_seen dec (cs ++ [c]) (ms ++ [dec (cb_mnemonic c)]).
(** what the cell of mnemonic [m] holds: of the last component of the row with this
    mnemonic the block, or its value; the fill value if there is none *)
Definition cell_of (dec : bytes -> pystr) (simple : bool) (row : list component_block) (m : pystr) (cell : tcell) : Prop :=
  (exists c, last_with dec m row c /\ cell = if simple then Value (cb_component c) else Block c) \/
  ((forall c, In c row -> dec (cb_mnemonic c) <> m) /\ cell = Fill).
