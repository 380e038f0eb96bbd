(** Tables of information records: what a record holds. *)
From Verif Require Import Bytes SpecTypes SpecCore Stream LisTypes LisProtocol LisPy LisInfo SpecLisCurves SpecLisProtocol SpecLisPy CommonPy.
Local Open Scope Z_scope.

(** a record of components *)
Definition of_components (ds : bytes) (cs : list component_block) : Prop :=
  exists bs, ds = concat bs /\ Forall2 component_bytes bs cs.
(** a record that holds a table: a component of type 73 with its name, and rows *)
Definition holds_table (ds : bytes) (c0 : component_block) (rows : list (list component_block)) : Prop :=
  of_components ds (c0 :: concat rows) /\ cb_type_nb c0 = 73 /\ rows <> [] /\ Forall row_of rows.

(** the mnemonic of a component as text *)
Definition mnemonic_is (dec : bytes -> CommonPy.pystr) (c : component_block) (m : list Z) : Prop := dec (cb_mnemonic c) = Str m.
(** the columns: the mnemonics of all components, each once, in the order in which they
    first occur *)
Definition columns_of (dec : bytes -> CommonPy.pystr) (cs : list component_block) (cols : list (list Z)) : Prop :=
  NoDup cols /\ (forall m, In m cols <-> exists c, In c cs /\ mnemonic_is dec c m) /\
  forall i j m n, nth_error cols i = Some m -> nth_error cols j = Some n -> (i < j)%nat ->
    exists a c b, cs = a ++ c :: b /\ mnemonic_is dec c m /\ forall x, In x a -> ~ mnemonic_is dec x n.
(** a cell: the last component of its row and column, or the value of this component; the
    fill value if there is none *)
Definition cell_in (dec : bytes -> CommonPy.pystr) (simple : bool) (row : list component_block) (m : list Z) (cell : tcell) : Prop :=
  (exists a c b, row = a ++ c :: b /\ mnemonic_is dec c m /\ (forall x, In x b -> ~ mnemonic_is dec x m) /\
     cell = if simple then Value (cb_component c) else Block c) \/
  ((forall c, In c row -> ~ mnemonic_is dec c m) /\ cell = Fill).
