(** Specification for C90. *)
From Verif Require Import Bytes Stream LisProtocol LisPy CommonPy SpecLisCurves LisText.
Local Open Scope Z_scope.

(** the specifications of the columns that are read from the file: the index, if it is a
    channel, and the chosen channels *)
Definition read_specs (l : layout) (chans : list spec_block) : list spec_block :=
  match l with Mode0 s0 _ => s0 :: chans | Mode1 _ _ _ => chans end.
(** the mnemonic decodes to this text *)
Definition reads_as (dec : bytes -> CommonPy.pystr) (s : spec_block) (u : list Z) : Prop := dec (sp_mnemonic s) = Str u.
(** the text of what decodes *)
Definition agrees_with (dec : bytes -> CommonPy.pystr) (names : bytes -> list Z) : Prop := forall b u, dec b = Str u -> names b = u.
(** columns with text for names *)
Definition as_field (c : column) (f : field) : Prop :=
  fl_name f = Str (col_label c) /\ fl_type f = col_type c /\ fl_width f = col_width c /\ fl_entries f = col_entries c.
(** the name of the index *)
Definition index_name (dec : bytes -> CommonPy.pystr) (l : layout) : CommonPy.pystr :=
  match l with Mode0 s0 _ => dec (sp_mnemonic s0) | Mode1 _ _ _ => Str (str_of (text "DEPT")) end.
(** the texts and the bytes among names *)
Fixpoint texts (l : list CommonPy.pystr) : list (list Z) := match l with [] => [] | Str u :: t => u :: texts t | Raw _ :: t => texts t end.
Fixpoint raws (l : list CommonPy.pystr) : list bytes := match l with [] => [] | Str _ :: t => raws t | Raw b :: t => b :: raws t end.
(** the same names with other texts *)
Fixpoint with_texts (l : list CommonPy.pystr) (ts : list (list Z)) : list CommonPy.pystr :=
  match l, ts with
  | Raw b :: t, _ => Raw b :: with_texts t ts
  | Str _ :: t, u :: ts => Str u :: with_texts t ts
  | _, _ => []
  end.
