(** Specification for C85: what a description looks like on a page. *)
From Verif Require Import Bytes CommonPy DlisObject DlisLayout.
From Verif Require DlisDescribe.
Local Open Scope Z_scope.

(** what is to be seen of a text *)
Definition ink (u : ustr) : ustr := filter (fun c => negb (is_space c)) u.
(** text of blanks, tabs and line breaks only *)
Definition ascii_space (c : Z) : bool := ((9 <=? c) && (c <=? 13)) || (c =? 32).

(** ** What is known of the parts of textwrap that are not modelled *)

(** a text is split into chunks, of which none is empty; blanks are chunks of their own,
    as many as there are in a row *)
Fixpoint apart (chunks : list ustr) : Prop :=
  match chunks with
  | a :: ((b :: _) as rest) => ~ (In 32 a /\ In 32 b) /\ apart rest
  | _ => True
  end.
Definition splits (split : ustr -> list ustr) : Prop :=
  forall u, concat (split u) = u /\ ~ In [] (split u) /\
    (forall c x, In c (split u) -> In 32 c -> In x c -> x = 32) /\ apart (split u).
(** a word is broken where the line ends or before, but not at its start unless the line is
    full *)
Definition breaks (break_at : ustr -> Z -> Z) : Prop :=
  (forall c, break_at c 0 = 0) /\
  forall c left, 0 < left < Z.of_nat (length c) -> 0 < break_at c left <= left.

(** ** Paragraphs *)

(** white space becomes blanks, one or more for each character *)
Inductive blanked : ustr -> ustr -> Prop :=
  | blanked_nil : blanked [] []
  | blanked_keep c u v : ascii_space c = false -> blanked u v -> blanked (c :: u) (c :: v)
  | blanked_space c n u v : ascii_space c = true -> blanked u v -> blanked (c :: u) (repeat 32 (S n) ++ v).
(** the parts of a text; there is white space between them, or nothing where a word was
    broken *)
Inductive in_parts : ustr -> list ustr -> Prop :=
  | parts_end s : ink s = [] -> in_parts s []
  | parts_cons s p u ps : ink s = [] -> in_parts u ps -> in_parts (s ++ p ++ u) (p :: ps).
(** the lines a text is written in: the first one starts with [first], the others with
    [rest]; their parts make up the text but for white space at their ends, and they are as
    long as permitted, or have one character each if there is no room at all.  A text of
    which nothing is to be seen may have no line at all. *)
Definition paragraph (width : Z) (first rest t : ustr) (lines : list ustr) : Prop :=
  exists u parts,
    blanked t u /\ in_parts u parts /\
    Forall (fun p => Z.of_nat (length first + length p) <= Z.max width (Z.of_nat (length first) + 1)) parts /\
    lines = match parts with [] => [] | p :: ps => (first ++ p) :: map (app rest) ps end.
(** each line ends in a line break; no lines are an empty one *)
Definition page (lines : list ustr) : ustr := concat (map (fun l => l ++ [10]) (match lines with [] => [[]] | _ => lines end)).

(** the text of a value, or the block of text numpy makes of an array *)
Definition shown_text (t units : ustr) : ustr :=
  match t with [] => chars (text """""") | _ => t end ++ match units with [] => [] | _ => chars (text " [") ++ units ++ chars (text "]") end.
Definition padded (n : nat) (u : ustr) : ustr := u ++ repeat 32 (n - length u).
Fixpoint spaced (l : list ustr) : ustr := match l with [] => [] | [u] => u | u :: t => u ++ [32] ++ spaced t end.
Definition widest (l : list ustr) : nat := list_max (map (@length Z) l).
Definition list_text (l : list ustr) : ustr :=
  match l with [] => chars (text "[]") | [t] => t | _ => spaced (map (padded (widest l)) l) end.

(** ** Documents *)

(** a text is written as a paragraph *)
Definition written_as (width : Z) (first rest t out : ustr) : Prop :=
  exists lines, paragraph width first rest t lines /\ out = page lines.
(** a value, behind a prefix *)
Definition value_as (width : Z) (first rest : ustr) (v : content) (units out : ustr) : Prop :=
  match v with
  | One t => written_as width first rest (shown_text t units) out
  | Row l => written_as width first rest (shown_text (list_text l) units) out
  | Grid g => out = first ++ g rest width ++ (match units with [] => [] | _ => chars (text " [") ++ units ++ chars (text "]") end) ++ [10]
  end.
(** captions are followed by blanks up to the longest of them, and a colon *)
Definition caption_text (n : nat) (caption : ustr) : ustr := padded n caption ++ chars (text " : ").
Definition row_as (width : Z) (indent : ustr) (n : nat) (row : ustr * content * ustr) (out : ustr) : Prop :=
  let '(caption, v, units) := row in
  let p := indent ++ caption_text n caption in
  value_as width p (repeat 32 (length p)) v units out.
(** one after the other *)
Inductive in_turn {A} (R : A -> ustr -> Prop) : list A -> ustr -> Prop :=
  | turn_nil : in_turn R [] []
  | turn_cons x xs a b : R x a -> in_turn R xs b -> in_turn R (x :: xs) (a ++ b).
Definition block_as (width : Z) (indent : ustr) (b : block) (out : ustr) : Prop :=
  let line t := written_as width indent indent (shown_text t []) in
  match b with
  | Title t => in_turn line [repeat 45 (length t); t; repeat 45 (length t)] out
  | Section t => in_turn line [t; chars (text "--")] out
  | Table [] => out = []
  | Table d => exists rows, in_turn (row_as width indent (widest (map (fun r => fst (fst r)) d))) d rows /\ out = rows ++ [10]
  | Text t => line t out
  | Array (Row []) => out = []
  | Array v => value_as width indent indent v [] out
  end.
Definition document_as (width : Z) (indent : ustr) : list block -> ustr -> Prop := in_turn (block_as width indent).

(** ** Texts that can be wrapped *)

(** there is room for a character, or at least the text does not start with white space *)
Definition wrappable (width : Z) (first t : ustr) : Prop :=
  Z.of_nat (length first) <= width \/ exists c u, t = c :: u /\ is_space c = false.
Definition value_wrappable (width : Z) (first : ustr) (v : content) (units : ustr) : Prop :=
  match v with
  | One t => wrappable width first (shown_text t units)
  | Row l => wrappable width first (shown_text (list_text l) units)
  | Grid _ => True
  end.
Definition block_wrappable (width : Z) (indent : ustr) (b : block) : Prop :=
  match b with
  | Title t | Section t | Text t => wrappable width indent (shown_text t [])
  | Table d =>
      Forall (fun row => let '(caption, v, units) := row in
        value_wrappable width (indent ++ caption_text (widest (map (fun r => fst (fst r)) d)) caption) v units) d
  | Array v => value_wrappable width indent v []
  end.

(** ** What is to be seen of a document *)

Definition value_ink (first : ustr) (v : content) (units : ustr) : ustr :=
  match v with
  | One t => first ++ ink (shown_text t units)
  | Row l => first ++ ink (shown_text (list_text l) units)
  | Grid _ => []
  end.
Definition block_ink (b : block) : ustr :=
  let line t := ink (shown_text t []) in
  match b with
  | Title t => line (repeat 45 (length t)) ++ line t ++ line (repeat 45 (length t))
  | Section t => line t ++ line (chars (text "--"))
  | Table d => concat (map (fun row => let '(caption, v, units) := row in value_ink (ink caption ++ chars (text ":")) v units) d)
  | Text t => line t
  | Array (Row []) => []
  | Array v => value_ink [] v []
  end.
(** something is to be seen of all values, and none is an array of more dimensions *)
Definition value_visible (v : content) (units : ustr) : Prop :=
  match v with
  | One t => ink (shown_text t units) <> []
  | Row l => ink (shown_text (list_text l) units) <> []
  | Grid _ => False
  end.
Definition block_visible (b : block) : Prop :=
  match b with
  | Table d => Forall (fun row => let '(caption, v, units) := row in value_visible v units) d
  | Array (Grid _) => False
  | _ => True
  end.

(** ** Room *)

(** every line has room for a character behind what it starts with, and no value is an
    array of more dimensions *)
Definition no_grid (v : content) : Prop := match v with Grid _ => False | _ => True end.
Definition block_fits (width : Z) (indent : ustr) (b : block) : Prop :=
  match b with
  | Table d =>
      Forall (fun row => let '(caption, v, units) := row in
        no_grid v /\ Z.of_nat (length (indent ++ caption_text (widest (map (fun r => fst (fst r)) d)) caption)) < width) d
  | Array v => no_grid v /\ Z.of_nat (length indent) < width
  | _ => Z.of_nat (length indent) < width
  end.
(** lines of limited length *)
Definition in_lines (width : Z) (out : ustr) : Prop :=
  exists lines, out = concat (map (fun l => l ++ [10]) lines) /\ Forall (fun l => Z.of_nat (length l) <= width) lines.

(** ** Documents of what is written (C74, C75) *)

Section documents_of.
(** the text of titles, captions and units, and of values *)
Variable name_text : pystr -> ustr.
Variable value_text : DlisDescribe.shown -> content.
Definition unit_text (u : option pystr) : ustr := match u with Some u => name_text u | None => [] end.
(** captions that follow each other are in tables, whichever *)
Definition entry_of (e : pystr * DlisDescribe.shown * option pystr) : DlisDescribe.piece :=
  let '(c, v, u) := e in DlisDescribe.Entry c v u.
Definition row_of (e : pystr * DlisDescribe.shown * option pystr) : ustr * content * ustr :=
  let '(c, v, u) := e in (name_text c, value_text v, unit_text u).
Inductive document_of : list DlisDescribe.piece -> list block -> Prop :=
  | doc_nil : document_of [] []
  | doc_title t ps doc : document_of ps doc -> document_of (DlisDescribe.Title t :: ps) (Title (name_text t) :: doc)
  | doc_section t ps doc : document_of ps doc -> document_of (DlisDescribe.Section t :: ps) (Section (name_text t) :: doc)
  | doc_table d ps doc : document_of ps doc -> document_of (map entry_of d ++ ps) (Table (map row_of d) :: doc)
  | doc_text v t ps doc : value_text v = One t -> document_of ps doc -> document_of (DlisDescribe.Line v :: ps) (Text t :: doc)
  | doc_array v ps doc : document_of ps doc -> document_of (DlisDescribe.Line v :: ps) (Array (value_text v) :: doc).
(** what is to be seen of a piece *)
Definition piece_ink (p : DlisDescribe.piece) : ustr :=
  match p with
  | DlisDescribe.Title t => block_ink (Title (name_text t))
  | DlisDescribe.Section t => block_ink (Section (name_text t))
  | DlisDescribe.Entry c v u => value_ink (ink (name_text c) ++ chars (text ":")) (value_text v) (unit_text u)
  | DlisDescribe.Line v => block_ink (Array (value_text v))
  end.
End documents_of.
