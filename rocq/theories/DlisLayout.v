(** Model of the layout of describe: python/dlisio/dlis/utils/describe.py 130-142 and
    216-301 (describe_header, describe_dict, describe_text, describe_array), and of
    textwrap.fill, with which they wrap texts.  What is written, and in which order, is
    modelled in DlisDescribe: describe and describe_attr write by these four functions
    only (basicobject.py 329-345, frame.py 498-525, file.py 105-118 and 632-656).  The
    texts of values, str(x), are given. *)
From Verif Require Import Bytes Stream DlisRecords DlisObject.
Local Open Scope Z_scope.

Definition ustr : Type := list Z.
Definition chars (s : bytes) : ustr := map b2z s.
(** [c.strip() == ''] *)
Definition blank_text (u : ustr) : bool := forallb is_space u.

Section layout.
(** TextWrapper._split: a regular expression splits a text into words, parts of words and
    white space.  External. *)
Variable split : ustr -> list ustr.
(** where TextWrapper._handle_long_word breaks a word of which [left] characters fit: there
    or behind a hyphen, depending on the version of Python.  External. *)
Variable break_at : ustr -> Z -> Z.

(** ** textwrap.fill *)

(** str.expandtabs(8) *)
Fixpoint expandtabs (col : nat) (u : ustr) : ustr :=
  match u with
  | [] => []
  | c :: t =>
      if c =? 9 then repeat 32 (8 - col mod 8) ++ expandtabs 0 t
      else c :: expandtabs (if (c =? 10) || (c =? 13) then O else S col) t
  end.
(** TextWrapper._munge_whitespace *)
Definition munge (u : ustr) : ustr :=
  map (fun c => if ((9 <=? c) && (c <=? 13)) || (c =? 32) then 32 else c) (expandtabs 0 u).
(** the inner loop of TextWrapper._wrap_chunks: the chunks that fit into [room] and the
    others *)
Fixpoint fit (room : Z) (chunks : list ustr) : list ustr * list ustr :=
  match chunks with
  | [] => ([], [])
  | c :: cs =>
      if Z.of_nat (length c) <=? room
      then let '(line, rest) := fit (room - Z.of_nat (length c)) cs in (c :: line, rest)
      else ([], chunks)
  end.
(** TextWrapper._handle_long_word, with the condition under which it is called *)
Definition long_word (width : Z) (line rest : list ustr) : list ustr * list ustr :=
  match rest with
  | c :: cs =>
      if width <? Z.of_nat (length c)
      then
        let left := if width <? 1 then 1 else width - Z.of_nat (length (concat line)) in
        let cut := Z.to_nat (if left <? Z.of_nat (length c) then break_at c left else left) in
        (line ++ [firstn cut c], skipn cut c :: cs)
      else (line, rest)
  | [] => (line, rest)
  end.
(** white space at the end of a line *)
Definition drop_last (line : list ustr) : list ustr :=
  match rev line with
  | c :: r => if blank_text c then rev r else line
  | [] => line
  end.
(** TextWrapper._wrap_chunks.  Fuel is for what may go on forever. *)
Fixpoint wrap_chunks (fuel : nat) (width : Z) (initial subsequent : ustr) (lines chunks : list ustr) : res (list ustr) :=
  match fuel with
  | O => Fuel
  | S fuel =>
      match chunks with
      | [] => Ok lines
      | c :: cs =>
          let indent := match lines with [] => initial | _ => subsequent end in
          let w := width - Z.of_nat (length indent) in
          let chunks := match lines with [] => chunks | _ => if blank_text c then cs else chunks end in
          let '(line, rest) := fit w chunks in
          let '(line, rest) := long_word w line rest in
          let line := drop_last line in
          wrap_chunks fuel width initial subsequent
            (match line with [] => lines | _ => lines ++ [indent ++ concat line] end) rest
      end
  end.
(** textwrap.wrap; a width that is not positive is a ValueError *)
Definition wrap (fuel : nat) (width : Z) (initial subsequent text : ustr) : res (list ustr) :=
  if width <=? 0 then Exn else wrap_chunks fuel width initial subsequent [] (split (munge text)).
(** "\n".join *)
Fixpoint join_lines (lines : list ustr) : ustr :=
  match lines with [] => [] | [l] => l | l :: ls => l ++ 10 :: join_lines ls end.

(** ** describe.py *)

(** the text of a value: str(x) of something that is no sequence, those of the elements of
    a list, or what np.array2string makes of an array with more dimensions, given the
    prefix and the width.  External. *)
Inductive content := One (t : ustr) | Row (l : list ustr) | Grid (t : ustr -> Z -> ustr).

(** describe.py 244-261; [units] is empty if there are none *)
Definition units_text (units : ustr) : ustr :=
  match units with [] => [] | _ => chars (text " [") ++ units ++ chars (text "]") end.
Definition describe_text (fuel : nat) (t : ustr) (width : Z) (indent subindent units : ustr) : res ustr :=
  let t := match t with [] => chars (text """""") | _ => t end in
  let! lines := wrap fuel width indent subindent (t ++ units_text units) in
  Ok (join_lines lines ++ [10]).
(** describe.py 130-142 *)
Definition describe_header1 (fuel : nat) (t : ustr) (width : Z) (indent : ustr) : res ustr :=
  let sep := repeat (b2z "-"%byte) (length t) in
  let! a := describe_text fuel sep width indent indent [] in
  let! b := describe_text fuel t width indent indent [] in
  let! c := describe_text fuel sep width indent indent [] in
  Ok (a ++ b ++ c).
Definition describe_header2 (fuel : nat) (t : ustr) (width : Z) (indent : ustr) : res ustr :=
  let! a := describe_text fuel t width indent indent [] in
  let! b := describe_text fuel (chars (text "--")) width indent indent [] in
  Ok (a ++ b).
(** str.ljust *)
Definition ljust (n : nat) (u : ustr) : ustr := u ++ repeat 32 (n - length u).
(** len(max(l, key=len)) *)
Definition longest (l : list ustr) : nat := fold_right (fun u n => Nat.max (length u) n) O l.
(** ' '.join *)
Fixpoint join_spaces (l : list ustr) : ustr :=
  match l with [] => [] | [u] => u | u :: t => u ++ 32 :: join_spaces t end.
(** describe.py 263-301 *)
Definition describe_array (fuel : nat) (a : content) (width : Z) (indent subindent : ustr) (writeempty : bool) (units : ustr) : res ustr :=
  match a with
  | One t => describe_text fuel t width indent subindent units
  | Row [] => if writeempty then describe_text fuel (chars (text "[]")) width indent subindent units else Ok []
  | Row [t] => describe_text fuel t width indent subindent units
  | Row l => describe_text fuel (join_spaces (map (ljust (longest l)) l)) width indent subindent units
  | Grid g => Ok (indent ++ g subindent width ++ units_text units ++ [10])
  end.
(** describe.py 224-241: the prefix of a row, and a row *)
Definition prefix (keylen : nat) (indent caption : ustr) : ustr := indent ++ ljust keylen caption ++ chars (text " : ").
Definition describe_row (fuel : nat) (width : Z) (indent : ustr) (keylen : nat) (row : ustr * content * ustr) : res ustr :=
  let '(caption, value, units) := row in
  let p := prefix keylen indent caption in
  let subindent := repeat 32 (length p) in
  match value with
  | One t => describe_text fuel t width p subindent units
  | _ => describe_array fuel value width p subindent true units
  end.
Fixpoint describe_rows (fuel : nat) (width : Z) (indent : ustr) (keylen : nat) (d : list (ustr * content * ustr)) : res ustr :=
  match d with
  | [] => Ok []
  | row :: d =>
      let! a := describe_row fuel width indent keylen row in
      let! b := describe_rows fuel width indent keylen d in
      Ok (a ++ b)
  end.
(** describe.py 216-242, after remove_empties *)
Definition describe_dict (fuel : nat) (width : Z) (indent : ustr) (d : list (ustr * content * ustr)) : res ustr :=
  match d with
  | [] => Ok []
  | _ =>
      let! a := describe_rows fuel width indent (longest (map (fun r => fst (fst r)) d)) d in
      Ok (a ++ [10])
  end.

(** what describe writes, one call after the other *)
Inductive block :=
  | Title (t : ustr)                                 (* describe_header, lvl 1 *)
  | Section (t : ustr)                               (* describe_header, lvl 2 *)
  | Table (d : list (ustr * content * ustr))         (* describe_dict *)
  | Text (t : ustr)                                  (* describe_text *)
  | Array (a : content).                             (* describe_array *)
Definition describe_block (fuel : nat) (width : Z) (indent : ustr) (b : block) : res ustr :=
  match b with
  | Title t => describe_header1 fuel t width indent
  | Section t => describe_header2 fuel t width indent
  | Table d => describe_dict fuel width indent d
  | Text t => describe_text fuel t width indent indent []
  | Array a => describe_array fuel a width indent indent false []
  end.
(** basicobject.py 326-345, file.py 105-118 and 632-656: the contents of the buffer *)
Fixpoint describe_blocks (fuel : nat) (width : Z) (indent : ustr) (doc : list block) : res ustr :=
  match doc with
  | [] => Ok []
  | b :: doc =>
      let! x := describe_block fuel width indent b in
      let! y := describe_blocks fuel width indent doc in
      Ok (x ++ y)
  end.
End layout.
