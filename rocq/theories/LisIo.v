(** Model of lib/src/lis/io.cpp: finding, indexing and reading LIS79 records. *)
From Verif Require Import Bytes DlisTypes Stream LisProtocol.
Local Open Scope Z_scope.

(** ** The device *)

(** the exceptions that are told apart (exception.hpp 10-21): eof_error,
    truncation_error, anything else *)
Inductive derror := EofError | TruncationError | OtherError.
Inductive dres (A : Type) := DOk (a : A) | DErr (e : derror) | DFuel.
Arguments DOk {A}. Arguments DErr {A}. Arguments DFuel {A}.

(** A LIS file: the logical stream (Stream.v) and the physical position of its
    first byte.  ptell is the logical position plus this offset plus 12 bytes
    per tapemark on the way; as 12 is a multiple of 4, only the offset matters
    for the alignment. *)
Record device := mk_device { d_stream : stream; d_offset : Z }.
Definition d_data (d : device) : bytes := s_data (d_stream d).
Definition d_size (d : device) : Z := Z.of_nat (length (d_data d)).

(** A call on the device: from the position to the result and the new position.
    eof() holds iff the last read came back short (lfp); a read that throws
    leaves the position at the end. *)
Definition dev (A : Type) := Z -> dres A * Z.
Definition dret {A} (a : A) : dev A := fun pos => (DOk a, pos).
Definition dfail {A} (e : derror) : dev A := fun pos => (DErr e, pos).
Definition dbind {A B} (m : dev A) (k : A -> dev B) : dev B := fun pos =>
  match m pos with
  | (DOk a, pos) => k a pos
  | (DErr e, pos) => (DErr e, pos)
  | (DFuel, pos) => (DFuel, pos)
  end.
Notation "'let+' x := m 'in' k" := (dbind m (fun x => k))
  (at level 200, x pattern, m at level 100, k at level 200, right associativity).

(** file.cpp 17-57 *)
Definition dseek (pos : Z) : dev unit := fun _ => (DOk tt, pos).
Definition dtell : dev Z := fun pos => (DOk pos, pos).
Definition dread (d : device) (n : Z) : dev bytes := fun pos =>
  match read (d_stream d) pos n with
  | Some got => (DOk got, pos + Z.of_nat (length got))
  | None => (DErr OtherError, Z.max pos (d_size d))
  end.
(** nread < n, which here means eof() *)
Definition short (got : bytes) (n : Z) : bool := Z.of_nat (length got) <? n.

(** ** Headers *)

(** io.cpp 172-190; only called after a short read, so at eof *)
Definition header_error {A} (buf : bytes) (nread : Z) : dev A :=
  if (nread =? 0) || is_padbytes buf then dfail EofError else dfail TruncationError.

(** io.cpp 216-222.  A round consumes 4 bytes. *)
Fixpoint skip_padding (fuel : nat) (d : device) (buf : bytes) : dev bytes :=
  match fuel with
  | O => fun pos => (DFuel, pos)
  | S fuel =>
      if negb (is_padbytes buf) then dret buf
      else
        let+ buf := dread d 4 in
        if short buf 4 then header_error buf (Z.of_nat (length buf))
        else skip_padding fuel d buf
  end.

(** io.cpp 227-239: the minimum valid length *)
Definition min_length (attributes : Z) : Z :=
  (if has attributes predces then 4 else 6)
  + (if has attributes reconum then 2 else 0)
  + (if has attributes filenum then 2 else 0)
  + (if has attributes chcksum then 2 else 0).

(** io.cpp 106-248 *)
Definition read_physical_header (d : device) : dev prheader :=
  let+ buf := dread d 4 in
  if short buf 4 then header_error buf (Z.of_nat (length buf))
  else
    let+ buf :=
      if is_padbytes (firstn 2 buf) then
        let+ tell := dtell in
        let alignment := (d_offset d + tell) mod 4 in
        let+ buf :=
          if negb (alignment =? 0) then
            let padbytes := 4 - alignment in
            let tmp := skipn (Z.to_nat padbytes) buf in
            let+ more := dread d padbytes in
            if short more padbytes then header_error (tmp ++ more) (Z.of_nat (length more))
            else dret (tmp ++ more)
          else dret buf in
        skip_padding (S (length (d_data d))) d buf
      else dret buf in
    let head := read_prh buf in
    if prh_length head <? min_length (prh_attributes head) then dfail OtherError
    else dret head.

(** io.cpp 250-263 and protocol.cpp 76-83: the type byte.  The two kinds of short
    reads are told apart as eof_error and io_error. *)
Definition read_logical_header (d : device) : dev Z :=
  let+ buf := dread d 2 in
  match buf with
  | [type; _] => dret (b2z type)
  | [] => dfail EofError
  | _ => dfail OtherError
  end.

(** ** Indexing *)

(** protocol.hpp 144-150 *)
Record record_info := mk_info { ri_type : Z; ri_size : Z; ri_ltell : Z }.

(** io.cpp 275-324.  adjacent_find calls the lambda with pos = 0, 1, ... (a copy
    of its state is fine: it is called in sequence); size = number of pairs. *)
Fixpoint pairs_inconsistent (size pos : nat) (attrs : list Z) : bool :=
  match attrs with
  | n :: ((n1 :: _) as t) =>
      if (pos =? 0)%nat && has n predces then true
      else if (S pos =? size)%nat && has n1 succses then true
      else if negb (has n succses) || negb (has n1 predces) then true
      else pairs_inconsistent size (S pos) t
  | _ => false
  end.
Definition attr_consistent (attrs : list Z) : bool :=
  match attrs with
  | [] => true
  | [a] => negb (has a succses) && negb (has a predces)
  | _ => negb (pairs_inconsistent (length attrs - 1) 0 attrs)
  end.

(** io.cpp 371-401: the total length and the attributes.  Every further header
    adds at least 4 to [length], so the size of the file bounds the rounds. *)
Fixpoint index_loop (fuel : nat) (d : device) (ltell length : Z) (attributes : list Z) (prh : prheader)
    : dev (Z * list Z) :=
  match fuel with
  | O => fun pos => (DFuel, pos)
  | S fuel =>
      if negb (has (prh_attributes prh) succses) then
        let+ _ := dseek (ltell + length - 1) in
        let+ tmp := dread d 1 in
        if short tmp 1 then dfail TruncationError
        else dret (length, attributes)
      else
        let+ _ := dseek (ltell + length) in
        fun pos =>
          match read_physical_header d pos with
          | (DOk prh, pos) =>
              index_loop fuel d ltell (length + prh_length prh) (attributes ++ [prh_attributes prh]) prh pos
          | (DErr EofError, pos) => (DErr TruncationError, pos)
          | (DErr e, pos) => (DErr e, pos)
          | (DFuel, pos) => (DFuel, pos)
          end
  end.

(** io.cpp 328-415 *)
Definition index_record (d : device) : dev record_info :=
  let+ prh := read_physical_header d in
  let+ tell := dtell in
  let ltell := tell - 4 in
  let+ type := fun pos =>
    let buf := dread d 2 pos in
    match read_logical_header d pos with
    (* the io_error of a short read is converted as well; a failing read is not *)
    | (DErr e, pos) => match buf with
                       | (DOk _, _) => (DErr TruncationError, pos)
                       | _ => (DErr e, pos)
                       end
    | r => r
    end in
  if negb (valid_rectype type) then dfail OtherError
  else
    let+ (length, attributes) :=
      index_loop (S (length (d_data d))) d ltell (prh_length prh) [prh_attributes prh] prh in
    if negb (attr_consistent attributes) then dfail OtherError
    else dret (mk_info type length ltell).

(** io.hpp 43-114; [ix_incomplete] is is_incomplete(); the text is not modelled *)
Record record_index := mk_index {
  ix_explicits : list record_info; ix_implicits : list record_info; ix_incomplete : bool }.

(** io.cpp 440-451 *)
Definition reposition_tell (d : device) : dev unit := fun pos =>
  match index_record d pos with
  | (DOk next, _) => (DOk tt, ri_ltell next)
  | (DErr _, pos) => (DOk tt, pos)
  | (DFuel, pos) => (DFuel, pos)
  end.

(** io.cpp 453-516 *)
Fixpoint index_records_loop (fuel : nat) (d : device) (ex im : list record_info) : dev record_index :=
  match fuel with
  | O => fun pos => (DFuel, pos)
  | S fuel => fun pos =>
      match index_record d pos with
      | (DFuel, pos) => (DFuel, pos)
      | (DErr EofError, pos) => (DOk (mk_index ex im false), pos)
      | (DErr _, pos) => (DOk (mk_index ex im true), pos)
      | (DOk info, pos) =>
          let type := ri_type info in
          let implicit := (type =? 0) || (type =? 1) in
          let im' := if implicit then im ++ [info] else im in
          let ex' := if implicit then ex else ex ++ [info] in
          if (type =? 132) || (type =? 133) || (type =? 130) || (type =? 131) then
            if (1 <? length ex')%nat then (DOk (mk_index ex im' false), ri_ltell info)
            else dbind (reposition_tell d) (fun _ => dret (mk_index ex' im' false)) pos
          else if type =? 128 then
            if (length ex' =? 1)%nat then index_records_loop fuel d ex' im' pos
            else (DOk (mk_index ex im' false), ri_ltell info)
          else if (type =? 137) || (type =? 129) then
            dbind (reposition_tell d) (fun _ => dret (mk_index ex' im' false)) pos
          else index_records_loop fuel d ex' im' pos
      end
  end.
(** io.cpp 422-519.  Every record found has at least 6 bytes. *)
Definition index_records (d : device) : dev record_index :=
  index_records_loop (S (length (d_data d))) d [] [].

(** ** Reading *)

(** io.cpp 531-534 *)
Definition trailer_length (attributes : Z) : Z :=
  (if has attributes reconum then 2 else 0)
  + (if has attributes filenum then 2 else 0)
  + (if has attributes chcksum then 2 else 0).

(** io.cpp 528-560.  Each header consumes 4 bytes. *)
Fixpoint read_record_loop (fuel : nat) (d : device) (data : bytes) : dev bytes :=
  match fuel with
  | O => fun pos => (DFuel, pos)
  | S fuel =>
      let+ prh := read_physical_header d in
      let trlen := trailer_length (prh_attributes prh) in
      let+ tell := dtell in
      let first := negb (has (prh_attributes prh) predces) in
      let toread := prh_length prh - 4 - trlen - (if first then 2 else 0) in
      let+ _ := if first then dseek (tell + 2) else dret tt in
      let+ got := dread d toread in
      if short got toread then dfail OtherError
      else
        let+ tell := dtell in
        let+ _ := dseek (tell + trlen) in
        if negb (has (prh_attributes prh) succses) then dret (data ++ got)
        else read_record_loop fuel d (data ++ got)
  end.
(** io.cpp 521-562 *)
Definition read_record (d : device) (info : record_info) : dev bytes :=
  let+ _ := dseek (ri_ltell info) in
  read_record_loop (S (length (d_data d))) d [].

(** io.cpp 564-574: the data with the infos *)
Fixpoint read_records_of (d : device) (infos : list record_info) (type : Z) : dev (list (record_info * bytes)) :=
  match infos with
  | [] => dret []
  | i :: t =>
      if ri_type i =? type then
        let+ r := read_record d i in
        let+ rs := read_records_of d t type in
        dret ((i, r) :: rs)
      else read_records_of d t type
  end.
Definition read_records (d : device) (ix : record_index) (type : Z) : dev (list (record_info * bytes)) :=
  read_records_of d (ix_explicits ix) type.

(** ** Data records of a format specification *)

(** std::upper_bound( ..., tell, lt ): the first element with tell < ltell.  The
    binary search and this linear search agree on ordered ranges. *)
Fixpoint upper_bound (tell : Z) (l : list record_info) : nat :=
  match l with
  | [] => 0
  | i :: t => if tell <? ri_ltell i then 0 else S (upper_bound tell t)
  end.
(** the elements from the first one satisfying [p] on (std::find_if) *)
Fixpoint find_from {A} (p : A -> bool) (l : list A) : list A :=
  match l with
  | [] => []
  | x :: t => if p x then l else find_from p t
  end.
(** io.cpp 61-102; None is std::invalid_argument *)
Definition implicits_of (ix : record_index) (dfsr_tell : Z) : option (list record_info) :=
  match find_from (fun i => ri_ltell i =? dfsr_tell) (ix_explicits ix) with
  | [] => None
  | curr :: after =>
      let from := skipn (upper_bound (ri_ltell curr) (ix_implicits ix)) (ix_implicits ix) in
      match find_from (fun i => ri_type i =? 64) after with
      | [] => Some from
      | next :: _ => Some (firstn (upper_bound (ri_ltell next) from) from)
      end
  end.

(** ** Opening *)

(** io.cpp 603-631: None is an exception *)
Definition open_device (d : device) : option derror :=
  match dread d 1 0 with
  | (DOk got, _) => if short got 1 then Some EofError else None
  | _ => Some OtherError
  end.
