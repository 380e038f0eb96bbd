(** Model of lib/src/dlis/dlisio.cpp: storage unit label, envelope headers,
    component descriptors, segment trimming, format-string unpacking and
    fingerprints. *)
From Verif Require Import Bytes DlisTypes.
Local Open Scope Z_scope.

(** lib/include/dlisio/dlis/dlisio.h 454-462 (error codes) *)
Inductive err :=
  | DLIS_OK | DLIS_INCONSISTENT | DLIS_UNEXPECTED_VALUE | DLIS_INVALID_ARGS
  | DLIS_TRUNCATED | DLIS_BAD_SIZE | DLIS_NOTFOUND.

Definition err_is_ok (e : err) : bool := match e with DLIS_OK => true | _ => false end.

(** ** Storage unit label *)

(** std::isspace / std::isdigit in the "C" locale.  For chars >= 0x80 the C
    argument is negative when char is signed (formally undefined); glibc's table
    answers false, which is what is modelled. *)
Definition c_isspace (b : byte) : bool :=
  let c := b2z b in ((9 <=? c) && (c <=? 13)) || (c =? 32).
Definition c_isdigit (b : byte) : bool :=
  let c := b2z b in (48 <=? c) && (c <=? 57).

(** the C string starting at the front of a zero-filled buffer *)
Fixpoint cstr (xs : bytes) : bytes :=
  match xs with
  | [] => []
  | b :: t => if b2z b =? 0 then [] else b :: cstr t
  end.

Fixpoint drop_while (f : byte -> bool) (xs : bytes) : bytes :=
  match xs with
  | [] => []
  | b :: t => if f b then drop_while f t else xs
  end.
Fixpoint take_while (f : byte -> bool) (xs : bytes) : bytes :=
  match xs with
  | [] => []
  | b :: t => if f b then b :: take_while f t else []
  end.

(** dlisio.cpp 17-48; [xs] is the C string without its terminator *)
Definition is_sul_number_field_valid (f : byte -> bool) (xs : bytes) : bool :=
  match drop_while c_isspace xs with
  | [] => false
  | ys => forallb c_isspace (drop_while f ys)
  end.
(** dlisio.cpp 50-53 *)
Definition is_zero_string (xs : bytes) : bool :=
  is_sul_number_field_valid (fun c => b2z c =? 48) xs.
(** dlisio.cpp 55-58 *)
Definition is_number_string (xs : bytes) : bool :=
  is_sul_number_field_valid c_isdigit xs.

(** std::atoi/std::atol (used at dlisio.cpp 144, 157): leading white space, an
    optional sign, then decimal digits.  At most 5 characters, so no overflow. *)
Definition atoi (xs : bytes) : Z :=
  let digits ys := fold_left (fun acc b => acc * 10 + (b2z b - 48)) (take_while c_isdigit ys) 0 in
  match drop_while c_isspace xs with
  | [] => 0
  | b :: t => if b2z b =? 45 then - digits t else if b2z b =? 43 then digits t else digits (b :: t)
  end.

(** dlisio.cpp 60-104: [Some (major, minor)] is DLIS_OK, [None] is
    DLIS_UNEXPECTED_VALUE *)
Definition parse_revision (inp : bytes) : option (Z * Z) :=
  if bytes_eqb inp (text "V1.00") then Some (1, 0)
  else
    match inp with
    | [v; n; dot; m1; m2] =>
        if beqb v "V"%byte && c_isdigit n && beqb dot "."%byte && c_isdigit m1 && c_isdigit m2
        then Some (b2z n - 48, (b2z m1 - 48) * 10 + (b2z m2 - 48))
        else None
    | _ => None
    end.

(** the characters [xs + off, xs + off + n) *)
Definition field (off n : nat) (xs : bytes) : bytes := firstn n (skipn off xs).

(** The output parameters of dlis_sul; [None] = left untouched. *)
Record sul_out := mk_sul {
  so_seqnum : option Z; so_major : option Z; so_minor : option Z;
  so_layout_record : bool; so_maxlen : option Z; so_id : option bytes }.

(** dlisio.cpp 123-211, for non-null output pointers (as in the only caller,
    ext/dlis.cpp 206-212).  The 8 byte buffer is zero-filled, so each number
    field is the C string of its characters. *)
Definition sulv1 (xs : bytes) : err * (option Z * option Z * bool * bytes) :=
  let buf_seq := cstr (field 0 4 xs) in
  let seq := if is_number_string buf_seq then atoi buf_seq else -1 in
  let buf_len := cstr (field 15 5 xs) in
  let len := if is_number_string buf_len then atoi buf_len else -1 in
  let rec := bytes_eqb (field 9 6 xs) (text "RECORD") in
  let seqnum := if seq >? 0 then Some seq else None in
  let maxlen := if len >? 0 then Some len else None in
  let id := field 20 60 xs in
  if (seq >? 0) && (len >? 0) && rec then (DLIS_OK, (seqnum, maxlen, rec, id))
  else if seq <=? 0 then (DLIS_INCONSISTENT, (seqnum, maxlen, rec, id))
  else if len <? 0 then (DLIS_INCONSISTENT, (seqnum, maxlen, rec, id))
  else if negb rec then (DLIS_INCONSISTENT, (seqnum, maxlen, rec, id))
  else if len =? 0 then
    if negb (is_zero_string buf_len) then (DLIS_INCONSISTENT, (seqnum, maxlen, rec, id))
    else (DLIS_OK, (seqnum, Some 0, rec, id))
  else (DLIS_OK, (seqnum, maxlen, rec, id)).

(** dlisio.cpp 215-260; needs 80 readable bytes, [None] otherwise *)
Definition dlis_sul (xs : bytes) : option (err * sul_out) :=
  if (length xs <? 80)%nat then None
  else
    let rev := parse_revision (field 4 5 xs) in
    let '(vmajor, vminor) := match rev with Some v => v | None => (1, 0) end in
    if (vmajor =? 1) && (vminor =? 0) then
      let '(errv1, (seqnum, maxlen, rec, id)) := sulv1 xs in
      let e := if err_is_ok errv1 && match rev with Some _ => true | None => false end
               then DLIS_OK else DLIS_INCONSISTENT in
      Some (e, mk_sul seqnum (Some 1) (Some 0) rec maxlen (Some id))
    else Some (DLIS_UNEXPECTED_VALUE, mk_sul None None None false None None).

(** python/dlisio/ext/dlis.cpp 188-245: what the user gets.  [label_warning]:
    a RuntimeWarning was issued.  The id is the C string in id[61]; its decoding
    to a Python str is not modelled. *)
Record label := mk_label {
  label_warning : bool; label_sequence : Z; label_major : Z; label_minor : Z;
  label_layout : bytes; label_maxlen : Z; label_id : bytes }.
Inductive label_result :=
  | LabelTooSmall                 (* std::invalid_argument *)
  | LabelUnparsable               (* ValueError *)
  | LabelOk (l : label).

Definition storage_label (xs : bytes) : label_result :=
  if (length xs <? 80)%nat then LabelTooSmall
  else
    match dlis_sul xs with
    | None => LabelTooSmall
    | Some (e, o) =>
        let dflt {A} (d : A) (v : option A) := match v with Some x => x | None => d end in
        let l w := mk_label w (dflt (-1) (so_seqnum o)) (dflt (-1) (so_major o))
                     (dflt (-1) (so_minor o))
                     (if so_layout_record o then text "record" else text "unknown")
                     (dflt 0 (so_maxlen o)) (cstr (dflt [] (so_id o))) in
        match e with
        | DLIS_OK => LabelOk (l false)
        | DLIS_UNEXPECTED_VALUE => LabelUnparsable
        | DLIS_INCONSISTENT => LabelOk (l true)
        | _ => LabelOk (l false)
        end
    end.

(** ** Searching *)

Fixpoint is_prefix (needle hay : bytes) : bool :=
  match needle, hay with
  | [], _ => true
  | n :: ns, h :: hs => beqb n h && is_prefix ns hs
  | _ :: _, [] => false
  end.

(** std::search: offset of the first match, [None] = the end iterator *)
Fixpoint search (needle hay : bytes) : option nat :=
  if is_prefix needle hay then Some O
  else match hay with
       | [] => None
       | _ :: t => match search needle t with Some k => Some (S k) | None => None end
       end.

(** dlisio.cpp 262-283; [hay] is [from, from + search_limit) *)
Definition dlis_find_sul (hay : bytes) : err * option Z :=
  match search (text "RECORD") hay with
  | None => (DLIS_NOTFOUND, None)
  | Some k =>
      if Z.of_nat k <? 9 then (DLIS_INCONSISTENT, None)
      else (DLIS_OK, Some (Z.of_nat k - 9))
  end.

(** dlisio.cpp 285-324 *)
Definition dlis_find_vrl (hay : bytes) : err * option Z :=
  match search [xff; x01] hay with
  | None => (DLIS_NOTFOUND, None)
  | Some k =>
      if Z.of_nat k <? 2 then (DLIS_INCONSISTENT, None)
      else (DLIS_OK, Some (Z.of_nat k - 2))
  end.

(** ** Headers *)

(** dlisio.cpp 345-365: (length, version) *)
Definition dlis_vrl (xs : bytes) : option (Z * Z) :=
  do (len, xs1) <- dlis_unorm xs;
  do (_, xs2) <- take 1 xs1;
  do (major, _) <- dlis_ushort xs2;
  Some (len, major).

(** dlisio.cpp 382-398: (seglen, attrs, type) *)
Definition dlis_lrsh (xs : bytes) : option (Z * Z * Z) :=
  do (len, xs1) <- dlis_unorm xs;
  do (attr, xs2) <- dlis_ushort xs1;
  do (typ, _) <- dlis_ushort xs2;
  Some (len, attr, typ).

(** dlisio.h 372-381 (enum dlis_segment_attribute) *)
Definition SEGATTR_EXFMTLR : Z := 128.
Definition SEGATTR_PREDSEG : Z := 64.
Definition SEGATTR_SUCCSEG : Z := 32.
Definition SEGATTR_ENCRYPT : Z := 16.
Definition SEGATTR_ENCRPKT : Z := 8.
Definition SEGATTR_CHCKSUM : Z := 4.
Definition SEGATTR_TRAILEN : Z := 2.
Definition SEGATTR_PADDING : Z := 1.

(** [attrs & bit] used as a condition *)
Definition has (attrs bit : Z) : bool := negb (Z.land attrs bit =? 0).

Record segattr := mk_segattr {
  sa_explicit : Z; sa_predecessor : Z; sa_successor : Z; sa_encrypted : Z;
  sa_encpacket : Z; sa_checksum : Z; sa_trailing_length : Z; sa_padding : Z }.

(** dlisio.cpp 400-418 *)
Definition dlis_segment_attributes (attrs : Z) : segattr :=
  mk_segattr (Z.land attrs SEGATTR_EXFMTLR) (Z.land attrs SEGATTR_PREDSEG)
             (Z.land attrs SEGATTR_SUCCSEG) (Z.land attrs SEGATTR_ENCRYPT)
             (Z.land attrs SEGATTR_ENCRPKT) (Z.land attrs SEGATTR_CHCKSUM)
             (Z.land attrs SEGATTR_TRAILEN) (Z.land attrs SEGATTR_PADDING).

(** dlisio.cpp 420-438: (err, Some (len, companycode)) *)
Definition dlis_encryption_packet_info (xs : bytes) : option (err * option (Z * Z)) :=
  do (ln, xs1) <- dlis_unorm xs;
  do (cc, _) <- dlis_unorm xs1;
  Some (if ln - 4 <? 0 then (DLIS_INCONSISTENT, None)
        else if negb (ln mod 2 =? 0) then (DLIS_UNEXPECTED_VALUE, None)
        else (DLIS_OK, Some (ln - 4, cc))).

(** ** Component descriptors *)

(** dlisio.h 435-444 (enum dlis_component_role) *)
Definition ROLE_ABSATR : Z := 0.
Definition ROLE_ATTRIB : Z := 0x20.
Definition ROLE_INVATR : Z := 0x40.
Definition ROLE_OBJECT : Z := 0x60.
Definition ROLE_RESERV : Z := 0x80.
Definition ROLE_RDSET : Z := 0xA0.
Definition ROLE_RSET : Z := 0xC0.
Definition ROLE_SET : Z := 0xE0.

(** dlisio.cpp 440-444 *)
Definition dlis_component (comp : Z) : Z := Z.land comp (128 + 64 + 32).

(** dlisio.cpp 446-461: Some (type, name) is DLIS_OK, None is UNEXPECTED_VALUE *)
Definition dlis_component_set (desc role : Z) : option (Z * Z) :=
  if (role =? ROLE_RDSET) || (role =? ROLE_RSET) || (role =? ROLE_SET)
  then Some (Z.land desc 16, Z.land desc 8) else None.

(** dlisio.cpp 463-469 *)
Definition dlis_component_object (desc role : Z) : option Z :=
  if negb (role =? ROLE_OBJECT) then None else Some (Z.land desc 16).

(** dlisio.cpp 471-494: (label, count, reprc, units, value) *)
Definition dlis_component_attrib (desc role : Z) : option (Z * Z * Z * Z * Z) :=
  if (role =? ROLE_ATTRIB) || (role =? ROLE_INVATR)
  then Some (Z.land desc 16, Z.land desc 8, Z.land desc 4, Z.land desc 2, Z.land desc 1)
  else None.

(** dlisio.cpp 496-508 *)
Definition dlis_component_str (tag : Z) : bytes :=
  if tag =? ROLE_ABSATR then text "absent attribute"
  else if tag =? ROLE_ATTRIB then text "attribute"
  else if tag =? ROLE_INVATR then text "invariant attribute"
  else if tag =? ROLE_OBJECT then text "object"
  else if tag =? ROLE_RESERV then text "reserved"
  else if tag =? ROLE_RDSET then text "redundant set"
  else if tag =? ROLE_RSET then text "replacement set"
  else if tag =? ROLE_SET then text "set"
  else text "unknown".

(** ** Segment trimming *)

(** dlisio.cpp 510-536.  [seg] is [begin, end); [before] is the part of the
    same allocation that precedes [begin] (the pad count is read at
    [end - 1 - trim], which may lie before [begin]); [None] = out of bounds.
    Otherwise (error, *size).  [dist < 0] cannot happen for a list. *)
Definition dlis_trim_record_segment (descriptor : Z) (before seg : bytes) : option (err * Z) :=
  let dist := Z.of_nat (length seg) in
  let trim :=
    if negb (has descriptor SEGATTR_ENCRYPT) then
      let trim := if has descriptor SEGATTR_CHCKSUM then 2 else 0 in
      let trim := trim + (if has descriptor SEGATTR_TRAILEN then 2 else 0) in
      if has descriptor SEGATTR_PADDING then
        let at_ := Z.of_nat (length before) + dist - 1 - trim in
        if at_ <? 0 then None
        else match nth_error (before ++ seg) (Z.to_nat at_) with
             | Some b => Some (trim + b2z b)
             | None => None
             end
      else Some trim
    else Some 0 in
  do t <- trim;
  Some (if t >? dist then DLIS_BAD_SIZE else DLIS_OK, t).

(** ** Unpacking *)

(** dlisio.h 231-258; one constructor per DLIS_FMT character (EOL is the end of
    the list of characters) *)
Inductive fmt :=
  | FSHORT | FSINGL | FSING1 | FSING2 | ISINGL | VSINGL | FDOUBL | FDOUB1 | FDOUB2
  | CSINGL | CDOUBL | SSHORT | SNORM | SLONG | USHORT | UNORM | ULONG | UVARI
  | IDENT | ASCII | DTIME | ORIGIN | OBNAME | OBJREF | ATTREF | STATUS | UNITS.

Definition fmt_of_byte (b : byte) : option fmt :=
  match b with
  | "r" => Some FSHORT | "f" => Some FSINGL | "b" => Some FSING1 | "B" => Some FSING2
  | "x" => Some ISINGL | "V" => Some VSINGL | "F" => Some FDOUBL | "z" => Some FDOUB1
  | "Z" => Some FDOUB2 | "c" => Some CSINGL | "C" => Some CDOUBL | "d" => Some SSHORT
  | "D" => Some SNORM | "l" => Some SLONG | "u" => Some USHORT | "U" => Some UNORM
  | "L" => Some ULONG | "i" => Some UVARI | "s" => Some IDENT | "S" => Some ASCII
  | "j" => Some DTIME | "J" => Some ORIGIN | "o" => Some OBNAME | "O" => Some OBJREF
  | "A" => Some ATTREF | "q" => Some STATUS | "Q" => Some UNITS
  | _ => None
  end%byte.

(** dlisio.cpp 555-573 *)
Record cursor := mk_cursor {
  cur_src : option bytes;   (* None = nullptr (invalid) *)
  cur_dst : option bytes;   (* None = nullptr; Some w = w has been written *)
  cur_written : Z }.

(** A C++ value as it lies in memory on a little-endian host *)
Definition native (n : nat) (z : Z) : bytes := enc_le n (z mod 256 ^ Z.of_nat n).

(** the arguments of pack(dst, ptrs...) *)
Inductive arg :=
  | Scalar (size : nat) (v : Z)      (* a T with sizeof(T) = size *)
  | Str (s : bytes).                 (* an (int32_t len, char* str) pair *)

(** dlisio.cpp 585-612: returns the new dst and the size *)
Fixpoint pack (dst : option bytes) (args : list arg) : option bytes * Z :=
  match args with
  | [] => (dst, 0)
  | Scalar n v :: t =>
      let dst' := match dst with Some d => Some (d ++ native n v) | None => None end in
      let '(d, k) := pack dst' t in (d, Z.of_nat n + k)
  | Str s :: t =>
      let dst' := match dst with
                  | Some d => Some (d ++ native 4 (Z.of_nat (length s)) ++ s)
                  | None => None end in
      let '(d, k) := pack dst' t in (d, 4 + Z.of_nat (length s) + k)
  end.

(** the reader called for each format character and the variables it fills,
    dlisio.cpp 685-724 with the prototypes of types.h: float is 4 bytes, double
    8, int and int32_t 4 *)
Definition interpret (f : fmt) (src : bytes) : option (list arg * bytes) :=
  let one {A} (rd : option (A * bytes)) (g : A -> list arg) :=
    do (v, r) <- rd; Some (g v, r) in
  match f with
  | FSHORT => one (dlis_fshort src) (fun v => [Scalar 4 v])
  | FSINGL => one (dlis_fsingl src) (fun v => [Scalar 4 v])
  | FSING1 => one (dlis_fsing1 src) (fun '(v, a) => [Scalar 4 v; Scalar 4 a])
  | FSING2 => one (dlis_fsing2 src) (fun '(v, a, b) => [Scalar 4 v; Scalar 4 a; Scalar 4 b])
  | ISINGL => one (dlis_isingl src) (fun v => [Scalar 4 v])
  | VSINGL => one (dlis_vsingl src) (fun v => [Scalar 4 v])
  | FDOUBL => one (dlis_fdoubl src) (fun v => [Scalar 8 v])
  | FDOUB1 => one (dlis_fdoub1 src) (fun '(v, a) => [Scalar 8 v; Scalar 8 a])
  | FDOUB2 => one (dlis_fdoub2 src) (fun '(v, a, b) => [Scalar 8 v; Scalar 8 a; Scalar 8 b])
  | CSINGL => one (dlis_csingl src) (fun '(v, a) => [Scalar 4 v; Scalar 4 a])
  | CDOUBL => one (dlis_cdoubl src) (fun '(v, a) => [Scalar 8 v; Scalar 8 a])
  | SSHORT => one (dlis_sshort src) (fun v => [Scalar 1 v])
  | SNORM => one (dlis_snorm src) (fun v => [Scalar 2 v])
  | SLONG => one (dlis_slong src) (fun v => [Scalar 4 v])
  | USHORT => one (dlis_ushort src) (fun v => [Scalar 1 v])
  | UNORM => one (dlis_unorm src) (fun v => [Scalar 2 v])
  | ULONG => one (dlis_ulong src) (fun v => [Scalar 4 v])
  | UVARI => one (dlis_uvari src) (fun v => [Scalar 4 v])
  | IDENT => one (dlis_ident src) (fun s => [Str s])
  | ASCII => one (dlis_ascii src) (fun s => [Str s])
  | DTIME => one (dlis_dtime src) (fun t =>
      [Scalar 4 (dt_Y t); Scalar 4 (dt_TZ t); Scalar 4 (dt_M t); Scalar 4 (dt_D t);
       Scalar 4 (dt_H t); Scalar 4 (dt_MN t); Scalar 4 (dt_S t); Scalar 4 (dt_MS t)])
  | ORIGIN => one (dlis_origin src) (fun v => [Scalar 4 v])
  | OBNAME => one (dlis_obname src) (fun n =>
      [Scalar 4 (ob_origin n); Scalar 1 (ob_copy n); Str (ob_id n)])
  | OBJREF => one (dlis_objref src) (fun n =>
      [Str (or_type n); Scalar 4 (ob_origin (or_name n)); Scalar 1 (ob_copy (or_name n));
       Str (ob_id (or_name n))])
  | ATTREF => one (dlis_attref src) (fun n =>
      [Str (ar_type n); Scalar 4 (ob_origin (ar_name n)); Scalar 1 (ob_copy (ar_name n));
       Str (ob_id (ar_name n)); Str (ar_label n)])
  | STATUS => one (dlis_status src) (fun v => [Scalar 1 v])
  | UNITS => one (dlis_units src) (fun s => [Str s])
  end.

(** dlisio.cpp 668-730; outer [None] = out-of-bounds read of src.  [f] holds the
    characters before the NUL terminator. *)
Fixpoint packf (f : bytes) (cur : cursor) : option cursor :=
  match f with
  | [] => Some cur
  | c :: t =>
      match fmt_of_byte c with
      | None => Some (mk_cursor None (cur_dst cur) (cur_written cur))
      | Some x =>
          do src <- cur_src cur;
          do (args, src') <- interpret x src;
          let '(dst', written) := pack (cur_dst cur) args in
          packf t (mk_cursor (Some src') dst' (cur_written cur + written))
      end
  end.

Inductive packf_result :=
  | PackOob                              (* reads outside the source *)
  | PackErr                              (* DLIS_UNEXPECTED_VALUE *)
  | PackOk (out : bytes).                (* DLIS_OK; bytes written to dst *)
(** dlisio.cpp 734-746 *)
Definition dlis_packf (f src : bytes) : packf_result :=
  match packf f (mk_cursor (Some src) (Some []) 0) with
  | None => PackOob
  | Some c => match cur_src c, cur_dst c with
              | Some _, Some out => PackOk out
              | _, _ => PackErr
              end
  end.

Inductive packflen_result :=
  | LenOob
  | LenErr
  | LenOk (nread nwrite : Z).
(** dlisio.cpp 748-758 *)
Definition dlis_packflen (f src : bytes) : packflen_result :=
  match packf f (mk_cursor (Some src) None 0) with
  | None => LenOob
  | Some c => match cur_src c with
              | Some r => LenOk (Z.of_nat (length src) - Z.of_nat (length r)) (cur_written c)
              | None => LenErr
              end
  end.

(** dlisio.cpp 760-809: Some (src, dst) is DLIS_OK, None is DLIS_INVALID_ARGS *)
Fixpoint pack_varsize_loop (f : bytes) (srcvar : Z) : option (Z * Z) :=
  match f with
  | [] => Some (srcvar, 0)
  | c :: t =>
      match fmt_of_byte c with
      | None => None
      | Some (ORIGIN | UVARI) => pack_varsize_loop t 1
      | Some (IDENT | ASCII | OBNAME | OBJREF | ATTREF | UNITS) => Some (1, 1)
      | Some _ => pack_varsize_loop t srcvar
      end
  end.
Definition dlis_pack_varsize (f : bytes) : option (Z * Z) := pack_varsize_loop f 0.

Inductive packsize_result :=
  | SizeInvalid                          (* DLIS_INVALID_ARGS *)
  | SizeVariable                         (* DLIS_INCONSISTENT *)
  | SizeOk (src dst : Z).
(** dlisio.cpp 811-869 *)
Fixpoint pack_size_loop (f : bytes) (varsrc : bool) (correction size : Z) : packsize_result :=
  match f with
  | [] => let correction := if varsrc then size else correction in
          SizeOk (size - correction) size
  | c :: t =>
      match fmt_of_byte c with
      | None => SizeInvalid
      | Some FSHORT => pack_size_loop t varsrc (correction + (4 - 2)) (size + 4)
      | Some DTIME => pack_size_loop t varsrc (correction + (8 * 4 - 8)) (size + 8 * 4)
      | Some (FSINGL | ISINGL | VSINGL | SLONG | ULONG) => pack_size_loop t varsrc correction (size + 4)
      | Some (FSING1 | FDOUBL | CSINGL) => pack_size_loop t varsrc correction (size + 8)
      | Some FSING2 => pack_size_loop t varsrc correction (size + 12)
      | Some (FDOUB1 | CDOUBL) => pack_size_loop t varsrc correction (size + 16)
      | Some FDOUB2 => pack_size_loop t varsrc correction (size + 24)
      | Some (SSHORT | USHORT | STATUS) => pack_size_loop t varsrc correction (size + 1)
      | Some (SNORM | UNORM) => pack_size_loop t varsrc correction (size + 2)
      | Some (ORIGIN | UVARI) => pack_size_loop t true correction (size + 4)
      | Some (IDENT | ASCII | OBNAME | OBJREF | ATTREF | UNITS) => SizeVariable
      end
  end.
Definition dlis_pack_size (f : bytes) : packsize_result := pack_size_loop f false 0 0.

(** ** Fingerprints *)

(** std::to_string for integers *)
Fixpoint dec_digits (fuel : nat) (n : Z) (acc : bytes) : bytes :=
  match fuel with
  | O => acc
  | S k => let acc := z2b (48 + n mod 10) :: acc in
           if n <? 10 then acc else dec_digits k (n / 10) acc
  end.
(** 20 digits are enough for any 64-bit integer *)
Definition to_string (n : Z) : bytes :=
  if n <? 0 then "-"%byte :: dec_digits 20 (- n) [] else dec_digits 20 n [].

(** dlisio.cpp 871-892; None = DLIS_INVALID_ARGS *)
Definition dlis_object_fingerprint_size (type_len id_len origin copynum : Z) : option Z :=
  if origin <? 0 then None
  else if type_len <=? 0 then None
  else if id_len <? 0 then None
  else Some (11 + type_len + id_len
             + Z.of_nat (length (to_string origin)) + Z.of_nat (length (to_string copynum))).

(** dlisio.cpp 894-924: the characters written to [fingerprint] *)
Definition dlis_object_fingerprint (type id : bytes) (origin copynum : Z) : option bytes :=
  if Z.of_nat (length type) <=? 0 then None
  else Some (text "T." ++ type ++ text "-" ++
             text "I." ++ id ++ text "-" ++
             text "O." ++ to_string origin ++ text "-" ++
             text "C." ++ to_string copynum).

(** lib/include/dlisio/dlis/types.hpp 176-206 (obname::fingerprint) and 222-224
    (objref::fingerprint): a zero-filled buffer of the announced size is written
    into.  [FpOverrun]: more was written than announced (heap overflow). *)
Inductive fp_result := FpInvalid | FpOverrun | FpOk (s : bytes).
Definition obname_fingerprint (type : bytes) (n : obname) : fp_result :=
  match dlis_object_fingerprint_size (Z.of_nat (length type)) (Z.of_nat (length (ob_id n)))
          (ob_origin n) (ob_copy n) with
  | None => FpInvalid
  | Some size =>
      match dlis_object_fingerprint type (ob_id n) (ob_origin n) (ob_copy n) with
      | None => FpInvalid
      | Some w =>
          if Z.of_nat (length w) >? size then FpOverrun
          else FpOk (w ++ repeat x00 (Z.to_nat size - length w))
      end
  end.

(** python/dlisio/ext/dlis.cpp 247-267 (core.fingerprint in Python) *)
Definition py_fingerprint (type id : bytes) (origin copy : Z) : fp_result :=
  if copy >? 255 then FpInvalid
  else if copy <? 0 then FpInvalid
  else obname_fingerprint type (mk_obname origin copy id).
