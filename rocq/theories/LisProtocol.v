(** Model of lib/src/lis/protocol.cpp: headers and record contents of LIS79.
    Exceptions are [Exn]; reads outside the record are [UB]. *)
From Verif Require Import Bytes DlisTypes DlisCore Stream DlisRecords LisTypes.
Local Open Scope Z_scope.

(** ** Physical and logical record headers *)

(** protocol.cpp 38-59; [n] is the length of [xs] *)
Definition is_padbytes (xs : bytes) : bool :=
  match xs with
  | [] => false
  | c :: t =>
      if negb (b2z c =? 0x00) && negb (b2z c =? 0x20) then false
      else forallb (fun b => Byte.eqb b c) t
  end.

(** protocol.hpp 51-65 *)
Record prheader := mk_prh { prh_length : Z; prh_attributes : Z }.
Definition succses := 0x0001.
Definition predces := 0x0002.
Definition reconum := 0x0200.
Definition filenum := 0x0400.
Definition chcksum := 0x3000.
(** [head.attributes & mask] as a condition *)
Definition has (attributes mask : Z) : bool := negb (Z.land attributes mask =? 0).
(** protocol.cpp 61-74; for 4 bytes *)
Definition read_prh (xs : bytes) : prheader :=
  mk_prh (be (firstn 2 xs)) (be (firstn 2 (skipn 2 xs))).

(** protocol.cpp 85-126 (protocol.hpp 90-123) *)
Definition valid_rectype (t : Z) : bool :=
  existsb (Z.eqb t) [0; 1; 32; 34; 39; 42; 47; 64; 65; 95; 96; 97; 100; 101; 102; 128; 129; 130;
                     131; 132; 133; 137; 138; 139; 141; 224; 225; 227; 232; 234; 85; 86].

(** ** Values *)

(** protocol.hpp 176-188; floats as bit patterns *)
Inductive lvalue :=
  | LNone
  | LI8 (z : Z) | LI16 (z : Z) | LI32 (z : Z)
  | LF16 (z : Z) | LF32 (z : Z) | LF32low (z : Z) | LF32fix (z : Z)
  | LString (s : bytes) | LByte (z : Z) | LMask (s : bytes).

(** protocol.cpp 291-319 with the casts 172-269; the new position is not used *)
Definition lis_element (xs : bytes) (size reprc : Z) : res lvalue :=
  let one {A} (r : option (A * bytes)) (v : A -> lvalue) :=
    let! (a, _) := unchecked r in Ok (v a) in
  if reprc =? LIS_I8 then one (lis_i8 xs) LI8
  else if reprc =? LIS_I16 then one (lis_i16 xs) LI16
  else if reprc =? LIS_I32 then one (lis_i32 xs) LI32
  else if reprc =? LIS_F16 then one (lis_f16 xs) LF16
  else if reprc =? LIS_F32 then one (lis_f32 xs) LF32
  else if reprc =? LIS_F32LOW then one (lis_f32low xs) LF32low
  else if reprc =? LIS_F32FIX then one (lis_f32fix xs) LF32fix
  else if reprc =? LIS_STRING then one (lis_string xs size) LString
  else if reprc =? LIS_BYTE then one (lis_byte xs) LByte
  else if reprc =? LIS_MASK then one (lis_mask xs size) LMask
  else Exn.

(** the size checks of protocol.cpp 328-347 and 575-596 *)
Definition valid_size (size reprc : Z) : bool :=
  let reprc_size := lis_sizeof_type reprc in
  if reprc_size <? 0 then false
  else negb (negb (size =? reprc_size) && (size >? 0) && negb (reprc_size =? 0)).

(** [std::distance(cur, end)] *)
Definition left_of (xs : bytes) : Z := Z.of_nat (length xs).

(** ** Data format specification records *)

(** protocol.hpp 223-231 *)
Record entry_block := mk_entry { eb_type : Z; eb_size : Z; eb_reprc : Z; eb_value : lvalue }.

(** protocol.cpp 321-385; [xs] is the record from [offset] on *)
Definition read_entry_block (xs : bytes) : res entry_block :=
  if left_of xs <? 3 then Exn
  else
    let! (type, xs) := unchecked (lis_byte xs) in
    let! (size, xs) := unchecked (lis_byte xs) in
    let! (reprc, xs) := unchecked (lis_byte xs) in
    if type >? 16 then Exn
    else if negb (valid_size size reprc) then Exn
    else if left_of xs <? size then Exn
    else if negb (size =? 0) then
      let! v := lis_element xs size reprc in Ok (mk_entry type size reprc v)
    else Ok (mk_entry type size reprc LNone).

(** protocol.cpp 395-419 with val = 1: integers are converted to float (exact for
    what can equal 1), floats are compared *)
Definition contains_one (v : lvalue) : bool :=
  match v with
  | LI8 z | LI16 z | LI32 z | LByte z => z =? 1
  | LF16 b | LF32 b | LF32low b | LF32fix b => b =? 0x3F800000
  | LNone | LString _ | LMask _ => false
  end.

(** protocol.hpp 237-269: the two kinds of blocks in one record *)
Inductive spec_sub :=
  | Sub0 (api_log_type api_curve_type api_curve_class api_modifier process_level : Z)
  | Sub1 (api_codes : Z) (process_indicators : bytes).
Record spec_block := mk_spec {
  sp_mnemonic : bytes; sp_service_id : bytes; sp_service_order_nr : bytes; sp_units : bytes;
  sp_filenr : Z; sp_reserved_size : Z; sp_samples : Z; sp_reprc : Z;
  sp_sub : spec_sub }.

(** protocol.cpp 421-445: the fields common to both kinds *)
Definition read_spec_block (xs : bytes) : res (spec_sub -> spec_block) :=
  if left_of xs <? 40 then Exn
  else
    let! (mnemonic, xs) := unchecked (lis_string xs 4) in
    let! (service_id, xs) := unchecked (lis_string xs 6) in
    let! (service_order_nr, xs) := unchecked (lis_string xs 8) in
    let! (units, xs) := unchecked (lis_string xs 4) in
    let xs := skipn 4 xs in
    let! (filenr, xs) := unchecked (lis_i16 xs) in
    let! (reserved_size, xs) := unchecked (lis_i16 xs) in
    let xs := skipn 2 xs in
    let xs := skipn 1 xs in
    let! (samples, xs) := unchecked (lis_byte xs) in
    let! (reprc, _) := unchecked (lis_byte xs) in
    Ok (mk_spec mnemonic service_id service_order_nr units filenr reserved_size samples reprc).
(** protocol.cpp 449-468 *)
Definition read_spec_block0 (xs : bytes) : res spec_block :=
  let! spec := read_spec_block xs in
  let xs := skipn 22 xs in
  let! (lt, xs) := unchecked (lis_byte xs) in
  let! (ct, xs) := unchecked (lis_byte xs) in
  let! (cc, xs) := unchecked (lis_byte xs) in
  let! (am, xs) := unchecked (lis_byte xs) in
  let xs := skipn 6 xs in
  let! (pl, _) := unchecked (lis_byte xs) in
  Ok (spec (Sub0 lt ct cc am pl)).
(** protocol.cpp 470-486 *)
Definition read_spec_block1 (xs : bytes) : res spec_block :=
  let! spec := read_spec_block xs in
  let xs := skipn 22 xs in
  let! (codes, xs) := unchecked (lis_i32 xs) in
  let xs := skipn 9 xs in
  let! (ind, _) := unchecked (lis_mask xs 5) in
  Ok (spec (Sub1 codes ind)).

(** protocol.cpp 495-510: the entries, the subtype and the rest of the record.
    Every entry has at least 3 bytes, so [length xs] rounds are enough. *)
Fixpoint parse_entries (fuel : nat) (subtype : Z) (xs : bytes) : res (list entry_block * Z * bytes) :=
  match fuel with
  | O => Fuel
  | S fuel =>
      let! e := read_entry_block xs in
      let subtype := if (eb_type e =? 16) && contains_one (eb_value e) then 1 else subtype in
      let rest := skipn (Z.to_nat (3 + eb_size e)) xs in
      if eb_type e =? 0 then Ok ([e], subtype, rest)
      else
        let! (es, subtype, rest) := parse_entries fuel subtype rest in
        Ok (e :: es, subtype, rest)
  end.
(** protocol.cpp 512-520 *)
Fixpoint parse_specs (fuel : nat) (subtype : Z) (xs : bytes) : res (list spec_block) :=
  match xs with
  | [] => Ok []
  | _ =>
      match fuel with
      | O => Fuel
      | S fuel =>
          let! sp := if subtype =? 0 then read_spec_block0 xs else read_spec_block1 xs in
          let! sps := parse_specs fuel subtype (skipn 40 xs) in
          Ok (sp :: sps)
      end
  end.
(** protocol.cpp 488-523.  The record info is carried along unchanged. *)
Definition parse_dfsr (data : bytes) : res (list entry_block * list spec_block) :=
  let! (es, subtype, rest) := parse_entries (S (length data)) 0 data in
  let! sps := parse_specs (length rest) subtype rest in
  Ok (es, sps).

(** protocol.cpp 524-553: direction, then the flags in the order of the members
    (protocol.hpp 274-290) *)
Definition process_indicators (mask : bytes) : res (Z * list bool) :=
  match mask with
  | [b0; b1; b2; _; _] =>
      let bit b n := negb (Z.land (b2z b) (Z.shiftl 1 n) =? 0) in
      Ok (Z.shiftr (Z.land (b2z b0) 0xC0) 6,
          map (bit b0) [5; 4; 3; 2; 1; 0] ++ map (bit b1) [7; 6; 5; 4; 3; 2; 1; 0]
          ++ map (bit b2) [1; 0])
  | _ => Exn
  end.

(** ** Information records *)

(** protocol.hpp 324-335 *)
Record component_block := mk_component {
  cb_type_nb : Z; cb_reprc : Z; cb_size : Z; cb_category : Z;
  cb_mnemonic : bytes; cb_units : bytes; cb_component : lvalue }.

(** protocol.cpp 557-636 *)
Definition read_component_block (xs : bytes) : res component_block :=
  if left_of xs <? 12 then Exn
  else
    let! (type_nb, xs) := unchecked (lis_byte xs) in
    let! (reprc, xs) := unchecked (lis_byte xs) in
    let! (size, xs) := unchecked (lis_byte xs) in
    let! (category, xs) := unchecked (lis_byte xs) in
    let! (mnemonic, xs) := unchecked (lis_string xs 4) in
    let! (units, xs) := unchecked (lis_string xs 4) in
    if negb ((type_nb =? 0) || (type_nb =? 69) || (type_nb =? 73)) then Exn
    else if negb (valid_size size reprc) then Exn
    else if left_of xs <? size then Exn
    else if negb (size =? 0) then
      let! v := lis_element xs size reprc in
      Ok (mk_component type_nb reprc size category mnemonic units v)
    else Ok (mk_component type_nb reprc size category mnemonic units LNone).

(** protocol.cpp 638-651 *)
Fixpoint parse_components (fuel : nat) (xs : bytes) : res (list component_block) :=
  match xs with
  | [] => Ok []
  | _ =>
      match fuel with
      | O => Fuel
      | S fuel =>
          let! c := read_component_block xs in
          let! cs := parse_components fuel (skipn (Z.to_nat (12 + cb_size c)) xs) in
          Ok (c :: cs)
      end
  end.
Definition parse_info_record (data : bytes) : res (list component_block) :=
  parse_components (length data) data.

(** ** Text, file, reel and tape records *)

(** protocol.cpp 653-671 *)
Definition parse_text_record (type : Z) (data : bytes) : res bytes :=
  if negb ((type =? 224) || (type =? 225) || (type =? 227) || (type =? 232)) then Exn
  else let! (s, _) := unchecked (lis_string data (left_of data)) in Ok s.

(** protocol.hpp 365-387; [fr_name] is prev_file_name or next_file_name *)
Record file_record := mk_file_record {
  fr_file_name : bytes; fr_service_sublvl_name : bytes; fr_version_number : bytes;
  fr_date_of_generation : bytes; fr_max_pr_length : bytes; fr_file_type : bytes; fr_name : bytes }.
(** protocol.cpp 675-731 *)
Definition parse_file_record (type : Z) (data : bytes) : res file_record :=
  if negb ((type =? 128) || (type =? 129)) then Exn
  else if left_of data <? 56 then Exn
  else
    let! (file_name, xs) := unchecked (lis_string data 10) in
    let xs := skipn 2 xs in
    let! (sublvl, xs) := unchecked (lis_string xs 6) in
    let! (version, xs) := unchecked (lis_string xs 8) in
    let! (date, xs) := unchecked (lis_string xs 8) in
    let xs := skipn 1 xs in
    let! (max_pr, xs) := unchecked (lis_string xs 5) in
    let xs := skipn 2 xs in
    let! (ftype, xs) := unchecked (lis_string xs 2) in
    let xs := skipn 2 xs in
    let! (name, _) := unchecked (lis_string xs 10) in
    Ok (mk_file_record file_name sublvl version date max_pr ftype name).

(** protocol.hpp 395-424; [rt_other] is the name of the previous or next one *)
Record reel_tape_record := mk_reel_tape {
  rt_service_name : bytes; rt_date : bytes; rt_origin_of_data : bytes; rt_name : bytes;
  rt_continuation_number : bytes; rt_other : bytes; rt_comment : bytes }.
(** protocol.cpp 735-814 *)
Definition parse_reel_tape_record (type : Z) (data : bytes) : res reel_tape_record :=
  if negb ((type =? 132) || (type =? 133) || (type =? 130) || (type =? 131)) then Exn
  else if left_of data <? 126 then Exn
  else
    let! (service, xs) := unchecked (lis_string data 6) in
    let xs := skipn 6 xs in
    let! (date, xs) := unchecked (lis_string xs 8) in
    let xs := skipn 2 xs in
    let! (origin, xs) := unchecked (lis_string xs 4) in
    let xs := skipn 2 xs in
    let! (name, xs) := unchecked (lis_string xs 8) in
    let xs := skipn 2 xs in
    let! (cont, xs) := unchecked (lis_string xs 2) in
    let xs := skipn 2 xs in
    let! (other, xs) := unchecked (lis_string xs 8) in
    let xs := skipn 2 xs in
    let! (comment, _) := unchecked (lis_string xs 74) in
    Ok (mk_reel_tape service date origin name cont other comment).
