(** Model of python/dlisio/lis/file.py: the records of logical files, reels and
    tapes. *)
From Verif Require Import Bytes Stream DlisRecords DlisFdata LisProtocol LisIo LisPy LisCurves LisLoad.
Local Open Scope Z_scope.

(** ** Parsed records *)

(** The classes of lib/include/dlisio/lis/protocol.hpp as exposed by ext/lis.cpp;
    Python's DataFormatSpec and InformationRecord (dataformatspec.py 36-41,
    information_record.py) only keep the record they are made from. *)
Inductive parsed :=
| Format (info : record_info) (d : dfsr)
| Information (info : record_info) (cs : list component_block)
| FileHeader (r : file_record) | FileTrailer (r : file_record)
| ReelHeader (r : reel_tape_record) | ReelTrailer (r : reel_tape_record)
| TapeHeader (r : reel_tape_record) | TapeTrailer (r : reel_tape_record)
| Text (type : Z) (message : bytes).

(** file.py 370-411.  [Ok None]: NotImplementedError is raised *)
Definition parse_record (rec : raw_record) : res (option parsed) :=
  let (info, data) := rec in
  let type := ri_type info in
  if type =? 64 then let! (es, sps) := parse_dfsr data in Ok (Some (Format info (mk_dfsr es sps)))
  else if type =? 128 then let! r := parse_file_record type data in Ok (Some (FileHeader r))
  else if type =? 129 then let! r := parse_file_record type data in Ok (Some (FileTrailer r))
  else if type =? 132 then let! r := parse_reel_tape_record type data in Ok (Some (ReelHeader r))
  else if type =? 133 then let! r := parse_reel_tape_record type data in Ok (Some (ReelTrailer r))
  else if type =? 130 then let! r := parse_reel_tape_record type data in Ok (Some (TapeHeader r))
  else if type =? 131 then let! r := parse_reel_tape_record type data in Ok (Some (TapeTrailer r))
  else if type =? 34 then let! cs := parse_info_record data in Ok (Some (Information info cs))
  else if type =? 39 then let! cs := parse_info_record data in Ok (Some (Information info cs))
  else if type =? 32 then let! cs := parse_info_record data in Ok (Some (Information info cs))
  else if type =? 224 then let! s := parse_text_record type data in Ok (Some (Text type s))
  else if type =? 225 then let! s := parse_text_record type data in Ok (Some (Text type s))
  else if type =? 227 then let! s := parse_text_record type data in Ok (Some (Text type s))
  else if type =? 232 then let! s := parse_text_record type data in Ok (Some (Text type s))
  else Ok None.

(** the exceptions of reading: [pos] is where the device happens to be, the new
    position is not used *)
Definition read_result {A} (r : dres A * Z) : res A :=
  match r with
  | (DOk a, _) => Ok a
  | (DErr _, _) => Exn
  | (DFuel, _) => Fuel
  end.

(** file.py 295: the first exception is raised; they are of the same kind for
    records of the same type *)
Fixpoint parse_all (recs : list raw_record) : res (option (list parsed)) :=
  match recs with
  | [] => Ok (Some [])
  | r :: t =>
      let! x := parse_record r in
      match x with
      | None => Ok None
      | Some x =>
          let! xs := parse_all t in
          Ok (option_map (cons x) xs)
      end
  end.
(** file.py 292-295 *)
Definition parse_records (f : logical_file) (type : Z) (pos : Z) : res (option (list parsed)) :=
  let! recs := read_result (read_records (lf_io f) (lf_index f) type pos) in
  parse_all recs.

(** file.py 197-290 *)
Definition data_format_specs f := parse_records f 64.
Definition job_identification f := parse_records f 32.
Definition wellsite_data f := parse_records f 34.
Definition tool_string_info f := parse_records f 39.
Definition operator_command_inputs f := parse_records f 224.
Definition operator_response_inputs f := parse_records f 225.
Definition system_outputs_to_operator f := parse_records f 227.
Definition flic_comment f := parse_records f 232.

(** ** Headers and trailers *)

(** what Python's logger of the module gets *)
Inductive note := Warning | Info.
(** a result of parse_record where it is returned *)
Definition returned (r : res (option parsed)) : res (option parsed) :=
  let! x := r in
  match x with
  | None => Exn
  | Some x => Ok (Some x)
  end.
(** file.py 142-192: both functions; they differ in the type and in the level of the
    message *)
Definition only_record (type : Z) (level : note) (f : logical_file) (pos : Z) : list note * res (option parsed) :=
  match filter (fun i => ri_type i =? type) (ix_explicits (lf_index f)) with
  | [] => ([level], Ok None)
  | [i] => ([], let! data := read_result (read_record (lf_io f) i pos) in returned (parse_record (i, data)))
  | _ => ([], Exn)
  end.
Definition header := only_record 128 Warning.
Definition trailer := only_record 129 Info.

(** file.py 23-57 *)
Definition raw_or (level : note) (raw : option raw_record) : list note * res (option parsed) :=
  match raw with
  | None => ([level], Ok None)
  | Some rec => ([], returned (parse_record rec))
  end.
Definition ht_header (o : header_trailer) := raw_or Warning (rawheader o).
Definition ht_trailer (o : header_trailer) := raw_or Info (rawtrailer o).

(** ** Curves *)

(** curves.py 103-281 for a parsed format specification of the file; anything else
    has no attribute entries *)
Definition file_curves (dec : bytes -> pystr) (after : Z -> bytes) (f : logical_file) (x : parsed)
    (sample_rate : option Z) (strict : bool) : res (list column * list cell * Z) :=
  match x with
  | Format info d => curves dec (lf_io f) after (lf_index f) (ri_ltell info) d sample_rate strict
  | _ => Exn
  end.
