(** Model of python/dlisio/lis/load.py: splitting a file into logical files and
    associating them with reels and tapes. *)
From Verif Require Import Bytes Stream LisProtocol LisIo Tapemark.
Local Open Scope Z_scope.

(** ** Objects *)

(** a raw record (core.lis_record): info and data *)
Definition raw_record := (record_info * bytes)%type.

(** lis/file.py 9-21; None is Python's None *)
Record header_trailer := mk_ht { rawheader : option raw_record; rawtrailer : option raw_record }.

(** lis/file.py 117-122.  Reels and tapes are objects shared between logical
    files and changed after the fact: they are held by reference. *)
Record logical_file := mk_lf {
  lf_io : device; lf_index : record_index; lf_reel : nat; lf_tape : nat }.

(** load.py 98-107.  [fi_reels], [fi_tapes]: all HeaderTrailer objects made so
    far; a reference is a position in the list. *)
Record indexer := mk_indexer {
  fi_offset : Z; fi_complete : bool; fi_files : list logical_file;
  fi_reels : list header_trailer; fi_reel : nat;
  fi_tapes : list header_trailer; fi_tape : nat }.

Definition new_indexer (offset : Z) : indexer :=
  mk_indexer offset false [] [mk_ht None None] 0 [mk_ht None None] 0.

Definition with_offset (o : Z) (st : indexer) : indexer :=
  mk_indexer o (fi_complete st) (fi_files st) (fi_reels st) (fi_reel st) (fi_tapes st) (fi_tape st).
Definition completed (st : indexer) : indexer :=
  mk_indexer (fi_offset st) true (fi_files st) (fi_reels st) (fi_reel st) (fi_tapes st) (fi_tape st).
Definition with_file (f : logical_file) (st : indexer) : indexer :=
  mk_indexer (fi_offset st) (fi_complete st) (fi_files st ++ [f]) (fi_reels st) (fi_reel st) (fi_tapes st) (fi_tape st).
Definition with_reel (reels : list header_trailer) (reel : nat) (st : indexer) : indexer :=
  mk_indexer (fi_offset st) (fi_complete st) (fi_files st) reels reel (fi_tapes st) (fi_tape st).
Definition with_tape (tapes : list header_trailer) (tape : nat) (st : indexer) : indexer :=
  mk_indexer (fi_offset st) (fi_complete st) (fi_files st) (fi_reels st) (fi_reel st) tapes tape.

(** obj.rawtrailer = record *)
Fixpoint set_trailer (r : nat) (rec : raw_record) (objs : list header_trailer) : list header_trailer :=
  match objs, r with
  | [], _ => []
  | o :: t, O => mk_ht (rawheader o) (Some rec) :: t
  | o :: t, S r => o :: set_trailer r rec t
  end.

(** load.py 238-257 *)
Definition adjust_reel_tape (first : record_info) (rec : raw_record) (st : indexer) : indexer :=
  let type := ri_type first in
  if type =? 132 then
    with_reel (fi_reels st ++ [mk_ht (Some rec) None]) (length (fi_reels st)) st
  else if type =? 133 then
    with_reel (set_trailer (fi_reel st) rec (fi_reels st) ++ [mk_ht None None]) (length (fi_reels st)) st
  else if type =? 130 then
    with_tape (fi_tapes st ++ [mk_ht (Some rec) None]) (length (fi_tapes st)) st
  else if type =? 131 then
    with_tape (set_trailer (fi_tape st) rec (fi_tapes st) ++ [mk_ht None None]) (length (fi_tapes st)) st
  else st.

(** load.py 268-276 *)
Definition is_delimiter_record (info : record_info) : bool :=
  let type := ri_type info in
  (type =? 132) || (type =? 133) || (type =? 130) || (type =? 131) || (type =? 137).

(** ** Indexing *)
Section load.
Variable esc : severity -> bool.                (* the severities whose action raises *)
(** core.openlis(path, offset, is_tif): lis/io.cpp 577-631 on top of lfp *)
Variable openlis : Z -> dres device.
(** file.ptell() after indexing has left the device at a logical position; for
    tape images minus 12 unless at the end (load.py 168-170) *)
Variable stopped_at : device -> Z -> Z.

(** the handling of a critical problem: log, then stop *)
Definition give_up (st : indexer) : io indexer :=
  let* _ := log esc CRITICAL in ret (completed st).

(** load.py 226-235 *)
Definition check_incomplete (ix : record_index) (st : indexer) : io indexer :=
  if ix_incomplete ix then give_up st else ret st.

(** load.py 141-235; index_records itself does not raise (io.cpp 453-516).
    Closing the device is not modelled. *)
Definition index_logical_file (st : indexer) : io indexer :=
  match openlis (fi_offset st) with
  | DErr EofError => ret (completed st)
  | DErr _ => give_up st
  | DFuel => ([], Fuel)
  | DOk dv =>
      match index_records dv 0 with
      | (DOk ix, pos) =>
          let st := with_offset (stopped_at dv pos) st in
          let size := (length (ix_explicits ix) + length (ix_implicits ix))%nat in
          match ix_explicits ix with
          | first :: _ =>
              if is_delimiter_record first then
                if negb (size =? 1)%nat then give_up st
                else
                  match read_record dv first pos with
                  | (DOk data, _) => check_incomplete ix (adjust_reel_tape first (first, data) st)
                  | (DErr _, _) => give_up st
                  | (DFuel, _) => ([], Fuel)
                  end
              else check_incomplete ix (with_file (mk_lf dv ix (fi_reel st) (fi_tape st)) st)
          | [] =>
              check_incomplete ix
                (if negb (size =? 0)%nat then with_file (mk_lf dv ix (fi_reel st) (fi_tape st)) st else st)
          end
      | (DErr _, _) => fail
      | (DFuel, _) => ([], Fuel)
      end
  end.

(** load.py 83-88 *)
Fixpoint index_all (fuel : nat) (st : indexer) : io indexer :=
  match fuel with
  | O => ([], Fuel)
  | S fuel =>
      if fi_complete st then ret st
      else let* st := index_logical_file st in index_all fuel st
  end.
End load.

(** ** Tape images *)

(** load.py 133-136: past the marks of type 1; every round consumes 12 bytes *)
Fixpoint skip_marks (fuel : nat) (file : bytes) (tm : tapemark) (pos : Z) : res Z :=
  match fuel with
  | O => Fuel
  | S fuel =>
      if tm_type tm =? 0 then Ok (pos - 12)
      else
        match read_tapemark file pos with
        | Ok tm => skip_marks fuel file tm (pos + 12)
        | Exn => Exn | UB => UB | Fuel => Fuel
        end
  end.
(** load.py 109-139: is_tif and the offset to start at; [file]: the content of
    the physical file *)
Definition check_for_tapemarks (file : bytes) : res (bool * Z) :=
  match read_tapemark file 0 with
  | Ok tm =>
      if valid_tapemark tm then
        match skip_marks (S (length file)) file tm 12 with
        | Ok offset => Ok (true, offset)
        | Exn => Exn | UB => UB | Fuel => Fuel
        end
      else Ok (false, 0)
  | Exn => Exn | UB => UB | Fuel => Fuel
  end.

(** ** Plain files *)

(** lis/io.cpp 577-631 for a file without tape marks *)
Definition plain_device (file : bytes) (offset : Z) : device :=
  mk_device (mk_stream (skipn (Z.to_nat offset) file) false) offset.
Definition open_plain (file : bytes) (offset : Z) : dres device :=
  let d := plain_device file offset in
  match open_device d with
  | Some e => DErr e
  | None => DOk d
  end.
(** load.py 168: the physical position *)
Definition plain_stopped (d : device) (pos : Z) : Z := d_offset d + pos.

(** load.py 79-90 for a given way of opening tape images (lfp's tapeimage
    protocol is not modelled) *)
Definition load (esc : severity -> bool) (open_tif : bytes -> Z -> dres device)
    (tif_stopped : device -> Z -> Z) (fuel : nat) (file : bytes) : io indexer :=
  match check_for_tapemarks file with
  | Ok (true, offset) => index_all esc (open_tif file) tif_stopped fuel (new_indexer offset)
  | Ok (false, offset) => index_all esc (open_plain file) plain_stopped fuel (new_indexer offset)
  | Exn => fail
  | UB => ([], UB)
  | Fuel => ([], Fuel)
  end.
