(** Model of python/dlisio/dlis/load.py and of the functions of
    python/dlisio/ext/dlis.cpp it calls. *)
From Verif Require Import Bytes Stream DlisTypes DlisCore DlisIo DlisRecords Tapemark Lfp.
Local Open Scope Z_scope.

(** ** Indexing with the final position *)

(** lib/src/dlis/io.cpp 384-535: the loop of [DlisIo.findoffsets_loop], also
    returning where the stream is left and whether [stream.eof()] holds then.
    After a problem (broken) the position is not used. *)
Fixpoint findoffsets_at_loop (fuel : nat) (esc : severity -> bool) (s : stream)
    (lr lrs : Z) (has_successor : bool) (ex im : list Z) : io (stream_offsets * Z * bool) :=
  match fuel with
  | O => ([], Fuel)
  | S fuel =>
      let handle := let* _ := log esc CRITICAL in ret (mk_offsets ex im [lr], lrs, false) in
      let done eof := ret (mk_offsets ex im [], lrs, eof) in
      match read s lrs 4 with
      | None => handle
      | Some [] => if has_successor then handle else done true
      | Some buffer =>
          match dlis_lrsh buffer with
          | None => handle
          | Some (len, attrs, type) =>
              if len <? 4 then handle
              else
                let isexpl := has attrs SEGATTR_EXFMTLR in
                let has_predecessor := has attrs SEGATTR_PREDSEG in
                if negb has_predecessor && isexpl && (type =? 0) && negb (length ex =? 0)%nat
                then if has_successor then handle else done false
                else
                  let has_successor := has attrs SEGATTR_SUCCSEG in
                  let lrs := lrs + len in
                  match read s (lrs - 1) 1 with
                  | None => handle
                  | Some _ =>
                      if has_successor then findoffsets_at_loop fuel esc s lr lrs has_successor ex im
                      else if isexpl
                      then findoffsets_at_loop fuel esc s lrs lrs has_successor (ex ++ [lr]) im
                      else findoffsets_at_loop fuel esc s lrs lrs has_successor ex (im ++ [lr])
                  end
          end
      end
  end.
Definition findoffsets_at (esc : severity -> bool) (s : stream) : io (stream_offsets * Z * bool) :=
  findoffsets_at_loop (S (S (length (s_data s)))) esc s 0 0 false [] [].

(** ** Reading the records *)

(** python/dlisio/ext/dlis.cpp 1009-1032 (core.extract): records without data are
    dropped, a record whose extraction throws is reported and skipped.  The catch
    clause also catches the exception of a user's action.  The records are given
    by what core.parse_objects looks at: encryption and data. *)
Fixpoint extract_records (esc : severity -> bool) (s : stream) (tells : list Z) : io (list (bool * bytes)) :=
  match tells with
  | [] => ret []
  | tell :: tells =>
      match extract esc s tell with
      | (l, UB) => (l, UB)
      | (l, Fuel) => (l, Fuel)
      | (l, Exn) => let* _ := (l, Ok tt) in let* _ := log esc CRITICAL in extract_records esc s tells
      | (l, Ok rec) =>
          let* _ := (l, Ok tt) in
          let* rest := extract_records esc s tells in
          ret (if (length (rec_data rec) =? 0)%nat then rest else (isencrypted rec, rec_data rec) :: rest)
      end
  end.

(** ** The indexer *)

(** python/dlisio/dlis/file.py 274-328 (LogicalFile) *)
Record logical_file := mk_file {
  lf_stream : rp66; lf_sets : list object_set; lf_fdata : fdata_index; lf_sul : option bytes }.

(** load.py 106-122.  The stream is passed around instead. *)
Record indexer := mk_indexer {
  di_files : list logical_file; di_sul : option bytes; di_next : Z; di_end : bool }.
Definition new_indexer : indexer := mk_indexer [] None 0 false.
Definition with_sul (st : indexer) (sul : bytes) := mk_indexer (di_files st) (Some sul) (di_next st) (di_end st).
Definition with_next (st : indexer) (next : Z) := mk_indexer (di_files st) (di_sul st) next (di_end st).
Definition ended (st : indexer) := mk_indexer (di_files st) (di_sul st) (di_next st) true.
Definition with_file (st : indexer) (f : logical_file) :=
  mk_indexer (di_files st ++ [f]) (di_sul st) (di_next st) (di_end st).

Section load.
(** the user's configuration: whether the action for a severity raises a
    RuntimeError, as Actions.RAISE does *)
Variable esc : severity -> bool.
Variable is_tif : bool.
(** load.py 124-135 (open_stream): common.open, and core.open_tif for tape
    images; [None] is an exception *)
Variable open_stream : Z -> option raw.
(** core.open_rp66 on a stream at a position; [None] is an exception *)
Variable open_rp66 : raw -> Z -> option rp66.

(** load.py 211-247, at position [pos] of the stream *)
Definition logical_eof (st : indexer) (r : raw) (pos : Z) : io (bool * indexer) :=
  match read (raw_stream r) pos 1 with
  | None => let* _ := log esc CRITICAL in ret (true, ended st)
  | Some [] => if raw_peof r then ret (true, ended st) else ret (true, with_next st (raw_ptell r pos))
  | Some _ => ret (false, st)
  end.

(** load.py 249-287: whether there is a label, and the position of the stream.
    All exceptions of core.findsul arrive as RuntimeError, and so does the one of
    the user's action. *)
Definition find_sul (st : indexer) (r : raw) : io (bool * Z) :=
  let expected := match di_sul st with None | Some [] => true | _ => false end
                  && (length (di_files st) =? 0)%nat in
  match (let* q := findsul esc (raw_stream r) 0 expected in
         let* _ := (if expected then ret tt else log esc MINOR) in
         ret q) with
  | (l, Ok q) => (l, Ok (true, q))
  | (l, Exn) => let* _ := (l, Ok tt) in
                let* _ := (if expected then log esc MINOR else ret tt) in
                ret (false, 0)
  | (l, UB) => (l, UB)
  | (l, Fuel) => (l, Fuel)
  end.

(** load.py 289-308: the new state and position *)
Definition read_sul (st : indexer) (r : raw) (pos : Z) : io (indexer * Z) :=
  match read (raw_stream r) pos 80 with
  | None => fail
  | Some got =>
      let* _ := (if (length got =? 80)%nat then ret tt else log esc MAJOR) in
      ret (with_sul st got, pos + Z.of_nat (length got))
  end.

(** load.py 144-150 *)
Definition apply_rp66_protocol (r : raw) (pos : Z) : io rp66 :=
  let* q := findvrl esc (raw_stream r) pos in
  match open_rp66 r q with
  | Some vs => ret vs
  | None => fail
  end.

(** load.py 152-192 (index_logical_file and parse_logical_file) *)
Definition parse_logical_file (st : indexer) (vs : rp66) : io indexer :=
  let s := vs_stream vs in
  let* (ofs, stop, eof) := findoffsets_at esc s in
  let st := match broken ofs with [] => st | _ => ended st end in
  let next := vs_ptell vs stop in
  let next := if eof then next else if is_tif then next - 4 - 12 else next - 4 in
  let* recs := extract_records esc s (explicits ofs) in
  let* sets := parse_sets esc recs in
  let* fdata := findfdata esc s (implicits ofs) [] in
  ret (with_file (with_next st next) (mk_file vs sets fdata (di_sul st))).

(** load.py 82-98: one round of the loop *)
Definition load_round (st : indexer) : io indexer :=
  match open_stream (di_next st) with
  | None => fail
  | Some r =>
      let* (eof, st) := logical_eof st r 0 in
      if eof then ret st
      else
        let* (found, pos) := find_sul st r in
        let* (st, pos) := (if found then read_sul st r pos else ret (st, pos)) in
        let* (eof, st) := logical_eof st r pos in
        if eof then ret st
        else
          let* vs := apply_rp66_protocol r pos in
          parse_logical_file st vs
  end.
Fixpoint load_loop (fuel : nat) (st : indexer) : io indexer :=
  match fuel with
  | O => ([], Fuel)
  | S fuel => if di_end st then ret st else let* st := load_round st in load_loop fuel st
  end.
End load.

(** load.py 66-103.  [open_tif], [tif_rp66]: tape images, external.  The check
    that the file exists is not modelled. *)
Definition load (esc : severity -> bool) (open_tif : bytes -> Z -> option raw) (tif_rp66 : raw -> Z -> option rp66)
    (fuel : nat) (file : bytes) : io indexer :=
  match read_tapemark file 0 with
  | Ok tm =>
      if valid_tapemark tm then load_loop esc true (open_tif file) tif_rp66 fuel new_indexer
      else load_loop esc false (fun o => Some (plain_raw file o)) plain_rp66 fuel new_indexer
  | Exn => fail
  | UB => ([], UB)
  | Fuel => ([], Fuel)
  end.
