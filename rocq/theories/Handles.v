(** Model of how python/dlisio/dlis/load.py, python/dlisio/lis/load.py and the
    files they return open, use and close file handles.

    The computations are those of DlisLoad.v and LisLoad.v; here they run in a
    world that records what happens to the handles, and that survives exceptions.
    How the operating system and lfp answer a request to open may depend on what
    happened before: the functions that stand for them get the number of handles
    opened so far. *)
From Verif Require Import Bytes Stream DlisIo Tapemark Lfp LisProtocol LisIo.
From Verif Require DlisLoad LisLoad.
Local Open Scope Z_scope.

(** ** Handles *)

(** What happens to a handle, that is to a protocol object of lfp (the lowest of
    a stack of them owns the FILE): it is created, used (lfp_seek, lfp_readinto,
    lfp_tell, ...) or destroyed (lfp_close).  Handles are numbered in the order in
    which they are created. *)
Inductive event := Opens (h : nat) | Uses (h : nat) | Closes (h : nat).

(** lib/include/dlisio/file.hpp 22-74: a stream holds a pointer to a protocol,
    which owns the ones below it; outermost first.  There is no destructor. *)
Definition handle := list nat.

(** The events so far, how many handles were created, and what the indexer object
    of load.py holds: the current stream (DLIS only) and the streams of the logical
    files found so far. *)
Record world := mk_world {
  w_trace : list event; w_next : nat; w_stream : option handle; w_files : list handle }.
Definition new_world : world := mk_world [] 0 None [].

Definition emit (es : list event) (w : world) : world :=
  mk_world (w_trace w ++ es) (w_next w) (w_stream w) (w_files w).
Definition set_stream (s : option handle) (w : world) : world :=
  mk_world (w_trace w) (w_next w) s (w_files w).
Definition add_file (s : handle) (w : world) : world :=
  mk_world (w_trace w) (w_next w) (w_stream w) (w_files w ++ [s]).
(** a new handle, with the number [w_next w] *)
Definition created (w : world) : world :=
  mk_world (w_trace w ++ [Opens (w_next w)]) (S (w_next w)) (w_stream w) (w_files w).

(** lib/src/file.cpp 17-73: every method passes the pointer to lfp, which goes down
    the stack *)
Definition use (s : handle) (w : world) : world := emit (map Uses s) w.
(** lib/src/file.cpp 62-64: lfp_close, whatever happened to the pointer before *)
Definition close (s : handle) (w : world) : world := emit (map Closes s) w.

(** computations that change the world, with their messages and result *)
Definition hio (A : Type) := world -> world * io A.
Definition hret {A} (a : A) : hio A := fun w => (w, ret a).
Definition hfail {A} : hio A := fun w => (w, fail).
Definition hbind {A B} (m : hio A) (k : A -> hio B) : hio B := fun w =>
  match m w with
  | (w, (l, Ok a)) => let '(w, (l', r)) := k a w in (w, (l ++ l', r))
  | (w, (l, Exn)) => (w, (l, Exn))
  | (w, (l, UB)) => (w, (l, UB))
  | (w, (l, Fuel)) => (w, (l, Fuel))
  end.
Notation "'let&' x := m 'in' k" := (hbind m (fun x => k))
  (at level 61, x pattern, m at next level, right associativity).
Definition change (f : world -> world) : hio unit := fun w => (f w, ret tt).
Definition lift {A} (m : io A) : hio A := fun w => (w, m).

(** lib/src/dlis/io.cpp 28-45, lib/src/lis/io.cpp 579-593: fopen fails, or
    lfp_cfile_open_at_offset fails (then the FILE is closed again), or both
    succeed *)
Inductive opening (A : Type) := NoFile | NoProtocol | Got (a : A).
Arguments NoFile {A}. Arguments NoProtocol {A}. Arguments Got {A}.
Definition open_file {A} (o : opening A) : hio (handle * A) := fun w =>
  match o with
  | NoFile => (w, fail)
  | NoProtocol => (close [w_next w] (created w), fail)
  | Got a => (created w, ret ([w_next w], a))
  end.
(** lib/src/dlis/io.cpp 47-66: a protocol on top of [s], which is looked at first.
    It owns [s] if it could be opened; if not, [s] stays as it is. *)
Definition put_on {A} (s : handle) (o : option A) : hio (handle * A) := fun w =>
  match o with
  | None => (use s w, fail)
  | Some a => (created (use s w), ret (w_next w :: s, a))
  end.

(** ** dlisio.dlis.load *)
Section dlis.
Variable esc : severity -> bool.
Variable is_tif : bool.
(** common.open at an offset, core.open_tif, core.open_rp66 *)
Variable open_cfile : nat -> Z -> opening raw.
Variable open_tif : nat -> raw -> option raw.
Variable open_rp66 : nat -> raw -> Z -> option rp66.

(** a method of the current stream, or a function of the extension that gets it.
    There always is one (for None Python raises). *)
Definition on_stream {A} (m : io A) : hio A := fun w =>
  match w_stream w with
  | Some s => (use s w, m)
  | None => (w, fail)
  end.

(** dlis/load.py 124-135 *)
Definition open_stream (offset : Z) : hio raw :=
  let& (s, r) := (fun w => open_file (open_cfile (w_next w) offset) w) in
  let& _ := change (set_stream (Some s)) in
  if is_tif then
    let& (s, r) := (fun w => put_on s (open_tif (w_next w) r) w) in
    let& _ := change (set_stream (Some s)) in
    hret r
  else hret r.

(** dlis/load.py 137-142 *)
Definition close_stream (w : world) : world :=
  set_stream None (match w_stream w with Some s => close s w | None => w end).

(** dlis/load.py 144-150 *)
Definition apply_rp66_protocol (r : raw) (pos : Z) : hio rp66 :=
  let& q := on_stream (findvrl esc (raw_stream r) pos) in
  fun w =>
  match w_stream w with
  | Some s =>
      (let& (s, vs) := put_on s (open_rp66 (w_next w) r q) in
       let& _ := change (set_stream (Some s)) in
       hret vs) w
  | None => (w, fail)
  end.

(** dlis/load.py 178-192: the logical file gets the current stream *)
Definition parse_logical_file (st : DlisLoad.indexer) (vs : rp66) : hio DlisLoad.indexer :=
  let& st := on_stream (DlisLoad.parse_logical_file esc is_tif st vs) in
  let& _ := change (fun w => match w_stream w with Some s => add_file s w | None => w end) in
  hret st.

(** dlis/load.py 82-98 *)
Definition load_round (st : DlisLoad.indexer) : hio DlisLoad.indexer :=
  let& r := open_stream (DlisLoad.di_next st) in
  let& (eof, st) := on_stream (DlisLoad.logical_eof esc st r 0) in
  if eof then let& _ := change close_stream in hret st
  else
    let& (found, pos) := on_stream (DlisLoad.find_sul esc st r) in
    let& (st, pos) := (if found then on_stream (DlisLoad.read_sul esc st r pos) else hret (st, pos)) in
    let& (eof, st) := on_stream (DlisLoad.logical_eof esc st r pos) in
    if eof then let& _ := change close_stream in hret st
    else
      let& vs := apply_rp66_protocol r pos in
      parse_logical_file st vs.
Fixpoint load_loop (fuel : nat) (st : DlisLoad.indexer) : hio DlisLoad.indexer :=
  match fuel with
  | O => fun w => (w, ([], Fuel))
  | S fuel => if DlisLoad.di_end st then hret st else let& st := load_round st in load_loop fuel st
  end.

(** dlis/load.py 200-209 *)
Definition close_indexer (w : world) : world :=
  fold_left (fun w s => close s w) (w_files w) (close_stream w).
(** dlis/load.py 80-101: except: indexer.close(); raise *)
Definition guarded {A} (m : hio A) : hio A := fun w =>
  match m w with
  | (w, (l, Exn)) => (close_indexer w, (l, Exn))
  | x => x
  end.
End dlis.

(** dlis/load.py 66-103.  [exists_]: os.path.isfile(path).  [mark]: the first
    opening, and then what core.read_tapemark gives. *)
Definition dlis_load (esc : severity -> bool) (open_cfile : nat -> Z -> opening raw)
    (open_tif : nat -> raw -> option raw) (open_rp66 : nat -> raw -> Z -> option rp66)
    (exists_ : bool) (mark : opening (res tapemark)) (fuel : nat) : hio DlisLoad.indexer :=
  if negb exists_ then hfail
  else
    let& (s, tm) := open_file mark in
    let& _ := change (use s) in
    let& tm := lift ([], tm) in
    let is_tif := valid_tapemark tm in
    let& _ := change (close s) in
    guarded (load_loop esc is_tif open_cfile open_tif open_rp66 fuel DlisLoad.new_indexer).

(** ** dlisio.lis.load *)

(** lib/src/lis/io.cpp 577-631: the ways in which opening can fail *)
Inductive lis_opening :=
| LNoFile | LNoProtocol | LNoTapeimage      (* 579-602 *)
| LUnreadable (e : derror) | LAtEnd | LNoRewind   (* 606-628 *)
| LGot (d : device).
(** the exception *)
Definition lis_opened (o : lis_opening) : dres device :=
  match o with
  | LNoFile | LNoProtocol | LNoTapeimage | LNoRewind => DErr OtherError
  | LUnreadable e => DErr e
  | LAtEnd => DErr EofError
  | LGot d => DOk d
  end.

(** how a file without tape marks answers (LisLoad.open_plain) *)
Definition plain_opening (file : bytes) (o : Z) : lis_opening :=
  let d := LisLoad.plain_device file o in
  match open_device d with
  | None => LGot d
  | Some EofError => LAtEnd
  | Some e => LUnreadable e
  end.
Section lis.
Variable esc : severity -> bool.
Variable is_tif : bool.
Variable openlis : nat -> Z -> lis_opening.
(** lis/load.py 168-170 *)
Variable stopped_at : device -> Z -> Z.

(** lib/src/lis/io.cpp 577-631: the stack of protocols, and what becomes of it;
    an exception is the value [inr] *)
Definition open_lis (o : lis_opening) : hio (handle * device + derror) := fun w =>
  let h := w_next w in
  let stack (w : world) :=
    if is_tif then (created (use [h] (created w)), [S h; h]) else (created w, [h]) in
  let failed (e : derror) : world * io (handle * device + derror) :=
    let (w, s) := stack w in (close s (use s w), ret (inr e)) in
  match o with
  | LNoFile => (w, ret (inr OtherError))
  | LNoProtocol => (close [h] (created w), ret (inr OtherError))
  | LNoTapeimage => (close [h] (use [h] (created w)), ret (inr OtherError))
  | LUnreadable e => failed e
  | LAtEnd => failed EofError
  | LNoRewind => failed OtherError
  | LGot d => let (w, s) := stack w in (use s w, ret (inl (s, d)))
  end.

(** lis/load.py 141-236 *)
Definition give_up (st : LisLoad.indexer) : hio LisLoad.indexer := lift (LisLoad.give_up esc st).
Definition check_incomplete (ix : record_index) (st : LisLoad.indexer) : hio LisLoad.indexer :=
  lift (LisLoad.check_incomplete esc ix st).
Definition index_logical_file (st : LisLoad.indexer) : hio LisLoad.indexer :=
  let& o := (fun w => open_lis (openlis (w_next w) (LisLoad.fi_offset st)) w) in
  match o with
  | inr EofError => hret (LisLoad.completed st)
  | inr _ => give_up st
  | inl (s, dv) =>
      let& _ := change (use s) in
      match index_records dv 0 with
      | (DOk ix, pos) =>
          let st := LisLoad.with_offset (stopped_at dv pos) st in
          let size := (length (ix_explicits ix) + length (ix_implicits ix))%nat in
          match ix_explicits ix with
          | first :: _ =>
              if LisLoad.is_delimiter_record first then
                if negb (size =? 1)%nat then
                  let& st := give_up st in
                  let& _ := change (close s) in
                  hret st
                else
                  let& _ := change (use s) in
                  match read_record dv first pos with
                  | (DOk data, _) =>
                      let& _ := change (close s) in
                      check_incomplete ix (LisLoad.adjust_reel_tape first (first, data) st)
                  | (DErr _, _) =>        (* try ... finally *)
                      fun w => let (w, r) := give_up st w in (close s w, r)
                  | (DFuel, _) => fun w => (w, ([], Fuel))
                  end
              else
                let& _ := change (add_file s) in
                check_incomplete ix
                  (LisLoad.with_file (LisLoad.mk_lf dv ix (LisLoad.fi_reel st) (LisLoad.fi_tape st)) st)
          | [] =>
              if negb (size =? 0)%nat then
                let& _ := change (add_file s) in
                check_incomplete ix
                  (LisLoad.with_file (LisLoad.mk_lf dv ix (LisLoad.fi_reel st) (LisLoad.fi_tape st)) st)
              else
                let& _ := change (close s) in
                check_incomplete ix st
          end
      | (DErr _, _) => hfail
      | (DFuel, _) => fun w => (w, ([], Fuel))
      end
  end.

(** lis/load.py 83-88, 259-265 *)
Definition close_files (w : world) : world := fold_left (fun w s => close s w) (w_files w) w.
Fixpoint index_all (fuel : nat) (st : LisLoad.indexer) : hio LisLoad.indexer :=
  match fuel with
  | O => fun w => (w, ([], Fuel))
  | S fuel =>
      if LisLoad.fi_complete st then hret st
      else
        let& st := (fun w =>
          match index_logical_file st w with
          | (w, (l, Exn)) => (close_files w, (l, Exn))
          | x => x
          end) in
        index_all fuel st
  end.
End lis.

(** lis/load.py 115-121, 133-136: a failed read closes the handle *)
Definition read_as_tapemark (s : handle) (tm : res tapemark) : hio tapemark := fun w =>
  match tm with
  | Ok tm => (use s w, ret tm)
  | Exn => (close s (use s w), fail)
  | UB => (use s w, ([], UB))
  | Fuel => (use s w, ([], Fuel))
  end.
Fixpoint skip_marks (fuel : nat) (s : handle) (file : bytes) (tm : tapemark) (pos : Z) : hio Z :=
  match fuel with
  | O => fun w => (w, ([], Fuel))
  | S fuel =>
      if tm_type tm =? 0 then let& _ := change (use s) in hret (pos - 12)
      else
        let& tm := read_as_tapemark s (read_tapemark file pos) in
        skip_marks fuel s file tm (pos + 12)
  end.
(** lis/load.py 109-139; [file]: the first opening, and the content of the file *)
Definition check_for_tapemarks (file : opening bytes) : hio (bool * Z) :=
  let& (s, file) := open_file file in
  let& tm := read_as_tapemark s (read_tapemark file 0) in
  let& r := (if valid_tapemark tm then
               let& offset := skip_marks (S (length file)) s file tm 12 in hret (true, offset)
             else hret (false, 0)) in
  let& _ := change (close s) in
  hret r.
(** lis/load.py 79-90.  [openlis] and [stopped_at] by whether the file is a tape
    image *)
Definition lis_load (esc : severity -> bool) (openlis : bool -> nat -> Z -> lis_opening)
    (stopped_at : bool -> device -> Z -> Z) (fuel : nat) (file : opening bytes) : hio LisLoad.indexer :=
  let& (is_tif, offset) := check_for_tapemarks file in
  index_all esc is_tif (openlis is_tif) (stopped_at is_tif) fuel (LisLoad.new_indexer offset).

(** ** The files that are returned *)

(** Calls on a returned list of logical files: something that does not touch the
    disk (all queries of metadata of DLIS: dlis/file.py 274-673 only uses the pool;
    lis/file.py 23-57), something that reads (dlis/utils/fdata.py 21-41;
    lis/file.py 142-295, lis/curves.py), LogicalFile.close (dlis/file.py 369-375,
    lis/file.py 124-130) or the end of its with-statement, and PhysicalFile.close
    (dlis/file.py 91-94, lis/file.py 362-364) or the end of its with-statement. *)
Inductive call := Query (i : nat) | Read (i : nat) | Close (i : nat) | CloseAll.
Definition run_call (w : world) (c : call) : world :=
  match c with
  | Query _ => w
  | Read i => match nth_error (w_files w) i with Some s => use s w | None => w end
  | Close i => match nth_error (w_files w) i with Some s => close s w | None => w end
  | CloseAll => fold_left (fun w s => close s w) (w_files w) w
  end.
Definition run (w : world) (cs : list call) : world := fold_left run_call cs w.
