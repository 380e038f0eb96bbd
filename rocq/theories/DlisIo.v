(** Model of lib/src/dlis/io.cpp: locating the storage label and visible record,
    extracting logical records and indexing a logical file. *)
From Verif Require Import Bytes Stream DlisTypes DlisCore.
Local Open Scope Z_scope.

(** io.cpp 70-102: file-local findsul; the logical offset of the label *)
Definition findsul_window (s : stream) (lfrom toread : Z) : option Z :=
  match read s lfrom toread with
  | None => None
  | Some buffer =>
      match dlis_find_sul buffer with
      | (DLIS_OK, Some offset) => Some (lfrom + offset)
      | _ => None
      end
  end.

(** io.cpp 104-137: file-local findvrl *)
Definition findvrl_window (s : stream) (lfrom toread : Z) : option Z :=
  match read s lfrom toread with
  | None => None
  | Some buffer =>
      match dlis_find_vrl buffer with
      | (DLIS_OK, Some offset) => Some (lfrom + offset)
      | _ => None
      end
  end.

(** io.cpp 141-179: returns the position the stream is left at *)
Definition findsul (esc : severity -> bool) (s : stream) (lfrom : Z) (expected : bool) : io Z :=
  match findsul_window s lfrom 15 with
  | Some offset => ret offset
  | None =>
      if negb expected then fail
      else match findsul_window s lfrom 1700 with
           | None => fail
           | Some offset => let* _ := log esc MINOR in ret offset
           end
  end.

(** io.cpp 181-212 *)
Definition findvrl (esc : severity -> bool) (s : stream) (lfrom : Z) : io Z :=
  match findvrl_window s lfrom 4 with
  | Some offset => ret offset
  | None =>
      match findvrl_window s lfrom 200 with
      | None => fail
      | Some offset => let* _ := log esc MINOR in ret offset
      end
  end.

(** lib/include/dlisio/dlis/records.hpp (struct record) *)
Record record := mk_record {
  rec_type : Z; rec_attributes : Z; rec_consistent : bool; rec_data : bytes }.

(** io.cpp 214-220 *)
Definition isexplicit (r : record) : bool := has (rec_attributes r) SEGATTR_EXFMTLR.
Definition isencrypted (r : record) : bool := has (rec_attributes r) SEGATTR_ENCRYPT.

(** io.cpp 239-279: how many bytes to drop from the end.  [before] is what is
    already in rec.data, [seg] the bytes just read.  When only part of a segment
    was read there are no trailer flags, so the C++ (which passes the full
    segment size) computes the same trim of 0. *)
Definition trim_segment (esc : severity -> bool) (attrs : Z) (before seg : bytes) : io Z :=
  let segment_size := Z.of_nat (length seg) in
  match dlis_trim_record_segment attrs before seg with
  | None => ([], UB)
  | Some (DLIS_OK, trim) => ret trim
  | Some (DLIS_BAD_SIZE, trim) =>
      if negb (trim - segment_size =? 4) then fail
      else let* _ := log esc MINOR in ret segment_size
  | Some _ => fail
  end.

(** io.cpp 301-382, the loop.  [first] holds attributes and type of the first
    segment once it has been read; [limit] is the C++ parameter bytes.  A segment length below 4 makes resize/read
    throw (lfp rejects negative lengths). *)
Fixpoint extract_loop (fuel : nat) (esc : severity -> bool) (s : stream) (pos limit : Z)
    (data : bytes) (first : option (Z * Z)) : io record :=
  match fuel with
  | O => ([], Fuel)
  | S fuel =>
      match read s pos 4 with
      | None => fail
      | Some buffer =>
          match dlis_lrsh buffer with
          | None => fail                            (* nread < DLIS_LRSH_SIZE *)
          | Some (seglen, attrs, type) =>
              let len := seglen - 4 in
              let first := match first with Some f => f | None => (attrs, type) end in
              let remaining := limit - Z.of_nat (length data) in
              let to_read :=
                if negb (has attrs SEGATTR_PADDING) && negb (has attrs SEGATTR_TRAILEN)
                   && negb (has attrs SEGATTR_CHCKSUM) && (remaining <? len)
                then remaining else len in
              match read s (pos + 4) to_read with
              | None => fail
              | Some chunk =>
                  if Z.of_nat (length chunk) <? to_read then fail
                  else
                    let* trim := trim_segment esc attrs data chunk in
                    let data := firstn (length data + length chunk - Z.to_nat trim) (data ++ chunk) in
                    let bytes_left := limit - Z.of_nat (length data) in
                    if has attrs SEGATTR_SUCCSEG && (bytes_left >? 0)
                    then extract_loop fuel esc s (pos + 4 + to_read) limit data (Some first)
                    else ret (mk_record (snd first)
                                (Z.land (fst first) (SEGATTR_EXFMTLR + SEGATTR_ENCRYPT)) true
                                (if bytes_left <? 0 then firstn (Z.to_nat limit) data else data))
              end
          end
      end
  end.
(** io.cpp 301-382 (extract with a byte limit); every round consumes at least the
    4 byte header, so the stream length bounds the number of rounds *)
Definition extract_n (esc : severity -> bool) (s : stream) (tell limit : Z) : io record :=
  extract_loop (S (length (s_data s))) esc s tell limit [] None.

(** io.cpp 293-299 *)
Definition extract (esc : severity -> bool) (s : stream) (tell : Z) : io record :=
  extract_n esc s tell (2 ^ 63 - 1).

(** lib/include/dlisio/dlis/io.hpp 20-24 *)
Record stream_offsets := mk_offsets {
  explicits : list Z; implicits : list Z; broken : list Z }.

(** io.cpp 384-535, the loop.  The stream is positioned at [lrs] at the start of
    each round.  [lr] is the start of the current logical record. *)
Fixpoint findoffsets_loop (fuel : nat) (esc : severity -> bool) (s : stream)
    (lr lrs : Z) (has_successor : bool) (ex im : list Z) : io stream_offsets :=
  match fuel with
  | O => ([], Fuel)
  | S fuel =>
      let handle := let* _ := log esc CRITICAL in ret (mk_offsets ex im [lr]) in
      let done := ret (mk_offsets ex im []) in
      match read s lrs 4 with
      | None => handle
      | Some [] => if has_successor then handle else done
      | Some buffer =>
          match dlis_lrsh buffer with
          | None => handle                          (* read < 4 at eof *)
          | Some (len, attrs, type) =>
              if len <? 4 then handle
              else
                let isexpl := has attrs SEGATTR_EXFMTLR in
                let has_predecessor := has attrs SEGATTR_PREDSEG in
                if negb has_predecessor && isexpl && (type =? 0) && negb (length ex =? 0)%nat
                then if has_successor then handle else done
                else
                  let has_successor := has attrs SEGATTR_SUCCSEG in
                  let lrs := lrs + len in
                  match read s (lrs - 1) 1 with
                  | None => handle
                  | Some _ =>
                      if has_successor then findoffsets_loop fuel esc s lr lrs has_successor ex im
                      else if isexpl
                      then findoffsets_loop fuel esc s lrs lrs has_successor (ex ++ [lr]) im
                      else findoffsets_loop fuel esc s lrs lrs has_successor ex (im ++ [lr])
                  end
          end
      end
  end.
Definition findoffsets (esc : severity -> bool) (s : stream) : io stream_offsets :=
  findoffsets_loop (S (S (length (s_data s)))) esc s 0 0 false [] [].

(** std::map<ident, vector<long long>> as an association list; only look-ups are
    observed, the key order of std::map is not modelled *)
Definition fdata_index := list (bytes * list Z).
Fixpoint index_push (k : bytes) (tell : Z) (m : fdata_index) : fdata_index :=
  match m with
  | [] => [(k, [tell])]
  | (k', ts) :: m' => if bytes_eqb k k' then (k', ts ++ [tell]) :: m' else (k', ts) :: index_push k tell m'
  end.
Fixpoint index_get (k : bytes) (m : fdata_index) : list Z :=
  match m with
  | [] => []
  | (k', ts) :: m' => if bytes_eqb k k' then ts else index_get k m'
  end.

(** io.cpp 537-590.  Reading the OBNAME beyond rec.data.size() stays inside the
    262 reserved bytes and makes obname_size > size, the "corrupted" branch. *)
Fixpoint findfdata (esc : severity -> bool) (s : stream) (tells : list Z) (xs : fdata_index)
  : io fdata_index :=
  match tells with
  | [] => ret xs
  | tell :: tells =>
      match extract_n esc s tell 262 with
      | (l, UB) => (l, UB)
      | (l, Fuel) => (l, Fuel)
      | (l, Exn) => let* _ := (l, Ok tt) in let* _ := log esc CRITICAL in findfdata esc s tells xs
      | (l, Ok rec) =>
          let* _ := (l, Ok tt) in
          if isencrypted rec then findfdata esc s tells xs
          else if negb (rec_type rec =? 0) && negb (rec_type rec =? 1) then findfdata esc s tells xs
          else if (length (rec_data rec) =? 0)%nat then findfdata esc s tells xs
          else match dlis_obname (rec_data rec) with
               | None => let* _ := log esc CRITICAL in findfdata esc s tells xs
               | Some (name, _) =>
                   match obname_fingerprint
                           (if rec_type rec =? 0 then text "FRAME" else text "NO-FORMAT") name with
                   | FpInvalid => fail
                   | FpOverrun => ([], UB)
                   | FpOk k => findfdata esc s tells (index_push k tell xs)
                   end
               end
      end
  end.
