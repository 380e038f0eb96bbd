(** Model of the external library lfp (layered file protocols), which is not part
    of /repo, as far as lib/src/dlis/io.cpp 28-66 and lib/src/file.cpp use it:
    plain files and the RP66 protocol on top of them.  From its documentation;
    part of the trusted base. *)
From Verif Require Import Bytes Stream.
Local Open Scope Z_scope.

(** ** Visible records *)

(** The payloads of the visible records from the start of [data] on, and whether
    the sequence ends in an error: a header that is no header of a visible
    record, or data that ends early.  Reading beyond the last payload then
    throws.  Headers are only read when needed; an error in a header is not seen
    before its data is asked for.  Fuel: one header is at least 4 bytes. *)
Fixpoint visible_records (fuel : nat) (data : bytes) : list bytes * bool :=
  match fuel, data with
  | O, _ => ([], true)
  | _, [] => ([], false)
  | S fuel, l0 :: l1 :: f :: v :: rest =>
      let n := Z.to_nat (256 * b2z l0 + b2z l1 - 4) in
      if negb ((b2z f =? 0xFF) && (b2z v =? 1)) || (256 * b2z l0 + b2z l1 <? 4) then ([], true)
      else if (length rest <? n)%nat then ([rest], true)
      else let '(ps, broken) := visible_records fuel (skipn n rest) in (firstn n rest :: ps, broken)
  | _, _ => ([], true)
  end.

(** where logical position [n] is, relative to the first header: in the record
    that holds it, behind that record's header; at the end of the last record if
    there is none *)
Fixpoint visible_tell (ps : list bytes) (n : Z) : Z :=
  match ps with
  | [] => n
  | p :: ps => if n <? Z.of_nat (length p) then 4 + n
               else 4 + Z.of_nat (length p) + visible_tell ps (n - Z.of_nat (length p))
  end.

(** ** Streams as dlisio uses them *)

(** A plain file or tape image opened somewhere: its logical data, the physical
    position of a logical one, and whether the end of its data is also the end of
    the physical file ([stream.peof()] after a read at the end). *)
Record raw := mk_raw { raw_stream : stream; raw_ptell : Z -> Z; raw_peof : bool }.
(** a logical file: the visible records from some position of a [raw] on *)
Record rp66 := mk_rp66 { vs_stream : stream; vs_ptell : Z -> Z }.

(** lfp_cfile_open_at_offset: nothing behind the end of the file *)
Definition plain_raw (file : bytes) (offset : Z) : raw :=
  mk_raw (mk_stream (skipn (Z.to_nat offset) file) false) (fun n => offset + n) true.
(** lfp_rp66_open at position [pos] *)
Definition plain_rp66 (r : raw) (pos : Z) : option rp66 :=
  let data := skipn (Z.to_nat pos) (s_data (raw_stream r)) in
  match visible_records (S (length data)) data with
  | ([], true) => None
  | (ps, broken) => Some (mk_rp66 (mk_stream (concat ps) broken) (fun n => raw_ptell r (pos + visible_tell ps n)))
  end.
