(** C48-C50: the contents of LIS79 records. *)
From Verif Require Import Bytes DlisTypes DlisCore Stream DlisRecords SpecTypes SpecIo
  LisTypes LisProtocol SpecLisProtocol LisProtocolProofs LisProtocolProofs2.
Local Open Scope Z_scope.

(** ** C48: format specification records *)

(** parsing succeeds with these entries and blocks exactly if the record is their
    encoding *)
Theorem C48_exact : forall data es sps, parse_dfsr data = Ok (es, sps) <-> dfsr_bytes data es sps.
Proof. exact dfsr_exact. Qed.
Print Assumptions C48_exact.

(** whatever the bytes, parsing ends with a result or an error: no read outside the
    record, no endless loop *)
Theorem C48_safe : forall data, parse_dfsr data = Exn \/ exists r, parse_dfsr data = Ok r.
Proof. exact dfsr_safe. Qed.
Print Assumptions C48_safe.

(** the process indicators of a block of subtype 1 are the bits of its mask; bit 7 is
    the most significant one *)
Theorem C48_indicators :
  (forall b0 b1 b2 b3 b4, process_indicators [b0; b1; b2; b3; b4] =
     Ok (b2z b0 / 64, map (Z.testbit (b2z b0)) [5; 4; 3; 2; 1; 0] ++ map (Z.testbit (b2z b1)) [7; 6; 5; 4; 3; 2; 1; 0] ++
                      map (Z.testbit (b2z b2)) [1; 0])) /\
  (forall mask, length mask <> 5%nat -> process_indicators mask = Exn).
Proof. split; [exact indicators_exact | exact indicators_wrong]. Qed.
Print Assumptions C48_indicators.

(** an absent value, the subtype as an 8-bit 1, the terminator; one block *)
Definition C48_block : bytes :=
  text "DEPT" ++ text "SERVIC" ++ text "ORDER..." ++ text "FEET" ++ [x00; x00; x01; x02] ++ [xff; xfe] ++ [x00; x08] ++
  [x00; x00; x00; x02; x44] ++ [x80; x01; x03; x00; x00].
Definition C48_spec : spec_block :=
  mk_spec (text "DEPT") (text "SERVIC") (text "ORDER...") (text "FEET") (-2) 8 2 68 (Sub1 258 [x80; x01; x03; x00; x00]).
Definition C48_entries : list entry_block := [mk_entry 12 4 73 (LI32 (-999)); mk_entry 16 1 66 (LByte 1); mk_entry 0 0 66 LNone].
Definition C48_record : bytes := [x0c; x04; x49; xff; xff; xfc; x19] ++ [x10; x01; x42; x01] ++ [x00; x00; x42] ++ C48_block.
Example C48_example : dfsr_bytes C48_record C48_entries [C48_spec] /\ parse_dfsr C48_record = Ok (C48_entries, [C48_spec]) /\
  parse_dfsr (C48_record ++ [x00]) = Exn.
Proof.
  assert (E : parse_dfsr C48_record = Ok (C48_entries, [C48_spec])) by (vm_compute; reflexivity).
  split; [apply C48_exact; exact E|]. split; [exact E | vm_compute; reflexivity].
Qed.

(** ** C49: information records *)

Theorem C49_exact : forall data cs, parse_info_record data = Ok cs <-> exists bs, data = concat bs /\ Forall2 component_bytes bs cs.
Proof. exact info_exact. Qed.
Print Assumptions C49_exact.

Theorem C49_safe : forall data, parse_info_record data = Exn \/ exists cs, parse_info_record data = Ok cs.
Proof. exact info_safe. Qed.
Print Assumptions C49_safe.

Definition C49_b1 : bytes := [x49; x41; x04; x00] ++ text "TYPE" ++ text "    " ++ text "CONS".
Definition C49_b2 : bytes := [x45; x38; x01; x02] ++ text "VALU" ++ text "M   " ++ [xfe].
Example C49_example :
  (let c1 := mk_component 73 65 4 0 (text "TYPE") (text "    ") (LString (text "CONS")) in
   let c2 := mk_component 69 56 1 2 (text "VALU") (text "M   ") (LI8 (-2)) in
   Forall2 component_bytes [C49_b1; C49_b2] [c1; c2] /\ parse_info_record (concat [C49_b1; C49_b2]) = Ok [c1; c2]) /\
  parse_info_record (C49_b1 ++ [x00]) = Exn.
Proof.
  split; [|vm_compute; reflexivity]. split; [|vm_compute; reflexivity].
  constructor; [|constructor; [|constructor]].
  - apply (cb x49 x41 x04 x00 (text "TYPE") (text "    ") (text "CONS") (LString (text "CONS"))); [cbn; tauto | reflexivity | reflexivity |].
    apply (sv_some 65 (text "CONS")). constructor. discriminate.
  - apply (cb x45 x38 x01 x02 (text "VALU") (text "M   ") [xfe] (LI8 (-2))); [cbn; tauto | reflexivity | reflexivity |].
    apply (sv_some 56 [xfe]). constructor. unfold twos_complement. cbn. lia.
Qed.

(** ** C50: file, reel, tape and text records *)

(** file headers and trailers (types 128 and 129) *)
Theorem C50_file : forall type data,
  (forall r, parse_file_record type data = Ok r <-> (type = 128 \/ type = 129) /\ file_layout data r) /\
  (parse_file_record type data = Exn \/ exists r, parse_file_record type data = Ok r) /\
  ((type = 128 \/ type = 129) -> (56 <= length data)%nat -> exists r, parse_file_record type data = Ok r).
Proof. exact file_exact. Qed.
Print Assumptions C50_file.

(** tape (130, 131) and reel (132, 133) headers and trailers *)
Theorem C50_reel_tape : forall type data,
  (forall r, parse_reel_tape_record type data = Ok r <-> In type [130; 131; 132; 133] /\ reel_tape_layout data r) /\
  (parse_reel_tape_record type data = Exn \/ exists r, parse_reel_tape_record type data = Ok r) /\
  (In type [130; 131; 132; 133] -> (126 <= length data)%nat -> exists r, parse_reel_tape_record type data = Ok r).
Proof. exact reel_exact. Qed.
Print Assumptions C50_reel_tape.

(** operator command inputs, response inputs, system outputs and comments *)
Theorem C50_text : forall type data, parse_text_record type data = if existsb (Z.eqb type) [224; 225; 227; 232] then Ok data else Exn.
Proof. exact text_exact. Qed.
Print Assumptions C50_text.

Definition C50_data : bytes :=
  text "LIS1  .001" ++ text "  " ++ text "SUBLVL" ++ text "VERSION1" ++ text "79/06/15" ++ text " " ++ text " 1024" ++ text "  " ++
  text "LO" ++ text "  " ++ text "PREVFILE10".
Example C50_example :
  parse_file_record 128 C50_data =
    Ok (mk_file_record (text "LIS1  .001") (text "SUBLVL") (text "VERSION1") (text "79/06/15") (text " 1024") (text "LO") (text "PREVFILE10")) /\
  parse_file_record 130 C50_data = Exn /\ parse_file_record 128 (tl C50_data) = Exn.
Proof. repeat split; vm_compute; reflexivity. Qed.
Definition C50_reel : bytes :=
  text "SERVCE" ++ text "      " ++ text "79/06/15" ++ text "  " ++ text "ORGN" ++ text "  " ++ text "REELNAME" ++ text "  " ++
  text "01" ++ text "  " ++ text "PREVREEL" ++ text "  " ++ repeat "c"%byte 74.
Example C50_example_reel :
  parse_reel_tape_record 132 C50_reel =
    Ok (mk_reel_tape (text "SERVCE") (text "79/06/15") (text "ORGN") (text "REELNAME") (text "01") (text "PREVREEL") (repeat "c"%byte 74)) /\
  parse_reel_tape_record 129 C50_reel = Exn /\ parse_reel_tape_record 132 (tl C50_reel) = Exn /\
  parse_text_record 232 C50_reel = Ok C50_reel.
Proof. repeat split; vm_compute; reflexivity. Qed.
