(** Properties C11-C17: label, headers, trailers, descriptors, fingerprints and
    frame unpacking.  Specification vocabulary: SpecCore. *)
From Verif Require Import Bytes BytesProofs DlisTypes SpecTypes TypesProofs TypesProofs2
  DlisCore SpecCore CoreProofs CoreProofs2.
Local Open Scope Z_scope.

(** ** C11: the storage unit label.  The 80 bytes are sequence number (4),
    version (5), layout (6), maximum record length (5) and identifier (60). *)
Theorem C11_label_fields :
  forall seq rev lay len id rest,
  length seq = 4%nat -> length rev = 5%nat -> length lay = 6%nat -> length len = 5%nat -> length id = 60%nat ->
  let xs := seq ++ rev ++ lay ++ len ++ id ++ rest in
  (* a readable version other than 1.0 is refused *)
  (exists major minor, revision_text rev major minor /\ (major, minor) <> (1, 0) /\
     storage_label xs = LabelUnparsable) \/
  ((forall major minor, revision_text rev major minor -> major = 1 /\ minor = 0) /\
   exists l, storage_label xs = LabelOk l /\
    label_major l = 1 /\ label_minor l = 0 /\
    (forall n, sul_number seq n -> 0 < n -> label_sequence l = n) /\
    ((forall n, sul_number seq n -> n <= 0) -> label_sequence l = -1) /\
    (forall n, sul_number len n -> label_maxlen l = n) /\
    ((forall n, ~ sul_number len n) -> label_maxlen l = 0) /\
    (lay = text "RECORD" -> label_layout l = text "record") /\
    (lay <> text "RECORD" -> label_layout l = text "unknown") /\
    c_string_of id (label_id l) /\
    (* the caller is warned unless every field is valid *)
    (label_warning l = false <->
       revision_text rev 1 0 /\ lay = text "RECORD" /\
       (exists n, sul_number seq n /\ 0 < n) /\ (exists n, sul_number len n))).
Proof. exact storage_label_cases. Qed.
Print Assumptions C11_label_fields.

Theorem C11_label_too_small :
  forall xs, storage_label xs = LabelTooSmall <-> (length xs < 80)%nat.
Proof. exact label_too_small. Qed.
Print Assumptions C11_label_too_small.

(** a number field denotes at most one number *)
Theorem C11_number_unique : forall f n m, sul_number f n -> sul_number f m -> n = m.
Proof. exact sul_number_unique. Qed.
Print Assumptions C11_number_unique.

Example C11_example :
  storage_label (text "   1" ++ text "V1.00" ++ text "RECORD" ++ text " 8192" ++ text "Default" ++ repeat x20 53)
  = LabelOk (mk_label false 1 1 0 (text "record") 8192 (text "Default" ++ repeat x20 53)) /\
  storage_label (text "   1" ++ text "V2.00" ++ text "RECORD" ++ text " 8192" ++ repeat x20 60) = LabelUnparsable /\
  sul_number (text " 8192") 8192.
Proof.
  split; [vm_compute; reflexivity|]. split; [vm_compute; reflexivity|].
  apply (sul_number_intro [x20] (text "8192") [] []);
    repeat constructor; unfold digit_char; try discriminate; vm_compute; auto; congruence.
Qed.

(** ** C12: visible record and segment headers *)
Theorem C12_headers :
  (forall l0 l1 ff v rest, dlis_vrl (l0 :: l1 :: ff :: v :: rest) = Some (256 * b2z l0 + b2z l1, b2z v)) /\
  (forall l0 l1 a t rest, dlis_lrsh (l0 :: l1 :: a :: t :: rest) = Some (256 * b2z l0 + b2z l1, b2z a, b2z t)) /\
  (forall xs, (length xs < 4)%nat -> dlis_vrl xs = None /\ dlis_lrsh xs = None).
Proof.
  split; [|split].
  - intros. rewrite vrl_decode. unfold u16. f_equal. f_equal. lia.
  - intros. rewrite lrsh_decode. unfold u16. f_equal. f_equal. f_equal. lia.
  - intros xs H. split; [apply vrl_short | apply lrsh_short]; exact H.
Qed.
Print Assumptions C12_headers.

(** explicit format, predecessor, successor, encryption, encryption packet,
    checksum, trailing length, padding are bits 8..1 (RP66 fig. 2-3) *)
Theorem C12_attribute_bits :
  forall a,
  dlis_segment_attributes a =
  {| sa_explicit := bit_value a 7; sa_predecessor := bit_value a 6; sa_successor := bit_value a 5;
     sa_encrypted := bit_value a 4; sa_encpacket := bit_value a 3; sa_checksum := bit_value a 2;
     sa_trailing_length := bit_value a 1; sa_padding := bit_value a 0 |}.
Proof. exact segment_attributes_bits. Qed.
Print Assumptions C12_attribute_bits.

Theorem C12_encryption_packet :
  forall l0 l1 c0 c1 rest,
  let len := 256 * b2z l0 + b2z l1 in
  dlis_encryption_packet_info (l0 :: l1 :: c0 :: c1 :: rest) =
  Some (if len <? 4 then (DLIS_INCONSISTENT, None)
        else if Z.odd len then (DLIS_UNEXPECTED_VALUE, None)
        else (DLIS_OK, Some (len - 4, 256 * b2z c0 + b2z c1))).
Proof.
  intros. rewrite encryption_packet_spec. unfold u16, len.
  replace (b2z l0 * 256 + b2z l1) with (256 * b2z l0 + b2z l1) by lia.
  replace (b2z c0 * 256 + b2z c1) with (256 * b2z c0 + b2z c1) by lia. reflexivity.
Qed.
Print Assumptions C12_encryption_packet.

Example C12_example :
  dlis_vrl [x20; x00; xff; x01] = Some (8192, 1) /\
  dlis_lrsh [x00; x7c; x80; x03] = Some (124, 128, 3) /\
  sa_explicit (dlis_segment_attributes 128) = 128 /\ sa_padding (dlis_segment_attributes 128) = 0 /\
  dlis_encryption_packet_info [x00; x06; x00; x09] = Some (DLIS_OK, Some (2, 9)).
Proof. vm_compute. auto. Qed.

(** ** C13: trailers.  A segment is body, padding (its last byte is the pad
    count), then checksum and trailing length. *)
Theorem C13_trim_exact :
  forall a before body pad tail,
  Z.testbit a 4 = false ->
  Z.of_nat (length tail) = tail_size a ->
  (if Z.testbit a 0 then exists p c, pad = p ++ [c] /\ b2z c = Z.of_nat (length pad) else pad = []) ->
  dlis_trim_record_segment a before (body ++ pad ++ tail) =
  Some (DLIS_OK, Z.of_nat (length pad) + Z.of_nat (length tail)).
Proof. exact trim_exact. Qed.
Print Assumptions C13_trim_exact.

(** any segment longer than the checksum and trailing length: what is trimmed is
    those plus the pad count, and BAD_SIZE says exactly that this is too much *)
Theorem C13_trim_reports :
  forall a before seg,
  Z.testbit a 4 = false -> tail_size a < Z.of_nat (length seg) ->
  forall e t, dlis_trim_record_segment a before seg = Some (e, t) ->
  exists n, t = tail_size a + n /\
    (if Z.testbit a 0
     then exists pre c post, seg = pre ++ c :: post /\ Z.of_nat (length post) = tail_size a /\ n = b2z c
     else n = 0) /\
    (e = DLIS_BAD_SIZE <-> t > Z.of_nat (length seg)) /\ (e = DLIS_OK <-> t <= Z.of_nat (length seg)).
Proof. exact trim_bad. Qed.
Print Assumptions C13_trim_reports.

Theorem C13_trim_total :
  forall a before seg,
  (Z.testbit a 4 = true \/ Z.testbit a 0 = false \/ tail_size a < Z.of_nat (length before) + Z.of_nat (length seg) <->
   exists e t, dlis_trim_record_segment a before seg = Some (e, t)) /\
  (Z.testbit a 4 = true -> dlis_trim_record_segment a before seg = Some (DLIS_OK, 0)) /\
  (Z.testbit a 4 = false -> Z.testbit a 0 = false -> dlis_trim_record_segment a before seg =
     Some (if tail_size a <=? Z.of_nat (length seg) then DLIS_OK else DLIS_BAD_SIZE, tail_size a)).
Proof. exact trim_total. Qed.
Print Assumptions C13_trim_total.

(** Finding: a padded segment no longer than its checksum and trailing length
    makes the pad count be read before the segment. *)
Theorem C13_pad_count_in_segment_refuted :
  exists a seg, dlis_trim_record_segment a [] seg = None.
Proof. exists 1, []. reflexivity. Qed.
Print Assumptions C13_pad_count_in_segment_refuted.

Example C13_example :
  dlis_trim_record_segment 7 [] ([x0a; x0b] ++ [x01; x02; x03] ++ [x00; x00; x00; x00]) = Some (DLIS_OK, 7) /\
  dlis_trim_record_segment 1 [] [x0a; x09] = Some (DLIS_BAD_SIZE, 9).
Proof. vm_compute. auto. Qed.

(** ** C14 (library level): searching in a buffer *)
Theorem C14_find_sul :
  forall hay,
  (forall off, dlis_find_sul hay = (DLIS_OK, Some off) <->
     0 <= off /\ first_occurrence (text "RECORD") hay (Z.to_nat (off + 9))) /\
  (dlis_find_sul hay = (DLIS_NOTFOUND, None) <-> forall k, ~ occurs_at (text "RECORD") hay k) /\
  (dlis_find_sul hay = (DLIS_INCONSISTENT, None) <->
     exists k, Z.of_nat k < 9 /\ first_occurrence (text "RECORD") hay k).
Proof. exact find_sul_spec. Qed.
Print Assumptions C14_find_sul.

Theorem C14_find_vrl :
  forall hay,
  (forall off, dlis_find_vrl hay = (DLIS_OK, Some off) <->
     0 <= off /\ first_occurrence [xff; x01] hay (Z.to_nat (off + 2))) /\
  (dlis_find_vrl hay = (DLIS_NOTFOUND, None) <-> forall k, ~ occurs_at [xff; x01] hay k) /\
  (dlis_find_vrl hay = (DLIS_INCONSISTENT, None) <->
     exists k, Z.of_nat k < 2 /\ first_occurrence [xff; x01] hay k).
Proof. exact find_vrl_spec. Qed.
Print Assumptions C14_find_vrl.

Example C14_example :
  dlis_find_sul (text "junk" ++ text "   1V1.00RECORD 8192") = (DLIS_OK, Some 4) /\
  dlis_find_sul (text "RECORD") = (DLIS_INCONSISTENT, None) /\
  dlis_find_vrl [x00; x20; x00; xff; x01] = (DLIS_OK, Some 1).
Proof. vm_compute. auto. Qed.

(** ** C15: component descriptors *)
Theorem C15_role : forall d, 0 <= d < 256 -> dlis_component d = 32 * (d / 32).
Proof. exact component_role. Qed.
Print Assumptions C15_role.

(** type and name of sets, name of objects, label/count/reprc/units/value of
    attributes; only for roles 101, 110, 111 / 011 / 001, 010 (bits 8-6) *)
Theorem C15_flags :
  forall d, 0 <= d < 256 ->
  let role := dlis_component d in
  dlis_component_set d role =
    (if (d / 32 =? 5) || (d / 32 =? 6) || (d / 32 =? 7) then Some (bit_value d 4, bit_value d 3) else None) /\
  dlis_component_object d role = (if d / 32 =? 3 then Some (bit_value d 4) else None) /\
  dlis_component_attrib d role =
    (if (d / 32 =? 1) || (d / 32 =? 2)
     then Some (bit_value d 4, bit_value d 3, bit_value d 2, bit_value d 1, bit_value d 0) else None).
Proof. exact component_flags. Qed.
Print Assumptions C15_flags.

Theorem C15_mismatch :
  forall d role,
  (role <> 160 -> role <> 192 -> role <> 224 -> dlis_component_set d role = None) /\
  (role <> 96 -> dlis_component_object d role = None) /\
  (role <> 32 -> role <> 64 -> dlis_component_attrib d role = None).
Proof. exact component_mismatch. Qed.
Print Assumptions C15_mismatch.

Theorem C15_names :
  forall d, 0 <= d < 256 ->
  dlis_component_str (dlis_component d) =
  nth (Z.to_nat (d / 32))
    [text "absent attribute"; text "attribute"; text "invariant attribute"; text "object";
     text "reserved"; text "redundant set"; text "replacement set"; text "set"] [].
Proof. exact component_names. Qed.
Print Assumptions C15_names.

Example C15_example :
  dlis_component 0xF8 = 0xE0 /\ dlis_component_set 0xF8 0xE0 = Some (16, 8) /\
  dlis_component_attrib 0x35 0x20 = Some (16, 0, 4, 0, 1) /\ dlis_component_object 0x35 0x20 = None.
Proof. vm_compute. auto. Qed.

(** ** C16: fingerprints *)
Theorem C16_form :
  forall type id o c, type <> [] -> 0 <= o < 2 ^ 31 -> 0 <= c <= 255 ->
  exists so sc, is_numeral so o /\ is_numeral sc c /\
    py_fingerprint type id o c =
    FpOk (text "T." ++ type ++ text "-I." ++ id ++ text "-O." ++ so ++ text "-C." ++ sc).
Proof. exact fingerprint_form. Qed.
Print Assumptions C16_form.

Theorem C16_rejects :
  forall type id o c, type = [] \/ o < 0 \/ c < 0 \/ 255 < c -> py_fingerprint type id o c = FpInvalid.
Proof. exact fingerprint_rejects. Qed.
Print Assumptions C16_rejects.

(** the announced length is the number of characters written *)
Theorem C16_exact_size :
  forall type id o c, 0 <= o -> type <> [] ->
  exists w, dlis_object_fingerprint type id o c = Some w /\
    dlis_object_fingerprint_size (Z.of_nat (length type)) (Z.of_nat (length id)) o c = Some (Z.of_nat (length w)).
Proof. exact fingerprint_exact_size. Qed.
Print Assumptions C16_exact_size.

Theorem C16_injective :
  forall type id1 o1 c1 id2 o2 c2 f,
  0 <= o1 < 2 ^ 31 -> 0 <= o2 < 2 ^ 31 ->
  py_fingerprint type id1 o1 c1 = FpOk f -> py_fingerprint type id2 o2 c2 = FpOk f ->
  id1 = id2 /\ o1 = o2 /\ c1 = c2.
Proof. exact py_fingerprint_inj. Qed.
Print Assumptions C16_injective.

(** across types: for types without '.' (all RP66 types) *)
Theorem C16_injective_types_partial :
  forall type1 id1 o1 c1 type2 id2 o2 c2 f,
  ~ In "."%byte type1 -> ~ In "."%byte type2 ->
  0 <= o1 < 2 ^ 31 -> 0 <= o2 < 2 ^ 31 ->
  py_fingerprint type1 id1 o1 c1 = FpOk f -> py_fingerprint type2 id2 o2 c2 = FpOk f ->
  type1 = type2 /\ id1 = id2 /\ o1 = o2 /\ c1 = c2.
Proof. exact py_fingerprint_inj_types. Qed.
Print Assumptions C16_injective_types_partial.

Theorem C16_injective_types_refuted :
  exists type1 id1 type2 id2 f,
  type1 <> type2 /\ py_fingerprint type1 id1 1 0 = FpOk f /\ py_fingerprint type2 id2 1 0 = FpOk f.
Proof.
  exists (text "A"), (text "B-I.C"), (text "A-I.B"), (text "C"), (text "T.A-I.B-I.C-O.1-C.0").
  split; [discriminate|]. split; vm_compute; reflexivity.
Qed.
Print Assumptions C16_injective_types_refuted.

Example C16_example : py_fingerprint (text "FRAME") (text "800T") 2 0 = FpOk (text "T.FRAME-I.800T-O.2-C.0").
Proof. vm_compute. reflexivity. Qed.

(** ** C17: unpacking frames *)
Theorem C17_measure_agrees :
  forall f src,
  match dlis_packf f src, dlis_packflen f src with
  | PackOob, LenOob => True
  | PackErr, LenErr => True
  | PackOk out, LenOk nread nwrite =>
      nwrite = Z.of_nat (length out) /\
      0 <= nread <= Z.of_nat (length src) /\
      forall rest, dlis_packf f (firstn (Z.to_nat nread) src ++ rest) = PackOk out
  | _, _ => False
  end.
Proof. exact packf_measure. Qed.
Print Assumptions C17_measure_agrees.

Theorem C17_concat :
  forall f g src,
  dlis_packf (f ++ g) src =
  match dlis_packf f src, dlis_packflen f src with
  | PackOk o1, LenOk n _ =>
      match dlis_packf g (skipn (Z.to_nat n) src) with
      | PackOk o2 => PackOk (o1 ++ o2)
      | e => e
      end
  | e, _ => e
  end.
Proof. exact packf_concat. Qed.
Print Assumptions C17_concat.

(** each character unpacks its own type: 27 entries *)
Theorem C17_characters :
  forall src,
  unpacks_as "r" src (do (v, r) <- dlis_fshort src; Some ([Int 4 v], r)) /\
  unpacks_as "f" src (do (v, r) <- dlis_fsingl src; Some ([Int 4 v], r)) /\
  unpacks_as "b" src (do (t, r) <- dlis_fsing1 src; let '(v, a) := t in Some ([Int 4 v; Int 4 a], r)) /\
  unpacks_as "B" src (do (t, r) <- dlis_fsing2 src; let '(v, a, b) := t in Some ([Int 4 v; Int 4 a; Int 4 b], r)) /\
  unpacks_as "x" src (do (v, r) <- dlis_isingl src; Some ([Int 4 v], r)) /\
  unpacks_as "V" src (do (v, r) <- dlis_vsingl src; Some ([Int 4 v], r)) /\
  unpacks_as "F" src (do (v, r) <- dlis_fdoubl src; Some ([Int 8 v], r)) /\
  unpacks_as "z" src (do (t, r) <- dlis_fdoub1 src; let '(v, a) := t in Some ([Int 8 v; Int 8 a], r)) /\
  unpacks_as "Z" src (do (t, r) <- dlis_fdoub2 src; let '(v, a, b) := t in Some ([Int 8 v; Int 8 a; Int 8 b], r)) /\
  unpacks_as "c" src (do (t, r) <- dlis_csingl src; let '(re, im) := t in Some ([Int 4 re; Int 4 im], r)) /\
  unpacks_as "C" src (do (t, r) <- dlis_cdoubl src; let '(re, im) := t in Some ([Int 8 re; Int 8 im], r)) /\
  unpacks_as "d" src (do (v, r) <- dlis_sshort src; Some ([Int 1 v], r)) /\
  unpacks_as "D" src (do (v, r) <- dlis_snorm src; Some ([Int 2 v], r)) /\
  unpacks_as "l" src (do (v, r) <- dlis_slong src; Some ([Int 4 v], r)) /\
  unpacks_as "u" src (do (v, r) <- dlis_ushort src; Some ([Int 1 v], r)) /\
  unpacks_as "U" src (do (v, r) <- dlis_unorm src; Some ([Int 2 v], r)) /\
  unpacks_as "L" src (do (v, r) <- dlis_ulong src; Some ([Int 4 v], r)) /\
  unpacks_as "i" src (do (v, r) <- dlis_uvari src; Some ([Int 4 v], r)) /\
  unpacks_as "s" src (do (s, r) <- dlis_ident src; Some ([Text s], r)) /\
  unpacks_as "S" src (do (s, r) <- dlis_ascii src; Some ([Text s], r)) /\
  unpacks_as "j" src (do (t, r) <- dlis_dtime src;
    Some ([Int 4 (dt_Y t); Int 4 (dt_TZ t); Int 4 (dt_M t); Int 4 (dt_D t);
           Int 4 (dt_H t); Int 4 (dt_MN t); Int 4 (dt_S t); Int 4 (dt_MS t)], r)) /\
  unpacks_as "J" src (do (v, r) <- dlis_origin src; Some ([Int 4 v], r)) /\
  unpacks_as "o" src (do (n, r) <- dlis_obname src;
    Some ([Int 4 (ob_origin n); Int 1 (ob_copy n); Text (ob_id n)], r)) /\
  unpacks_as "O" src (do (n, r) <- dlis_objref src;
    Some ([Text (or_type n); Int 4 (ob_origin (or_name n)); Int 1 (ob_copy (or_name n)); Text (ob_id (or_name n))], r)) /\
  unpacks_as "A" src (do (n, r) <- dlis_attref src;
    Some ([Text (ar_type n); Int 4 (ob_origin (ar_name n)); Int 1 (ob_copy (ar_name n)); Text (ob_id (ar_name n));
           Text (ar_label n)], r)) /\
  unpacks_as "q" src (do (v, r) <- dlis_status src; Some ([Int 1 v], r)) /\
  unpacks_as "Q" src (do (s, r) <- dlis_units src; Some ([Text s], r)).
Proof. exact unpack_table. Qed.
Print Assumptions C17_characters.

(** an unknown character is an error, and only that is *)
Theorem C17_invalid :
  forall f src,
  (dlis_packf f src = PackErr -> exists c, In c f /\ ~ valid_char c) /\
  (dlis_packf f src <> PackOob -> Exists (fun c => ~ valid_char c) f -> dlis_packf f src = PackErr).
Proof. exact packf_error. Qed.
Print Assumptions C17_invalid.

(** announced sizes: the destination size is exact whenever it is announced, the
    source size is exact for fixed-size formats and 0 when it varies *)
Theorem C17_announced_size :
  forall f s d, dlis_pack_size f = SizeOk s d ->
  (forall src r w, dlis_packflen f src = LenOk r w -> w = d) /\
  (Forall (fun c => ~ In c uvari_chars) f ->
     forall src, dlis_packflen f src = (if s <=? Z.of_nat (length src) then LenOk s d else LenOob)) /\
  (Exists (fun c => In c uvari_chars) f -> s = 0).
Proof. exact pack_size_sound. Qed.
Print Assumptions C17_announced_size.

Theorem C17_size_announced_when :
  forall f,
  (dlis_pack_size f = SizeInvalid <-> exists p c t, f = p ++ c :: t /\ ~ valid_char c /\
      Forall (fun c => valid_char c /\ ~ In c text_chars) p) /\
  (dlis_pack_size f = SizeVariable <-> exists p c t, f = p ++ c :: t /\ In c text_chars /\
      Forall (fun c => valid_char c /\ ~ In c text_chars) p) /\
  ((exists s d, dlis_pack_size f = SizeOk s d) <-> Forall (fun c => valid_char c /\ ~ In c text_chars) f).
Proof. exact pack_size_total. Qed.
Print Assumptions C17_size_announced_when.

Theorem C17_varsize :
  forall f,
  (dlis_pack_varsize f = None <-> dlis_pack_size f = SizeInvalid) /\
  (dlis_pack_varsize f = Some (1, 1) <-> dlis_pack_size f = SizeVariable) /\
  (dlis_pack_varsize f = Some (1, 0) <->
     (exists s d, dlis_pack_size f = SizeOk s d) /\ Exists (fun c => In c uvari_chars) f) /\
  (dlis_pack_varsize f = Some (0, 0) <->
     (exists s d, dlis_pack_size f = SizeOk s d) /\ Forall (fun c => ~ In c uvari_chars) f).
Proof. exact pack_varsize_total. Qed.
Print Assumptions C17_varsize.

(** Finding: dlisio.h says a format with an invalid specifier is refused; after a
    text specifier it is not. *)
Theorem C17_varsize_rejects_invalid_refuted :
  exists f, Exists (fun c => ~ valid_char c) f /\ dlis_pack_varsize f = Some (1, 1).
Proof.
  exists (text "s?"). split; [|reflexivity]. apply Exists_cons_tl, Exists_cons_hd.
  rewrite valid_char_iff. intros [x E]. discriminate.
Qed.
Print Assumptions C17_varsize_rejects_invalid_refuted.

Example C17_example :
  dlis_packf (text "iUs") [x81; x00; x01; x02; x02; x41; x42; x99]
  = PackOk [x00; x01; x00; x00; x02; x01; x02; x00; x00; x00; x41; x42] /\
  dlis_packflen (text "iUs") [x81; x00; x01; x02; x02; x41; x42; x99] = LenOk 7 12 /\
  dlis_pack_size (text "rjf") = SizeOk 14 40 /\ dlis_pack_size (text "fi") = SizeOk 0 8 /\
  dlis_packf (text "f") [x00] = PackOob /\ dlis_packf (text "d?") [x00] = PackErr.
Proof. vm_compute. repeat split. Qed.
