(** Properties C42-C47: LIS79 physical records, logical records and logical files. *)
From Verif Require Import Bytes BytesProofs DlisTypes SpecTypes Stream SpecIo IoProofs LisProtocol LisIo SpecLisIo
  LisIoProofs LisIoProofs2 LisIoProofs3 LisIoProofs4 LisIoProofs5.
Local Open Scope Z_scope.

(** a device over the bytes, first byte at physical position 0, without I/O failures *)
Definition file_of (data : bytes) : device := mk_device (mk_stream data false) 0.

(** ** C42: the next header is found across padding *)

(** The header that follows the padding is returned, the position is just after
    it; a header with an impossible length is refused. *)
Theorem C42_found_partial : forall d pos p h l a,
  phys_header l a h -> 0 < l -> gap (d_offset d) pos p h -> at_pos (d_data d) pos (p ++ h) ->
  read_physical_header d pos =
    (if l <? (if predecessor a then 4 else 6) + trailer_size a then DErr OtherError else DOk (mk_prh l a),
     pos + len p + 4).
Proof. intros d pos p h l a H L G A. rewrite <- min_length_spec. exact (header_found d pos p h l a H L G A). Qed.
Print Assumptions C42_found_partial.

(** Without the restriction [gap] it fails: a single pad byte is taken for a part
    of the header, and so is a header with length 0x2020 for padding. *)
Theorem C42_found_refuted :
  (exists d pos p h l a, padding p /\ phys_header l a h /\ (d_offset d + pos + len p) mod 4 = 0 /\ 6 <= l /\ a = 0 /\
     at_pos (d_data d) pos (p ++ h) /\ len (d_data d) = pos + len p + l /\
     fst (read_physical_header d pos) <> DOk (mk_prh l a)) /\
  (exists d pos h l a, phys_header l a h /\ 6 <= l /\ a = 0 /\
     at_pos (d_data d) pos h /\ len (d_data d) = pos + l /\
     fst (read_physical_header d pos) <> DOk (mk_prh l a)).
Proof.
  split.
  - exists (file_of ([x00; x00; x00] ++ [x20] ++ [x00; z2b 8; x00; x00; z2b 128; x00; "A"%byte; "B"%byte])), 3, [x20],
      [x00; z2b 8; x00; x00], 8, 0.
    split; [exists x20, 1%nat; auto|]. split; [exists x00, (z2b 8), x00, x00; repeat split; vm_compute; reflexivity|].
    split; [reflexivity|]. split; [lia|]. split; [reflexivity|]. split.
    + exists [x00; x00; x00], [z2b 128; x00; "A"%byte; "B"%byte]. split; reflexivity.
    + split; [reflexivity|]. vm_compute. discriminate.
  - exists (mk_device (mk_stream ([x20; x20; x00; x00] ++ repeat ("A"%byte) (Z.to_nat 8220)) false) 1), 0, [x20; x20; x00; x00], 8224, 0.
    split; [exists x20, x20, x00, x00; repeat split; vm_compute; reflexivity|]. split; [lia|]. split; [reflexivity|]. split.
    + exists [], (repeat ("A"%byte) (Z.to_nat 8220)). split; reflexivity.
    + split; [vm_compute; reflexivity|]. vm_compute. discriminate.
Qed.
Print Assumptions C42_found_refuted.

(** At the end of the data, with or without padding, end of file is reported. *)
Theorem C42_eof : forall d pos p, s_hard (d_stream d) = false -> padding p -> tail_at (d_data d) pos p ->
  read_physical_header d pos = (DErr EofError, len (d_data d)).
Proof. intros d pos p H P T. rewrite (header_eof d pos p P T). unfold stop. rewrite H. reflexivity. Qed.
Print Assumptions C42_eof.

(** A header that is cut off is reported as truncation. *)
Theorem C42_truncated_partial : forall d pos p t,
  s_hard (d_stream d) = false ->
  padding p -> 0 < len t < 4 -> ~ padding t ->
  (p = [] \/ (length p <> 1%nat /\ (d_offset d + pos + len p) mod 4 = 0 /\ len p + len t <> 4)) ->
  tail_at (d_data d) pos (p ++ t) ->
  read_physical_header d pos = (DErr TruncationError, len (d_data d)).
Proof. intros d pos p t H P L N G T. rewrite (header_cut d pos p t P L N G T). unfold stop. rewrite H. reflexivity. Qed.
Print Assumptions C42_truncated_partial.

(** With two or three pad bytes and exactly four bytes left it goes unnoticed. *)
Theorem C42_truncated_refuted : exists d pos p t,
  s_hard (d_stream d) = false /\ padding p /\ 0 < len t < 4 /\ ~ padding t /\
  length p <> 1%nat /\ (d_offset d + pos + len p) mod 4 = 0 /\ tail_at (d_data d) pos (p ++ t) /\
  read_physical_header d pos = (DErr EofError, len (d_data d)).
Proof.
  exists (file_of ([x00; z2b 6; x00; x00; z2b 128; x00] ++ [x00; x00] ++ [x00; z2b 6])), 6, [x00; x00], [x00; z2b 6].
  split; [reflexivity|]. split; [exists x00, 2%nat; auto|]. split; [cbv; split; reflexivity|]. split.
  { intros (c & [|[|[|k]]] & E & _); try discriminate. injection E as <- E. vm_compute in E. discriminate. }
  split; [discriminate|]. split; [reflexivity|]. split; [exists [x00; z2b 6; x00; x00; z2b 128; x00]; split; reflexivity|].
  vm_compute. reflexivity.
Qed.
Print Assumptions C42_truncated_refuted.

(** Whatever the file holds, the search ends, and what is returned is a header of
    the file with a possible length, at or after the position. *)
Theorem C42_any : forall d pos, 0 <= pos ->
  match read_physical_header d pos with
  | (DOk prh, pos') => pos + 4 <= pos' /\
      (if predecessor (prh_attributes prh) then 4 else 6) + trailer_size (prh_attributes prh) <= prh_length prh /\
      exists h, phys_header (prh_length prh) (prh_attributes prh) h /\ at_pos (d_data d) (pos' - 4) h
  | (DErr e, pos') => pos <= pos'
  | (DFuel, _) => False
  end.
Proof.
  intros d pos Hp. pose proof (header_inv d pos Hp) as H. destruct (read_physical_header d pos) as [[prh|e|] q]; try exact H.
  rewrite min_length_spec in H. exact H.
Qed.
Print Assumptions C42_any.

Example C42_example :
  gap 0 3 (repeat x20 5) [x00; z2b 8; x02; x01] /\
  phys_header 8 0x201 [x00; z2b 8; x02; x01] /\
  read_physical_header (file_of ([x00; x00; x00] ++ repeat x20 5 ++ [x00; z2b 8; x02; x01] ++ [x00; x00])) 3 =
    (DOk (mk_prh 8 0x201), 12) /\
  read_physical_header (file_of ([x00; x00; x00] ++ repeat x20 5 ++ [x00; z2b 8; x02])) 3 = (DErr TruncationError, 11).
Proof.
  split; [|split; [|split; vm_compute; reflexivity]].
  - split; [exists x20, 5%nat; auto|]. split; [discriminate|]. right. split; [discriminate | reflexivity].
  - exists x00, (z2b 8), x02, x01. repeat split; vm_compute; reflexivity.
Qed.

(** ** C43: records read back as written *)

(** A record split over physical records, with trailers and padding, is read back
    as its data; the position is just after the last physical record. *)
Theorem C43_read : forall d padded pos p type ds e info q,
  lis_record padded (d_offset d) (pos + len p) type ds e -> gap (d_offset d) pos p (firstn 4 e) ->
  at_pos (d_data d) pos (p ++ e) -> ri_ltell info = pos ->
  read_record d info q = (DOk ds, pos + len p + len e).
Proof. intros d padded pos p type ds e [t sz lt] q R G A <-. eapply read_record_spec; eassumption. Qed.
Print Assumptions C43_read.

(** What indexing returns for a record reads back as the data and type of the record. *)
Theorem C43_indexed : forall d pos p type ds e q,
  lis_record false (d_offset d) (pos + len p) type ds e -> In type record_types ->
  gap (d_offset d) pos p (firstn 4 e) -> at_pos (d_data d) pos (p ++ e) ->
  exists info pos', index_record d pos = (DOk info, pos') /\ ri_type info = type /\
    read_record d info q = (DOk ds, pos').
Proof.
  intros d pos p type ds e q R V G A. eexists _, _. split; [eapply index_record_spec; eassumption|]. split; [reflexivity|].
  apply at_pos_app in A as [_ A].
  assert (gap (d_offset d) (pos + len p) [] (firstn 4 e)) as G'.
  { destruct G as (_ & G1 & G2). split; [exists x00, 0%nat; auto|]. split; [exact G1|].
    destruct G2 as [[-> G2]|[_ G2]]; [left; auto | right]. change (len []) with 0. split; [discriminate|].
    rewrite Z.add_0_r, Z.add_assoc. exact G2. }
  rewrite (read_record_spec d false (pos + len p) [] type ds e) by (change (len []) with 0; rewrite ?Z.add_0_r; assumption).
  change (len []) with 0. rewrite Z.add_0_r. reflexivity.
Qed.
Print Assumptions C43_indexed.

Definition C43_bytes : bytes :=
  [x00; z2b 10; x02; x01; z2b 64; x00; "A"%byte; "B"%byte; x00; x07] ++ [x20; x20] ++ [x00; z2b 6; x00; x02; "C"%byte; "D"%byte].
Example C43_example :
  lis_record true 0 0 64 (text "ABCD") C43_bytes /\
  read_record (file_of C43_bytes) (mk_info 64 0 0) 5 = (DOk (text "ABCD"), 18).
Proof.
  split; [|vm_compute; reflexivity]. exists (z2b 64), x00. split; [reflexivity|].
  change (z2b 64 :: x00 :: text "ABCD") with ([z2b 64; x00; "A"%byte; "B"%byte] ++ [ "C"%byte; "D"%byte]).
  apply (pc_more true 0 0 true 0x201 [x00; z2b 10; x02; x01] [z2b 64; x00; "A"%byte; "B"%byte] [x00; x07] [x20; x20]
    ["C"%byte; "D"%byte] [x00; z2b 6; x00; x02; "C"%byte; "D"%byte]); try reflexivity; try discriminate.
  - exists x00, (z2b 10), x02, x01. repeat split; vm_compute; reflexivity.
  - split; [exists x20, 2%nat; auto|]. split; [discriminate|]. right. split; [discriminate | reflexivity].
  - apply (pc_last true 0 _ false 2 [x00; z2b 6; x00; x02] ["C"%byte; "D"%byte] []); try reflexivity; try discriminate.
    exists x00, (z2b 6), x00, x02. repeat split; vm_compute; reflexivity.
Qed.

(** ** C44: indexing positions on the next record *)

(** The index entry has the type, the size and the position of the record, and
    the position is just after it; if there is no padding inside the record. *)
Theorem C44_position_partial : forall d pos p type ds e,
  lis_record false (d_offset d) (pos + len p) type ds e -> In type record_types ->
  gap (d_offset d) pos p (firstn 4 e) -> at_pos (d_data d) pos (p ++ e) ->
  index_record d pos = (DOk (mk_info type (len e) (pos + len p)), pos + len p + len e).
Proof. exact index_record_spec. Qed.
Print Assumptions C44_position_partial.

(** Padding between the physical records is not counted: the position is inside
    the record, although reading it is fine. *)
Theorem C44_padded_refuted : exists d e,
  lis_record true (d_offset d) 0 64 (text "AB") e /\ gap (d_offset d) 0 [] (firstn 4 e) /\ at_pos (d_data d) 0 e /\
  index_record d 0 = (DOk (mk_info 64 (len e - 2) 0), len e - 2) /\
  read_record d (mk_info 64 (len e - 2) 0) 0 = (DOk (text "AB"), len e).
Proof.
  exists (file_of ([x00; z2b 6; x00; x01; z2b 64; x00] ++ [x00; x00] ++ [x00; z2b 6; x00; x02; "A"%byte; "B"%byte])),
    ([x00; z2b 6; x00; x01; z2b 64; x00] ++ [x00; x00] ++ [x00; z2b 6; x00; x02; "A"%byte; "B"%byte]).
  split; [|split; [|split; [|split; vm_compute; reflexivity]]].
  - exists (z2b 64), x00. split; [reflexivity|].
    change (z2b 64 :: x00 :: text "AB") with ([z2b 64; x00] ++ [ "A"%byte; "B"%byte]).
    apply (pc_more true 0 0 true 1 [x00; z2b 6; x00; x01] [z2b 64; x00] [] [x00; x00]
      ["A"%byte; "B"%byte] [x00; z2b 6; x00; x02; "A"%byte; "B"%byte]); try reflexivity; try discriminate.
    + exists x00, (z2b 6), x00, x01. repeat split; vm_compute; reflexivity.
    + split; [exists x00, 2%nat; auto|]. split; [discriminate|]. right. split; [discriminate | reflexivity].
    + apply (pc_last true 0 _ false 2 [x00; z2b 6; x00; x02] ["A"%byte; "B"%byte] []); try reflexivity; try discriminate.
      exists x00, (z2b 6), x00, x02. repeat split; vm_compute; reflexivity.
  - split; [exists x00, 0%nat; auto|]. split; [discriminate|]. left. split; [reflexivity | discriminate].
  - exists [], []. rewrite app_nil_r. split; reflexivity.
Qed.
Print Assumptions C44_padded_refuted.

(** Whatever the file holds: an indexed record starts at or after the position,
    lies inside the file, has a known type, which is the one in the file, and the
    position is just after its size. *)
Theorem C44_any : forall d pos, 0 <= pos ->
  match index_record d pos with
  | (DOk i, pos') => pos <= ri_ltell i /\ 6 <= ri_size i /\ pos' = ri_ltell i + ri_size i /\ pos' <= len (d_data d) /\
      In (ri_type i) record_types /\
      exists l a h t x, phys_header l a h /\ at_pos (d_data d) (ri_ltell i) (h ++ [t; x]) /\ b2z t = ri_type i /\
        l <= ri_size i /\ predecessor a = false
  | (DErr e, pos') => pos <= pos'
  | (DFuel, _) => False
  end.
Proof.
  intros d pos Hp. pose proof (index_record_inv d pos Hp) as I. destruct (index_record d pos) as [[i|e|] q]; [|apply I|exact I].
  destruct I as (I1 & I2 & I3 & I4 & I5 & l & a & h & t & x & J1 & J2 & J3 & _ & J5 & J6).
  repeat (split; [assumption|]). exists l, a, h, t, x. auto.
Qed.
Print Assumptions C44_any.

(** ** C45: the consistency check is exact *)
Theorem C45_exact : forall attrs, attr_consistent attrs = true <->
  forall i a, nth_error attrs i = Some a ->
    predecessor a = negb (i =? 0)%nat /\ successor a = negb (S i =? length attrs)%nat.
Proof.
  intros [|a t]; [split; [intros _ [|i] a E; discriminate | reflexivity]|].
  rewrite consistent_chain, (chain_nth true) by discriminate. reflexivity.
Qed.
Print Assumptions C45_exact.

Example C45_example :
  attr_consistent [1; 3; 0x203; 2] = true /\ attr_consistent [1; 3; 1; 2] = false /\
  attr_consistent [1; 3; 3] = false /\ attr_consistent [3; 2] = false /\ attr_consistent [0] = true.
Proof. repeat split; reflexivity. Qed.

(** ** C46: logical files are delimited correctly *)

(** up to and including the file trailer or logical EOF *)
Theorem C46_closed : forall d pos rs c last q, 0 <= pos ->
  records_at (d_offset d) (d_data d) pos (rs ++ [c]) last -> inside (map type_of rs) -> is_closing (type_of c) ->
  next_start (d_offset d) (d_data d) last q ->
  index_records d pos =
    (DOk (mk_index (map info_of (others_of (rs ++ [c]))) (map info_of (data_of (rs ++ [c]))) false), q).
Proof. exact file_closed. Qed.
Print Assumptions C46_closed.

(** a delimiter is on its own *)
Theorem C46_delimiter : forall d pos c last q, 0 <= pos ->
  records_at (d_offset d) (d_data d) pos [c] last -> is_delimiter (type_of c) ->
  next_start (d_offset d) (d_data d) last q ->
  index_records d pos = (DOk (mk_index [info_of c] [] false), q).
Proof.
  intros d pos c last q Hp R C N. rewrite (file_delimiter d pos c last q Hp R C N). unfold index_of, others_of, data_of.
  cbn [filter]. rewrite (delimiter_other c C). reflexivity.
Qed.
Print Assumptions C46_delimiter.

(** up to the next delimiter or file header, if the file has a record other than
    data records *)
Theorem C46_separated_partial : forall d pos rs c last, 0 <= pos ->
  records_at (d_offset d) (d_data d) pos (rs ++ [c]) last -> inside (map type_of rs) -> has_explicit (map type_of rs) ->
  is_delimiter (type_of c) \/ is_header (type_of c) ->
  index_records d pos = (DOk (mk_index (map info_of (others_of rs)) (map info_of (data_of rs)) false), start_of c).
Proof. exact file_separated. Qed.
Print Assumptions C46_separated_partial.

(** up to the end of the data *)
Theorem C46_end : forall d pos rs last p, 0 <= pos ->
  records_at (d_offset d) (d_data d) pos rs last -> inside (map type_of rs) ->
  padding p -> tail_at (d_data d) last p ->
  index_records d pos =
    (DOk (mk_index (map info_of (others_of rs)) (map info_of (data_of rs)) (s_hard (d_stream d))), len (d_data d)).
Proof. exact file_rest. Qed.
Print Assumptions C46_end.

(** up to damage, which is reported *)
Theorem C46_damaged : forall d pos rs last, 0 <= pos ->
  records_at (d_offset d) (d_data d) pos rs last -> inside (map type_of rs) ->
  damaged_at (d_offset d) (d_data d) last ->
  exists q, index_records d pos = (DOk (mk_index (map info_of (others_of rs)) (map info_of (data_of rs)) true), q).
Proof. exact file_damaged. Qed.
Print Assumptions C46_damaged.

(** Any file: indexing ends without an exception, entries are ordered, do not
    overlap and lie in the file, data records are implicit and others explicit;
    if there is an entry the position has moved ahead. *)
Theorem C46_any : forall d pos, 0 <= pos ->
  exists ix q, index_records d pos = (DOk ix, q) /\ pos <= q /\
    ordered pos (Z.max pos (len (d_data d))) (map tuple (ix_explicits ix)) /\
    ordered pos (Z.max pos (len (d_data d))) (map tuple (ix_implicits ix)) /\
    (forall i, In i (ix_explicits ix) -> ~ is_data (ri_type i)) /\
    (forall i, In i (ix_implicits ix) -> is_data (ri_type i)) /\
    (ix_explicits ix <> [] \/ ix_implicits ix <> [] -> pos < q).
Proof. exact index_records_total. Qed.
Print Assumptions C46_any.

(** [n]: bytes of a record of one physical record *)
Definition one_record (type : byte) (ds : bytes) : bytes :=
  [x00; z2b (6 + len ds); x00; x00; type; x00] ++ ds.
Lemma one_record_spec off pos type ds : len ds < 200 ->
  lis_record false off pos (b2z type) ds (one_record type ds) /\ gap off pos [] (firstn 4 (one_record type ds)).
Proof.
  intros L. pose proof (len_nonneg ds) as Ln. split.
  - exists type, x00. split; [reflexivity|]. unfold one_record.
    replace ([x00; z2b (6 + len ds); x00; x00; type; x00] ++ ds) with
      ([x00; z2b (6 + len ds); x00; x00] ++ (type :: x00 :: ds) ++ []) by (rewrite app_nil_r; reflexivity).
    apply pc_last with (a := 0); try reflexivity.
    + exists x00, (z2b (6 + len ds)), x00, x00. split; [reflexivity|]. split; [|reflexivity].
      unfold u16. rewrite b2z_z2b by lia. change (b2z x00) with 0. rewrite !len_cons. change (len []) with 0. lia.
    + intros _. rewrite !len_cons. lia.
  - split; [exists x00, 0%nat; auto|]. split; [discriminate|]. left. split; [reflexivity | discriminate].
Qed.
Lemma one_record_at off data pos type ds rs last : len ds < 200 -> at_pos data pos (one_record type ds) ->
  In (b2z type) record_types -> records_at off data (pos + len (one_record type ds)) rs last ->
  records_at off data pos ((b2z type, len (one_record type ds), pos) :: rs) last.
Proof.
  intros L A V R. destruct (one_record_spec off pos type ds L) as [S G].
  pose proof (ra_cons off data pos [] (one_record type ds) (b2z type) ds rs last) as X.
  change (len []) with 0 in X. rewrite Z.add_0_r in X. apply X; auto.
Qed.

(** data records alone do not separate: the delimiter joins their index *)
Theorem C46_separated_refuted : exists d rs c last,
  records_at (d_offset d) (d_data d) 0 (rs ++ [c]) last /\ inside (map type_of rs) /\ is_delimiter (type_of c) /\ rs <> [] /\
  index_records d 0 = (DOk (mk_index [info_of c] (map info_of rs) false), last).
Proof.
  exists (file_of (one_record x00 [x01] ++ one_record (z2b 133) [])), [(0, 7, 0)], (133, 6, 7), 13.
  split; [|split; [|split; [|split; [discriminate | vm_compute; reflexivity]]]].
  - apply (one_record_at _ _ 0 x00 [x01]); [reflexivity | | left; reflexivity |].
    + exists [], (one_record (z2b 133) []). split; reflexivity.
    + apply (one_record_at _ _ 7 (z2b 133) []); [reflexivity | | cbn; tauto | apply ra_nil].
      exists (one_record x00 [x01]), []. split; reflexivity.
  - split.
    + intros t [<-|[]]. split; cbn; lia.
    + intros a t b E H x X. destruct a as [|y [|z a]]; try discriminate. destruct X.
  - cbn. tauto.
Qed.
Print Assumptions C46_separated_refuted.

Definition C46_bytes : bytes :=
  one_record (z2b 128) [] ++ one_record (z2b 64) [] ++ one_record x00 [x01] ++ one_record (z2b 129) [] ++ repeat x00 3.
Definition C46_index : record_index :=
  mk_index [mk_info 128 6 0; mk_info 64 6 6; mk_info 129 6 19] [mk_info 0 7 12] false.
Example C46_example :
  records_at 0 C46_bytes 0 ([(128, 6, 0); (64, 6, 6); (0, 7, 12)] ++ [(129, 6, 19)]) 25 /\
  inside (map type_of [(128, 6, 0); (64, 6, 6); (0, 7, 12)]) /\ is_closing 129 /\ next_start 0 C46_bytes 25 28 /\
  index_records (file_of C46_bytes) 0 = (DOk C46_index, 28).
Proof.
  split; [|split; [|split; [|split; [|vm_compute; reflexivity]]]].
  - apply (one_record_at _ _ 0 (z2b 128) []); [reflexivity | | cbn; tauto |].
    { exists [], (one_record (z2b 64) [] ++ one_record x00 [x01] ++ one_record (z2b 129) [] ++ repeat x00 3). split; reflexivity. }
    apply (one_record_at _ _ 6 (z2b 64) []); [reflexivity | | cbn; tauto |].
    { exists (one_record (z2b 128) []), (one_record x00 [x01] ++ one_record (z2b 129) [] ++ repeat x00 3). split; reflexivity. }
    apply (one_record_at _ _ 12 x00 [x01]); [reflexivity | | cbn; tauto |].
    { exists (one_record (z2b 128) [] ++ one_record (z2b 64) []), (one_record (z2b 129) [] ++ repeat x00 3). split; reflexivity. }
    apply (one_record_at _ _ 19 (z2b 129) []); [reflexivity | | cbn; tauto | apply ra_nil].
    exists (one_record (z2b 128) [] ++ one_record (z2b 64) [] ++ one_record x00 [x01]), (repeat x00 3). split; reflexivity.
  - split.
    + intros t [<-|[<-|[<-|[]]]]; split; cbn; lia.
    + intros a t b E H x X. unfold is_header in H. subst t. destruct a as [|y [|z [|w a]]]; cbn in E; try discriminate.
      { destruct X. } { destruct a; discriminate. }
  - left. reflexivity.
  - right. exists (repeat x00 3). split; [exists x00, 3%nat; auto|]. split; [|reflexivity].
    exists (one_record (z2b 128) [] ++ one_record (z2b 64) [] ++ one_record x00 [x01] ++ one_record (z2b 129) []). split; reflexivity.
Qed.

(** ** C47: data records belong to the preceding format specification *)

(** For every indexed file: [tell] is refused unless it is the position of an
    explicit record; otherwise the data records returned are, in order, those
    after [tell] and not after any later format specification (type 64). *)
Theorem C47_belongs : forall d pos ix q tell, 0 <= pos -> index_records d pos = (DOk ix, q) ->
  implicits_of ix tell =
  if existsb (fun s => ri_ltell s =? tell) (ix_explicits ix) then
    Some (filter (fun i => (tell <? ri_ltell i) &&
            forallb (fun s => negb (ri_type s =? 64) || (ri_ltell s <=? tell) || (ri_ltell i <=? ri_ltell s)) (ix_explicits ix))
          (ix_implicits ix))
  else None.
Proof.
  intros d pos ix q tell Hp E. destruct (index_records_total d pos Hp) as (ix' & q' & E' & _ & O1 & O2 & _).
  rewrite E in E'. injection E' as <- <-. eapply implicits_spec; eassumption.
Qed.
Print Assumptions C47_belongs.

Example C47_example :
  implicits_of C46_index 6 = Some [mk_info 0 7 12] /\ implicits_of C46_index 19 = Some [] /\ implicits_of C46_index 12 = None.
Proof. repeat split; vm_compute; reflexivity. Qed.
