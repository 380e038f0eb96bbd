(** Proofs about splitting LIS79 files: plain files. *)
From Verif Require Import Bytes BytesProofs DlisTypes SpecTypes TypesProofs Stream SpecIo IoProofs LisProtocol LisIo SpecLisIo LisIoProofs LisIoProofs2 LisIoProofs3 LisIoProofs4 LisIoProofs5 Tapemark LisLoad SpecLisLoad LisLoadProofs LisLoadProofs2.
Local Open Scope Z_scope.
Ltac Zify.zify_post_hook ::= Z.div_mod_to_equations.

(** ** Seen from a position inside *)
Definition from (o : Z) (data : bytes) : bytes := skipn (Z.to_nat o) data.
Lemma from_len o data : 0 <= o <= len data -> len (from o data) = len data - o.
Proof. intros H. unfold from, len in *. rewrite skipn_length. lia. Qed.
Lemma from_at o data pos x : 0 <= o -> o <= pos -> at_pos data pos x -> at_pos (from o data) (pos - o) x.
Proof.
  intros Ho Hp (pre & post & -> & L). exists (skipn (Z.to_nat o) pre), post. unfold from, len in *.
  rewrite skipn_app. replace (Z.to_nat o - length pre)%nat with 0%nat by lia. split; [reflexivity|]. rewrite skipn_length. lia.
Qed.
Lemma from_tail o data pos x : 0 <= o -> o <= pos -> tail_at data pos x -> tail_at (from o data) (pos - o) x.
Proof.
  intros Ho Hp (pre & -> & L). exists (skipn (Z.to_nat o) pre). unfold from, len in *.
  rewrite skipn_app. replace (Z.to_nat o - length pre)%nat with 0%nat by lia. split; [reflexivity|]. rewrite skipn_length. lia.
Qed.
Lemma gap_shift o pos p h : gap 0 pos p h -> gap o (pos - o) p h.
Proof. unfold gap. replace (0 + pos + len p) with (o + (pos - o) + len p) by lia. auto. Qed.
Lemma pieces_shift padded o pos first body e : pieces padded 0 pos first body e -> pieces padded o (pos - o) first body e.
Proof.
  induction 1 as [pos first a h body tr H L P S F | pos first a h body tr p body' e H L P S F Pad G C IH]; [econstructor; eassumption|].
  econstructor; try eassumption.
  - replace (pos - o + 4 + len body + len tr) with (pos + 4 + len body + len tr - o) by lia. apply gap_shift. exact G.
  - replace (pos - o + 4 + len body + len tr + len p) with (pos + 4 + len body + len tr + len p - o) by lia. exact IH.
Qed.
Lemma lis_record_shift padded o pos type ds e : lis_record padded 0 pos type ds e -> lis_record padded o (pos - o) type ds e.
Proof. intros (t & x & E & P). exists t, x. split; [exact E | apply pieces_shift, P]. Qed.
Lemma records_shift o data pos rs last : 0 <= o -> o <= pos -> records_at 0 data pos rs last ->
  records_at o (from o data) (pos - o) (map (back o) rs) (last - o).
Proof.
  intros Ho Hp R. induction R as [pos | pos p e type ds rs last A G L V R IH]; [constructor|].
  cbn [map]. unfold back at 1. cbn [fst snd].
  pose proof (len_nonneg p). pose proof (len_nonneg e).
  replace (pos + len p - o) with (pos - o + len p) by lia. econstructor.
  - apply from_at; eassumption.
  - apply gap_shift, G.
  - replace (pos - o + len p) with (pos + len p - o) by lia. apply lis_record_shift. exact L.
  - exact V.
  - replace (pos - o + len p + len e) with (pos + len p + len e - o) by lia. apply IH. lia.
Qed.
Lemma next_shift o data pos q : 0 <= o -> o <= pos -> o <= len data -> next_start 0 data pos q -> next_start o (from o data) (pos - o) (q - o).
Proof.
  intros Ho Hp Hl [(r & last & R & ->)|(p & P & T & ->)].
  - left. exists (back o r), (last - o). split; [apply (records_shift o data pos [r]); assumption | reflexivity].
  - right. exists p. split; [exact P|]. split; [apply from_tail; assumption | rewrite from_len by lia; reflexivity].
Qed.
Lemma damaged_shift o data pos : 0 <= o -> o <= pos -> o <= len data -> damaged_at 0 data pos -> damaged_at o (from o data) (pos - o).
Proof.
  intros Ho Hp Hl (p & h & l & a & G & H & L & A & B). exists p, h, l, a. split; [apply gap_shift, G|].
  split; [exact H|]. split; [exact L|]. split; [apply from_at; assumption|].
  destruct B as [B|[B|[(t & x & B1 & B2)|B]]]; [left; exact B | right; left | right; right; left | right; right; right; exact B].
  - rewrite from_len by lia. lia.
  - exists t, x. split; [apply from_at; assumption | exact B2].
Qed.
Lemma types_back o rs : map type_of (map (back o) rs) = map type_of rs.
Proof. rewrite map_map. apply map_ext. reflexivity. Qed.

(** ** Without the padding in front *)
Lemma gap_drop pos p h : gap 0 pos p h -> gap 0 (pos + len p) [] h.
Proof.
  intros (_ & G1 & G2). split; [exists x00, 0%nat; auto|]. split; [exact G1|].
  destruct G2 as [[-> G2]|[_ G2]]; [left; auto | right]. change (len []) with 0. split; [discriminate|].
  rewrite Z.add_0_r, Z.add_assoc. exact G2.
Qed.
Lemma records_drop data pos r rs last : records_at 0 data pos (r :: rs) last -> records_at 0 data (start_of r) (r :: rs) last.
Proof.
  intros R. inversion R as [|? p e type ds ? ? A G L V T]; subst. unfold start_of. cbn [snd].
  apply at_pos_app in A as [_ A].
  assert (X : records_at 0 data (pos + len p) ((type, len e, pos + len p + len []) :: rs) last).
  { econstructor.
    - exact A.
    - apply gap_drop, G.
    - change (len []) with 0. rewrite Z.add_0_r. exact L.
    - exact V.
    - change (len []) with 0. rewrite Z.add_0_r. exact T. }
  change (len []) with 0 in X. rewrite Z.add_0_r in X. exact X.
Qed.
Lemma record_records data pos type ds last : In type record_types -> record_at data pos type ds last ->
  exists r, records_at 0 data pos [r] last /\ record_at data (start_of r) type ds last /\ type_of r = type.
Proof.
  intros V (p & e & A & G & L & ->). exists (type, len e, pos + len p). split; [|split; [|reflexivity]].
  - econstructor; try eassumption. constructor.
  - exists [], e. change (len []) with 0. unfold start_of. cbn [snd app]. rewrite !Z.add_0_r.
    apply at_pos_app in A as [_ A]. split; [exact A|]. split; [apply gap_drop, G|]. split; [exact L | reflexivity].
Qed.
Lemma same_start data pos r r' l l' a b : 0 <= pos -> records_at 0 data pos (r :: a) l -> records_at 0 data pos (r' :: b) l' -> r = r'.
Proof.
  intros Hp R R'. pose proof (records_head (mk_device (mk_stream data false) 0) pos r a l R) as (E & _).
  pose proof (records_head (mk_device (mk_stream data false) 0) pos r' b l' R') as (E' & _). rewrite E in E'.
  injection E' as E1 E2 E3. destruct r as [[x y] z], r' as [[x' y'] z']. cbn in *. congruence.
Qed.
Lemma start_unique data pos r rs last q : 0 <= pos -> records_at 0 data pos (r :: rs) last -> next_start 0 data pos q -> q = start_of r.
Proof.
  intros Hp R [(r' & l' & R' & ->)|(p & P & T & ->)].
  - f_equal. eapply same_start; eassumption.
  - pose proof (records_head (mk_device (mk_stream data false) 0) pos r rs last R) as (E & _).
    rewrite (index_at_rest (mk_device (mk_stream data false) 0) pos Hp p P T) in E. discriminate.
Qed.
Lemma start_end data pos p q : 0 <= pos -> padding p -> tail_at data pos p -> next_start 0 data pos q -> q = len data.
Proof.
  intros Hp P T [(r' & l' & R' & ->)|(p' & P' & T' & ->)]; [|reflexivity].
  pose proof (records_head (mk_device (mk_stream data false) 0) pos r' [] l' R') as (E & _).
  rewrite (index_at_rest (mk_device (mk_stream data false) 0) pos Hp p P T) in E. discriminate.
Qed.
Lemma start_damaged data pos q : 0 <= pos -> damaged_at 0 data pos -> next_start 0 data pos q -> False.
Proof.
  intros Hp D N. destruct (damaged_error (mk_device (mk_stream data false) 0) pos Hp D) as (e & p1 & E & Ne).
  destruct N as [(r' & l' & R' & ->)|(p' & P' & T' & ->)].
  - pose proof (records_head (mk_device (mk_stream data false) 0) pos r' [] l' R') as (E' & _). congruence.
  - rewrite (index_at_rest (mk_device (mk_stream data false) 0) pos Hp p' P' T') in E. cbn in E. congruence.
Qed.

(** ** Plain files as devices *)
Lemma opens_some file o : 0 <= o < len file -> opens_of (open_plain file) o (Some (plain_device file o)).
Proof.
  intros H. unfold opens_of, open_plain, open_device. cbv zeta.
  assert (A : exists x, at_pos (from o file) 0 [x]).
  { destruct (from o file) as [|x l] eqn:E; [pose proof (from_len o file ltac:(lia)) as L; rewrite E in L; change (len []) with 0 in L; lia|].
    exists x, [], l. split; reflexivity. }
  destruct A as (x & A). rewrite (dread_at (plain_device file o) 0 [x] 1 A eq_refl). reflexivity.
Qed.
Lemma opens_none file o : len file <= o -> opens_of (open_plain file) o None.
Proof.
  intros H. unfold opens_of, open_plain, open_device. cbv zeta.
  assert (E : d_data (plain_device file o) = []) by (apply skipn_all2; unfold len in *; lia).
  rewrite (dread_end (plain_device file o) 0 [] 1); [reflexivity | | change (len []) with 0; lia | reflexivity].
  rewrite E. exists []. split; reflexivity.
Qed.

Definition related (s : section) (s' : dsection) (data : bytes) : Prop :=
  match s, s' with
  | Delimiter ty ds, DDelimiter ty' ds' => ty' = ty /\ ds' = ds
  | File rs, DFile d rs' => exists o, 0 <= o <= len data /\ (forall r, In r rs -> o <= start_of r) /\ d = plain_device data o /\ rs' = map (back o) rs
  | _, _ => False
  end.

Section plain.
Variable data : bytes.
Notation Course := (course (opens_of (open_plain data)) plain_stopped).
Definition follows (b : bool) (pos : Z) (secs : list section) : Prop :=
  exists secs', Forall2 (fun s s' => related s s' data) secs secs' /\ Course b pos secs'.

Lemma nonempty_before pos p : tail_at data pos p -> p <> [] -> pos < len data.
Proof. intros T N. apply tail_at_pos, at_pos_bound in T. destruct p; [congruence|]. rewrite len_cons in T. pose proof (len_nonneg p). lia. Qed.
Lemma record_before o r rs last : 0 <= o -> records_at 0 data o (r :: rs) last -> o < len data.
Proof. intros Ho R. destruct (records_bound _ _ _ _ _ R Ho) as [B1 B2]. specialize (B2 ltac:(discriminate)). cbn [length] in B1. lia. Qed.

Lemma starts_after o rs last : records_at 0 data o rs last -> forall r, In r rs -> o <= start_of r.
Proof.
  induction 1 as [pos | pos p e type ds rs last A G L V R IH]; [intros r []|]. pose proof (len_nonneg p). pose proof (len_nonneg e).
  intros r [<-|H1]; [unfold start_of; cbn; lia|]. specialize (IH _ H1). lia.
Qed.

Lemma plain_end o p : 0 <= o -> padding p -> tail_at data o p -> follows true o [].
Proof.
  intros Ho P T. exists []. split; [constructor|]. destruct p as [|x p].
  - apply co_end. apply opens_none. destruct T as (pre & -> & L). rewrite app_nil_r. lia.
  - pose proof (nonempty_before o _ T ltac:(discriminate)) as B.
    eapply co_padding with (d := plain_device data o); [apply opens_some; lia | reflexivity | exact P | |].
    + pose proof (from_tail o data o (x :: p) Ho ltac:(lia) T) as X. rewrite Z.sub_diag in X. exact X.
    + apply co_end. apply opens_none. unfold plain_stopped. cbn [plain_device d_offset].
      change (d_data (plain_device data o)) with (from o data). rewrite from_len by lia. lia.
Qed.

Lemma plain_single o type ds last q : 0 <= o -> record_at data o type ds last -> next_start 0 data last q -> o < len data ->
  record_in (plain_device data o) type ds (last - o) /\
  next_start (d_offset (plain_device data o)) (d_data (plain_device data o)) (last - o) (q - o).
Proof.
  intros Ho (p & e & A & G & L & E) N B. pose proof (len_nonneg p). pose proof (len_nonneg e).
  split; [|apply next_shift; auto; lia]. exists p, e.
  pose proof (from_at o data o _ Ho ltac:(lia) A) as A'. rewrite Z.sub_diag in A'. split; [exact A'|].
  pose proof (gap_shift o _ _ _ G) as G'. rewrite Z.sub_diag in G'. split; [exact G'|].
  pose proof (lis_record_shift _ o _ _ _ _ L) as L'. replace (o + len p - o) with (len p) in L' by lia. split; [exact L' | lia].
Qed.
Lemma record_at_before o type ds last : 0 <= o -> record_at data o type ds last -> o < len data.
Proof.
  intros Ho (p & e & A & G & (t & x & _ & P) & E). apply pieces_length in P. apply at_pos_bound in A. rewrite len_app in A.
  pose proof (len_nonneg p). lia.
Qed.

Lemma plain_delimiter b o type ds last q secs : 0 <= o -> record_at data o type ds last -> is_delimiter type ->
  next_start 0 data last q -> follows b q secs -> follows b o (Delimiter type ds :: secs).
Proof.
  intros Ho R D N (secs' & M & C). pose proof (record_at_before _ _ _ _ Ho R) as B.
  destruct (plain_single o type ds last q Ho R N B) as [R' N'].
  exists (DDelimiter type ds :: secs'). split; [constructor; [split; reflexivity | exact M]|].
  eapply co_delimiter; [apply opens_some; lia | exact R' | exact D | exact N'|].
  unfold plain_stopped. cbn [plain_device d_offset]. replace (o + (q - o)) with q by lia. exact C.
Qed.
Lemma plain_eof b o ds last q secs : 0 <= o -> record_at data o 137 ds last ->
  next_start 0 data last q -> follows b q secs -> follows b o secs.
Proof.
  intros Ho R N (secs' & M & C). pose proof (record_at_before _ _ _ _ Ho R) as B.
  destruct (plain_single o 137 ds last q Ho R N B) as [R' N'].
  exists secs'. split; [exact M|].
  eapply co_eof; [apply opens_some; lia | exact R' | exact N'|].
  unfold plain_stopped. cbn [plain_device d_offset]. replace (o + (q - o)) with q by lia. exact C.
Qed.
Lemma plain_records o rs last : 0 <= o -> records_at 0 data o rs last ->
  records_at (d_offset (plain_device data o)) (d_data (plain_device data o)) 0 (map (back o) rs) (last - o).
Proof. intros Ho R. pose proof (records_shift o data o rs last Ho ltac:(lia) R) as X. rewrite Z.sub_diag in X. exact X. Qed.
Lemma plain_closed b o rs c last q secs : 0 <= o -> records_at 0 data o (rs ++ [c]) last ->
  inside (map type_of rs) -> is_closing (type_of c) -> (type_of c = 137 -> has_explicit (map type_of rs)) ->
  next_start 0 data last q -> follows b q secs -> follows b o (File (rs ++ [c]) :: secs).
Proof.
  intros Ho R Hi Cl Ex N (secs' & M & C).
  assert (B : o < len data) by (destruct (rs ++ [c]) eqn:E; [destruct rs; discriminate|]; eapply record_before; eassumption).
  assert (Hl : o <= last) by (destruct (records_bound _ _ _ _ _ R Ho); lia).
  exists (DFile (plain_device data o) (map (back o) (rs ++ [c])) :: secs'). split.
  - constructor; [|exact M]. exists o. split; [lia|]. split; [eapply starts_after; exact R|]. split; reflexivity.
  - rewrite map_app. pose proof (plain_records o _ last Ho R) as R'. rewrite map_app in R'. cbn [map] in *.
    eapply co_closed with (q := q - o); [apply opens_some; lia | exact R' | rewrite types_back; exact Hi | exact Cl | rewrite types_back; exact Ex
      | apply next_shift; auto; lia|].
    unfold plain_stopped. cbn [plain_device d_offset]. replace (o + (q - o)) with q by lia. exact C.
Qed.
Lemma plain_open b o rs c last secs : 0 <= o -> records_at 0 data o (rs ++ [c]) last ->
  inside (map type_of rs) -> has_explicit (map type_of rs) -> is_delimiter (type_of c) \/ is_header (type_of c) ->
  follows b (start_of c) secs -> follows b o (File rs :: secs).
Proof.
  intros Ho R Hi Ex D (secs' & M & C).
  assert (B : o < len data) by (destruct (rs ++ [c]) eqn:E; [destruct rs; discriminate|]; eapply record_before; eassumption).
  exists (DFile (plain_device data o) (map (back o) rs) :: secs'). split.
  - constructor; [|exact M]. exists o. split; [lia|]. split; [|split; reflexivity].
    intros r Hr. eapply starts_after; [exact R|]. apply in_or_app. left. exact Hr.
  - pose proof (plain_records o _ last Ho R) as R'. rewrite map_app in R'. cbn [map] in *.
    eapply co_open with (c := back o c); [apply opens_some; lia | exact R' | rewrite types_back; exact Hi | rewrite types_back; exact Ex | exact D|].
    unfold plain_stopped. cbn [plain_device d_offset]. unfold start_of, back. cbn [snd]. replace (o + (snd c - o)) with (snd c) by lia. exact C.
Qed.
Lemma plain_last o rs last p : 0 <= o -> records_at 0 data o rs last -> inside (map type_of rs) -> rs <> [] ->
  padding p -> tail_at data last p -> follows true o [File rs].
Proof.
  intros Ho R Hi Ne P T.
  assert (B : o < len data) by (destruct rs; [congruence|]; eapply record_before; eassumption).
  assert (Hl : o <= last) by (destruct (records_bound _ _ _ _ _ R Ho); lia).
  exists [DFile (plain_device data o) (map (back o) rs)]. split.
  - constructor; [|constructor]. exists o. split; [lia|]. split; [eapply starts_after; exact R|]. split; reflexivity.
  - eapply co_last; [apply opens_some; lia | apply plain_records; eassumption | rewrite types_back; exact Hi | destruct rs; [congruence|discriminate]
      | reflexivity | exact P | apply from_tail; assumption|].
    apply co_end, opens_none. unfold plain_stopped. cbn [plain_device d_offset].
    change (d_data (plain_device data o)) with (from o data). rewrite from_len by lia. lia.
Qed.
Lemma damaged_before pos : 0 <= pos -> damaged_at 0 data pos -> pos < len data.
Proof.
  intros Hp (p & h & l & a & G & H & L & A & B). apply at_pos_bound in A. rewrite len_app, (phys_len _ _ _ H) in A.
  pose proof (len_nonneg p). lia.
Qed.
Lemma plain_broken o : 0 <= o -> damaged_at 0 data o -> follows false o [].
Proof.
  intros Ho D. pose proof (damaged_before o Ho D) as B. exists []. split; [constructor|].
  eapply co_broken with (d := plain_device data o); [apply opens_some; lia|].
  pose proof (damaged_shift o data o Ho ltac:(lia) ltac:(lia) D) as X. rewrite Z.sub_diag in X. exact X.
Qed.
Lemma plain_broken_file o rs last : 0 <= o -> records_at 0 data o rs last -> inside (map type_of rs) -> rs <> [] ->
  damaged_at 0 data last -> follows false o [File rs].
Proof.
  intros Ho R Hi Ne D.
  assert (B : o < len data) by (destruct rs; [congruence|]; eapply record_before; eassumption).
  assert (Hl : o <= last) by (destruct (records_bound _ _ _ _ _ R Ho); lia).
  exists [DFile (plain_device data o) (map (back o) rs)]. split.
  - constructor; [|constructor]. exists o. split; [lia|]. split; [eapply starts_after; exact R|]. split; reflexivity.
  - eapply co_broken_file; [apply opens_some; lia | apply plain_records; eassumption | rewrite types_back; exact Hi | destruct rs; [congruence|discriminate]
      | apply damaged_shift; auto; lia].
Qed.

Lemma next_nonneg pos q : 0 <= pos -> next_start 0 data pos q -> 0 <= q.
Proof.
  intros Hp [(r & last & R & ->)|(p & P & T & ->)]; [|apply len_nonneg].
  pose proof (starts_after _ _ _ R r (or_introl eq_refl)). lia.
Qed.
Lemma records_end o rs last : 0 <= o -> records_at 0 data o rs last -> 0 <= last.
Proof. intros Ho R. destruct (records_bound _ _ _ _ _ R Ho); lia. Qed.
Lemma record_end o type ds last : 0 <= o -> record_at data o type ds last -> 0 <= last.
Proof. intros Ho (p & e & A & G & L & ->). pose proof (len_nonneg p). pose proof (len_nonneg e). lia. Qed.
Lemma delimiter_type type : is_delimiter type -> In type record_types.
Proof. unfold is_delimiter, record_types. cbn. intuition. Qed.

(** opened at [pos] itself or at the start of what follows *)
Lemma layout_follows b pos secs : layout data b pos secs -> 0 <= pos ->
  follows b pos secs /\ forall q, next_start 0 data pos q -> follows b q secs.
Proof.
  induction 1 as [pos p P T | b pos type ds last secs R D (q1 & N) Y IH | b pos ds last secs R (q1 & N) Y IH
    | b pos rs c last secs R Ins Cl Ex (q1 & N) Y IH | b pos rs last secs R Ins Ex (c & l & Rc & D) Y IH
    | pos rs last p R Ins Ne P T | pos last -> D | pos rs last R Ins Ne D]; intros Hp.
  - split; [eapply plain_end; eassumption|]. intros q N. rewrite (start_end data pos p q Hp P T N).
    apply (plain_end _ []); [apply len_nonneg | exists x00, 0%nat; auto|]. exists data. rewrite app_nil_r. split; reflexivity.
  - pose proof (record_end _ _ _ _ Hp R) as Hl. destruct (IH Hl) as [_ F]. specialize (F q1 N).
    split; [eapply plain_delimiter; eassumption|]. intros q Nq.
    destruct (record_records data pos type ds last (delimiter_type _ D) R) as (r & R1 & R2 & _).
    rewrite (start_unique data pos r [] last q Hp R1 Nq).
    pose proof (starts_after _ _ _ R1 r (or_introl eq_refl)).
    apply (plain_delimiter b (start_of r) type ds last q1); try assumption. lia.
  - pose proof (record_end _ _ _ _ Hp R) as Hl. destruct (IH Hl) as [_ F]. specialize (F q1 N).
    split; [eapply plain_eof; eassumption|]. intros q Nq.
    destruct (record_records data pos 137 ds last ltac:(unfold record_types; cbn; intuition) R) as (r & R1 & R2 & _).
    rewrite (start_unique data pos r [] last q Hp R1 Nq).
    pose proof (starts_after _ _ _ R1 r (or_introl eq_refl)).
    apply (plain_eof b (start_of r) ds last q1); try assumption. lia.
  - pose proof (records_end _ _ _ Hp R) as Hl. destruct (IH Hl) as [_ F]. specialize (F q1 N).
    split; [eapply plain_closed; eassumption|]. intros q Nq.
    destruct (rs ++ [c]) as [|r l] eqn:E; [destruct rs; discriminate|]. rewrite (start_unique data pos r l last q Hp R Nq).
    pose proof (starts_after _ _ _ R r (or_introl eq_refl)). apply records_drop in R. rewrite <- E in *.
    eapply plain_closed; try eassumption. lia.
  - pose proof (records_end _ _ _ Hp R) as Hl. destruct (IH Hl) as [_ F].
    assert (N : next_start 0 data last (start_of c)) by (left; exists c, l; split; [exact Rc | reflexivity]). specialize (F _ N).
    assert (R' : records_at 0 data pos (rs ++ [c]) l) by (clear - R Rc; induction R; [exact Rc|cbn [app]; econstructor; eauto]).
    split; [eapply plain_open; eassumption|]. intros q Nq.
    destruct (rs ++ [c]) as [|r l'] eqn:E; [destruct rs; discriminate|]. rewrite (start_unique data pos r l' l q Hp R' Nq).
    pose proof (starts_after _ _ _ R' r (or_introl eq_refl)). apply records_drop in R'. rewrite <- E in *.
    eapply plain_open; try eassumption. lia.
  - split; [eapply plain_last; eassumption|]. intros q Nq. destruct rs as [|r rs]; [congruence|].
    rewrite (start_unique data pos r rs last q Hp R Nq).
    pose proof (starts_after _ _ _ R r (or_introl eq_refl)). apply records_drop in R. eapply plain_last; try eassumption. lia.
  - split; [apply plain_broken; assumption|]. intros q Nq. exfalso. eapply start_damaged; eassumption.
  - split; [eapply plain_broken_file; eassumption|]. intros q Nq. destruct rs as [|r rs]; [congruence|].
    rewrite (start_unique data pos r rs last q Hp R Nq).
    pose proof (starts_after _ _ _ R r (or_introl eq_refl)). apply records_drop in R. eapply plain_broken_file; try eassumption. lia.
Qed.
End plain.
