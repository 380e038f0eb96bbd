(** Frames and data records: the reader against the specification. *)
From Verif Require Import Bytes BytesProofs DlisTypes DlisCore Stream DlisRecords SpecTypes TypesProofs CoreProofs2 SpecIo IoProofs PyBase
  DlisFdata SpecFdata FdataProofs LisTypes LisTypesProofs SpecLisTypes LisTypesProofs2 LisProtocol LisIo LisPy LisCurves SpecLisCurves
  LisCurvesProofs LisCurvesProofs2 LisCurvesProofs3.
From Flocq Require Import Core IEEE754.Binary IEEE754.Bits.
From Coq Require Import Lia ZArith.
Local Open Scope Z_scope.
Ltac Zify.zify_post_hook ::= Z.div_mod_to_equations.

(** ** Index rows *)
Lemma sub_of s : signed 8 (unsigned 8 s) = counted s.
Proof. unfold unsigned, signed, counted. change (2 ^ 8) with 256. change (2 ^ (8 - 1)) with 128. destruct (Z.ltb_spec (s mod 256) 128); lia. Qed.
Lemma counted_le rate s : 1 <= s <= rate -> counted s <= rate.
Proof. unfold counted. lia. Qed.
Lemma counted_small s : 1 <= s <= 127 -> counted s = s.
Proof. unfold counted. lia. Qed.
Lemma index_value_sub ix s rate v : 1 <= s <= rate -> index_value ix s rate = Ok v -> sub_value rate (remember (ix_previous ix)) (ix_current ix) s v.
Proof.
  intros H E. unfold index_value in E. rewrite sub_of in E. pose proof (counted_le rate s H) as CL. unfold remember. split.
  - intros R. rewrite R, Z.eqb_refl in E. unfold index_index in E. destruct (is_nan 53 1024 (ix_current ix)); [discriminate|]. injection E as <-. auto.
  - intros L. replace (counted s =? rate) with false in E by lia. destruct (is_nan 53 1024 (ix_previous ix)) eqn:N.
    + congruence.
    + replace (counted s >? rate) with false in E by lia. unfold index_index in E. destruct (is_nan 53 1024 (ix_current ix)); [discriminate|]. cbn [rbind] in E.
      split; [reflexivity|]. unfold f64_add, f64_mul, f64_div, f64_sub in E. congruence.
Qed.
Lemma sub_index_value ix s rate v : 1 <= s <= rate -> sub_value rate (remember (ix_previous ix)) (ix_current ix) s v ->
  index_value ix s rate = Ok v.
Proof.
  intros H V. destruct V as [V1 V2]. unfold index_value. rewrite sub_of. pose proof (counted_le rate s H) as CL. unfold index_index, remember in *.
  destruct (Z.eqb_spec (counted s) rate) as [E|E].
  - destruct (V1 E) as [-> ->]. reflexivity.
  - specialize (V2 E). destruct (is_nan 53 1024 (ix_previous ix)); [congruence|]. destruct V2 as [-> ->].
    replace (counted s >? rate) with false by lia. reflexivity.
Qed.
Lemma sub_rows_inv rc c f fc ix rate : index_code rc c -> fc_indexfmt fc = c :: f -> fc_samples fc = rate -> forall n s0 ks,
  sub_rows n fc ix (Z.of_nat s0) = Ok ks -> 1 <= Z.of_nat s0 -> Z.of_nat s0 + Z.of_nat n = rate + 1 ->
  Forall2 (fun s k => exists v, sub_value rate (remember (ix_previous ix)) (ix_current ix) s v /\ index_cells rc v k) (map Z.of_nat (seq s0 n)) ks.
Proof.
  intros C FI FS. induction n as [|n IH]; intros s0 ks H B L; cbn [sub_rows] in H; cbn [seq map].
  { injection H as <-. constructor. }
  destruct (index_value _ _ _) as [v| | |] eqn:V; try discriminate. cbn [rbind] in H.
  destruct (write_index _ _) as [k| | |] eqn:W; try discriminate. cbn [rbind] in H.
  replace (Z.of_nat s0 + 1) with (Z.of_nat (S s0)) in H by lia.
  destruct (sub_rows n _ _ _) as [more| | |] eqn:R; try discriminate. cbn [rbind] in H. injection H as <-.
  rewrite FI in W. apply (write_index_iff rc) in W; [|exact C]. rewrite FS in V. constructor; [|apply IH; [exact R|lia|lia]].
  exists v. split; [apply index_value_sub; [lia|exact V] | exact W].
Qed.
Lemma sub_rows_read rc c f fc ix rate : index_code rc c -> fc_indexfmt fc = c :: f -> fc_samples fc = rate -> forall n s0 ks,
  Forall2 (fun s k => exists v, sub_value rate (remember (ix_previous ix)) (ix_current ix) s v /\ index_cells rc v k) (map Z.of_nat (seq s0 n)) ks ->
  1 <= Z.of_nat s0 -> Z.of_nat s0 + Z.of_nat n = rate + 1 -> sub_rows n fc ix (Z.of_nat s0) = Ok ks.
Proof.
  intros C FI FS. induction n as [|n IH]; intros s0 ks H B L; cbn [seq map] in H; inversion H as [|? k ? ks' (v & V & W) H']; subst; cbn [sub_rows]; [reflexivity|].
  rewrite (sub_index_value ix (Z.of_nat s0) _ v) by (assumption || lia). cbn [rbind]. rewrite FI. apply (write_index_iff rc c f) in W; [|exact C]. rewrite W. cbn [rbind].
  replace (Z.of_nat s0 + 1) with (Z.of_nat (S s0)) by lia. rewrite (IH _ _ H') by lia. reflexivity.
Qed.

(** ** A frame *)
(** the configuration for a layout *)
Record reads (c : byte) (rate : Z) (its : list item) (fc : frameconfig) (mode rc : Z) (spacing : binary64) (ss : list spec_block) : Prop := mk_reads {
  rd_config : config_of c (Z.to_nat rate) its fc;
  rd_rate : 1 <= rate;
  rd_code : index_code rc c;
  rd_items : Forall2 (item_of rate) ss its;
  rd_mode : fc_mode fc = mode;
  rd_spacing : fc_spacing fc = spacing }.
Lemma reads_samples c rate its fc mode rc sp ss : reads c rate its fc mode rc sp ss -> fc_samples fc = rate.
Proof. intros [[_ _ _ FS _ _ _] R _ _ _ _]. lia. Qed.

Lemma single_read rc c n m e k rest left : In (rc, c, n, m) lis_formats -> sample_of rc e k -> len e = Z.of_nat n -> len e <= left ->
  read_numbers 1 c (mk_ptr (e ++ rest) left) = Ok (k, mk_ptr rest (left - len e)).
Proof.
  intros F V L B. inversion V as [? c' n' m' j e' w F' W|e' u U]; subst; [|apply no_code_65 in F; contradiction].
  destruct (code_unique _ _ _ _ _ _ _ F F') as (<- & <- & <-). assert (G : good c n m) by (exists rc; exact F).
  destruct (natives_length _ _ _ _ G _ _ W) as [Le _]. pose proof (good_pos _ _ _ G). unfold SpecIo.len in *. assert (j = 1%nat) by nia. subst j.
  apply numbers_read; assumption.
Qed.
Lemma single_inv rc c n m p k p' : In (rc, c, n, m) lis_formats -> read_numbers 1 c p = Ok (k, p') ->
  exists e, p_mem p = e ++ p_mem p' /\ p_left p' = p_left p - len e /\ sample_of rc e k /\ len e = Z.of_nat n /\ 0 <= p_left p'.
Proof.
  intros F H. assert (G : good c n m) by (exists rc; exact F). destruct (numbers_inv _ _ _ _ G _ _ _ H) as (e & w & M & L & B & W & ->).
  exists e. split; [exact M|]. split; [exact L|]. split; [econstructor; eassumption|]. destruct (natives_length _ _ _ _ G _ _ W) as [Le _].
  split; [unfold SpecIo.len; lia|]. destruct B; [discriminate | assumption].
Qed.

Lemma frame0_read c rate its fc s0 ss sp n m : reads c rate its fc 0 (sp_reprc s0) sp ss -> In (sp_reprc s0, c, n, m) lis_formats ->
  sp_reserved_size s0 = Z.of_nat n -> forall last e rows last', frame0 rate s0 ss last e rows last' ->
  forall ix rest left, last = remember (ix_current ix) -> len e <= left ->
  exists ix', pure_frame fc its (mk_ptr (e ++ rest) left) ix = Ok (rows, mk_ptr rest (left - len e), ix') /\ last' = remember (ix_current ix').
Proof.
  intros RD F SZ last e rows last' H ix rest left E L. pose proof (reads_samples _ _ _ _ _ _ _ _ RD) as FS. destruct RD as [CF R C IT FM _]. pose proof CF as [FI G FF _ _ V _].
  unfold pure_frame. rewrite FM, FS. replace (0 =? 0) with true by reflexivity. cbn [andb].
  destruct H as [last ei ki ec rows R1 LI S CH|last ei x ks ec rows R1 N IR CH]; rewrite len_app in L; pose proof (len_nonneg ei); pose proof (len_nonneg ec).
  - subst rate. replace (1 >? 1) with false by reflexivity. cbn [negb rbind]. rewrite FI, index_item by exact G. rewrite <- app_assoc.
    rewrite (single_read _ _ _ _ _ ki _ _ F) by (assumption || lia). cbn [rbind].
    rewrite (cols_read 1 ss its ltac:(lia) IT _ _ CH) by lia. cbn [rbind]. exists ix. split; [|exact E]. do 4 f_equal. rewrite len_app. lia.
  - replace (rate >? 1) with true by lia. cbn [negb]. rewrite FI, <- app_assoc, (index_read _ _ _ _ _ _ _ C N) by lia. cbn [rbind].
    change (sub_rows (Z.to_nat rate) fc (index_update x ix) 1) with (sub_rows (Z.to_nat rate) fc (index_update x ix) (Z.of_nat 1)).
    rewrite (sub_rows_read _ _ _ fc (index_update x ix) rate C FI FS (Z.to_nat rate) 1 ks); [| |lia|lia].
    2: { cbn [index_update ix_current ix_previous]. rewrite <- E. exact IR. }
    cbn [rbind]. rewrite (cols_read rate ss its R IT _ _ CH) by lia. cbn [rbind]. exists (index_update x ix). split; [|reflexivity].
    do 4 f_equal. rewrite len_app. lia.
Qed.
Lemma frame0_inv c rate its fc s0 ss sp n m : reads c rate its fc 0 (sp_reprc s0) sp ss -> In (sp_reprc s0, c, n, m) lis_formats ->
  sp_reserved_size s0 = Z.of_nat n -> forall p ix rows p' ix', pure_frame fc its p ix = Ok (rows, p', ix') ->
  exists e, p_mem p = e ++ p_mem p' /\ p_left p' = p_left p - len e /\ frame0 rate s0 ss (remember (ix_current ix)) e rows (remember (ix_current ix')) /\
    (ss = [] \/ checked rate ss -> 0 <= p_left p').
Proof.
  intros RD F SZ p ix rows p' ix' H. pose proof (reads_samples _ _ _ _ _ _ _ _ RD) as FS. destruct RD as [CF R C IT FM _]. pose proof CF as [FI G FF _ _ V _].
  unfold pure_frame in H. rewrite FM, FS in H. replace (0 =? 0) with true in H by reflexivity. cbn [andb] in H.
  destruct (rate >? 1) eqn:R1; cbn [negb] in H.
  - rewrite FI in H. destruct (read_index _ p ix) as [[p1 ix1]| | |] eqn:RI; try discriminate. cbn [rbind] in H.
    destruct (sub_rows _ fc ix1 1) as [ks| | |] eqn:SR; try discriminate. cbn [rbind] in H.
    destruct (read_cols _ its p1) as [[rows' p2]| | |] eqn:RC; try discriminate. cbn [rbind] in H. injection H as <- <- <-.
    destruct (index_inv _ _ _ _ _ _ C RI) as (ei & x & M & L & N & -> & B). destruct (cols_inv rate ss its R IT _ _ _ RC) as (ec & M' & L' & CH & B').
    exists (ei ++ ec). rewrite len_app. split; [rewrite M, M', app_assoc; reflexivity|]. split; [lia|]. split.
    + cbn [index_update ix_current]. constructor; [lia|exact N| |exact CH].
      pose proof (sub_rows_inv _ _ _ fc (index_update x ix) rate C FI FS (Z.to_nat rate) 1 ks SR ltac:(lia) ltac:(lia)) as IR. exact IR.
    + intros [-> |CK]; [|exact (B' CK)]. inversion CH; subst. rewrite len_nil in L'. lia.
  - cbn [rbind] in H. rewrite FI, index_item in H by exact G. destruct (read_numbers 1 c p) as [[k p1]| | |] eqn:RN; try discriminate. cbn [rbind] in H.
    destruct (read_cols _ its p1) as [[rows' p2]| | |] eqn:RC; try discriminate. cbn [rbind] in H.
    assert (rows = beside [k] rows' /\ p2 = p' /\ ix = ix') as (-> & -> & <-) by (repeat split; congruence). clear H.
    destruct (single_inv _ _ _ _ _ _ _ F RN) as (ei & M & L & N & LI & B). destruct (cols_inv rate ss its R IT _ _ _ RC) as (ec & M' & L' & CH & B').
    exists (ei ++ ec). rewrite len_app. split; [rewrite M, M', app_assoc; reflexivity|]. split; [lia|]. split.
    + apply f0_slow; [lia|lia|exact N|exact CH].
    + intros [-> |CK]; [|exact (B' CK)]. inversion CH; subst. rewrite len_nil in L'. lia.
Qed.

(** mode 1 *)
Lemma frame1_read c rate its fc rc sp ss : reads c rate its fc 1 rc sp ss -> forall last ix ks e rows,
  last = remember (ix_previous ix) -> index_rows rate rc last (ix_current ix) ks -> channels_of rate ss e rows -> forall rest left, len e <= left ->
  pure_frame fc its (mk_ptr (e ++ rest) left) ix = Ok (beside ks rows, mk_ptr rest (left - len e), ix).
Proof.
  intros RD last ix ks e rows E IR CH rest left L. pose proof (reads_samples _ _ _ _ _ _ _ _ RD) as FS. destruct RD as [CF R C IT FM _]. pose proof CF as [FI G FF _ _ V _].
  unfold pure_frame. rewrite FM, FS. replace (1 =? 0) with false by reflexivity. cbn [andb rbind].
  change (sub_rows (Z.to_nat rate) fc ix 1) with (sub_rows (Z.to_nat rate) fc ix (Z.of_nat 1)).
  rewrite (sub_rows_read _ _ _ fc ix rate C FI FS (Z.to_nat rate) 1 ks); [|rewrite <- E; exact IR|lia|lia].
  cbn [rbind]. rewrite (cols_read rate ss its R IT _ _ CH) by lia. reflexivity.
Qed.
Lemma frame1_inv c rate its fc rc sp ss : reads c rate its fc 1 rc sp ss -> forall p ix out p' ix', pure_frame fc its p ix = Ok (out, p', ix') ->
  exists e ks rows, p_mem p = e ++ p_mem p' /\ p_left p' = p_left p - len e /\ index_rows rate rc (remember (ix_previous ix)) (ix_current ix) ks /\
    channels_of rate ss e rows /\ out = beside ks rows /\ ix' = ix /\ (checked rate ss -> 0 <= p_left p').
Proof.
  intros RD p ix out p' ix' H. pose proof (reads_samples _ _ _ _ _ _ _ _ RD) as FS. destruct RD as [CF R C IT FM _]. pose proof CF as [FI G FF _ _ V _].
  unfold pure_frame in H. rewrite FM, FS in H. replace (1 =? 0) with false in H by reflexivity. cbn [andb rbind] in H.
  destruct (sub_rows _ fc ix 1) as [ks| | |] eqn:SR; try discriminate. cbn [rbind] in H.
  destruct (read_cols _ its p) as [[rows p2]| | |] eqn:RC; try discriminate. cbn [rbind] in H. injection H as <- <- <-.
  destruct (cols_inv rate ss its R IT _ _ _ RC) as (e & M & L & CH & B).
  exists e, ks, rows. split; [exact M|]. split; [exact L|]. split; [|auto].
  exact (sub_rows_inv _ _ _ fc ix rate C FI FS (Z.to_nat rate) 1 ks SR ltac:(lia) ltac:(lia)).
Qed.

(** ** The bytes of a frame *)
Lemma concat_len (es : list bytes) a : Forall (fun e => len e = a) es -> len (concat es) = Z.of_nat (length es) * a.
Proof. induction 1 as [|e es E H IH]; [reflexivity|]. cbn [concat length]. rewrite len_app, E, IH. lia. Qed.
Lemma channel_len rate s b ks : 1 <= rate -> channel_of rate s b ks -> len b = Z.abs (sp_reserved_size s).
Proof.
  intros R [es ks' S N F|b' N L]; [|exact L]. destruct S as [S _].
  destruct es as [|e0 es0] eqn:EE; [cbn in N; lia|]. rewrite <- EE in *.
  assert (Q : len e0 * rate = sp_reserved_size s) by (subst es; inversion F; subst; tauto).
  rewrite (concat_len es (len e0)).
  - rewrite N, Z.mul_comm, Q. lia.
  - clear -F Q R. induction F as [|e k es ks [_ L] F IH]; constructor; [nia | exact IH].
Qed.
Lemma channels_len rate ss e rows : 1 <= rate -> channels_of rate ss e rows -> len e = frame_bytes ss.
Proof.
  intros R. induction 1 as [|s b ks ss e rows C CS IH]; [reflexivity|]. cbn [frame_bytes fold_right]. rewrite len_app, (channel_len rate s b ks R C), IH. reflexivity.
Qed.
Lemma frame_bytes_pos ss : ss <> [] -> Forall usable_channel ss -> 1 <= frame_bytes ss.
Proof.
  intros N H. destruct H as [|s ss (q & Q & S & E & _) H]; [contradiction|]. cbn [frame_bytes fold_right]. fold (frame_bytes ss).
  assert (0 <= frame_bytes ss). { clear. induction ss as [|s ss IH]; [cbn; lia|]. cbn [frame_bytes fold_right]. fold (frame_bytes ss). lia. }
  assert (sp_reserved_size s <> 0) by nia. lia.
Qed.
Lemma frame0_len rate s0 ss last e rows last' n c m : 1 <= rate -> In (sp_reprc s0, c, n, m) lis_formats -> sp_reserved_size s0 = Z.of_nat n ->
  frame0 rate s0 ss last e rows last' -> len e = Z.of_nat n + frame_bytes ss.
Proof.
  intros R F SZ H. destruct H as [last ei ki ec rows R1 LI S CH|last ei x ks ec rows R1 N IR CH]; rewrite len_app, (channels_len _ _ _ _ R CH).
  - lia.
  - unfold SpecIo.len. rewrite (index_size _ _ _ _ _ _ N F). reflexivity.
Qed.
Lemma frame_bytes_nonneg ss : 0 <= frame_bytes ss.
Proof. induction ss as [|s ss IH]; [cbn; lia|]. cbn [frame_bytes fold_right]. fold (frame_bytes ss). lia. Qed.

(** ** The frames of a record *)
Lemma frames0_read c rate its fc s0 ss sp n m : reads c rate its fc 0 (sp_reprc s0) sp ss -> In (sp_reprc s0, c, n, m) lis_formats ->
  sp_reserved_size s0 = Z.of_nat n -> forall last e rows last', frames0 rate s0 ss last e rows last' ->
  forall fuel ix rest, last = remember (ix_current ix) -> len e <= Z.of_nat fuel ->
  exists ix', pure_frames fuel fc its (mk_ptr (e ++ rest) (len e)) ix = Ok (rows, ix') /\ last' = remember (ix_current ix').
Proof.
  intros RD F SZ. assert (G : good c n m) by (exists (sp_reprc s0); exact F). pose proof (good_pos _ _ _ G) as [NP _].
  pose proof (rd_mode _ _ _ _ _ _ _ _ RD) as FM. pose proof (rd_rate _ _ _ _ _ _ _ _ RD) as R.
  induction 1 as [last|last e rows last' e' rows' last'' H HS IH]; intros fuel ix rest E L.
  { exists ix. split; [|exact E]. destruct fuel; reflexivity. }
  pose proof (frame0_len _ _ _ _ _ _ _ _ _ _ R F SZ H) as LE. pose proof (frame_bytes_nonneg ss). rewrite len_app in *. pose proof (len_nonneg e').
  destruct fuel as [|fuel]; [lia|]. cbn [pure_frames p_left]. replace (len e + len e' <=? 0) with false by lia.
  destruct (frame0_read _ _ _ _ _ _ _ _ _ RD F SZ _ _ _ _ H ix (e' ++ rest) (len e + len e') E ltac:(lia)) as (ix' & PF & E').
  rewrite <- app_assoc, PF. cbn [rbind p_left]. rewrite FM. replace (0 =? 1) with false by reflexivity. cbn [andb rbind].
  replace (len e + len e' - len e) with (len e') by lia. destruct (IH fuel ix' rest E' ltac:(lia)) as (ix'' & -> & E'').
  exists ix''. split; [reflexivity | exact E''].
Qed.
Lemma frames0_inv c rate its fc s0 ss sp n m : reads c rate its fc 0 (sp_reprc s0) sp ss -> In (sp_reprc s0, c, n, m) lis_formats ->
  sp_reserved_size s0 = Z.of_nat n -> forall fuel p ix rows ix', pure_frames fuel fc its p ix = Ok (rows, ix') ->
  exists e rest, p_mem p = e ++ rest /\ p_left p <= len e /\ frames0 rate s0 ss (remember (ix_current ix)) e rows (remember (ix_current ix')) /\
    (ss = [] \/ checked rate ss -> 0 <= p_left p -> len e = p_left p).
Proof.
  intros RD F SZ. pose proof (rd_mode _ _ _ _ _ _ _ _ RD) as FM.
  induction fuel as [|fuel IH]; intros p ix rows ix' H; cbn [pure_frames] in H; destruct (p_left p <=? 0) eqn:PL;
    try (injection H as <- <-; exists [], (p_mem p); split; [reflexivity|]; rewrite len_nil; split; [lia|]; split; [constructor | lia]); [discriminate|].
  destruct (pure_frame fc its p ix) as [[[rows1 p1] ix1]| | |] eqn:PF; try discriminate. cbn [rbind] in H.
  rewrite FM in H. replace (0 =? 1) with false in H by reflexivity. cbn [andb rbind] in H.
  destruct (pure_frames fuel fc its p1 ix1) as [[more ix2]| | |] eqn:PS; try discriminate. cbn [rbind] in H. injection H as <- <-.
  destruct (frame0_inv _ _ _ _ _ _ _ _ _ RD F SZ _ _ _ _ _ PF) as (e & M & L & H & B). destruct (IH _ _ _ _ PS) as (e' & rest & M' & L' & H' & B').
  exists (e ++ e'), rest. rewrite len_app. split; [rewrite M, M', app_assoc; reflexivity|]. split; [lia|]. split; [econstructor; eassumption|].
  intros CK P. specialize (B CK). specialize (B' CK B). lia.
Qed.
Lemma frames1_read c rate its fc rc sp ss : reads c rate its fc 1 rc sp ss -> ss <> [] -> Forall usable_channel ss ->
  forall last x e rows last', frames1 rate rc sp ss last x e rows last' ->
  forall fuel ix rest, last = remember (ix_previous ix) -> ix_current ix = x -> len e <= Z.of_nat fuel ->
  exists ix', pure_frames fuel fc its (mk_ptr (e ++ rest) (len e)) ix = Ok (rows, ix') /\ last' = remember (ix_current ix').
Proof.
  intros RD NE US. pose proof (rd_mode _ _ _ _ _ _ _ _ RD) as FM. pose proof (rd_spacing _ _ _ _ _ _ _ _ RD) as FS. pose proof (rd_rate _ _ _ _ _ _ _ _ RD) as R.
  pose proof (frame_bytes_pos ss NE US) as FB.
  induction 1 as [last x|last x ks e rows N IR CH|last x ks e rows e' rows' last' IR CH N N' X HS IH]; intros fuel ix rest E EX L; subst x.
  { exists ix. split; [|reflexivity]. destruct fuel; reflexivity. }
  - pose proof (channels_len _ _ _ _ R CH) as LE. destruct fuel as [|fuel]; [lia|]. cbn [pure_frames p_left]. replace (len e <=? 0) with false by lia.
    rewrite (frame1_read _ _ _ _ _ _ _ RD last ix ks e rows E IR CH) by lia. cbn [rbind p_left].
    replace (len e - len e) with 0 by lia. replace (0 >? 0) with false by reflexivity. rewrite andb_false_r. cbn [rbind].
    exists ix. split; [|reflexivity]. destruct fuel; cbn [pure_frames p_left]; replace (0 <=? 0) with true by reflexivity; cbn [rbind]; rewrite app_nil_r; reflexivity.
  - pose proof (channels_len _ _ _ _ R CH) as LE. rewrite len_app in *. pose proof (len_nonneg e').
    assert (len e' <> 0) by (destruct e'; [contradiction | rewrite len_cons; pose proof (len_nonneg e'); lia]).
    destruct fuel as [|fuel]; [lia|]. cbn [pure_frames p_left]. replace (len e + len e' <=? 0) with false by lia.
    rewrite <- app_assoc, (frame1_read _ _ _ _ _ _ _ RD last ix ks e rows E IR CH) by lia. cbn [rbind p_left]. rewrite FM.
    replace (len e + len e' - len e) with (len e') by lia. replace ((1 =? 1) && (len e' >? 0)) with true by lia.
    unfold index_index. rewrite X. cbn [rbind].
    destruct (IH fuel (index_update (f64_add (ix_current ix) (fc_spacing fc)) ix) rest) as (ix' & -> & E'); [reflexivity| |lia|].
    + cbn [index_update ix_current]. rewrite FS. reflexivity.
    + cbn [rbind]. exists ix'. split; [reflexivity | exact E'].
Qed.
Lemma frames1_inv c rate its fc rc sp ss : reads c rate its fc 1 rc sp ss -> ss <> [] -> Forall usable_channel ss ->
  forall fuel p ix rows ix', pure_frames fuel fc its p ix = Ok (rows, ix') ->
  exists e rest, p_mem p = e ++ rest /\ p_left p <= len e /\ frames1 rate rc sp ss (remember (ix_previous ix)) (ix_current ix) e rows (remember (ix_current ix')) /\
    (p_left p <= 0 -> e = []) /\ (0 < p_left p -> e <> []) /\ (checked rate ss -> 0 <= p_left p -> len e = p_left p).
Proof.
  intros RD NE US. pose proof (rd_mode _ _ _ _ _ _ _ _ RD) as FM. pose proof (rd_spacing _ _ _ _ _ _ _ _ RD) as FS. pose proof (rd_rate _ _ _ _ _ _ _ _ RD) as R.
  pose proof (frame_bytes_pos ss NE US) as FB.
  induction fuel as [|fuel IH]; intros p ix rows ix' H; cbn [pure_frames] in H; destruct (p_left p <=? 0) eqn:PL;
    try (injection H as <- <-; exists [], (p_mem p); split; [reflexivity|]; rewrite len_nil; split; [lia|]; split; [constructor|]; split; [reflexivity|]; split; lia); [discriminate|].
  destruct (pure_frame fc its p ix) as [[[rows1 p1] ix1]| | |] eqn:PF; try discriminate. cbn [rbind] in H.
  destruct (frame1_inv _ _ _ _ _ _ _ RD _ _ _ _ _ PF) as (e & ks & rows0 & M & L & IR & CH & -> & -> & B). pose proof (channels_len _ _ _ _ R CH) as LE.
  assert (EN : e <> []) by (intros ->; rewrite len_nil in LE; lia).
  rewrite FM in H. replace (1 =? 1) with true in H by reflexivity. cbn [andb] in H. destruct (p_left p1 >? 0) eqn:P1.
  - unfold index_index in H. destruct (is_nan 53 1024 (ix_current ix)) eqn:X; try discriminate. cbn [rbind] in H.
    destruct (pure_frames fuel fc its p1 _) as [[more ix2]| | |] eqn:PS; try discriminate. cbn [rbind] in H. injection H as <- <-.
    destruct (IH _ _ _ _ PS) as (e' & rest & M' & L' & H' & Z0 & Z1 & B'). cbn [index_update ix_previous ix_current] in H'. rewrite FS in H'.
    specialize (Z1 ltac:(lia)). exists (e ++ e'), rest. rewrite len_app. split; [rewrite M, M', app_assoc; reflexivity|]. split; [lia|].
    split; [constructor; assumption|]. split; [lia|]. split; [destruct e; [contradiction | discriminate]|].
    intros CK P. specialize (B' CK ltac:(lia)). lia.
  - cbn [rbind] in H. assert (PS : pure_frames fuel fc its p1 ix = Ok ([], ix)) by (destruct fuel; cbn [pure_frames]; replace (p_left p1 <=? 0) with true by lia; reflexivity).
    rewrite PS in H. cbn [rbind] in H. injection H as <- <-. rewrite app_nil_r.
    exists e, (p_mem p1). split; [exact M|]. split; [lia|]. split; [constructor; assumption|]. split; [lia|]. split; [auto|].
    intros CK P. specialize (B CK). lia.
Qed.

(** ** Data records *)
Inductive reads_layout (c : byte) (rate : Z) (its : list item) (fc : frameconfig) : layout -> Prop :=
| rl0 s0 ss sp n m : reads c rate its fc 0 (sp_reprc s0) sp ss -> In (sp_reprc s0, c, n, m) lis_formats -> sp_reserved_size s0 = Z.of_nat n ->
    reads_layout c rate its fc (Mode0 s0 ss)
| rl1 rc sp ss : reads c rate its fc 1 rc sp ss -> ss <> [] -> Forall usable_channel ss -> reads_layout c rate its fc (Mode1 rc sp ss).
(** reading past the end of a record is detected *)
Definition detected (rate : Z) (l : layout) : Prop :=
  match l with Mode0 _ ss => ss = [] \/ checked rate ss | Mode1 _ _ ss => checked rate ss end.
Lemma record_read c rate its fc l : reads_layout c rate its fc l -> forall last data rows last', data_record rate l last data rows last' ->
  forall after ix, last = remember (ix_current ix) ->
  exists ix', pure_record fc its after data ix = Ok (rows, ix') /\ last' = remember (ix_current ix').
Proof.
  intros RL last data rows last' H after ix E. unfold pure_record.
  destruct RL as [s0 ss sp n m RD F SZ|rc sp ss RD NE US]; inversion H as [? ? ? ? ? ? HF|? ? ? ? ei x e ? ? N HF]; subst.
  - rewrite (rd_mode _ _ _ _ _ _ _ _ RD). cbn [Z.eqb rbind]. apply (frames0_read _ _ _ _ _ _ _ _ _ RD F SZ _ _ _ _ HF (S (length data)) ix after eq_refl).
    unfold SpecIo.len. lia.
  - pose proof (rd_config _ _ _ _ _ _ _ _ RD) as [FI _ _ _ _ _ _]. rewrite (rd_mode _ _ _ _ _ _ _ _ RD), FI. replace (1 =? 1) with true by reflexivity.
    rewrite <- app_assoc, (index_read rc c ei x) by (try exact N; try exact (rd_code _ _ _ _ _ _ _ _ RD); unfold SpecIo.len; rewrite app_length; lia). cbn [rbind].
    replace (Z.of_nat (length (ei ++ e)) - len ei) with (len e) by (unfold SpecIo.len; rewrite app_length; lia).
    apply (frames1_read _ _ _ _ _ _ _ RD NE US _ _ _ _ _ HF _ (index_update x ix) after eq_refl eq_refl). unfold SpecIo.len. rewrite app_length. lia.
Qed.
Lemma record_inv c rate its fc l : reads_layout c rate its fc l -> forall after data ix rows ix', pure_record fc its after data ix = Ok (rows, ix') ->
  exists ext rest, after = ext ++ rest /\ data_record rate l (remember (ix_current ix)) (data ++ ext) rows (remember (ix_current ix')) /\
    (detected rate l -> ext = []).
Proof.
  intros RL after data ix rows ix' H. unfold pure_record in H.
  assert (X : forall e rest, data ++ after = e ++ rest -> len data <= len e -> exists ext, e = data ++ ext /\ after = ext ++ rest).
  { intros e rest E L. unfold SpecIo.len in L. exists (skipn (length data) e).
    assert (E1 : firstn (length data) (data ++ after) = firstn (length data) (e ++ rest)) by (rewrite E; reflexivity).
    rewrite !firstn_app, firstn_all, Nat.sub_diag in E1. cbn [firstn] in E1. rewrite app_nil_r in E1.
    replace (length data - length e)%nat with 0%nat in E1 by lia. cbn [firstn] in E1. rewrite app_nil_r in E1.
    assert (E2 : e = data ++ skipn (length data) e) by (rewrite E1 at 1; symmetry; apply firstn_skipn). split; [exact E2|].
    rewrite E2, <- app_assoc in E. apply app_inv_head in E. exact E. }
  destruct RL as [s0 ss sp n m RD F SZ|rc sp ss RD NE US]; rewrite (rd_mode _ _ _ _ _ _ _ _ RD) in H.
  - cbn [Z.eqb rbind] in H. destruct (frames0_inv _ _ _ _ _ _ _ _ _ RD F SZ _ _ _ _ _ H) as (e & rest & M & L & HF & B). cbn [p_mem p_left] in *.
    destruct (X e rest M L) as (ext & -> & ->). exists ext, rest. split; [reflexivity|]. split; [constructor; exact HF|].
    intros D. specialize (B D ltac:(lia)). rewrite len_app in B. change (Z.of_nat (length data)) with (len data) in B.
    destruct ext; [reflexivity|]. rewrite len_cons in B. pose proof (len_nonneg ext). lia.
  - replace (1 =? 1) with true in H by reflexivity. pose proof (rd_config _ _ _ _ _ _ _ _ RD) as [FI _ _ _ _ _ _]. rewrite FI in H.
    destruct (read_index _ _ ix) as [[p1 ix1]| | |] eqn:RI; try discriminate. cbn [rbind] in H.
    destruct (index_inv _ _ _ _ _ _ (rd_code _ _ _ _ _ _ _ _ RD) RI) as (ei & x & M & L & N & -> & B). cbn [p_mem p_left] in *.
    destruct (frames1_inv _ _ _ _ _ _ _ RD NE US _ _ _ _ _ H) as (e & rest & M' & L' & HF & _ & _ & B').
    rewrite M' in M. rewrite app_assoc in M. destruct (X (ei ++ e) rest M) as (ext & E & ->).
    { rewrite len_app. unfold SpecIo.len in *. lia. }
    exists ext, rest. split; [reflexivity|]. split; [rewrite <- E; exact (dr1 rate rc sp ss _ ei x e _ _ N HF)|].
    intros D. specialize (B' D ltac:(lia)). assert (len (ei ++ e) = len data) as Q by (rewrite len_app; unfold SpecIo.len in *; lia).
    rewrite E, len_app in Q. destruct ext; [reflexivity|]. rewrite len_cons in Q. pose proof (len_nonneg ext). lia.
Qed.
(** the reader stops *)
Lemma item_no_fuel it p : read_item it p <> Fuel.
Proof.
  destruct it as [n|c k|n]; cbn [read_item]; [discriminate| |].
  - revert p. induction (Z.to_nat k) as [|j IH]; intros p; cbn [read_numbers]; [discriminate|]. destruct (lis_packflen _ _) as [| |src_size out_size]; try discriminate.
    destruct (overflows _ _); [discriminate|]. destruct (lis_packf _ _); try discriminate. destruct (advance p src_size) as [p1| | |] eqn:AD; cbn [rbind]; try discriminate.
    + specialize (IH p1). destruct (read_numbers _ _ _) as [[]| | |]; cbn [rbind]; try discriminate. contradiction.
    + unfold advance in AD. destruct (take _ _) as [[]|]; discriminate.
  - destruct (take _ _) as [[]|]; cbn [unchecked rbind]; [|discriminate]. destruct (utf8 _); [|discriminate]. unfold advance. destruct (take _ _) as [[]|]; cbn; discriminate.
Qed.
Lemma cols_no_fuel rate its : forall p, read_cols rate its p <> Fuel.
Proof.
  assert (C : forall it n p, read_col n it p <> Fuel).
  { intros it. induction n as [|n IH]; intros p; cbn [read_col]; [discriminate|]. pose proof (item_no_fuel it p). destruct (read_item it p) as [[k p1]| | |]; cbn [rbind]; try discriminate; [|contradiction].
    specialize (IH p1). destruct (read_col n it p1) as [[]| | |]; cbn [rbind]; try discriminate. contradiction. }
  induction its as [|it its IH]; intros p; cbn [read_cols]; [discriminate|].
  destruct it; [unfold advance; destruct (take _ _) as [[]|]; cbn [unchecked rbind]; [apply IH | discriminate]| |];
    (match goal with |- context [read_col rate ?i p] => pose proof (C i rate p); destruct (read_col rate i p) as [[k' p1]| | |] end; cbn [rbind]; try discriminate; [|contradiction];
     specialize (IH p1); destruct (read_cols rate its p1) as [[]| | |]; cbn [rbind]; try discriminate; contradiction).
Qed.
Lemma sub_rows_no_fuel fc ix n : forall s, sub_rows n fc ix s <> Fuel.
Proof.
  assert (W : forall f x, write_index f x <> Fuel).
  { intros f x. unfold write_index. assert (forall n lo hi, to_int n lo hi x <> Fuel) by (intros; unfold to_int; destruct (integral x); [destruct (_ && _)|]; discriminate).
    assert (to_float x <> Fuel) by (unfold to_float; discriminate). destruct f as [|[] ?]; try discriminate; auto. }
  induction n as [|n IH]; intros s; cbn [sub_rows]; [discriminate|].
  assert (V : index_value ix s (fc_samples fc) <> Fuel).
  { unfold index_value, index_index. destruct (_ =? _); [destruct (is_nan _ _ _); discriminate|]. destruct (is_nan _ _ (ix_previous ix)); [discriminate|].
    destruct (_ >? _); [discriminate|]. destruct (is_nan _ _ _); discriminate. }
  destruct (index_value _ _ _) as [v| | |]; cbn [rbind]; try discriminate; [|contradiction]. specialize (W (fc_indexfmt fc) v).
  destruct (write_index _ _) as [k| | |]; cbn [rbind]; try discriminate; [|contradiction]. specialize (IH (s + 1)). destruct (sub_rows _ _ _ _); cbn [rbind]; try discriminate. contradiction.
Qed.
Lemma index_no_fuel rc c p ix : index_code rc c -> read_index (c :: text "1") p ix <> Fuel.
Proof.
  intros C. rewrite (read_index_double rc) by exact C. pose proof (item_no_fuel (Num c 1) p) as I. cbn [read_item] in I. change (Z.to_nat 1) with 1%nat in I.
  destruct (read_numbers 1 c p) as [[]| | |]; cbn [rbind]; try discriminate; [|contradiction]. destruct (raw_bytes _); discriminate.
Qed.
Lemma frame_no_fuel rc c rate its fc p ix : config_of c rate its fc -> index_code rc c -> pure_frame fc its p ix <> Fuel.
Proof.
  intros [FI G FF FS P V SZ] C. unfold pure_frame. rewrite FI.
  assert (E1 : (if (fc_mode fc =? 0) && (fc_samples fc >? 1) then read_index (c :: text "1") p ix else Ok (p, ix)) <> Fuel).
  { destruct (_ && _); [apply (index_no_fuel rc); exact C | discriminate]. }
  destruct (if _ && (_ >? _) then _ else _) as [[p1 ix1]| | |]; cbn [rbind]; try discriminate; [|contradiction]. clear E1.
  assert (E2 : (if (fc_mode fc =? 0) && negb (fc_samples fc >? 1)
    then let! (cells, _, p0) := read_sample (c :: text "1") p1 in Ok ([cells], p0)
    else let! ks := sub_rows (Z.to_nat (fc_samples fc)) fc ix1 1 in Ok (ks, p1)) <> Fuel).
  { destruct (_ && _).
    - rewrite index_item by exact G. pose proof (item_no_fuel (Num c 1) p1) as I. cbn [read_item] in I. change (Z.to_nat 1) with 1%nat in I.
      destruct (read_numbers 1 c p1) as [[]| | |]; cbn [rbind]; try discriminate. contradiction.
    - pose proof (sub_rows_no_fuel fc ix1 (Z.to_nat (fc_samples fc)) 1). destruct (sub_rows _ _ _ _); cbn [rbind]; try discriminate. contradiction. }
  destruct (if _ && negb _ then _ else _) as [[ks p2]| | |]; cbn [rbind]; try discriminate; [|contradiction].
  pose proof (cols_no_fuel (Z.to_nat (fc_samples fc)) its p2). destruct (read_cols _ _ _) as [[]| | |]; cbn [rbind]; try discriminate. contradiction.
Qed.
Lemma record_no_fuel c rate its fc l after data ix : reads_layout c rate its fc l -> pure_record fc its after data ix <> Fuel.
Proof.
  intros RL.
  assert (X : exists rc, config_of c (Z.to_nat rate) its fc /\ index_code rc c /\
      forall p ix rows p' ix', pure_frame fc its p ix = Ok (rows, p', ix') -> p_left p' <= p_left p - 1).
  { destruct RL as [s0 ss sp n m RD F SZ|rc sp ss RD NE US]; [exists (sp_reprc s0)|exists rc]; (split; [apply (rd_config _ _ _ _ _ _ _ _ RD)|]); (split; [apply (rd_code _ _ _ _ _ _ _ _ RD)|]).
    - intros p i rows p' i' H. destruct (frame0_inv _ _ _ _ _ _ _ _ _ RD F SZ _ _ _ _ _ H) as (e & _ & L & H' & _).
      rewrite (frame0_len _ _ _ _ _ _ _ _ _ _ (rd_rate _ _ _ _ _ _ _ _ RD) F SZ H') in L. pose proof (frame_bytes_nonneg ss).
      assert (good c n m) as G by (exists (sp_reprc s0); exact F). apply good_pos in G. lia.
    - intros p i rows p' i' H. destruct (frame1_inv _ _ _ _ _ _ _ RD _ _ _ _ _ H) as (e & ks & rows0 & _ & L & _ & CH & _).
      rewrite (channels_len _ _ _ _ (rd_rate _ _ _ _ _ _ _ _ RD) CH) in L. pose proof (frame_bytes_pos ss NE US). lia. }
  destruct X as (rc & CF & C & PR). clear RL.
  assert (Y : forall fuel p i, p_left p <= Z.of_nat fuel -> pure_frames fuel fc its p i <> Fuel).
  { induction fuel as [|fuel IH]; intros p i L; cbn [pure_frames].
    - replace (p_left p <=? 0) with true by lia. discriminate.
    - destruct (p_left p <=? 0); [discriminate|]. pose proof (frame_no_fuel rc c _ its fc p i CF C).
      destruct (pure_frame fc its p i) as [[[rows p1] i1]| | |] eqn:PF; cbn [rbind]; try discriminate; [|contradiction]. apply PR in PF.
      assert (E : (if (fc_mode fc =? 1) && (p_left p1 >? 0) then let! x := index_index i1 in Ok (index_update (f64_add x (fc_spacing fc)) i1) else Ok i1) <> Fuel).
      { destruct (_ && _); [|discriminate]. unfold index_index. destruct (is_nan _ _ _); discriminate. }
      destruct (if (fc_mode fc =? 1) && _ then _ else _) as [i2| | |]; cbn [rbind]; try discriminate; [|contradiction].
      specialize (IH p1 i2 ltac:(lia)). destruct (pure_frames fuel fc its p1 i2) as [[]| | |]; cbn [rbind]; try discriminate. contradiction. }
  unfold pure_record. destruct CF as [FI G FF FS P V SZ]. rewrite FI. destruct (fc_mode fc =? 1).
  - pose proof (index_no_fuel rc c (mk_ptr (data ++ after) (Z.of_nat (length data))) ix C).
    destruct (read_index _ _ ix) as [[p1 ix1]| | |] eqn:RI; cbn [rbind]; try discriminate; [|contradiction].
    apply Y. destruct (index_inv rc c _ _ _ _ C RI) as (ei & x & _ & L & _). cbn [p_left] in L. pose proof (len_nonneg ei). lia.
  - cbn [rbind]. apply Y. cbn [p_left]. lia.
Qed.

(** ** All data records *)
Lemma each_read c rate its fc l : reads_layout c rate its fc l -> forall last datas rows last', data_records rate l last datas rows last' ->
  forall afters ix, length afters = length datas -> last = remember (ix_current ix) -> pure_each fc its (combine afters datas) ix = Ok rows.
Proof.
  intros RL. induction 1 as [last|last data rows last' datas rows' last'' H HS IH]; intros afters ix L E.
  { destruct afters; [reflexivity | discriminate]. }
  destruct afters as [|af afters]; [discriminate|]. cbn [combine pure_each].
  destruct (record_read _ _ _ _ _ RL _ _ _ _ H af ix E) as (ix' & -> & E'). cbn [rbind]. rewrite (IH afters ix') by (cbn in L; lia || exact E'). reflexivity.
Qed.
Lemma each_inv c rate its fc l : reads_layout c rate its fc l -> forall recs ix rows, pure_each fc its recs ix = Ok rows ->
  exists exts last', Forall2 (fun '(after, data) ext => (exists rest, after = ext ++ rest) /\ (detected rate l -> ext = [])) recs exts /\
    data_records rate l (remember (ix_current ix)) (map (fun '((after, data), ext) => data ++ ext) (combine recs exts)) rows last'.
Proof.
  intros RL. induction recs as [|[after data] recs IH]; intros ix rows H; cbn [pure_each] in H.
  { injection H as <-. exists [], (remember (ix_current ix)). split; constructor. }
  destruct (pure_record fc its after data ix) as [[rows1 ix1]| | |] eqn:PR; try discriminate. cbn [rbind] in H.
  destruct (pure_each fc its recs ix1) as [more| | |] eqn:PE; try discriminate. cbn [rbind] in H. injection H as <-.
  destruct (record_inv _ _ _ _ _ RL _ _ _ _ _ PR) as (ext & rest & E & H & D). destruct (IH _ _ PE) as (exts & last' & F & HS).
  exists (ext :: exts), last'. split; [constructor; eauto|]. cbn [combine map]. econstructor; eassumption.
Qed.
Lemma each_no_fuel c rate its fc l : reads_layout c rate its fc l -> forall recs ix, pure_each fc its recs ix <> Fuel.
Proof.
  intros RL. induction recs as [|[after data] recs IH]; intros ix; cbn [pure_each]; [discriminate|].
  pose proof (record_no_fuel c rate its fc l after data ix RL). destruct (pure_record fc its after data ix) as [[rows ix1]| | |]; cbn [rbind]; try discriminate; [|contradiction].
  specialize (IH ix1). destruct (pure_each fc its recs ix1); cbn [rbind]; try discriminate. contradiction.
Qed.
