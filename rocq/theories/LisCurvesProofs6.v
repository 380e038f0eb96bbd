(** lis.curves: whole arrays; accuracy of the interpolated index. *)
From Verif Require Import Bytes BytesProofs DlisTypes DlisCore Stream DlisRecords SpecTypes TypesProofs CoreProofs2 SpecIo IoProofs PyBase
  DlisFdata SpecFdata FdataProofs FloatProofs LisTypes LisTypesProofs SpecLisTypes LisTypesProofs2 LisProtocol LisIo LisPy LisCurves SpecLisCurves
  LisCurvesProofs LisCurvesProofs2 LisCurvesProofs3 LisCurvesProofs4 LisCurvesProofs5.
From Coq Require Import Reals Psatz ZArith.
From Flocq Require Import Core Relative IEEE754.Binary IEEE754.Bits.
Local Open Scope Z_scope.
Ltac Zify.zify_post_hook ::= Z.div_mod_to_equations.

(** ** Whole arrays *)
Definition fetches (dv : device) (heads : list record_info) (datas : list bytes) : Prop :=
  Forall2 (fun h data => fst (read_record dv h 0) = DOk data) heads datas.
Lemma fetches_fetched dv after heads datas : fetches dv heads datas -> fetched dv after heads (combine (map (fun h => after (ri_ltell h)) heads) datas).
Proof.
  induction 1 as [|h data hs datas R F IH]; cbn [map combine]; [constructor|]. destruct (read_record dv h 0) as [r t] eqn:E. cbn in R. subst r. econstructor; eassumption.
Qed.
Lemma fetched_fetches dv after heads recs : fetched dv after heads recs -> fetches dv heads (map snd recs) /\ map fst recs = map (fun h => after (ri_ltell h)) heads.
Proof.
  induction 1 as [|h hs data t recs R F [IH1 IH2]]; cbn [map]; [split; constructor|]. split; [constructor; [rewrite R; reflexivity | exact IH1] | f_equal; exact IH2].
Qed.
Lemma new_remember : remember (ix_current new_index) = None.
Proof. reflexivity. Qed.
Lemma reads_config c rate its fc l : reads_layout c rate its fc l -> config_of c (Z.to_nat rate) its fc.
Proof. intros [s0 ss sp n' m' RD _ _|rc sp ss RD _ _]; apply (rd_config _ _ _ _ _ _ _ _ RD). Qed.
Lemma layout_functional d l l' : layout_of d l -> layout_of d l' -> l = l'.
Proof.
  intros [s0 ss M E|rc sp dir spacing M RC SP DI SO] [s0' ss' M' E'|rc' sp' dir' spacing' M' RC' SP' DI' SO'].
  - congruence.
  - pose proof (entry_functional _ _ _ _ _ M M'). discriminate.
  - pose proof (entry_functional _ _ _ _ _ M M'). discriminate.
  - pose proof (entry_functional _ _ _ _ _ RC RC') as X. injection X as <-. pose proof (entry_functional _ _ _ _ _ SP SP') as <-. pose proof (entry_functional _ _ _ _ _ DI DI') as <-.
    apply spacing_iff in SO as (w & E1 & E2). apply spacing_iff in SO' as (w' & E1' & E2'). rewrite E1 in E1'. injection E1' as <-. congruence.
Qed.
Lemma rate_functional l asked rate rate' : rate_used l asked rate -> rate_used l asked rate' -> rate = rate'.
Proof. intros [-> |(-> & -> & _)] [E|(E & -> & _)]; congruence. Qed.

Lemma config_known dec d asked strict l rate fc cols : layout_of d l -> rate_used l asked rate -> frame_config dec d asked strict = Ok (fc, cols) ->
  usable l /\ 0 <= rate <= 255 /\ dtype_of dec rate l strict cols /\ fc_samples fc = rate /\ fc_framesize fc = row_size cols /\
  (1 <= rate -> exists c its, reads_layout c rate its fc l /\ row_size cols = Z.of_nat (char_width c + items_width its)).
Proof.
  intros LO RU H. destruct (config_inv _ _ _ _ _ _ H) as (l' & rate' & c & n & m & its & LO' & U & RU' & RR & DT & F & IT & ->).
  rewrite (layout_functional _ _ _ LO' LO) in *. rewrite (rate_functional _ _ _ _ RU' RU) in *. repeat (split; [assumption || reflexivity|]).
  intros R. exists c, its. split; [eapply config_reads; eassumption | eapply dtype_width; eassumption].
Qed.
(** ** One frame *)
Lemma frame_room dec d asked strict fc cols : frame_config dec d asked strict = Ok (fc, cols) -> 1 <= fc_samples fc ->
  forall p a ix pre blk post, a_cells a = pre ++ blk ++ post -> Z.of_nat (length blk) = fc_samples fc * row_size cols -> a_dst a = Z.of_nat (length pre) ->
  forall p' a' ix', read_frame fc p a ix = Ok (p', a', ix') ->
  exists e blk', p_mem p = e ++ p_mem p' /\ p_left p' = p_left p - len e /\ len e = frame_bytes (df_specs d) /\
    a_cells a' = pre ++ blk' ++ post /\ length blk' = length blk /\ a_dst a' = a_dst a + fc_samples fc * row_size cols.
Proof.
  intros H R p a ix pre blk post AC LB AD p' a' ix' RF.
  destruct (config_inv _ _ _ _ _ _ H) as (l & rate & _ & _ & _ & _ & LO & U & RU & RR & DT & _).
  destruct (config_known _ _ _ _ _ _ _ _ LO RU H) as (_ & _ & _ & ER & FS & K). rewrite ER in *. destruct (K R) as (c & its & RL & W).
  pose proof (reads_config _ _ _ _ _ RL) as CF.
  rewrite (frame_pure c (Z.to_nat rate) its fc CF p a ix pre blk post AC) in RF by (try exact AD; rewrite ?FS; nia).
  destruct (pure_frame fc its p ix) as [[[rows p1] ix1]| | |] eqn:PF; try discriminate. cbn [rbind] in RF.
  assert (p1 = p') as -> by congruence. assert (a' = with_cells a (pre ++ concat rows ++ post) (a_dst a + Z.of_nat (Z.to_nat rate) * fc_framesize fc)) as -> by congruence. clear RF.
  destruct (frame_shape c (Z.to_nat rate) its fc CF p ix rows p' ix1 PF) as [LR WR]. apply concat_widths in WR.
  assert (X : exists e, p_mem p = e ++ p_mem p' /\ p_left p' = p_left p - len e /\ len e = frame_bytes (df_specs d)).
  { destruct (layout_specs d l LO) as (-> & _ & _). destruct RL as [s0 ss sp n' m' RD F' SZ|rc sp ss RD NE US]; cbn [specs_of].
    - destruct (frame0_inv _ _ _ _ _ _ _ _ _ RD F' SZ _ _ _ _ _ PF) as (e & E1 & E2 & E3 & _). exists e. split; [exact E1|]. split; [exact E2|].
      rewrite (frame0_len _ _ _ _ _ _ _ _ _ _ R F' SZ E3). cbn [frame_bytes fold_right]. fold (frame_bytes ss). lia.
    - destruct (frame1_inv _ _ _ _ _ _ _ RD _ _ _ _ _ PF) as (e & ks & rows' & E1 & E2 & _ & E3 & _). exists e. split; [exact E1|]. split; [exact E2|].
      exact (channels_len _ _ _ _ R E3). }
  destruct X as (e & E1 & E2 & E3). exists e, (concat rows). repeat split; try assumption; cbn [with_cells a_cells a_dst]; try reflexivity; rewrite ?FS; nia.
Qed.

Lemma curves_rows dec dv after ix tell d asked strict l rate cols heads datas rows last :
  layout_of d l -> usable l -> rate_used l asked rate -> 1 <= rate <= 255 -> dtype_of dec rate l strict cols ->
  implicits_of ix tell = Some heads -> fetches dv heads datas -> data_records rate l None datas rows last ->
  curves dec dv after ix tell d asked strict = Ok (cols, concat rows, Z.of_nat (length rows)).
Proof.
  intros LO U RU RR DT IM F D. destruct (config_ok dec d asked strict l rate cols LO U RU ltac:(lia) DT) as (fc & FC).
  destruct (config_known _ _ _ _ _ _ _ _ LO RU FC) as (_ & _ & _ & _ & _ & K). destruct K as (c & its & RL & _); [lia|].
  unfold curves. rewrite FC. cbn [rbind]. pose proof (records_pure c (Z.to_nat rate) its fc dv after ix tell heads _ (reads_config _ _ _ _ _ RL) IM (fetches_fetched dv after _ _ F)) as O.
  rewrite (each_read c rate its fc l RL _ _ _ _ D) in O.
  2: { rewrite map_length. clear -F. induction F; cbn; congruence. }
  2: { reflexivity. }
  destruct (read_data_records fc dv after ix tell) as [[cells n]| | |]; cbn in O; try contradiction. destruct O as [-> ->]. reflexivity.
Qed.
Lemma curves_exact dec dv after ix tell d asked strict cols cells n : asked <> Some 0 ->
  curves dec dv after ix tell d asked strict = Ok (cols, cells, n) ->
  exists l rate heads datas exts rows last, layout_of d l /\ usable l /\ rate_used l asked rate /\ 1 <= rate <= 255 /\ dtype_of dec rate l strict cols /\
    implicits_of ix tell = Some heads /\ fetches dv heads datas /\
    Forall2 (fun h ext => (exists rest, after (ri_ltell h) = ext ++ rest) /\ (detected rate l -> ext = [])) heads exts /\
    data_records rate l None (map (fun '(data, ext) => data ++ ext) (combine datas exts)) rows last /\
    cells = concat rows /\ n = Z.of_nat (length rows) /\ Forall (fun r => Z.of_nat (length r) = row_size cols) rows.
Proof.
  intros NZ H. unfold curves in H. destruct (frame_config dec d asked strict) as [[fc cols0]| | |] eqn:FC; try discriminate. cbn [rbind] in H.
  destruct (read_data_records fc dv after ix tell) as [[cells0 n0]| | |] eqn:RD; try discriminate. cbn [rbind] in H. injection H as -> -> ->.
  destruct (config_inv _ _ _ _ _ _ FC) as (l & rate & _ & _ & _ & _ & LO & U & RU & RR & DT & _). destruct (config_known _ _ _ _ _ _ _ _ LO RU FC) as (_ & _ & _ & _ & FSZ & K).
  assert (R1 : 1 <= rate). { destruct RU as [-> |(_ & -> & _)]; [|lia]. assert (rate <> 0) by congruence. lia. }
  destruct (K R1) as (c & its & RL & W). pose proof (reads_config _ _ _ _ _ RL) as CF.
  assert (X : exists heads recs, implicits_of ix tell = Some heads /\ fetched dv after heads recs).
  { unfold read_data_records in RD. destruct (implicits_of ix tell) as [heads|]; [|discriminate]. exists heads.
    destruct (read_each _ _ _ _ _ _) as [a| | |] eqn:RE; try discriminate. destruct (each_fetched _ _ _ _ _ _ _ RE) as (recs & F). eauto. }
  destruct X as (heads & recs & IM & F). pose proof (records_pure c _ its fc dv after ix tell heads recs CF IM F) as O. rewrite RD in O.
  destruct (pure_each fc its recs new_index) as [rows| | |] eqn:PE; cbn in O; try contradiction. destruct O as [-> ->].
  destruct (each_inv c rate its fc l RL recs new_index rows PE) as (exts & last' & FE & D). rewrite new_remember in D.
  destruct (fetched_fetches _ _ _ _ F) as [FT MF]. exists l, rate, heads, (map snd recs), exts, rows, last'.
  split; [exact LO|]. split; [exact U|]. split; [exact RU|]. split; [lia|]. split; [exact DT|]. split; [exact IM|]. split; [exact FT|]. split.
  { clear -FE MF. revert recs exts FE MF. induction heads as [|h hs IH]; intros recs exts FE MF.
    - destruct recs; [|discriminate]. inversion FE; subst. constructor.
    - destruct recs as [|[af da] recs]; [discriminate|]. cbn in MF. injection MF as -> MF. inversion FE as [|? ext ? exts' E FE']; subst. constructor; [exact E|].
      apply (IH recs); assumption. }
  split.
  { replace (combine (map snd recs) exts) with (map (fun '((_, data), ext) => (data, ext)) (combine recs exts) : list (bytes * bytes)).
    { rewrite map_map. erewrite map_ext; [exact D|]. intros [[? ?] ?]. reflexivity. }
    clear. revert exts. induction recs as [|[af da] recs IH]; intros [|ext exts]; cbn; try reflexivity. f_equal. apply IH. }
  split; [reflexivity|]. split; [reflexivity|].
  assert (XW : widths (char_width c + items_width its) rows).
  { clear -PE CF. revert PE. generalize new_index. revert rows. induction recs as [|[af da] recs IH]; intros rows i H; cbn [pure_each] in H.
    - injection H as <-. constructor.
    - destruct (pure_record fc its af da i) as [[rows1 i1]| | |] eqn:PR; try discriminate. cbn [rbind] in H.
      destruct (pure_each fc its recs i1) as [rows2| | |] eqn:PE; try discriminate. cbn [rbind] in H. injection H as <-. apply Forall_app. split; [|eapply IH; exact PE].
      clear -PR CF. unfold pure_record in PR. destruct (if fc_mode fc =? 1 then _ else _) as [[p i0]| | |]; try discriminate. cbn [rbind] in PR.
      revert p i0 rows1 PR. generalize (S (length da)). intros fuel. induction fuel as [|fuel IH]; intros p i0 rows1 PR; cbn [pure_frames] in PR; (destruct (p_left p <=? 0); [injection PR as <- <-; constructor|]); [discriminate|].
      destruct (pure_frame fc its p i0) as [[[r p1] i2]| | |] eqn:PF; try discriminate. cbn [rbind] in PR.
      destruct (if _ && _ then _ else _) as [i3| | |]; try discriminate. cbn [rbind] in PR. destruct (pure_frames fuel fc its p1 i3) as [[r' i4]| | |] eqn:PFS; try discriminate. cbn [rbind] in PR.
      injection PR as <- <-. apply Forall_app. split; [apply (frame_shape _ _ _ _ CF _ _ _ _ _ PF) | eapply IH; exact PFS]. }
  eapply Forall_impl; [|exact XW]. intros r E. cbn beta in E. rewrite W, E. reflexivity.
Qed.
Lemma each_no_fuel' c rate its fc l dv after : reads_layout c rate its fc l -> forall heads, (forall h, In h heads -> fst (read_record dv h 0) <> DFuel) ->
  forall a ix rows, holds (Z.to_nat rate) (fc_framesize fc) a rows -> read_each fc dv after heads a ix <> Fuel.
Proof.
  intros RL. pose proof (reads_config _ _ _ _ _ RL) as CF. induction heads as [|h hs IH]; intros NF a ix rows HO; cbn [read_each]; [discriminate|].
  pose proof (NF h (or_introl eq_refl)) as N1. destruct (fst (read_record dv h 0)) as [data| |]; [|discriminate|contradiction].
  pose proof (record_pure c _ its fc CF (after (ri_ltell h)) data a ix rows HO) as O. pose proof (record_no_fuel c rate its fc l (after (ri_ltell h)) data ix RL) as NR.
  destruct (read_data_record _ _ _ _ _) as [[a1 ix1]| | |]; cbn [rbind]; try discriminate.
  - destruct (pure_record _ _ _ _ _) as [[more ix2]| | |]; cbn in O; try contradiction. destruct O as (_ & HO' & _). eapply IH; [|exact HO']. intros h' I. apply NF. right. exact I.
  - destruct (pure_record _ _ _ _ _); cbn in O; try contradiction.
Qed.
Lemma curves_end dec dv after ix tell d asked strict : asked <> Some 0 ->
  (forall heads, implicits_of ix tell = Some heads -> forall h, In h heads -> fst (read_record dv h 0) <> DFuel) ->
  frame_config dec d asked strict <> Fuel -> curves dec dv after ix tell d asked strict <> Fuel.
Proof.
  intros NZ NF NC. unfold curves. destruct (frame_config dec d asked strict) as [[fc cols]| | |] eqn:FC; cbn [rbind]; try discriminate; [|contradiction].
  destruct (config_inv _ _ _ _ _ _ FC) as (l & rate & _ & _ & _ & _ & LO & U & RU & RR & DT & _). destruct (config_known _ _ _ _ _ _ _ _ LO RU FC) as (_ & _ & _ & _ & FSZ & K).
  assert (R1 : 1 <= rate). { destruct RU as [-> |(_ & -> & _)]; [|lia]. assert (rate <> 0) by congruence. lia. }
  destruct (K R1) as (c & its & RL & W). pose proof (reads_config _ _ _ _ _ RL) as CF. pose proof CF as [FI G FF FS P V SZ].
  unfold read_data_records. destruct (implicits_of ix tell) as [heads|] eqn:IM; cbn [rbind]; [|discriminate].
  destruct heads as [|h hs]; [discriminate|].
  assert (H : holds (Z.to_nat rate) (fc_framesize fc) (new_array (fc_framesize fc) (Z.of_nat (length (h :: hs)) * fc_samples fc)) []).
  { unfold new_array. split; cbn [a_cells a_rows a_frames a_dst concat app length].
    - eexists. reflexivity.
    - rewrite repeat_length, Z2Nat.id; [reflexivity|]. rewrite FS, SZ. nia.
    - reflexivity.
    - reflexivity.
    - reflexivity.
    - exists 0, (Z.of_nat (length (h :: hs))). rewrite FS. cbn [length]. repeat split; lia. }
  pose proof (each_no_fuel' c rate its fc l dv after RL _ (NF _ eq_refl) _ new_index _ H) as X.
  set (a0 := new_array _ _) in *. clearbody a0. destruct (read_each fc dv after (h :: hs) a0 new_index); cbn [rbind]; try discriminate. contradiction.
Qed.

(** ** Checks only raise *)
Definition plain {A} (r : res A) : Prop := r <> UB /\ r <> Fuel.
Lemma plain_ok {A} (a : A) : plain (Ok a). Proof. split; discriminate. Qed.
Lemma plain_exn {A} : plain (@Exn A). Proof. split; discriminate. Qed.
Lemma plain_bind {A B} (r : res A) (k : A -> res B) : plain r -> (forall a, r = Ok a -> plain (k a)) -> plain (let! x := r in k x).
Proof. intros [N1 N2] H. destruct r; cbn [rbind]; try contradiction; [apply H; reflexivity | apply plain_exn]. Qed.
#[export] Hint Resolve plain_ok plain_exn : plain.
Lemma plain_entry d t v : plain (entry_value d t v).
Proof. unfold entry_value, find_entry. destruct (filter _ _) as [|e [|]]; cbn [rbind]; auto with plain. Qed.
Lemma plain_reprc v : plain (validate_reprc v).
Proof. destruct v; cbn; auto with plain. destruct (_ =? _); auto with plain. destruct (nptype _); auto with plain. Qed.
Lemma plain_all {A} (f : A -> res unit) l : (forall x, plain (f x)) -> plain (all_ok f l).
Proof. intros H. induction l as [|x l IH]; cbn [all_ok]; auto with plain. apply plain_bind; auto. Qed.
Lemma plain_validate_spec s : plain (validate_spec s).
Proof. destruct (validate_spec_res s) as [-> | ->]; auto with plain. Qed.
Lemma plain_validate d : plain (validate_dfsr d).
Proof.
  unfold validate_dfsr. apply plain_bind; [apply plain_entry|]. intros mode _. destruct (_ && _); auto with plain. destruct (df_specs d) as [|s0 ss]; auto with plain.
  apply plain_bind; [destruct (pv_is mode 0); [auto with plain | apply plain_entry]|]. intros ty _. apply plain_bind; [apply plain_reprc|]. intros code _.
  destruct (_ =? LIS_STRING); auto with plain. destruct (_ && _); auto with plain. apply plain_bind; [apply plain_all; apply plain_validate_spec|]. auto with plain.
Qed.
Lemma plain_concat (f : spec_block -> res bytes) l : (forall x, plain (f x)) -> plain (concat_ok f l).
Proof. intros H. induction l as [|x l IH]; cbn [concat_ok]; auto with plain. apply plain_bind; auto. intros a _. apply plain_bind; auto with plain. Qed.
Lemma plain_map {A B} (f : A -> res B) l : (forall x, plain (f x)) -> plain (map_ok f l).
Proof. intros H. induction l as [|x l IH]; cbn [map_ok]; auto with plain. apply plain_bind; auto. intros a _. apply plain_bind; auto with plain. Qed.
Lemma plain_fmt rc : plain (reprc2fmt rc).
Proof. unfold reprc2fmt. repeat (destruct (_ =? _); auto with plain). Qed.
Lemma config_plain dec d asked strict : plain (frame_config dec d asked strict).
Proof.
  unfold frame_config. apply plain_bind; [apply plain_entry|]. intros mode _. apply plain_bind.
  { unfold pick_rate. destruct asked; auto with plain. destruct (uniform_sampling _ _); auto with plain. }
  intros rate _. apply plain_bind; [apply plain_validate|]. intros code _. apply plain_bind.
  { destruct (pv_is mode 1); auto with plain. unfold directional_spacing. apply plain_bind; [apply plain_entry|]. intros sp _. destruct sp; auto with plain;
      (apply plain_bind; [apply plain_entry|]; intros dir _; destruct (pv_is dir 1); [cbn; auto with plain|]; destruct (pv_is dir 255); auto with plain). }
  intros sp _. apply plain_bind.
  { unfold dfsr_fmtstr. apply plain_bind; [apply plain_fmt|]. intros c _. apply plain_bind; auto with plain. apply plain_concat. intros s. unfold spec_fmtstr.
    destruct (_ <? 0); auto with plain. destruct (negb _); auto with plain. apply plain_bind; [apply plain_fmt|]. intros c' _. destruct (_ || _); auto with plain. }
  intros [idx fmt] _. apply plain_bind.
  { unfold dfsr_dtype. apply plain_bind; [destruct (pv_is mode 1); auto with plain; destruct (nptype code) as [[]|]; auto with plain|]. intros first _.
    apply plain_bind; [apply plain_map; intros s; unfold spec_column; destruct (nptype _) as [[]|]; auto with plain|]. intros cs _. unfold np_dtype.
    destruct (no_duplicates _); auto with plain. destruct strict; auto with plain. destruct (no_duplicates _); auto with plain. }
  intros dt _. apply plain_bind; [unfold arg_uint8; destruct (_ && _); auto with plain|]. intros sm _. apply plain_bind; [destruct mode; cbn; auto with plain|]. intros m _.
  apply plain_bind; [destruct sp; cbn; auto with plain|]. auto with plain.
Qed.
