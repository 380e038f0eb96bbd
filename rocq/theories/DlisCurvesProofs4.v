(** Proofs about curves of loaded files: one channel; what every loaded file satisfies. *)
From Verif Require Import Bytes BytesProofs Stream PyBase DlisTypes DlisCore SpecTypes SpecCore DlisIo SpecIo IoProofs DlisRecords SpecRecords DlisFdata SpecFdata Tapemark Lfp
  CommonPy DlisStore SpecDlisStore DlisStoreProofs DlisStoreProofs2 DlisStoreProofs3 DlisStoreProofs4 DlisStoreProofs5 DlisSchema DlisObject SpecDlisObject DlisObjectProofs
  SpecDlisLoad DlisFrame SpecDlisFrame DlisFrameProofs DlisFrameProofs2 DlisFrameProofs3 DlisFrameProofs4 DlisFrameProofs6 FdataProofs2
  DlisCurves SpecDlisCurves DlisCurvesProofs DlisCurvesProofs2 DlisCurvesProofs3.
From Verif Require DlisLoad.
Local Open Scope Z_scope.

(** ** array[fingerprint] *)
Lemma field_at cs ls d j c : describes cs ls (map cl_fp cs) d -> NoDup (FRAMENO :: ls ++ map cl_fp cs) -> nth_error cs j = Some c ->
  exists fd, np_field d (cl_fp c) = Some fd /\ nth_error d (S j) = Some fd /\ sample_type c (fd_type fd).
Proof.
  intros (DN & DT & t0 & ts & DY & _ & ST) N J. unfold np_field.
  destruct d as [|f0 d]; [discriminate DN|]. cbn [map] in DN, DT, DY. injection DN as N0 DN. injection DT as T0 DT. injection DY as _ DY.
  cbn [find]. rewrite T0, N0.
  replace (ustr_eqb FRAMENO (cl_fp c) || false) with false.
  2:{ symmetry. rewrite orb_false_r. destruct (ustr_eqb FRAMENO (cl_fp c)) eqn:E; [|reflexivity]. apply ustr_eqb_eq in E. inversion N as [|? ? N1 _]; subst.
      destruct N1. rewrite E. apply in_or_app. right. apply in_map. eapply nth_error_In. exact J. }
  cbn [nth_error]. apply NoDup_cons_iff in N as [_ N]. clear T0 N0 f0 t0.
  assert (NP : forall l, In l ls -> l <> cl_fp c).
  { intros l I E. subst l. apply in_split in I as (a & b & ->). rewrite <- app_assoc in N. cbn [app] in N. apply NoDup_remove_2 in N. apply N.
    apply in_or_app. right. apply in_or_app. right. apply in_map. eapply nth_error_In. exact J. }
  assert (NF : NoDup (map cl_fp cs)).
  { clear - N. induction ls as [|l ls IH]; [exact N|]. apply IH. cbn [app] in N. apply NoDup_cons_iff in N as [_ N]. exact N. }
  clear N. revert ls ts d j DN DT DY ST J NP NF. induction cs as [|c0 cs IH]; intros ls ts d j DN DT DY ST J NP NF; [destruct j; discriminate J|].
  destruct d as [|f d]; [discriminate DT|]. cbn [map] in DN, DT, DY. injection DT as Tf DT.
  destruct ts as [|t ts']; [inversion ST|]. injection DY as Ht DY. assert (S1 : sample_type c0 t /\ Forall2 sample_type cs ts') by (inversion ST; auto). destruct S1 as [S1 S2].
  destruct ls as [|l0 ls]; [discriminate DN|]. injection DN as Hn DN.
  cbn [find]. rewrite Tf.
  replace (ustr_eqb (fd_name f) (cl_fp c)) with false.
  2:{ symmetry. destruct (ustr_eqb (fd_name f) (cl_fp c)) eqn:E; [|reflexivity]. apply ustr_eqb_eq in E. destruct (NP l0); [left; reflexivity|congruence]. }
  cbn [orb]. cbn [map] in NF. apply NoDup_cons_iff in NF as [NF1 NF].
  destruct j as [|j].
  - cbn [nth_error] in J |- *. injection J as ->. rewrite (proj2 (ustr_eqb_eq _ _) eq_refl). exists f. split; [reflexivity|]. split; [reflexivity|]. rewrite Ht. exact S1.
  - cbn [nth_error] in J |- *. replace (ustr_eqb (cl_fp c0) (cl_fp c)) with false.
    2:{ symmetry. destruct (ustr_eqb (cl_fp c0) (cl_fp c)) eqn:E; [|reflexivity]. apply ustr_eqb_eq in E. destruct NF1. rewrite E. apply in_map. eapply nth_error_In. exact J. }
    apply (IH ls ts'); auto. intros l I. apply NP. right. exact I.
Qed.

Lemma samples_length cs e ks : channel_samples cs e ks -> length ks = length cs.
Proof. induction 1; cbn [length]; congruence. Qed.
Lemma rows_width cs es rows : frame_rows cs es rows -> Forall (fun r => length r = S (length cs)) rows.
Proof.
  induction 1 as [|e k e' ks R F IH]; constructor; [|exact IH]. destruct R as [e0 k0 e ks' S C]. cbn [length]. rewrite (samples_length _ _ _ C). reflexivity.
Qed.
Lemma recorded_width own cs recs contents rows : recorded own (frame_rows cs) recs contents rows -> Forall (fun r => length r = S (length cs)) rows.
Proof.
  induction 1 as [|e g t ds en o c i es xs recs cts rest RD B D O H R IH|r c recs cts rest NE R IH]; [constructor| |exact IH].
  apply Forall_app. split; [exact (rows_width _ _ _ H)|exact IH].
Qed.
Lemma column_items (d : list field) cells (rows : list (list (list cell))) f j : Forall (fun r => (j < length r)%nat) rows ->
  (forall r row k, nth_error rows r = Some row -> nth_error row j = Some k -> cell_at d cells r f = k) ->
  Forall2 (fun row v => nth_error row j = Some v) rows (np_column d cells (Z.of_nat (length rows)) f).
Proof.
  intros L H. unfold np_column. rewrite Nat2Z.id.
  assert (G : forall rows base, Forall (fun r => (j < length r)%nat) rows ->
    (forall r row k, nth_error rows r = Some row -> nth_error row j = Some k -> cell_at d cells (base + r) f = k) ->
    Forall2 (fun row v => nth_error row j = Some v) rows (map (fun r => firstn (Z.to_nat (type_size (fd_type f))) (skipn (Z.to_nat (Z.of_nat r * itemsize d + fd_offset f)) cells)) (seq base (length rows)))).
  { clear L H. induction rows0 as [|row rows0 IH]; intros base L H; cbn [length seq map]; constructor.
    - apply Forall_cons_iff in L as [L _]. destruct (nth_error row j) as [k|] eqn:E; [|apply nth_error_None in E; lia].
      pose proof (H O row k eq_refl E) as C. rewrite Nat.add_0_r in C. unfold cell_at, columns in C. rewrite C. reflexivity.
    - apply Forall_cons_iff in L as [_ L]. apply IH; [exact L|]. intros r row' k Er Ek. rewrite Nat.add_succ_comm. exact (H (S r) row' k Er Ek). }
  exact (G rows O L H).
Qed.

(** ** What every loaded logical file satisfies *)
Lemma push_keys k t m : forall x, In x (map fst (index_push k t m)) -> x = k \/ In x (map fst m).
Proof.
  induction m as [|[k' ts] m IH]; intros x; cbn [index_push map fst In]; [intros [<-|[]]; auto|]. destruct (bytes_eqb k k') eqn:E; cbn [map fst In].
  - auto.
  - intros [<-|I]; [auto|]. destruct (IH x I) as [->|I']; auto.
Qed.
Lemma push_sound k t m : index_sound m -> index_sound (index_push k t m).
Proof.
  intros [N F]. split.
  - clear F. induction m as [|[k' ts] m IH]; cbn [index_push map fst]; [constructor; [intros []|constructor]|]. cbn [map fst] in N. apply NoDup_cons_iff in N as [N1 N].
    destruct (bytes_eqb k k') eqn:E; cbn [map fst]; constructor; try assumption.
    + intros I. apply push_keys in I as [->|I]; [|exact (N1 I)]. rewrite (proj2 (bytes_eqb_eq k k) eq_refl) in E. discriminate.
    + exact (IH N).
  - clear N. induction m as [|[k' ts] m IH]; cbn [index_push]; [constructor; [discriminate|constructor]|]. apply Forall_cons_iff in F as [F1 F].
    destruct (bytes_eqb k k'); constructor; try assumption; [|exact (IH F)]. cbn [snd] in *. destruct ts; discriminate.
Qed.
Lemma bind_res {A B} (m : io A) (k : A -> io B) x : snd (let* a := m in k a) = Ok x -> exists a, snd m = Ok a /\ snd (k a) = Ok x.
Proof.
  destruct m as [l [a| | |]]; cbn [bind snd]; try discriminate. intros H. exists a. split; [reflexivity|]. destruct (k a) as [l' r]. exact H.
Qed.
Lemma findfdata_sound esc s tells : forall xs idx, index_sound xs -> snd (findfdata esc s tells xs) = Ok idx -> index_sound idx.
Proof.
  induction tells as [|tell tells IH]; intros xs idx S H; cbn [findfdata] in H; [injection H as <-; exact S|].
  destruct (extract_n esc s tell 262) as [l [rec| | |]]; try discriminate.
  - apply bind_res in H as (u & _ & H). destruct (isencrypted rec); [exact (IH _ _ S H)|]. destruct (negb _ && negb _); [exact (IH _ _ S H)|].
    destruct (_ =? 0)%nat; [exact (IH _ _ S H)|]. destruct (dlis_obname (rec_data rec)) as [[nm rest]|].
    + destruct (obname_fingerprint _ nm); try discriminate. exact (IH _ _ (push_sound _ _ _ S) H).
    + apply bind_res in H as (u' & _ & H). exact (IH _ _ S H).
  - apply bind_res in H as (u & _ & H). apply bind_res in H as (u' & _ & H). exact (IH _ _ S H).
Qed.
Lemma new_set_data data x : new_set data = Ok x -> new_set (os_data x) = Ok x.
Proof.
  intros H. assert (os_data x = data) as ->; [|exact H]. unfold new_set in H. destruct (parse_set_component data) as [lg [[[[role type] name] r]| | |]]; try discriminate.
  injection H as <-. reflexivity.
Qed.
Lemma parse_sets_loaded esc recs : forall sets, snd (parse_sets esc recs) = Ok sets -> as_loaded sets.
Proof.
  induction recs as [|[encrypted data] recs IH]; intros sets H; cbn [parse_sets] in H; [injection H as <-; constructor|].
  destruct encrypted; [exact (IH _ H)|]. destruct (new_set data) as [x| | |] eqn:E; try discriminate.
  - apply bind_res in H as (r & R & H). injection H as <-. constructor; [exact (new_set_data _ _ E)|exact (IH _ R)].
  - apply bind_res in H as (u & _ & H). exact (IH _ H).
Qed.

Definition file_sound (f : DlisLoad.logical_file) : Prop := as_loaded (DlisLoad.lf_sets f) /\ index_sound (DlisLoad.lf_fdata f).
Definition files_sound (st : DlisLoad.indexer) : Prop := Forall file_sound (DlisLoad.di_files st).
Lemma sound_nil : index_sound [].
Proof. split; constructor. Qed.
Lemma logical_eof_files esc st r pos b st' : snd (DlisLoad.logical_eof esc st r pos) = Ok (b, st') -> DlisLoad.di_files st' = DlisLoad.di_files st.
Proof.
  unfold DlisLoad.logical_eof. destruct (read (raw_stream r) pos 1) as [[|]|].
  - destruct (raw_peof r); cbn [ret snd]; intros [= <- <-]; reflexivity.
  - cbn [ret snd]; intros [= <- <-]; reflexivity.
  - intros H. apply bind_res in H as (u & _ & H). cbn [ret snd] in H. injection H as <- <-. reflexivity.
Qed.
Lemma parse_file_sound esc tif st vs st' : files_sound st -> snd (DlisLoad.parse_logical_file esc tif st vs) = Ok st' -> files_sound st'.
Proof.
  intros S H. unfold DlisLoad.parse_logical_file in H. apply bind_res in H as ([[ofs stop] eof] & _ & H). apply bind_res in H as (recs & _ & H).
  apply bind_res in H as (sets & PS & H). apply bind_res in H as (idx & FF & H). cbn [ret snd] in H. injection H as <-.
  unfold files_sound. cbn [DlisLoad.with_file DlisLoad.di_files]. apply Forall_app. split.
  - destruct (broken ofs); exact S.
  - constructor; [|constructor]. split; [exact (parse_sets_loaded _ _ _ PS)|exact (findfdata_sound _ _ _ _ _ sound_nil FF)].
Qed.
Lemma round_sound esc tif op orp st st' : files_sound st -> snd (DlisLoad.load_round esc tif op orp st) = Ok st' -> files_sound st'.
Proof.
  intros S H. unfold DlisLoad.load_round in H. destruct (op (DlisLoad.di_next st)) as [r|]; [|discriminate].
  apply bind_res in H as ([eof st1] & E1 & H). apply logical_eof_files in E1.
  assert (S1 : files_sound st1) by (unfold files_sound; rewrite E1; exact S).
  destruct eof; [injection H as <-; exact S1|]. apply bind_res in H as ([found pos] & _ & H). apply bind_res in H as ([st2 pos2] & E2 & H).
  assert (S2 : files_sound st2).
  { destruct found; [|injection E2 as <- <-; exact S1]. unfold DlisLoad.read_sul in E2. destruct (read (raw_stream r) pos 80); [|discriminate].
    apply bind_res in E2 as (u & _ & E2). cbn [ret snd] in E2. injection E2 as <- <-. exact S1. }
  apply bind_res in H as ([eof st3] & E3 & H). apply logical_eof_files in E3.
  assert (S3 : files_sound st3) by (unfold files_sound; rewrite E3; exact S2).
  destruct eof; [injection H as <-; exact S3|]. apply bind_res in H as (vs & _ & H). exact (parse_file_sound _ _ _ _ _ S3 H).
Qed.
Lemma loop_sound esc tif op orp fuel : forall st st', files_sound st -> snd (DlisLoad.load_loop esc tif op orp fuel st) = Ok st' -> files_sound st'.
Proof.
  induction fuel as [|fuel IH]; intros st st' S H; cbn [DlisLoad.load_loop] in H; [discriminate|].
  destruct (DlisLoad.di_end st); [injection H as <-; exact S|]. apply bind_res in H as (st1 & E & H). exact (IH _ _ (round_sound _ _ _ _ _ _ S E) H).
Qed.
Lemma load_sound esc ot tr fuel file st : snd (DlisLoad.load esc ot tr fuel file) = Ok st -> files_sound st.
Proof.
  unfold DlisLoad.load. destruct (read_tapemark file 0) as [tm| | |]; try discriminate.
  assert (files_sound DlisLoad.new_indexer) as N by constructor. destruct (valid_tapemark tm); apply loop_sound; exact N.
Qed.
