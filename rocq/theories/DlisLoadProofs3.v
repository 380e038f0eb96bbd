(** Proofs for C62: plain files. *)
From Verif Require Import Bytes BytesProofs Stream DlisTypes SpecTypes DlisCore SpecCore DlisIo SpecIo IoProofs IoProofs2
  DlisRecords SpecRecords RecordsProofs3 Tapemark Lfp SpecDlisLoad DlisLoadProofs DlisLoadProofs2.
From Verif Require DlisLoad.
Import DlisLoad (findoffsets_at_loop, findoffsets_at, extract_records, lf_stream, lf_sets, lf_fdata, lf_sul,
  indexer, mk_indexer, new_indexer, di_files, di_sul, di_next, di_end, with_sul, with_next, with_file, ended, logical_eof, find_sul, read_sul,
  apply_rp66_protocol, parse_logical_file, load_round, load_loop, load).
Local Open Scope Z_scope.

(** ** Visible records *)
Lemma enc_visible_len p : len (enc_visible p) = 4 + len p.
Proof. unfold enc_visible. rewrite len_app. reflexivity. Qed.

Lemma visible_header p : visible_fits p -> 256 * b2z (z2b ((4 + len p) / 256)) + b2z (z2b (4 + len p)) = 4 + len p.
Proof. intros [H1 H2]. rewrite !b2z_z2b. pose proof (len_nonneg p). lia. Qed.

Lemma visible_ok_all ps : Forall visible_fits ps -> forall fuel, (length (concat (map enc_visible ps)) < fuel)%nat ->
  visible_records fuel (concat (map enc_visible ps)) = (ps, false).
Proof.
  induction 1 as [|p ps H HS IH]; intros fuel F; (destruct fuel as [|fuel]; [lia|]); [reflexivity|].
  cbn [map concat] in *. unfold enc_visible at 1 in F. unfold enc_visible at 1. cbn [app length] in F. cbn [app visible_records].
  rewrite visible_header by exact H. destruct H as [H1 H2].
  change (negb ((b2z xff =? 0xFF) && (b2z x01 =? 1))) with false. cbn [orb].
  replace (4 + len p <? 4) with false by lia.
  replace (Z.to_nat (4 + len p - 4)) with (length p) by (unfold len; lia).
  rewrite app_length in *. replace (length p + _ <? length p)%nat with false by (symmetry; apply Nat.ltb_ge; lia).
  rewrite skipn_app_len, IH by lia.
  rewrite firstn_app, Nat.sub_diag, firstn_all. cbn [firstn]. rewrite app_nil_r. reflexivity.
Qed.

Lemma visible_tell_at ps qs : Forall visible_fits ps -> Forall visible_fits qs ->
  visible_tell (ps ++ qs) (len (concat ps)) = len (concat (map enc_visible ps)) + (match qs with [] => 0 | _ => 4 end).
Proof.
  intros H Q. induction H as [|p ps H HS IH].
  - cbn [app concat map]. rewrite len_nil. destruct Q as [|q qs [Q _] _]; [reflexivity|]. cbn [visible_tell].
    change (Z.of_nat (length q)) with (len q). replace (0 <? len q) with true by lia. reflexivity.
  - cbn [app concat map visible_tell]. change (Z.of_nat (length p)) with (len p). rewrite !len_app, enc_visible_len.
    pose proof (len_nonneg (concat ps)). replace (len p + len (concat ps) <? len p) with false by lia.
    replace (len p + len (concat ps) - len p) with (len (concat ps)) by lia. rewrite IH. lia.
Qed.

(** ** Plain files *)
Lemma vr_first p rest : visible_fits p -> first_occurrence [xff; x01] (firstn 4 (enc_visible p ++ rest)) 2.
Proof.
  intros [H1 H2]. unfold enc_visible. cbn [app firstn].
  set (h := z2b ((4 + len p) / 256)). set (l := z2b (4 + len p)).
  assert (NH : h <> xff).
  { intros E. apply (f_equal b2z) in E. unfold h in E. rewrite b2z_z2b in E. change (b2z xff) with 255 in E. lia. }
  split.
  - exists [h; l], []. split; reflexivity.
  - intros j (pre & post & E & L). destruct pre as [|a [|b pre]]; cbn [app length] in *.
    + injection E as E _. congruence.
    + injection E as _ _ E. discriminate.
    + lia.
Qed.

(** the stream of the sections [fs], opened at [base], [pos] bytes on *)
Definition plain_vs (base pos : Z) (fs : list wfile) : rp66 :=
  mk_rp66 (mk_stream (concat (flat_map wf_visible fs)) false)
    (fun n => base + (pos + visible_tell (flat_map wf_visible fs) n)).
Fixpoint file_list (fs : list wfile) (sul : option bytes) (base pos : Z) : list found :=
  match fs with
  | [] => []
  | f :: t => (sul, plain_vs base pos fs, wf_recs f, wf_contents f) :: file_list t sul (base + pos + len (enc_file f)) 0
  end.

Lemma files_visible fs : enc_files fs = concat (map enc_visible (flat_map wf_visible fs)).
Proof.
  induction fs as [|f fs IH]; [reflexivity|]. unfold enc_files in *. cbn [map concat flat_map].
  rewrite map_app, concat_app, <- IH. reflexivity.
Qed.
Lemma files_fit fs : Forall wf_file fs -> Forall visible_fits (flat_map wf_visible fs).
Proof.
  induction 1 as [|f fs H HS IH]; [constructor|]. cbn [flat_map]. apply Forall_app. split; [|exact IH]. apply H.
Qed.

Section plain.
Variable file : bytes.
Let open_plain := fun o => Some (plain_raw file o).
Notation course := (course false open_plain plain_rp66).
Hypothesis small : len file < 2 ^ 63.

Lemma plain_data pre fs o : file = pre ++ enc_files fs -> len pre = o -> raw_data (plain_raw file o) = enc_files fs.
Proof. intros -> <-. unfold raw_data, plain_raw. cbn. unfold len. rewrite Nat2Z.id. apply skipn_app_len. Qed.

(** from the start of a section, the visible records found at [pos] *)
Lemma plain_rp66_at pre mid fs pos : file = (pre ++ mid) ++ enc_files fs -> pos = len mid -> Forall wf_file fs ->
  fs <> [] ->
  plain_rp66 (plain_raw file (len pre)) pos =
  Some (plain_vs (len pre) pos fs).
Proof.
  intros E P W NE. unfold plain_vs, plain_rp66, plain_raw. cbn [raw_stream s_data raw_ptell].
  assert (X : skipn (Z.to_nat pos) (skipn (Z.to_nat (len pre)) file) = enc_files fs).
  { rewrite E, <- app_assoc. unfold len. rewrite Nat2Z.id, skipn_app_len. subst pos. unfold len. rewrite Nat2Z.id. apply skipn_app_len. }
  rewrite X, files_visible, visible_ok_all; [|apply files_fit; exact W|lia].
  destruct (flat_map wf_visible fs) eqn:F; [|reflexivity].
  exfalso. destruct fs as [|f fs]; [congruence|]. inversion W as [|? ? Hf _]; subst.
  destruct Hf as (_ & _ & _ & _ & _ & L & _). cbn [flat_map] in F. apply app_eq_nil in F as [F _].
  unfold enc_file in L. rewrite F in L. cbn in L. lia.
Qed.

Lemma plain_ending f t base pos vs : Forall wf_file (f :: t) -> vs = plain_vs base pos (f :: t) ->
  exists tail, s_data (vs_stream vs) = enc_records (wf_recs f) ++ tail /\
    ending false vs (wf_recs f) tail (base + pos + len (enc_file f)).
Proof.
  intros W ->. unfold plain_vs. inversion W as [|? ? Hf Ht]; subst. destruct Hf as ((segs & t0 & ER & FH) & LF & HO & EV & VF & L15 & NL).
  exists (concat (flat_map wf_visible t)). cbn [vs_stream s_data flat_map]. rewrite concat_app, EV. split; [reflexivity|].
  pose proof (visible_tell_at (wf_visible f) (flat_map wf_visible t) VF (files_fit _ Ht)) as VT.
  rewrite EV in VT. change (concat (map enc_visible (wf_visible f))) with (enc_file f) in VT.
  destruct t as [|f2 t].
  - cbn [flat_map] in *.
    match goal with |- ending _ ?v ?r _ ?x => replace x with (vs_ptell v (len (enc_records r))) by (cbn [vs_ptell]; lia) end.
    apply en_last; reflexivity.
  - inversion Ht as [|? ? Hf2 Ht2]; subst. destruct Hf2 as ((segs2 & t2 & ER2 & FH2) & LF2 & HO2 & EV2 & VF2 & L152 & NL2).
    assert (VN : flat_map wf_visible (f2 :: t) <> []).
    { cbn [flat_map]. intros F. apply app_eq_nil in F as [F _]. unfold enc_file in L152. rewrite F in L152. cbn in L152. lia. }
    destruct (flat_map wf_visible (f2 :: t)) as [|v vs] eqn:FV; [congruence|].
    rewrite ER2 in LF2. destruct LF2 as ((C2 & SF2 & _) & _). destruct segs2 as [|g gs]; [destruct C2|]. inversion SF2 as [|? ? SF SFS]; subst.
    match goal with |- ending _ ?v ?r _ ?x => replace x with (vs_ptell v (len (enc_records r)) - (if false then 16 else 4)) by (cbn [vs_ptell]; lia) end.
    apply (en_next false _ _ _ g (enc_record gs ++ enc_records t2 ++ concat (flat_map wf_visible t))).
    + rewrite <- FV. cbn [flat_map]. rewrite concat_app, EV2, ER2, enc_records_cons, enc_record_cons, <- !app_assoc. reflexivity.
    + exact SF.
    + exact FH2.
    + rewrite ER. reflexivity.
Qed.

Lemma no_label pre fs : file = pre ++ enc_files fs -> Forall wf_file fs -> fs <> [] ->
  label (plain_raw file (len pre)) false None [].
Proof.
  intros E W NE. apply lb_none; [reflexivity|]. rewrite (plain_data pre fs _ E eq_refl). intros [_ [(p & q & X & L) _]].
  destruct fs as [|f t]; [congruence|]. inversion W as [|? ? Hf Ht]; subst. destruct Hf as (_ & _ & _ & _ & _ & L15 & NL).
  apply NL. unfold window in X. cbn [skipn Z.to_nat] in X. change (Z.to_nat 15) with 15%nat in X.
  unfold enc_files in X. cbn [map concat] in X. rewrite firstn_app in X.
  change (Pos.to_nat 15) with 15%nat in X. replace (15 - length (enc_file f))%nat with 0%nat in X by (unfold len in L15; lia). rewrite firstn_O, app_nil_r in X.
  rewrite <- (firstn_skipn 15 (enc_file f)), X, <- app_assoc, <- L, skipn_app_len. reflexivity.
Qed.

Lemma plain_step f t pre mid sul first sul' l log fs : Forall wf_file (f :: t) -> file = (pre ++ mid) ++ enc_files (f :: t) ->
  begins (plain_raw file (len pre)) sul first sul' (len mid) l ->
  course (len pre + len mid + len (enc_file f)) sul' false log fs ->
  course (len pre) sul first (l ++ log) ((sul', plain_vs (len pre) (len mid) (f :: t), wf_recs f, wf_contents f) :: fs).
Proof.
  intros W E B C. pose proof W as W'. apply Forall_cons_iff in W' as [Hf Ht].
  assert (RD : raw_data (plain_raw file (len pre)) = mid ++ enc_files (f :: t)).
  { unfold raw_data, plain_raw. cbn [raw_stream s_data]. rewrite E, <- app_assoc. unfold len. rewrite Nat2Z.id. apply skipn_app_len. }
  pose proof (plain_rp66_at pre mid (f :: t) (len mid) E eq_refl W ltac:(discriminate)) as RP.
  destruct (plain_ending f t (len pre) (len mid) _ W eq_refl) as (tail & ET & EN).
  destruct Hf as (HH & LF & HO & EV & VF & L15 & NL).
  change log with ([] ++ log).
  apply (co_file false open_plain plain_rp66) with (r := plain_raw file (len pre)) (pos := len mid) (q := len mid) (tail := tail)
    (next' := len pre + len mid + len (enc_file f)).
  - reflexivity.
  - exact B.
  - rewrite RD. unfold enc_files. cbn [map concat]. rewrite !len_app. pose proof (len_nonneg (concat (map enc_file t))). lia.
  - apply vs_here; [left; reflexivity|]. rewrite RD. unfold window. unfold len. rewrite Nat2Z.id, skipn_app_len. change (Z.to_nat 4) with 4%nat.
    rewrite files_visible. cbn [flat_map]. destruct (wf_visible f) as [|v vs] eqn:V.
    + unfold enc_file in L15. rewrite V in L15. cbn in L15. lia.
    + cbn [app map concat]. apply vr_first. inversion VF; assumption.
  - exact RP.
  - exact ET.
  - cbn [plain_vs vs_stream s_data].
    assert (len (concat (flat_map wf_visible (f :: t))) <= len (enc_files (f :: t))).
    { rewrite files_visible. clear. induction (flat_map wf_visible (f :: t)) as [|v vs IH]; [reflexivity|].
      cbn [concat map]. rewrite !len_app, enc_visible_len. lia. }
    assert (len (enc_files (f :: t)) <= len file). { rewrite E, !len_app. pose proof (len_nonneg pre). pose proof (len_nonneg mid). lia. }
    lia.
  - exact LF.
  - exact HO.
  - exact EN.
  - exact C.
Qed.

Lemma plain_course fs : forall pre sul, Forall wf_file fs -> file = pre ++ enc_files fs ->
  course (len pre) sul false [] (file_list fs sul (len pre) 0).
Proof.
  induction fs as [|f t IH]; intros pre sul W E.
  - cbn [file_list]. apply co_end with (r := plain_raw file (len pre)); [reflexivity| |reflexivity|reflexivity].
    apply (plain_data pre []); [exact E|reflexivity].
  - cbn [file_list]. change (@nil severity) with (@nil severity ++ []). apply (plain_step f t pre []).
    + exact W.
    + rewrite app_nil_r. exact E.
    + apply bg_none. apply (no_label pre (f :: t)); [exact E|exact W|discriminate].
    + rewrite len_nil. pose proof W as W'. apply Forall_cons_iff in W' as [Hf Ht]. specialize (IH (pre ++ enc_file f) sul Ht). rewrite len_app in IH.
      replace (len pre + 0 + len (enc_file f)) with (len pre + len (enc_file f)) by lia. apply IH.
      rewrite E. unfold enc_files. cbn [map concat]. rewrite <- app_assoc. reflexivity.
Qed.

(** the whole file *)
Lemma labelled_course lab fs : storage_label lab -> Forall wf_file fs -> file = lab ++ enc_files fs ->
  course 0 None true [] (file_list fs (Some lab) 0 80).
Proof.
  intros (seq & rest & EL & LS & LR & _) W E.
  assert (L80 : len lab = 80). { rewrite EL. unfold len. rewrite !app_length, LS, LR. reflexivity. }
  assert (RD : raw_data (plain_raw file 0) = lab ++ enc_files fs) by (rewrite <- E; reflexivity).
  assert (WL : window (lab ++ enc_files fs) 0 80 = lab).
  { unfold window. cbn [skipn Z.to_nat]. unfold len in L80. rewrite firstn_app.
    change (Z.to_nat 80) with 80%nat. change (Pos.to_nat 80) with 80%nat. replace (80 - length lab)%nat with 0%nat by lia. rewrite firstn_O, app_nil_r. apply firstn_all2. lia. }
  assert (B : begins (plain_raw file 0) None true (Some lab) 80 []).
  { replace (Some lab) with (Some (window (raw_data (plain_raw file 0)) 0 80)) by (rewrite RD, WL; reflexivity).
    apply (bg_label _ None true 0 []).
    - apply (lb_first (plain_raw file 0) true); [left; reflexivity|]. rewrite RD.
      destruct seq as [|s0 [|s1 [|s2 [|s3 [|]]]]]; try discriminate LS.
      rewrite EL. unfold window. cbn. split.
      + exists [s0; s1; s2; s3; "V"; "1"; "."; "0"; "0"]%byte, []. split; reflexivity.
      + intros j (p & q & X & <-). do 9 (destruct p as [|? p]; [cbn [app] in X; discriminate X|cbn [app] in X; injection X as _ X]). cbn [length]. lia.
    - rewrite RD, len_app. pose proof (len_nonneg (enc_files fs)). lia. }
  destruct fs as [|f t].
  - cbn [file_list]. apply (co_label_end false open_plain plain_rp66) with (r := plain_raw file 0) (sul' := Some lab) (pos := 80).
    + reflexivity.
    + rewrite RD. destruct lab; [discriminate L80|discriminate].
    + exact B.
    + rewrite RD. unfold enc_files. cbn [map concat]. rewrite app_nil_r. lia.
    + reflexivity.
    + reflexivity.
  - cbn [file_list]. change (@nil severity) with (@nil severity ++ []).
    pose proof (plain_step f t [] lab None true (Some lab) [] []) as PS. rewrite len_nil, L80 in PS. apply PS.
    + exact W.
    + exact E.
    + exact B.
    + pose proof W as W'. apply Forall_cons_iff in W' as [Hf Ht].
      replace (0 + 80 + len (enc_file f)) with (len (lab ++ enc_file f)) by (rewrite len_app; lia).
      apply plain_course; [exact Ht|]. rewrite E. unfold enc_files. cbn [map concat]. rewrite <- app_assoc. reflexivity.
Qed.

Lemma unlabelled_course fs : fs <> [] -> Forall wf_file fs -> file = enc_files fs ->
  (forall k, ~ occurs_at (text "RECORD") (firstn (Z.to_nat 1700) file) k) ->
  course 0 None true [MINOR] (file_list fs None 0 0).
Proof.
  intros NE W E NO.
  assert (RD : raw_data (plain_raw file 0) = file) by reflexivity.
  assert (B : begins (plain_raw file 0) None true None 0 [MINOR]).
  { apply bg_none. apply (lb_missing (plain_raw file 0) true); [reflexivity| |]; rewrite RD; unfold window; cbn [skipn]; change (Z.to_nat 0) with 0%nat; cbn [skipn].
    - intros [_ [(p & q & X & L) _]]. apply (NO 9%nat).
      exists p, (q ++ skipn 15 (firstn (Z.to_nat 1700) file)). split; [|exact L].
      rewrite (app_assoc (text "RECORD")), (app_assoc p), <- X.
      assert (X15 : firstn (Z.to_nat 15) file = firstn 15 (firstn (Z.to_nat 1700) file)).
      { rewrite firstn_firstn. f_equal. }
      rewrite X15. symmetry. apply firstn_skipn.
    - intros q Q [_ [O _]]. exact (NO _ O). }
  destruct fs as [|f t]; [congruence|].
  cbn [file_list]. change [MINOR] with ([MINOR] ++ []).
  pose proof (plain_step f t [] [] None true None [MINOR] []) as PS. rewrite len_nil in PS. apply PS.
  + exact W.
  + exact E.
  + exact B.
  + pose proof W as W'. apply Forall_cons_iff in W' as [Hf Ht].
    change (0 + 0 + len (enc_file f)) with (len (enc_file f)).
    apply plain_course; [exact Ht|]. rewrite E. unfold enc_files. cbn [map concat]. reflexivity.
Qed.
End plain.
