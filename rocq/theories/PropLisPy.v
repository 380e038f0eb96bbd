(** Properties C51 and C55-C57: information tables, metadata of curves, properties of
    format specifications and numbered labels. *)
From Verif Require Import Bytes BytesProofs DlisTypes SpecTypes SpecCore Stream DlisRecords LisTypes LisProtocol LisPy LisInfo LisCurves FloatProofs
  SpecLisCurves LisCurvesProofs5 SpecLisPy LisPyProofs LisInfoProofs PropLisCurves.
From Coq Require Import Reals Lra.
From Flocq Require Import Core IEEE754.Binary IEEE754.Bits.
Local Open Scope Z_scope.

(** ** C51: information tables place every entry *)

(** A table record is a component of type 73 followed by rows, which start with a
    component of type 0.  The columns are the distinct mnemonics in order of
    appearance; each cell is as [cell_of] says. *)
Theorem C51_table : forall dec simple c0 rows, cb_type_nb c0 = 73 -> rows <> [] -> Forall row_of rows ->
  exists cols cells, info_table dec (c0 :: concat rows) simple = Ok (mk_table cols cells) /\ first_seen dec (concat rows) cols /\
    Forall2 (fun row => Forall2 (cell_of dec simple row) cols) rows cells.
Proof. intros dec simple. exact (table_spec dec simple). Qed.
Print Assumptions C51_table.
(** Every record whose second component is of type 0 has this form; without a second
    component the table is empty; all others are refused. *)
Theorem C51_forms : forall dec simple cs,
  (exists c0 rows, cs = c0 :: concat rows /\ cb_type_nb c0 = 73 /\ rows <> [] /\ Forall row_of rows) \/
  (exists c0, cs = [c0] /\ cb_type_nb c0 = 73 /\ info_table dec cs simple = Ok (mk_table [] [])) \/
  ((forall c0 t, cs = c0 :: t -> cb_type_nb c0 = 73 -> exists c1 t', t = c1 :: t' /\ cb_type_nb c1 <> 0) /\ info_table dec cs simple = Exn).
Proof.
  intros dec simple [|c0 t]; [right; right; split; [discriminate | reflexivity]|]. unfold info_table, isstructured.
  destruct (Z.eqb_spec (cb_type_nb c0) 73) as [E|E]; cbn [negb].
  2:{ right; right. split; [|reflexivity]. intros c t' H K. injection H as <- <-. contradiction. }
  destruct t as [|c1 t]; [right; left; exists c0; auto|]. destruct (Z.eqb_spec (cb_type_nb c1) 0) as [Z0|Z0]; cbn [negb].
  - left. destruct (split_rows c1 t Z0) as (rows & -> & F & N). exists c0, rows. auto.
  - right; right. split; [|reflexivity]. intros c t' H _. injection H as <- <-. eauto.
Qed.
Print Assumptions C51_forms.
(** No entry is lost if the mnemonics of a row are different. *)
Theorem C51_lossless : forall dec simple c0 rows, cb_type_nb c0 = 73 -> rows <> [] -> Forall row_of rows ->
  (forall row, In row rows -> NoDup (map (fun c => dec (cb_mnemonic c)) row)) ->
  exists cols cells, info_table dec (c0 :: concat rows) simple = Ok (mk_table cols cells) /\
    forall i row c, nth_error rows i = Some row -> In c row -> exists r j, nth_error cells i = Some r /\
      nth_error cols j = Some (dec (cb_mnemonic c)) /\ nth_error r j = Some (if simple then Value (cb_component c) else Block c).
Proof.
  intros dec simple c0 rows C N F D. destruct (table_spec dec simple c0 rows C N F) as (cols & cells & E & FS & H). exists cols, cells. split; [exact E|].
  intros i row c Ei Ic. destruct (forall2_nth _ _ _ H i row Ei) as (r & Er & Hr).
  assert (In (dec (cb_mnemonic c)) cols) as Im.
  { assert (In c (concat rows)) as I by (apply in_concat; exists row; split; [eapply nth_error_In; exact Ei | exact Ic]). clear - FS I.
    induction FS as [|cs ms c' FS IH K|cs ms c' FS IH K]; [destruct I| |]; apply in_app_or in I as [I|[<-|[]]]; auto; apply in_or_app; cbn; auto. }
  apply In_nth_error in Im as (j & Ej). destruct (forall2_nth _ _ _ Hr j _ Ej) as (k & Ek & Hk). exists r, j. split; [exact Er|]. split; [exact Ej|]. rewrite Ek. f_equal.
  destruct Hk as [(c' & (a & b & -> & M & L) & ->)|[A _]]; [|exfalso; exact (A c Ic eq_refl)].
  enough (c' = c) as -> by reflexivity. specialize (D _ (nth_error_In _ _ Ei)). rewrite map_app in D. cbn [map] in D. apply NoDup_remove_2 in D. rewrite M in D.
  apply in_app_or in Ic as [I|[<-|I]]; [| reflexivity |]; exfalso; apply D; apply in_or_app; [left | right]; apply (in_map (fun c => dec (cb_mnemonic c))) in I; exact I.
Qed.
Print Assumptions C51_lossless.
Definition a_component (type : Z) (mnem : bytes) (v : Z) : component_block := mk_component type 66 1 0 mnem (text "    ") (LByte v).
Definition a_table : list (list component_block) :=
  [[a_component 0 (text "MNEM") 1; a_component 69 (text "GCOD") 2; a_component 69 (text "GCOD") 3];
   [a_component 0 (text "MNEM") 4; a_component 69 (text "DEST") 5]].
Example C51_example :
  Forall row_of a_table /\
  info_table str_of (a_component 73 (text "TYPE") 9 :: concat a_table) true =
    Ok (mk_table [str_of (text "MNEM"); str_of (text "GCOD"); str_of (text "DEST")]
                 [[Value (LByte 1); Value (LByte 3); Fill]; [Value (LByte 4); Fill; Value (LByte 5)]]).
Proof.
  split; [|vm_compute; reflexivity]. constructor; [|constructor; [|constructor]]; constructor; try reflexivity; cbn; intros x H;
    repeat destruct H as [<-|H]; try destruct H; discriminate.
Qed.

(** ** C55: metadata keys match curve columns *)

(** If no channel is suppressed: whenever curves() accepts the format specification,
    curves_metadata() with the same arguments has curves()' column labels as keys, in
    order, with the index's block (None in mode 1) and those of the channels. *)
Theorem C55_match_partial : forall dec d asked strict fc cols, frame_config dec d asked strict = Ok (fc, cols) ->
  (forall s, In s (df_specs d) -> 0 < sp_reserved_size s) ->
  exists l rate chans, layout_of d l /\ rate_used l asked rate /\ chosen rate (layout_channels l) chans /\
    curves_metadata dec d asked strict = Ok (combine (map col_label cols) (index_block l :: map Some chans)) /\
    length cols = S (length chans).
Proof.
  intros dec d asked strict fc cols H P. destruct (metadata_matches dec d asked strict fc cols H P) as (l & rate & chans & LO & RU & C & M). exists l, rate, chans.
  repeat (split; [assumption|]). destruct (config_inv _ _ _ _ _ _ H) as (l' & rate' & c & n & m & its & LO' & U & RU' & _ & DT & _).
  assert (l' = l) as ->.
  { clear - LO LO'. destruct LO as [s0 ss E E'|rc sp dir spacing E1 E2 E3 E4 E5], LO' as [s0' ss' F F'|rc' sp' dir' spacing' F1 F2 F3 F4 F5].
    - congruence.
    - pose proof (entry_functional _ _ _ _ _ E F1). discriminate.
    - pose proof (entry_functional _ _ _ _ _ E1 F). discriminate.
    - assert (PInt rc = PInt rc') as K by (eapply entry_functional; eassumption). injection K as <-.
      assert (sp = sp') as <- by (eapply entry_functional; eassumption). assert (dir = dir') as <- by (eapply entry_functional; eassumption).
      apply spacing_iff in E5 as (w & W1 & W2), F5 as (w' & W1' & W2'). congruence. }
  assert (rate' = rate) as -> by (apply rate_iff with (d := d) in RU, RU'; [congruence | exact LO | exact LO]).
  destruct (layout_specs d l LO) as (Es & _ & _).
  assert (forall cs, columns_of dec rate l cs -> length cs = S (length chans)) as L.
  { intros cs CO. destruct (columns_labels _ _ _ _ CO) as (chans' & C' & E). rewrite (chosen_functional _ _ _ _ C C').
    apply (f_equal (@length _)) in E. cbn [length] in E. rewrite !map_length in E. exact E. }
  destruct DT as [cols CO N|cols cols' CO N S N' E' K]; [exact (L _ CO)|]. rewrite <- (L _ CO). apply (f_equal (@length _)) in K. rewrite !map_length in K. exact K.
Qed.
Print Assumptions C55_match_partial.
(** With suppressed channels it fails: their labels are keys but not columns. *)
Theorem C55_suppressed_refuted : exists d fc cols m, frame_config str_of d (Some 1) true = Ok (fc, cols) /\
  curves_metadata str_of d (Some 1) true = Ok m /\ length m <> length cols /\
  In (str_of (text "GONE")) (map fst m) /\ ~ In (str_of (text "GONE")) (map col_label cols).
Proof.
  exists two_rates. eexists _, _, _. split; [vm_compute; reflexivity|]. split; [vm_compute; reflexivity|]. split; [discriminate|]. split; [vm_compute; tauto|].
  vm_compute. intros H. repeat destruct H as [H|H]; try discriminate; exact H.
Qed.
Print Assumptions C55_suppressed_refuted.
(** In any case: what curves_metadata() returns.  Repeated labels are refused if
    [strict]. *)
Theorem C55_keys : forall dec d l asked rate strict, layout_of d l -> df_specs d <> [] -> rate_used l asked rate ->
  let names := index_label dec l :: map (fun s => dec (sp_mnemonic s)) (at_rate rate l) in
  (strict = true -> ~ NoDup names -> curves_metadata dec d asked strict = Exn) /\
  (NoDup names -> curves_metadata dec d asked strict = Ok (combine names (index_block l :: map Some (at_rate rate l)))) /\
  (strict = false -> forall u, made_unique names u -> unnumbered names ->
     curves_metadata dec d asked strict = Ok (combine u (index_block l :: map Some (at_rate rate l)))).
Proof.
  intros dec d l asked rate strict LO NE RU names. pose proof (metadata_spec dec d l asked rate strict LO NE RU) as M. fold names in M.
  change (meta_names dec rate l) with names in M. change (meta_blocks rate l) with (index_block l :: map Some (at_rate rate l)) in M.
  assert (forall k : list pystr, NoDup k -> length k = length names -> map fst (combine k (index_block l :: map Some (at_rate rate l))) = k) as K.
  { intros k _ L. assert (length k = length (index_block l :: map Some (at_rate rate l))) as L' by (rewrite L; unfold names; cbn [length]; rewrite !map_length; reflexivity).
    clear - L'. revert L'. generalize (index_block l :: map Some (at_rate rate l)). induction k as [|x k IH]; intros [|b bs] L; try discriminate; [reflexivity|]. cbn. rewrite IH by (injection L; auto). reflexivity. }
  split; [|split].
  - intros -> N. rewrite M. destruct (no_duplicates names) eqn:E; [apply no_duplicates_iff in E; contradiction | reflexivity].
  - intros N. rewrite M, (proj2 (no_duplicates_iff names) N), andb_false_r, (unique_id names N), dict_of_nodup; [reflexivity|]. rewrite K by auto. exact N.
  - intros -> u MU U. rewrite M. cbn [andb]. pose proof (unique_made names U) as MU'. pose proof (unique_nodup names U) as N.
    assert (unique_mnemonics names = u) as <-.
    { destruct MU as [L H], MU' as [L' H']. apply nth_same. intros i. destruct (nth_error names i) as [x|] eqn:E.
      - destruct (H i x E) as (y & -> & Hy), (H' i x E) as (y' & -> & Hy'). f_equal.
        destruct Hy as [[O ->]|[O P]], Hy' as [[O' ->]|[O' P']]; try lia; [reflexivity|]. apply label_numbered in P, P'. congruence.
      - apply nth_error_None in E. transitivity (@None pystr); [|symmetry]; apply nth_error_None; lia. }
    rewrite dict_of_nodup; [reflexivity|]. rewrite K; [exact N | exact N | apply unique_length].
Qed.
Print Assumptions C55_keys.
Example C55_example :
  let d := mk_dfsr [] [a_spec (text "DEPT") 4 1 73; a_spec (text "CHAN") 2 1 79; a_spec (text "FAST") 2 2 56; a_spec (text "CHAN") 1 1 66] in
  (exists fc cols, frame_config str_of d (Some 1) false = Ok (fc, cols) /\
     map col_label cols = [str_of (text "DEPT"); str_of (text "CHAN(0)"); str_of (text "CHAN(1)")]) /\
  curves_metadata str_of d (Some 1) false = Ok
    [(str_of (text "DEPT"), Some (a_spec (text "DEPT") 4 1 73)); (str_of (text "CHAN(0)"), Some (a_spec (text "CHAN") 2 1 79));
     (str_of (text "CHAN(1)"), Some (a_spec (text "CHAN") 1 1 66))] /\
  curves_metadata str_of d (Some 1) true = Exn.
Proof. split; [eexists _, _; split; vm_compute; reflexivity|]. split; vm_compute; reflexivity. Qed.

(** ** C56: properties read their own entry *)

(** the entry numbers of LIS79, with the defaults documented there *)
Theorem C56_entries_partial :
  (exists x, is_finite 53 1024 x = true /\ B2R 53 1024 x = (-3997 / 4)%R /\ reads absent_value 12 (PFloat x)) /\
  reads record_type 1 (PInt 0) /\ reads frame_size 3 PNone /\ reads direction 4 (PInt 1) /\
  reads optical_log_depth_units 5 (PInt 1) /\ reads reference_point 6 PNone /\ reads reference_point_units 7 (PStr (text ".1IN")) /\
  reads spacing 8 PNone /\ reads spacing_units 9 (PStr (text ".1IN")) /\ reads max_frames 11 PNone /\
  reads depth_mode 13 (PInt 0) /\ reads depth_units 14 (PStr (text ".1IN")) /\ reads depth_reprc 15 PNone /\
  reads spec_block_subtype 16 (PInt 0).
Proof.
  split.
  - exists (f64_of (-3997) (-2)). destruct (f64_of_val (-3997) (-2)) as (F & V & _). { apply fits_easy; [change (2 ^ 53) with 9007199254740992; lia | lia]. }
    split; [exact F|]. split; [|apply reads_entry]. rewrite V. change (bpow radix2 (-2)) with (/ IZR 4)%R. lra.
  - repeat split; try apply reads_entry.
Qed.
Print Assumptions C56_entries_partial.
(** spec_block_type reads entry 1, the data record type, instead of entry 2. *)
Theorem C56_spec_block_type_refuted :
  (exists d v, entry_of (df_entries d) 2 (PInt 0) v /\ spec_block_type d <> Ok v) /\ ~ reads spec_block_type 2 (PInt 0) /\ reads spec_block_type 1 (PInt 0).
Proof.
  assert (entry_of (df_entries (mk_dfsr [mk_entry 2 1 66 (LByte 7)] [])) 2 (PInt 0) (PInt 7)) as E.
  { apply (eo_one _ 2 (PInt 0) [] (mk_entry 2 1 66 (LByte 7)) []); [reflexivity | reflexivity | intros x []]. }
  split; [|split; [|apply reads_entry]].
  - exists (mk_dfsr [mk_entry 2 1 66 (LByte 7)] []), (PInt 7). split; [exact E|]. vm_compute. discriminate.
  - intros H. apply (proj1 (H (mk_dfsr [mk_entry 2 1 66 (LByte 7)] []))) in E. vm_compute in E. discriminate.
Qed.
Print Assumptions C56_spec_block_type_refuted.

(** The index: of the first channel in depth recording mode 0; "DEPT" with the units
    of entry 14 in mode 1.  None if there is no channel, or for another mode. *)
Theorem C56_index : forall dec d mode, entry_of (df_entries d) 13 (PInt 0) mode ->
  (number_value mode 0 -> forall s ss, df_specs d = s :: ss -> index_mnem dec d = Ok (Some (dec (sp_mnemonic s))) /\ index_units d = Ok (PStr (sp_units s))) /\
  (number_value mode 0 -> df_specs d = [] -> index_mnem dec d = Ok None /\ index_units d = Ok PNone) /\
  (number_value mode 1 -> index_mnem dec d = Ok (Some (str_of (text "DEPT"))) /\
     forall u, entry_of (df_entries d) 14 (PStr (text ".1IN")) u -> index_units d = Ok u) /\
  (~ number_value mode 0 -> ~ number_value mode 1 -> index_mnem dec d = Ok None /\ index_units d = Ok PNone).
Proof.
  intros dec d mode E. apply entry_iff in E. unfold index_mnem, index_units, depth_mode. rewrite E. cbn [rbind].
  rewrite <- !is_number. split; [|split; [|split]].
  - intros -> s ss ->. auto.
  - intros -> ->. auto.
  - intros H. assert (pv_is mode 0 = false) as ->.
    { destruct (pv_is mode 0) eqn:K; [|reflexivity]. exfalso. destruct mode as [|z|x|s|s]; cbn in H, K; try discriminate; [lia|]. destruct (integral x); [lia | discriminate]. }
    rewrite H. split; [reflexivity|]. intros u U. apply entry_iff in U. exact U.
  - intros H0 H1. destruct (pv_is mode 0); [exfalso; auto|]. destruct (pv_is mode 1); [exfalso; auto|]. auto.
Qed.
Print Assumptions C56_index.
(** The sampling rates are those of the channels, the index of mode 0 excepted. *)
Theorem C56_sample_rates : forall d l, layout_of d l -> exists rates, sample_rates d = Ok rates /\
  forall r, In r rates <-> exists s, In s (layout_channels l) /\ sp_samples s = r.
Proof.
  intros d l LO. destruct (layout_specs d l LO) as (Es & _ & Em). unfold sample_rates. rewrite Em. cbn [rbind]. eexists. split; [reflexivity|]. intros r. rewrite in_map_iff, Es.
  destruct l; cbn [pv_is mode_of Z.eqb skipn specs_of layout_channels]; split; intros (s & A & B); exists s; auto.
Qed.
Print Assumptions C56_sample_rates.
(** directional_spacing(): the spacing, negated if logged upwards (1), as it is if
    logged downwards (255); an exception for other directions and without spacing. *)
Theorem C56_directional_spacing : forall d sp dir, entry_of (df_entries d) 8 PNone sp -> entry_of (df_entries d) 4 (PInt 1) dir ->
  (number_value dir 1 -> forall z, sp = PInt z -> directional_spacing d = Ok (PInt (- z))) /\
  (number_value dir 1 -> forall x, sp = PFloat x -> directional_spacing d = Ok (PFloat (b64_opp x))) /\
  (number_value dir 255 -> sp <> PNone -> directional_spacing d = Ok sp) /\
  (sp = PNone \/ (~ number_value dir 1 /\ ~ number_value dir 255) -> directional_spacing d = Exn).
Proof.
  intros d sp dir S D. apply entry_iff in S, D. unfold directional_spacing, spacing, direction. rewrite S, D. cbn [rbind]. rewrite <- !is_number. split; [|split; [|split]].
  - intros -> z ->. reflexivity.
  - intros -> x ->. reflexivity.
  - intros H N. assert (pv_is dir 1 = false) as ->.
    { destruct (pv_is dir 1) eqn:K; [|reflexivity]. exfalso. destruct dir as [|z|x|s|s]; cbn in H, K; try discriminate; [lia|]. destruct (integral x); [lia | discriminate]. }
    rewrite H. destruct sp; congruence.
  - intros [-> |[N1 N2]]; [reflexivity|]. destruct (pv_is dir 1); [exfalso; auto|]. destruct (pv_is dir 255); [exfalso; auto|]. destruct sp; reflexivity.
Qed.
Print Assumptions C56_directional_spacing.
Example C56_example :
  let d := mk_dfsr [mk_entry 4 1 66 (LByte 255); mk_entry 8 4 68 (LF32 0x3f800000); mk_entry 11 1 66 (LByte 3); mk_entry 11 1 66 (LByte 4)] [] in
  direction d = Ok (PInt 255) /\ frame_size d = Ok PNone /\ max_frames d = Exn /\ repeated (df_entries d) 11.
Proof.
  split; [reflexivity|]. split; [reflexivity|]. split; [reflexivity|].
  exists [mk_entry 4 1 66 (LByte 255); mk_entry 8 4 68 (LF32 0x3f800000)], (mk_entry 11 1 66 (LByte 3)), [], (mk_entry 11 1 66 (LByte 4)), []. split; [reflexivity|]. split; reflexivity.
Qed.

(** ** C57: numbered labels are unique and ordered *)

(** Labels that occur once are kept; the n-th occurrence of a repeated label gets the
    suffix (n).  The result has no repeated labels.  This needs that no label looks
    like a numbered one; *)
Theorem C57_numbered_partial : forall l, unnumbered l -> made_unique l (unique_mnemonics l) /\ NoDup (unique_mnemonics l).
Proof. intros l U. split; [apply unique_made, U | apply unique_nodup, U]. Qed.
Print Assumptions C57_numbered_partial.
(** it is so if all labels have the same length, like the 4 characters of LIS79; *)
Theorem C57_same_length : forall l n, (forall x, In x l -> length x = n) -> made_unique l (unique_mnemonics l) /\ NoDup (unique_mnemonics l).
Proof. intros l n H. apply C57_numbered_partial. eapply same_length_unnumbered; exact H. Qed.
Print Assumptions C57_same_length.
(** and if it is not, labels can collide: then curves() refuses the specification even
    with strict=False. *)
Theorem C57_refuted :
  (exists l, ~ NoDup (unique_mnemonics l)) /\
  exists d, (exists fc cols, frame_config str_of (mk_dfsr (df_entries d) (firstn 3 (df_specs d))) (Some 1) false = Ok (fc, cols)) /\
    forall dv after ix tell, curves str_of dv after ix tell d (Some 1) false = Exn.
Proof.
  split.
  - exists [str_of (text "X"); str_of (text "X"); str_of (text "X(0)")]. intros H. apply no_duplicates_iff in H. vm_compute in H. discriminate.
  - exists (mk_dfsr [] [a_spec (text "DEPT") 4 1 73; a_spec (text "X") 1 1 66; a_spec (text "X") 1 1 66; a_spec (text "X(0)") 1 1 66]). split; [eexists _, _; vm_compute; reflexivity|].
    intros dv after ix tell. unfold curves. replace (frame_config _ _ _ _) with (@Exn (frameconfig * list column)) by (vm_compute; reflexivity). reflexivity.
Qed.
Print Assumptions C57_refuted.
(** Nothing is changed exactly if no label is repeated. *)
Theorem C57_unchanged : forall l, unique_mnemonics l = l <-> NoDup l.
Proof. exact unique_fixed. Qed.
Print Assumptions C57_unchanged.
Example C57_example :
  unnumbered (map str_of [text "A"; text "BC"; text "A"; text "BC"; text "D"; text "A"]) /\
  unique_mnemonics (map str_of [text "A"; text "BC"; text "A"; text "BC"; text "D"; text "A"]) =
    map str_of [text "A(0)"; text "BC(0)"; text "A(1)"; text "BC(1)"; text "D"; text "A(2)"].
Proof.
  split; [|vm_compute; reflexivity]. intros x y n _ _ N I. apply label_numbered in N as ->. unfold label_n in I.
  assert (In 40 (x ++ str_of (text "(" ++ str_int (Z.of_nat n) ++ text ")"))) as K by (apply in_or_app; right; rewrite !str_of_app; left; reflexivity).
  cbn [map In] in I. repeat destruct I as [I|I]; try (rewrite <- I in K; vm_compute in K; repeat destruct K as [K|K]; try discriminate; exact K). exact I.
Qed.
