(** Proofs about lis.curves for mnemonics that may not decode. *)
From Verif Require Import Bytes BytesProofs DlisTypes Stream DlisRecords DlisFdata LisTypes LisProtocol LisIo LisLoad LisPy LisCurves LisFile CommonPy DlisStore DlisStoreProofs
  SpecLisTypes LisTypesProofs2 SpecLisCurves LisCurvesProofs LisCurvesProofs2 LisCurvesProofs3 LisCurvesProofs4 LisCurvesProofs5 SpecLisPy LisPyProofs LisText SpecLisText.
From Coq Require Import Lia ZArith.
Local Open Scope Z_scope.

(** ** Names that are text *)
Lemma str_eqb_any a b : pystr_eqb (Str a) (Str b) = str_eqb a b.
Proof.
  destruct (str_eqb a b) eqn:E; [apply str_eqb_eq in E; subst; apply pystr_eqb_spec; reflexivity|].
  destruct (pystr_eqb (Str a) (Str b)) eqn:F; [|reflexivity]. apply pystr_eqb_spec in F. injection F as ->. rewrite (proj2 (str_eqb_eq b b) eq_refl) in E. discriminate.
Qed.
Lemma fresh_cons x seen l : forallb (fun y => negb (existsb (str_eqb y) (x :: seen))) l =
  negb (existsb (str_eqb x) l) && forallb (fun y => negb (existsb (str_eqb y) seen)) l.
Proof.
  induction l as [|y l IH]; [reflexivity|]. cbn [forallb]. rewrite IH. cbn [existsb].
  assert (Q : str_eqb y x = str_eqb x y) by (apply Bool.eq_true_iff_eq; rewrite !str_eqb_eq; split; congruence). rewrite Q.
  destruct (str_eqb x y), (existsb (str_eqb y) seen), (existsb (str_eqb x) l), (forallb _ l); reflexivity.
Qed.
Lemma np_names_text l : forall seen, np_names seen (map Str l) = if no_duplicates l && forallb (fun x => negb (existsb (str_eqb x) seen)) l then Made else Repeated.
Proof.
  induction l as [|x l IH]; intros seen; cbn [map np_names no_duplicates forallb]; [reflexivity|].
  destruct (existsb (str_eqb x) seen) eqn:S; cbn [negb andb]; [rewrite andb_false_r; reflexivity|]. rewrite IH.
  assert (E : no_duplicates l && forallb (fun y => negb (existsb (str_eqb y) (x :: seen))) l =
              negb (existsb (str_eqb x) l) && no_duplicates l && forallb (fun y => negb (existsb (str_eqb y) seen)) l).
  { etransitivity; [apply f_equal2; [reflexivity|apply (fresh_cons x seen l)]|]. destruct (no_duplicates l), (existsb (str_eqb x) l); reflexivity. }
  rewrite E. reflexivity.
Qed.
Lemma names_text l : np_names [] (map Str l) = if no_duplicates l then Made else Repeated.
Proof.
  rewrite np_names_text. destruct (no_duplicates l); [|reflexivity]. cbn [andb].
  match goal with |- (if ?a then _ else _) = _ => assert (T : a = true) by (apply forallb_forall; reflexivity); rewrite T end. reflexivity.
Qed.
Lemma occurrences_text x l : occurrences (Str x) (map Str l) = count x l.
Proof.
  unfold occurrences, count. induction l as [|y l IH]; [reflexivity|]. cbn [map filter]. rewrite str_eqb_any. destruct (str_eqb x y); cbn [length]; rewrite IH; reflexivity.
Qed.
Lemma seen_text x l : existsb (pystr_eqb (Str x)) (map Str l) = existsb (str_eqb x) l.
Proof. induction l as [|y l IH]; [reflexivity|]. cbn [map existsb]. rewrite str_eqb_any, IH. reflexivity. Qed.
Lemma keys_text l : forall seen, keys_of (map Str seen) (map Str l) = map Str (distinct seen l).
Proof.
  induction l as [|x l IH]; intros seen; cbn [map keys_of distinct]; [reflexivity|]. rewrite seen_text. destruct (existsb (str_eqb x) seen); [apply IH|].
  cbn [map]. f_equal. exact (IH (x :: seen)).
Qed.
Lemma relabel_text dup l : forall n, relabel_any (Str dup) n (map Str l) = Ok (map Str (relabel dup n l)).
Proof.
  induction l as [|x l IH]; intros n; cbn [map relabel_any relabel]; [reflexivity|]. rewrite str_eqb_any. destruct (str_eqb x dup); rewrite IH; reflexivity.
Qed.
Lemma relabel_each_text dups : forall l, relabel_each (map Str dups) (map Str l) = Ok (map Str (fold_left (fun l dup => relabel dup 0 l) dups l)).
Proof. induction dups as [|d dups IH]; intros l; cbn [map relabel_each fold_left]; [reflexivity|]. rewrite relabel_text. cbn [rbind]. apply IH. Qed.
Lemma filter_text l (t : list (list Z)) : filter (fun x => (1 <? occurrences x (map Str l))%nat) (map Str t) = map Str (filter (fun x => (1 <? count x l)%nat) t).
Proof. induction t as [|x t IH]; [reflexivity|]. cbn [map filter]. rewrite occurrences_text. destruct (1 <? count x l)%nat; cbn [map]; rewrite IH; reflexivity. Qed.
Lemma unique_text l : unique_any (map Str l) = Ok (map Str (unique_mnemonics l)).
Proof.
  unfold unique_any, unique_mnemonics. change (keys_of [] (map Str l)) with (keys_of (map Str []) (map Str l)). rewrite keys_text, <- relabel_each_text. f_equal.
  apply filter_text.
Qed.

(** ** Names that are bytes *)
Lemma names_raw b l : forall seen, In (Raw b) l -> np_names seen l <> Made.
Proof.
  induction l as [|x l IH]; intros seen; [intros []|]. intros [->|I]; cbn [np_names]; [discriminate|]. destruct x as [u|]; [|discriminate].
  destruct (existsb (str_eqb u) seen); [discriminate|]. apply IH. exact I.
Qed.
Lemma relabel_raw b dup l : forall n l', relabel_any dup n l = Ok l' -> In (Raw b) l -> In (Raw b) l'.
Proof.
  induction l as [|x l IH]; intros n l' H; [intros []|]. cbn [relabel_any] in H. destruct (pystr_eqb x dup).
  - destruct x as [u|]; [|discriminate]. destruct (relabel_any dup (n + 1) l) as [r| | |] eqn:E; try discriminate. injection H as <-.
    intros [F|I]; [discriminate|]. right. exact (IH _ _ E I).
  - destruct (relabel_any dup n l) as [r| | |] eqn:E; try discriminate. injection H as <-. intros [->|I]; [left; reflexivity|]. right. exact (IH _ _ E I).
Qed.
Lemma relabel_ends dup l : forall n, relabel_any dup n l = Exn \/ exists l', relabel_any dup n l = Ok l'.
Proof.
  induction l as [|x l IH]; intros n; cbn [relabel_any]; [right; eexists; reflexivity|]. destruct (pystr_eqb x dup).
  - destruct x; [|left; reflexivity]. destruct (IH (n + 1)) as [E|(r & E)]; rewrite E; [left; reflexivity|right; eexists; reflexivity].
  - destruct (IH n) as [E|(r & E)]; rewrite E; [left; reflexivity|right; eexists; reflexivity].
Qed.
Lemma each_raw b dups : forall l, In (Raw b) l -> relabel_each dups l = Exn \/ exists l', relabel_each dups l = Ok l' /\ In (Raw b) l'.
Proof.
  induction dups as [|d dups IH]; intros l I; cbn [relabel_each]; [right; eauto|]. destruct (relabel_ends d l 0) as [E|(l' & E)]; rewrite E; [left; reflexivity|].
  cbn [rbind]. apply IH. exact (relabel_raw b d l 0 l' E I).
Qed.
Lemma unique_raw b l : In (Raw b) l -> unique_any l = Exn \/ exists l', unique_any l = Ok l' /\ In (Raw b) l'.
Proof. apply each_raw. Qed.

(** ** The type *)
Definition field_of (c : column) : field := mk_field (Str (col_label c)) (col_type c) (col_width c) (col_entries c).
Definition rmap {A B} (f : A -> B) (x : res A) : res B := let! a := x in Ok (f a).
Lemma size_fields cols : fields_size (map field_of cols) = itemsize cols.
Proof. induction cols as [|c cols IH]; [reflexivity|]. cbn [map fields_size itemsize fold_right] in *. unfold fields_size, itemsize in IH. rewrite IH. reflexivity. Qed.
Lemma field_names cols : map fl_name (map field_of cols) = map Str (map col_label cols).
Proof. rewrite !map_map. reflexivity. Qed.

Section Decoding.
Variable dec : bytes -> CommonPy.pystr.
Variable names : bytes -> list Z.
Hypothesis agrees : agrees_with dec names.
Lemma spec_field_text s u : reads_as dec s u -> spec_field dec s = rmap field_of (spec_column names s).
Proof.
  intros R. unfold spec_field, spec_column, rmap. destruct (nptype (sp_reprc s)) as [[t w]|]; [|reflexivity]. cbn [rbind]. unfold field_of. cbn [col_label col_type col_width col_entries].
  rewrite (agrees _ _ R), R. reflexivity.
Qed.
Lemma fields_text l : (forall s, In s l -> exists u, reads_as dec s u) -> map_ok (spec_field dec) l = rmap (map field_of) (map_ok (spec_column names) l).
Proof.
  induction l as [|s l IH]; intros H; [reflexivity|]. cbn [map_ok]. destruct (H s (or_introl eq_refl)) as (u & R). rewrite (spec_field_text s u R).
  rewrite IH by (intros x I; apply H; right; exact I). unfold rmap. destruct (spec_column names s); cbn [rbind]; try reflexivity. destruct (map_ok (spec_column names) l); reflexivity.
Qed.
Lemma combine_fields ns : forall cols, map (fun '(n, c) => mk_field n (fl_type c) (fl_width c) (fl_entries c)) (combine (map Str ns) (map field_of cols)) =
  map field_of (map (fun '(n, c) => mk_column n (col_type c) (col_width c) (col_entries c)) (combine ns cols)).
Proof. induction ns as [|n ns IH]; intros [|c cols]; cbn [map combine]; try reflexivity. rewrite IH. reflexivity. Qed.
Lemma unique_labels cols : map col_label (mkunique cols) = unique_mnemonics (map col_label cols).
Proof. apply mkunique_spec. Qed.
Definition read_list (mode : pv) (d : dfsr) (rate : Z) : list spec_block :=
  map snd (filter (fun '(i, s) => (0 <=? sp_reserved_size s) && (is_index i mode || (sp_samples s =? rate))) (enumerate (df_specs d))).
Lemma dtype_text mode index d rate strict : (forall s, In s (read_list mode d rate) -> exists u, reads_as dec s u) ->
  dfsr_dtype_any dec mode index d rate strict = rmap (map field_of) (dfsr_dtype names mode index d rate strict).
Proof.
  intros H. unfold dfsr_dtype_any, dfsr_dtype. cbv zeta. fold (read_list mode d rate). rewrite (fields_text _ H).
  assert (F : (if pv_is mode 1 then match nptype index with Some (t, w) => Ok [mk_field (Str default_index_mnem) t w 1] | None => Exn end else Ok []) =
    rmap (map field_of) (if pv_is mode 1 then match nptype index with Some (t, w) => Ok [mk_column default_index_mnem t w 1] | None => Exn end else Ok [])).
  { destruct (pv_is mode 1); [|reflexivity]. destruct (nptype index) as [[t w]|]; reflexivity. }
  rewrite F. clear F. destruct (if pv_is mode 1 then _ else _) as [first| | |]; cbn [rmap rbind]; try reflexivity.
  destruct (map_ok (spec_column names) (read_list mode d rate)) as [cols| | |]; unfold rmap; cbn [rbind]; try reflexivity.
  rewrite <- map_app, field_names, names_text. unfold np_dtype. destruct (no_duplicates (map col_label (first ++ cols))); [reflexivity|].
  destruct strict; [reflexivity|]. rewrite unique_text. cbn [rbind]. rewrite names_text, unique_labels. destruct (no_duplicates (unique_mnemonics _)); [|reflexivity].
  cbn [rbind]. rewrite combine_fields. reflexivity.
Qed.
Lemma curves_text dv after ix tell d asked strict :
  (forall mode rate, depth_mode d = Ok mode -> pick_rate mode d asked = Ok rate -> forall s, In s (read_list mode d rate) -> exists u, reads_as dec s u) ->
  curves_any dec dv after ix tell d asked strict = rmap (fun '(cols, cells, n) => (map field_of cols, cells, n)) (curves names dv after ix tell d asked strict).
Proof.
  intros H. unfold curves_any, curves, frame_config_any, frame_config, rmap. destruct (depth_mode d) as [mode| | |] eqn:M; cbn [rbind]; try reflexivity.
  destruct (pick_rate mode d asked) as [rate| | |] eqn:R; cbn [rbind]; try reflexivity. destruct (validate_dfsr d) as [index| | |]; cbn [rbind]; try reflexivity.
  destruct (if pv_is mode 1 then directional_spacing d else Ok (PInt 0)) as [sp| | |]; cbn [rbind]; try reflexivity.
  destruct (dfsr_fmtstr mode index d rate) as [[idx fmt]| | |]; cbn [rbind]; try reflexivity.
  rewrite (dtype_text mode index d rate strict (H mode rate eq_refl R)). destruct (dfsr_dtype names mode index d rate strict) as [cols| | |]; unfold rmap; cbn [rbind]; try reflexivity.
  destruct (arg_uint8 rate); cbn [rbind]; try reflexivity. destruct (arg_int mode); cbn [rbind]; try reflexivity. destruct (arg_double sp); cbn [rbind]; try reflexivity.
  rewrite size_fields. destruct (read_data_records _ _ _ _ _) as [[cells n]| | |]; reflexivity.
Qed.
End Decoding.

Lemma fields_in dec l fs : map_ok (spec_field dec) l = Ok fs -> map fl_name fs = map (fun s => dec (sp_mnemonic s)) l.
Proof.
  revert fs. induction l as [|s l IH]; intros fs H; cbn [map_ok] in H; [injection H as <-; reflexivity|]. unfold spec_field in H at 1.
  destruct (nptype (sp_reprc s)) as [[t w]|]; [|discriminate]. cbn [rbind] in H. destruct (map_ok (spec_field dec) l) as [r| | |]; try discriminate. injection H as <-.
  cbn [map fl_name]. f_equal. apply IH. reflexivity.
Qed.
Lemma fields_end dec l : map_ok (spec_field dec) l = Exn \/ exists fs, map_ok (spec_field dec) l = Ok fs.
Proof.
  induction l as [|s l IH]; [right; eexists; reflexivity|]. cbn [map_ok]. unfold spec_field at 1 3. destruct (nptype (sp_reprc s)) as [[t w]|]; cbn [rbind]; [|left; reflexivity].
  destruct IH as [E|(fs & E)]; rewrite E; [left; reflexivity|right; eexists; reflexivity].
Qed.
Lemma dtype_raw dec mode index d rate strict s b : In s (read_list mode d rate) -> dec (sp_mnemonic s) = Raw b ->
  dfsr_dtype_any dec mode index d rate strict = Exn.
Proof.
  intros I B. unfold dfsr_dtype_any. cbv zeta. fold (read_list mode d rate).
  destruct (if pv_is mode 1 then _ else _) as [first| | |] eqn:F; cbn [rbind]; try reflexivity;
    try (destruct (pv_is mode 1); [destruct (nptype index) as [[t w]|]|]; discriminate F).
  destruct (fields_end dec (read_list mode d rate)) as [E|(fs & E)]; rewrite E; cbn [rbind]; [reflexivity|].
  assert (J : In (Raw b) (map fl_name (first ++ fs))).
  { rewrite map_app. apply in_or_app. right. rewrite (fields_in _ _ _ E), <- B. apply (in_map (fun s => dec (sp_mnemonic s))). exact I. }
  pose proof (names_raw b _ [] J) as N. destruct (np_names [] (map fl_name (first ++ fs))); [congruence| |reflexivity]. destruct strict; [reflexivity|].
  destruct (unique_raw b _ J) as [U|(l' & U & J')]; rewrite U; cbn [rbind]; [reflexivity|]. pose proof (names_raw b _ [] J') as N'. destruct (np_names [] l'); [congruence|reflexivity|reflexivity].
Qed.

(** ** Which channels are read *)
Lemma read_list_spec d l rate chans : layout_of d l -> usable l -> chosen rate (layout_channels l) chans -> read_list (PInt (mode_of l)) d rate = read_specs l chans.
Proof.
  intros LO U C. destruct (layout_specs d l LO) as (E & _ & _). unfold read_list, enumerate. rewrite E.
  assert (US : Forall usable_channel (layout_channels l)) by (destruct l; cbn in *; tauto).
  destruct (chosen_filter rate (layout_channels l) US) as [CH _]. rewrite (chosen_functional _ _ _ _ C CH). clear C CH chans.
  destruct l as [s0 ss|rc spacing ss]; cbn [mode_of specs_of layout_channels read_specs] in *.
  - destruct U as ((n & NS & SZ) & S1 & _). cbn [length seq combine filter].
    replace (is_index 0 (PInt 0)) with true by reflexivity. cbn [orb]. replace (0 <=? sp_reserved_size s0) with true by lia. cbn [andb map snd]. f_equal.
    rewrite (filter_enumerate (fun s => sp_samples s =? rate)) by (left; lia). reflexivity.
  - rewrite (filter_enumerate (fun s => sp_samples s =? rate)) by (right; reflexivity). reflexivity.
Qed.

(** ** Curves *)
Lemma refused dec dv after ix tell d asked strict l rate chans s b : layout_of d l -> usable l -> rate_used l asked rate -> chosen rate (layout_channels l) chans ->
  In s (read_specs l chans) -> dec (sp_mnemonic s) = Raw b -> curves_any dec dv after ix tell d asked strict = Exn.
Proof.
  intros LO U RU C I B. rewrite <- (read_list_spec d l rate chans LO U C) in I.
  destruct (layout_specs d l LO) as (SPS & CH & MD). unfold curves_any, frame_config_any. rewrite MD. cbn [rbind].
  apply (rate_iff d l asked rate LO) in RU. rewrite RU. cbn [rbind]. pose proof U as U'. apply (validate_layout d l LO) in U'. rewrite U'. cbn [rbind].
  assert (SP : exists sp, (if pv_is (PInt (mode_of l)) 1 then directional_spacing d else Ok (PInt 0)) = Ok sp).
  { destruct LO as [s0 ss M E|rc spv dir spacing M RC SV DI SO]; cbn [mode_of]; [eexists; reflexivity|].
    replace (pv_is (PInt 1) 1) with true by reflexivity. unfold directional_spacing, LisPy.spacing, direction. apply entry_iff in SV, DI. rewrite SV, DI. cbn [rbind].
    apply spacing_iff in SO as (w & E & A). exists w. destruct spv; try exact E.
    destruct (pv_is dir 1); [discriminate|]. destruct (pv_is dir 255); [|discriminate]. injection E as <-. discriminate A. }
  destruct SP as (sp & ->). cbn [rbind]. unfold dfsr_fmtstr. rewrite CH. destruct (fmt_items rate (layout_channels l)) as (its & FE & FI). { destruct l; cbn in *; tauto. }
  assert (CD : exists c n m, In (code_of l, c, n, m) lis_formats). { destruct l; cbn [usable code_of] in *; destruct U as [VD _]; [destruct VD as (n & (c & m & J) & _)|destruct VD as (n & c & m & J)]; eauto. }
  destruct CD as (c & n & m & J). destruct (number_facts _ _ _ _ J) as (F & _). rewrite F, FE. cbn [rbind].
  rewrite (dtype_raw dec _ _ d rate strict s b I B). reflexivity.
Qed.
Lemma fields_as cols : Forall2 as_field cols (map field_of cols).
Proof. induction cols as [|c cols IH]; constructor; [repeat split|exact IH]. Qed.
Lemma as_fields cols fs : Forall2 as_field cols fs -> fs = map field_of cols.
Proof. induction 1 as [|c [] cols fs (N & T & W & E) _ IH]; [reflexivity|]. cbn in N, T, W, E. subst. reflexivity. Qed.
(** either all are text or one is not *)
Lemma all_or_one dec l : (forall s, In s l -> exists u, reads_as dec s u) \/ exists s b, In s l /\ dec (sp_mnemonic s) = Raw b.
Proof.
  induction l as [|s l [IH|(x & b & I & B)]]; [left; intros s []| |right; exists x, b; split; [right; exact I|exact B]].
  destruct (dec (sp_mnemonic s)) as [u|b] eqn:E; [left|right; exists s, b; split; [left; reflexivity|exact E]]. intros x [<-|I]; [exists u; exact E|exact (IH x I)].
Qed.

(** ** Metadata *)
Lemma occurrences_nodup l x : NoDup l -> (occurrences x l <= 1)%nat.
Proof.
  unfold occurrences. induction 1 as [|y l N ND IH]; [cbn; lia|]. cbn [filter]. destruct (pystr_eqb x y) eqn:E; [|exact IH]. apply pystr_eqb_spec in E. subst y.
  cbn [length]. assert (filter (pystr_eqb x) l = []) as ->; [|cbn; lia]. apply filter_none. intros z I. destruct (pystr_eqb x z) eqn:F; [|reflexivity].
  apply pystr_eqb_spec in F. subst z. contradiction.
Qed.
Lemma unique_any_id l : NoDup l -> unique_any l = Ok l.
Proof.
  intros ND. unfold unique_any. assert (filter (fun x => (1 <? occurrences x l)%nat) (keys_of [] l) = []) as ->; [|reflexivity].
  apply filter_none. intros x _. apply Nat.ltb_ge. apply occurrences_nodup. exact ND.
Qed.
Lemma dict_put_new {A} k (v : A) d : ~ In k (map fst d) -> dict_put k v d = d ++ [(k, v)].
Proof.
  induction d as [|[k' v'] d IH]; intros N; cbn [dict_put app]; [reflexivity|]. destruct (pystr_eqb k k') eqn:E.
  - apply pystr_eqb_spec in E. subst k'. exfalso. apply N. left. reflexivity.
  - rewrite IH; [reflexivity|]. intros I. apply N. right. exact I.
Qed.
Lemma dict_fold_nodup {A} (l : list (CommonPy.pystr * A)) : NoDup (map fst l) -> fold_left (fun m '(k, v) => dict_put k v m) l [] = l.
Proof.
  enough (H : forall acc, NoDup (map fst (acc ++ l)) -> fold_left (fun m '(k, v) => dict_put k v m) l acc = acc ++ l) by exact (H []).
  induction l as [|[k v] l IH]; intros acc N; cbn [fold_left]; [rewrite app_nil_r; reflexivity|]. rewrite dict_put_new.
  - rewrite IH, <- app_assoc; [reflexivity|]. rewrite <- app_assoc. exact N.
  - rewrite map_app in N. cbn [map fst] in N. apply NoDup_remove_2 in N. intros I. apply N. apply in_or_app. auto.
Qed.
Lemma same_names (l : list CommonPy.pystr) : forallb (fun '(a, b) => pystr_eqb a b) (combine l l) = true.
Proof. induction l as [|x l IH]; [reflexivity|]. cbn [combine forallb]. rewrite IH, (proj2 (pystr_eqb_spec x x) eq_refl). reflexivity. Qed.
Lemma fst_combine {A B} : forall (a : list A) (b : list B), length a = length b -> map fst (combine a b) = a.
Proof. induction a as [|x a IH]; intros [|y b] L; try discriminate; [reflexivity|]. cbn [combine map fst]. rewrite IH by (injection L; auto). reflexivity. Qed.
Lemma metadata_names dec d l asked rate strict : layout_of d l -> df_specs d <> [] -> rate_used l asked rate ->
  let names := index_name dec l :: map (fun s => dec (sp_mnemonic s)) (at_rate rate l) in
  metadata_any dec d asked strict =
    (let! uniques := unique_any names in
     if strict && negb (forallb (fun '(a, b) => pystr_eqb a b) (combine uniques names)) then Exn
     else Ok (fold_left (fun m '(k, v) => dict_put k v m) (combine uniques (index_block l :: map Some (at_rate rate l))) [])).
Proof.
  intros LO NE RU names. unfold metadata_any. destruct (df_specs d) as [|s0 ss] eqn:E; [congruence|].
  destruct (layout_specs d l LO) as (Es & Ec & Em). rewrite Em. cbn [rbind]. rewrite (proj2 (rate_iff d l asked rate LO) RU). cbn [rbind].
  rewrite Ec. fold (at_rate rate l).
  assert ((if pv_is (PInt (mode_of l)) 0 then dec (sp_mnemonic s0) else Str (if pv_is (PInt (mode_of l)) 1 then default_index_mnem else [])) = index_name dec l) as ->.
  { destruct l; cbn in *; [congruence|reflexivity]. }
  assert ((if pv_is (PInt (mode_of l)) 0 then Some s0 else None) = index_block l) as ->. { destruct l; cbn in *; congruence. }
  reflexivity.
Qed.
Lemma relabel_bytes b l : forall n, In (Raw b) l -> relabel_any (Raw b) n l = Exn.
Proof.
  induction l as [|x l IH]; intros n; [intros []|]. intros I. cbn [relabel_any]. destruct (pystr_eqb x (Raw b)) eqn:E.
  - apply pystr_eqb_spec in E. subst x. reflexivity.
  - destruct I as [->|I]; [rewrite (proj2 (pystr_eqb_spec (Raw b) (Raw b)) eq_refl) in E; discriminate|]. rewrite (IH n I). reflexivity.
Qed.
Lemma each_bytes b dups : forall l, In (Raw b) dups -> In (Raw b) l -> relabel_each dups l = Exn.
Proof.
  induction dups as [|d dups IH]; intros l; [intros []|]. intros J I. cbn [relabel_each]. destruct J as [->|J]; [rewrite (relabel_bytes b l 0 I); reflexivity|].
  destruct (relabel_ends d l 0) as [E|(l' & E)]; rewrite E; [reflexivity|]. cbn [rbind]. apply IH; [exact J|]. exact (relabel_raw b d l 0 l' E I).
Qed.
Lemma keys_in x l : forall seen, In x l -> ~ In x seen -> In x (keys_of seen l).
Proof.
  induction l as [|y l IH]; intros seen; [intros []|]. intros I N. cbn [keys_of]. destruct (existsb (pystr_eqb y) seen) eqn:E.
  - destruct I as [->|I]; [|exact (IH seen I N)]. exfalso. apply N. apply existsb_exists in E as (z & Z & F). apply pystr_eqb_spec in F. subst z. exact Z.
  - destruct (pystr_eqb x y) eqn:F; [apply pystr_eqb_spec in F; left; congruence|]. right. destruct I as [->|I]; [rewrite (proj2 (pystr_eqb_spec x x) eq_refl) in F; discriminate|].
    apply IH; [exact I|]. intros [->|S]; [rewrite (proj2 (pystr_eqb_spec x x) eq_refl) in F; discriminate|exact (N S)].
Qed.
Lemma occurrences_twice x a b c : (1 < occurrences x (a ++ x :: b ++ x :: c))%nat.
Proof.
  unfold occurrences. rewrite filter_app. cbn [filter]. rewrite (proj2 (pystr_eqb_spec x x) eq_refl), filter_app. cbn [filter]. rewrite (proj2 (pystr_eqb_spec x x) eq_refl).
  rewrite app_length. cbn [length]. rewrite app_length. cbn [length]. lia.
Qed.
Lemma unique_bytes u a b c : unique_any (a ++ Raw u :: b ++ Raw u :: c) = Exn.
Proof.
  unfold unique_any. apply (each_bytes u); [|apply in_elt]. apply filter_In. split; [apply keys_in; [apply in_elt|intros []]|]. apply Nat.ltb_lt. apply occurrences_twice.
Qed.

(** ** Repeated names *)
Lemma texts_with l : forall ts, length ts = length (texts l) -> texts (with_texts l ts) = ts.
Proof.
  induction l as [|[u|b] l IH]; intros [|t ts] L; cbn [texts with_texts length] in *; try discriminate; try reflexivity; try (apply IH; exact L).
  f_equal. apply IH. injection L; auto.
Qed.
Lemma with_with l : forall a b, length a = length (texts l) -> length b = length (texts l) -> with_texts (with_texts l a) b = with_texts l b.
Proof.
  induction l as [|[u|c] l IH]; intros a b A B; cbn [texts with_texts length] in *.
  - destruct a, b; reflexivity.
  - destruct a as [|x a], b as [|y b]; try discriminate. cbn [with_texts]. f_equal. apply IH; [injection A; auto|injection B; auto].
  - f_equal. apply IH; assumption.
Qed.
Lemma with_same l : with_texts l (texts l) = l.
Proof. induction l as [|[u|b] l IH]; cbn [texts with_texts]; [reflexivity|rewrite IH; reflexivity|rewrite IH; reflexivity]. Qed.
Lemma with_length l : forall ts, length ts = length (texts l) -> length (with_texts l ts) = length l.
Proof.
  induction l as [|[u|b] l IH]; intros [|t ts] L; cbn [texts with_texts length] in *; try discriminate; try reflexivity; f_equal; apply IH; try exact L; injection L; auto.
Qed.
Lemma relabel_len d l : forall n, length (relabel d n l) = length l.
Proof. induction l as [|x l IH]; intros n; cbn [relabel]; [reflexivity|]. destruct (str_eqb x d); cbn [length]; rewrite IH; reflexivity. Qed.
Lemma relabel_mixed d l : forall n, relabel_any (Str d) n l = Ok (with_texts l (relabel d n (texts l))).
Proof.
  induction l as [|[u|b] l IH]; intros n; cbn [relabel_any texts relabel with_texts]; [reflexivity| |].
  - rewrite str_eqb_any. destruct (str_eqb u d); rewrite IH; reflexivity.
  - assert (pystr_eqb (Raw b) (Str d) = false) as -> by (destruct (pystr_eqb (Raw b) (Str d)) eqn:E; [apply pystr_eqb_spec in E; discriminate|reflexivity]).
    rewrite IH. reflexivity.
Qed.
Lemma each_mixed dups : forall l, relabel_each (map Str dups) l = Ok (with_texts l (fold_left (fun l dup => relabel dup 0 l) dups (texts l))).
Proof.
  assert (FL : forall dups l, length (fold_left (fun l dup => relabel dup 0 l) dups l) = length l) by (clear; induction dups as [|d dups IH]; intros l; cbn [fold_left]; [reflexivity|]; rewrite IH; apply relabel_len).
  induction dups as [|d dups IH]; intros l; cbn [map relabel_each fold_left]; [rewrite with_same; reflexivity|]. rewrite relabel_mixed. cbn [rbind]. rewrite IH.
  rewrite texts_with by apply relabel_len. rewrite with_with; [reflexivity|apply relabel_len|]. rewrite FL. apply relabel_len.
Qed.
Lemma occurrences_mixed x l : occurrences (Str x) l = count x (texts l).
Proof.
  unfold occurrences, count. induction l as [|[u|b] l IH]; [reflexivity| |].
  - cbn [texts filter]. rewrite str_eqb_any. destruct (str_eqb x u); cbn [length]; rewrite IH; reflexivity.
  - cbn [texts filter]. assert (pystr_eqb (Str x) (Raw b) = false) as -> by (destruct (pystr_eqb (Str x) (Raw b)) eqn:E; [apply pystr_eqb_spec in E; discriminate|reflexivity]). exact IH.
Qed.
Lemma seen_mixed x l : existsb (pystr_eqb (Str x)) l = existsb (str_eqb x) (texts l).
Proof.
  induction l as [|[u|b] l IH]; [reflexivity| |]; cbn [texts existsb]; rewrite IH; [rewrite str_eqb_any; reflexivity|].
  assert (pystr_eqb (Str x) (Raw b) = false) as -> by (destruct (pystr_eqb (Str x) (Raw b)) eqn:E; [apply pystr_eqb_spec in E; discriminate|reflexivity]). reflexivity.
Qed.
Lemma keys_mixed (P : CommonPy.pystr -> bool) l : (forall b, P (Raw b) = false) -> forall seen,
  filter P (keys_of seen l) = map Str (filter (fun x => P (Str x)) (distinct (texts seen) (texts l))).
Proof.
  intros N. induction l as [|[u|b] l IH]; intros seen; cbn [keys_of texts distinct]; [reflexivity| |].
  - rewrite seen_mixed. destruct (existsb (str_eqb u) (texts seen)); [apply IH|]. cbn [filter]. pose proof (IH (Str u :: seen)) as K. cbn [texts] in K.
    destruct (P (Str u)); cbn [map]; rewrite K; reflexivity.
  - destruct (existsb (pystr_eqb (Raw b)) seen); [apply IH|]. cbn [filter]. rewrite N. exact (IH (Raw b :: seen)).
Qed.
Lemma raws_in b l : In b (raws l) <-> In (Raw b) l.
Proof.
  induction l as [|[u|c] l IH]; cbn [raws In]; [tauto| |].
  - rewrite IH. split; [auto|]. intros [H|H]; [discriminate|exact H].
  - rewrite IH. split; (intros [H|H]; [left; congruence|auto]).
Qed.
Lemma texts_in u l : In u (texts l) <-> In (Str u) l.
Proof.
  induction l as [|[v|c] l IH]; cbn [texts In]; [tauto| |].
  - rewrite IH. split; (intros [H|H]; [left; congruence|auto]).
  - rewrite IH. split; [auto|]. intros [H|H]; [discriminate|exact H].
Qed.
Lemma occurrences_once b l : NoDup (raws l) -> (occurrences (Raw b) l <= 1)%nat.
Proof.
  unfold occurrences. induction l as [|[u|c] l IH]; cbn [raws filter]; intros ND; [cbn; lia| |].
  - assert (pystr_eqb (Raw b) (Str u) = false) as -> by (destruct (pystr_eqb (Raw b) (Str u)) eqn:E; [apply pystr_eqb_spec in E; discriminate|reflexivity]). apply IH, ND.
  - apply NoDup_cons_iff in ND as [N ND]. destruct (pystr_eqb (Raw b) (Raw c)) eqn:E; [|apply IH, ND]. apply pystr_eqb_spec in E. injection E as <-.
    cbn [length]. assert (filter (pystr_eqb (Raw b)) l = []) as ->; [|cbn; lia]. apply filter_none. intros z I. destruct (pystr_eqb (Raw b) z) eqn:F; [|reflexivity].
    apply pystr_eqb_spec in F. subst z. apply raws_in in I. contradiction.
Qed.
Lemma unique_mixed l : NoDup (raws l) -> unique_any l = Ok (with_texts l (unique_mnemonics (texts l))).
Proof.
  intros ND. unfold unique_any, unique_mnemonics. rewrite keys_mixed by (intros b; apply Nat.ltb_ge, occurrences_once, ND). rewrite <- each_mixed. f_equal. f_equal.
  cbn [texts]. apply filter_ext. intros x. rewrite occurrences_mixed. reflexivity.
Qed.
Lemma same_mixed l : forall ts, length ts = length (texts l) ->
  forallb (fun '(a, b) => pystr_eqb a b) (combine (with_texts l ts) l) = forallb (fun '(a, b) => str_eqb a b) (combine ts (texts l)).
Proof.
  induction l as [|[u|b] l IH]; intros [|t ts] L; cbn [texts with_texts length combine forallb] in *; try discriminate; try reflexivity.
  - rewrite str_eqb_any, IH by (injection L; auto). reflexivity.
  - rewrite (proj2 (pystr_eqb_spec (Raw b) (Raw b)) eq_refl), IH by exact L. reflexivity.
  - rewrite (proj2 (pystr_eqb_spec (Raw b) (Raw b)) eq_refl), IH by exact L. reflexivity.
Qed.
Lemma nodup_mixed l : forall ts, length ts = length (texts l) -> NoDup ts -> NoDup (raws l) -> NoDup (with_texts l ts).
Proof.
  assert (RW : forall l ts, length ts = length (texts l) -> raws (with_texts l ts) = raws l).
  { clear. induction l as [|[u|b] l IH]; intros [|t ts] L; cbn [texts with_texts length raws] in *; try discriminate; try reflexivity.
    - apply IH. injection L; auto.
    - f_equal. apply IH; exact L.
    - f_equal. apply IH; exact L. }
  induction l as [|[u|b] l IH]; intros ts L T R; cbn [texts with_texts length raws] in *.
  - constructor.
  - destruct ts as [|t ts]; [discriminate|]. injection L as L. apply NoDup_cons_iff in T as [N T]. constructor; [|apply IH; assumption].
    intros I. apply texts_in in I. rewrite texts_with in I by exact L. contradiction.
  - apply NoDup_cons_iff in R as [N R]. assert (NoDup (Raw b :: with_texts l ts)); [|destruct ts; assumption]. constructor; [|apply IH; assumption].
    intros I. apply raws_in in I. rewrite RW in I by exact L. contradiction.
Qed.
Lemma made_is names u : made_unique names u -> unnumbered names -> unique_mnemonics names = u.
Proof.
  intros [L H] U. destruct (unique_made names U) as [L' H']. apply nth_same. intros i. destruct (nth_error names i) as [x|] eqn:E.
  - destruct (H i x E) as (y & -> & Hy), (H' i x E) as (y' & -> & Hy'). f_equal.
    destruct Hy as [[O ->]|[O P]], Hy' as [[O' ->]|[O' P']]; try lia; [reflexivity|]. apply label_numbered in P, P'. congruence.
  - apply nth_error_None in E. transitivity (@None LisPy.pystr); [|symmetry]; apply nth_error_None; lia.
Qed.
