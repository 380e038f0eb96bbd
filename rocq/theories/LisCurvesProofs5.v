(** lis.curves: the checks, the format string and the array's type. *)
From Verif Require Import Bytes BytesProofs DlisTypes DlisCore Stream DlisRecords SpecTypes TypesProofs CoreProofs2 SpecIo IoProofs PyBase
  DlisFdata SpecFdata FdataProofs LisTypes LisTypesProofs SpecLisTypes LisTypesProofs2 LisProtocol LisIo LisPy LisCurves SpecLisCurves
  LisCurvesProofs LisCurvesProofs2 LisCurvesProofs3 LisCurvesProofs4.
From Flocq Require Import Core IEEE754.Binary IEEE754.Bits.
From Coq Require Import Lia ZArith.
Local Open Scope Z_scope.
Ltac Zify.zify_post_hook ::= Z.div_mod_to_equations.

(** ** Entries *)
Lemma filter_none {A} (f : A -> bool) l : filter f l = [] <-> forall x, In x l -> f x = false.
Proof.
  induction l as [|x l IH]; cbn [filter]; [split; [intros _ y []| reflexivity]|]. destruct (f x) eqn:E.
  - split; [discriminate|]. intros H. rewrite (H x (or_introl eq_refl)) in E. discriminate.
  - rewrite IH. split; [intros H y [<- |I]; auto | intros H y I; apply H; right; exact I].
Qed.
Lemma filter_one {A} (f : A -> bool) l e : filter f l = [e] <-> exists a b, l = a ++ e :: b /\ f e = true /\ forall x, In x (a ++ b) -> f x = false.
Proof.
  induction l as [|x l IH]; cbn [filter].
  { split; [discriminate|]. intros (a & b & E & _). destruct a; discriminate. }
  destruct (f x) eqn:E.
  - split.
    + intros H. injection H as -> H. exists [], l. split; [reflexivity|]. split; [exact E|]. apply filter_none. exact H.
    + intros (a & b & L & F & N). destruct a as [|y a]; cbn in L; injection L as <- ->.
      * f_equal. apply filter_none. exact N.
      * rewrite (N x) in E by (left; reflexivity). discriminate.
  - rewrite IH. split.
    + intros (a & b & -> & F & N). exists (x :: a), b. split; [reflexivity|]. split; [exact F|]. intros y [<- |I]; [exact E | apply N; exact I].
    + intros (a & b & L & F & N). destruct a as [|y a]; cbn in L; injection L as -> ->; [congruence|]. exists a, b. split; [reflexivity|]. split; [exact F|].
      intros z I. apply N. right. exact I.
Qed.
Lemma entry_iff d t def v : entry_value d t def = Ok v <-> entry_of (df_entries d) t def v.
Proof.
  unfold entry_value, find_entry. split.
  - destruct (filter _ _) as [|e [|]] eqn:F; cbn [rbind]; intros H; [|injection H as <-|discriminate].
    + injection H as <-. constructor. intros e I. pose proof (proj1 (filter_none _ _) F e I). cbn in H. lia.
    + apply filter_one in F as (a & b & E & T & N). apply (eo_one _ _ _ a e b E); [lia|]. intros x I. specialize (N x I). cbn in N. lia.
  - intros [N|a e b E T N].
    + replace (filter _ _) with (@nil entry_block); [reflexivity|]. symmetry. apply filter_none. intros x I. specialize (N x I). lia.
    + replace (filter _ _) with [e]; [reflexivity|]. symmetry. apply filter_one. exists a, b. split; [exact E|]. split; [lia|]. intros x I. specialize (N x I). lia.
Qed.
Lemma entry_functional es t def v w : entry_of es t def v -> entry_of es t def w -> v = w.
Proof.
  intros H1 H2. apply (entry_iff (mk_dfsr es [])) in H1. apply (entry_iff (mk_dfsr es [])) in H2. congruence.
Qed.
Lemma is_number v z : pv_is v z = true <-> number_value v z.
Proof.
  unfold number_value. destruct v as [|y|x|s|s]; cbn [pv_is]; try (split; [discriminate | intros [H|(x & H & _)]; discriminate]).
  - rewrite Z.eqb_eq. split; [intros ->; auto | intros [H|(x & H & _)]; [congruence | discriminate]].
  - split.
    + destruct (integral x) as [y|] eqn:E; [|discriminate]. rewrite Z.eqb_eq. intros ->. apply integral_spec in E as [F E]. right. exists x. auto.
    + intros [H|(x' & H & F & E)]; [discriminate|]. injection H as <-. assert (X : integral x = Some z) by (apply integral_spec; auto). rewrite X. apply Z.eqb_refl.
Qed.

(** ** Types *)
Lemma np_iff rc t w : nptype rc = Some (t, w) <-> In (rc, (t, w)) np_types.
Proof.
  unfold nptype. cbn [np_types In]. split.
  - repeat match goal with |- context [rc =? ?k] => destruct (Z.eqb_spec rc k) as [-> |_]; [ intros H; injection H as <- <-; repeat (first [left; reflexivity | right])|] end. discriminate.
  - intros H. repeat (destruct H as [H|H]; [injection H as <- <- <-; reflexivity|]). destruct H.
Qed.
(** a code is that of a number, of a text, or none of curves *)
Inductive code_kind (rc : Z) : Prop :=
| ck_number c n m : In (rc, c, n, m) lis_formats -> code_kind rc
| ck_text : rc = 65 -> code_kind rc
| ck_none : rc <> 65 -> (forall c n m, ~ In (rc, c, n, m) lis_formats) -> nptype rc = None -> code_kind rc.
Lemma kind rc : code_kind rc.
Proof.
  destruct (Z.eq_dec rc 65) as [-> |T]; [apply ck_text; reflexivity|].
  destruct (in_dec Z.eq_dec rc (map (fun x => fst (fst (fst x))) lis_formats)) as [I|I].
  - apply in_map_iff in I as ([[[rc' c] n] m] & E & I). cbn in E. subst rc'. exact (ck_number rc c n m I).
  - apply ck_none; [exact T| |].
    + intros c n m H. apply I. apply in_map_iff. exists (rc, c, n, m). auto.
    + cbn [map lis_formats fst In] in I. unfold nptype, LIS_F16, LIS_F32, LIS_F32LOW, LIS_F32FIX, LIS_I8, LIS_I16, LIS_I32, LIS_BYTE, LIS_STRING.
      repeat match goal with |- context [rc =? ?k] => destruct (Z.eqb_spec rc k); [exfalso; lia|] end. reflexivity.
Qed.
Lemma number_facts rc c n m : In (rc, c, n, m) lis_formats ->
  reprc2fmt rc = Ok c /\ lis_sizeof_type rc = Z.of_nat n /\ rc <> 65 /\ rc <> 77 /\ (exists t, nptype rc = Some (t, Z.of_nat m)).
Proof.
  intros H. cbn [lis_formats In] in H. repeat (destruct H as [H|H]; [injection H as <- <- <- <-; repeat split; try discriminate; eexists; reflexivity|]). destruct H.
Qed.
Lemma validate_code rc r : validate_reprc (PInt rc) = Ok r <-> r = rc /\ (rc = 65 \/ exists n, number_size rc n).
Proof.
  cbn [validate_reprc]. unfold LIS_MASK. split.
  - destruct (Z.eqb_spec rc 77) as [E|E]; [discriminate|]. destruct (nptype rc) as [[t w]|] eqn:NP; [|discriminate]. intros H. injection H as <-. split; [reflexivity|].
    destruct (kind rc) as [c n m I|T|_ _ N]; [right; exists n, c, m; exact I | left; exact T | congruence].
  - intros [-> [-> |(n & c & m & I)]]; [reflexivity|]. destruct (number_facts _ _ _ _ I) as (_ & _ & _ & NE & t & ->).
    destruct (Z.eqb_spec rc 77) as [E|E]; [contradiction | reflexivity].
Qed.

Lemma quot_exact a b q : a = q * b -> b <> 0 -> Z.quot a b = q.
Proof. intros -> B. apply Z.quot_mul. exact B. Qed.
Lemma rem_iff a b : b <> 0 -> Z.rem a b = 0 <-> exists q, a = q * b.
Proof.
  intros B. split.
  - intros H. exists (Z.quot a b). pose proof (Z.quot_rem' a b). lia.
  - intros [q ->]. apply Z.rem_mul. exact B.
Qed.
Lemma validate_spec_iff s : validate_spec s = Ok tt <-> usable_channel s.
Proof.
  unfold validate_spec, usable_channel. split.
  - destruct (Z.eqb_spec (sp_reserved_size s) 0) as [E|E]; [discriminate|]. destruct (Z.ltb_spec (sp_samples s) 1) as [L|L]; [discriminate|].
    destruct (Z.eqb_spec (Z.rem (sp_reserved_size s) (sp_samples s)) 0) as [Q|Q]; [|discriminate]. cbn [negb].
    apply rem_iff in Q as [q Q]; [|lia]. rewrite (quot_exact _ _ _ Q) by lia.
    destruct (validate_reprc _) as [r| | |] eqn:V; try discriminate. cbn [rbind]. apply validate_code in V as [-> V]. intros H.
    exists q. split; [nia|]. split; [lia|]. split; [exact Q|]. destruct V as [T|(n & V)]; [left; exact T|]. right.
    pose proof V as (c & m & I). destruct (number_facts _ _ _ _ I) as (_ & S & N1 & N2 & _). unfold LIS_STRING, LIS_MASK in H.
    destruct (Z.eqb_spec (sp_reprc s) 65); [contradiction|]. destruct (Z.eqb_spec (sp_reprc s) 77); [contradiction|]. cbn [orb] in H. rewrite S in H.
    assert (G : good c n m) by (exists (sp_reprc s); exact I). apply good_pos in G.
    destruct (Z.eqb_spec (Z.rem q (Z.of_nat n)) 0) as [K|K]; [|discriminate]. apply rem_iff in K as [k K]; [|lia]. exists n, k. auto.
  - intros (q & NZ & L & Q & T). assert (NN : sp_reserved_size s <> 0) by nia. destruct (Z.eqb_spec (sp_reserved_size s) 0) as [EE|EE]; [contradiction|]; clear EE.
    destruct (Z.ltb_spec (sp_samples s) 1) as [LL|LL]; [lia|].
    assert (R : Z.rem (sp_reserved_size s) (sp_samples s) = 0) by (apply rem_iff; [lia | exists q; exact Q]). rewrite R. cbn [Z.eqb negb].
    rewrite (quot_exact _ _ _ Q) by lia.
    assert (V : validate_reprc (PInt (sp_reprc s)) = Ok (sp_reprc s)) by (apply validate_code; split; [reflexivity|]; destruct T as [T|(n & k & N & _)]; eauto).
    rewrite V. cbn [rbind]. unfold LIS_STRING, LIS_MASK. destruct T as [-> |(n & k & (c & m & I) & K)]; [reflexivity|].
    destruct (number_facts _ _ _ _ I) as (_ & S & N1 & N2 & _). rewrite S. assert (G : good c n m) by (exists (sp_reprc s); exact I). apply good_pos in G.
    assert (R2 : Z.rem q (Z.of_nat n) = 0) by (apply rem_iff; [lia | exists k; exact K]). rewrite R2. destruct (_ || _); reflexivity.
Qed.
Lemma validate_spec_res s : validate_spec s = Ok tt \/ validate_spec s = Exn.
Proof.
  unfold validate_spec. destruct (_ =? 0); [auto|]. destruct (_ <? 1); [auto|]. destruct (negb _); [auto|].
  destruct (validate_reprc _) as [r| | |] eqn:V; cbn [rbind]; auto; [|cbn in V; destruct (_ =? _); [discriminate|]; destruct (nptype _); discriminate..].
  destruct (_ || _); [auto|]. destruct (negb _); auto.
Qed.
Lemma all_ok_iff {A} (f : A -> res unit) l : all_ok f l = Ok tt <-> Forall (fun x => f x = Ok tt) l.
Proof.
  induction l as [|x l IH]; cbn [all_ok]; [split; [constructor | reflexivity]|]. split.
  - destruct (f x) as [[]| | |] eqn:E; cbn [rbind]; try discriminate. intros H. constructor; [exact E | apply IH; exact H].
  - intros H. inversion H as [|? ? E F]; subst. rewrite E. cbn [rbind]. apply IH. exact F.
Qed.

(** ** The channels that are not the index *)
Lemma enumerate_rest {A} (l : list A) k mode : (1 <= k)%nat \/ pv_is mode 0 = false -> map snd (filter (fun '(i, _) => negb (is_index i mode)) (combine (seq k (length l)) l)) = l.
Proof.
  revert k. induction l as [|x l IH]; intros k H; cbn [length seq combine filter map]; [reflexivity|].
  assert (E : is_index k mode = false) by (unfold is_index; destruct H as [H| ->]; [destruct k; [lia|]; apply andb_false_r | reflexivity]). rewrite E. cbn [negb map snd].
  f_equal. apply IH. destruct H; [left; lia | right; assumption].
Qed.
Lemma channels0 mode d s0 ss : pv_is mode 0 = true -> df_specs d = s0 :: ss -> channels mode d = ss.
Proof.
  intros M E. unfold channels, enumerate. rewrite E. cbn [length seq combine filter]. replace (is_index 0 mode) with true by (unfold is_index; rewrite M; reflexivity).
  cbn [negb]. apply enumerate_rest. left. lia.
Qed.
Lemma channels1 mode d : pv_is mode 0 = false -> channels mode d = df_specs d.
Proof. intros M. unfold channels, enumerate. apply enumerate_rest. right. exact M. Qed.

(** *** Format string *)
Lemma spec_fmt_item rate s : usable_channel s -> exists it, spec_fmtstr rate s = Ok (item_fmt it) /\ item_of rate s it.
Proof.
  intros (q & NZ & L & Q & T). unfold spec_fmtstr. destruct (Z.ltb_spec (sp_reserved_size s) 0) as [N|N].
  { eexists (Skip _). split; [reflexivity|]. constructor. intros [P _]. lia. }
  destruct (Z.eqb_spec (sp_samples s) rate) as [E|E]; cbn [negb].
  2: { eexists (Skip _). split; [reflexivity|]. constructor. intros [_ P]. contradiction. }
  rewrite (quot_exact _ _ _ Q) by lia. assert (S : selected rate s) by (split; [nia | exact E]). assert (0 < q) by nia. rewrite Z.abs_eq by lia. rewrite E in Q.
  destruct T as [T|(n & k & (c & m & I) & K)].
  - rewrite T. cbn [reprc2fmt LIS_I8 Z.eqb]. exists (Txt q). split; [reflexivity|]. constructor; assumption.
  - destruct (number_facts _ _ _ _ I) as (F & SZ & N1 & N2 & _). rewrite F. cbn [rbind]. unfold LIS_STRING, LIS_MASK.
    destruct (Z.eqb_spec (sp_reprc s) 65); [contradiction|]. destruct (Z.eqb_spec (sp_reprc s) 77); [contradiction|]. cbn [orb]. rewrite SZ.
    assert (G : good c n m) by (exists (sp_reprc s); exact I). apply good_pos in G. rewrite (quot_exact q (Z.of_nat n) k K) by lia.
    exists (Num c k). split; [reflexivity|]. econstructor; eassumption.
Qed.
Lemma fmt_items rate ss : Forall usable_channel ss -> exists its, concat_ok (spec_fmtstr rate) ss = Ok (fmt_of its) /\ Forall2 (item_of rate) ss its.
Proof.
  induction 1 as [|s ss U US IH]; [exists []; split; [reflexivity | constructor]|]. destruct IH as (its & E & F). destruct (spec_fmt_item rate s U) as (it & E1 & I).
  exists (it :: its). cbn [concat_ok]. rewrite E1, E. cbn [rbind]. split; [reflexivity | constructor; assumption].
Qed.

(** *** Columns *)
Section dec.
Variable dec : bytes -> pystr.
Lemma column_functional s c c' : sp_samples s <> 0 -> column_of dec s c -> column_of dec s c' -> c = c'.
Proof.
  intros NZ H H'. destruct H as [n t w k (ch & m & I) NP E|t w T NP]; destruct H' as [n' t' w' k' (ch' & m' & I') NP' E'|t' w' T' NP'];
    try (rewrite T in *; apply no_code_65 in I; contradiction); try (rewrite T' in *; apply no_code_65 in I; contradiction); try (rewrite T in *; apply no_code_65 in I'; contradiction).
  - destruct (code_unique _ _ _ _ _ _ _ I I') as (_ & <- & _). apply np_iff in NP. apply np_iff in NP'. rewrite NP in NP'. injection NP' as <- <-.
    assert (G : good ch n m) by (exists (sp_reprc s); exact I). apply good_pos in G. f_equal.
    apply (Z.mul_reg_r _ _ (Z.of_nat n)); [lia|]. apply (Z.mul_reg_r _ _ (sp_samples s)); [exact NZ | lia].
  - apply np_iff in NP. apply np_iff in NP'. rewrite NP in NP'. injection NP' as <- <-. reflexivity.
Qed.
Lemma spec_column_usable s : usable_channel s -> exists c, spec_column dec s = Ok c /\ column_of dec s c.
Proof.
  intros (q & NZ & L & Q & T). unfold spec_column. destruct T as [T|(n & k & (c & m & I) & K)].
  - rewrite T. eexists. split; [reflexivity|]. apply clo_text; [exact T | cbn; tauto].
  - destruct (number_facts _ _ _ _ I) as (F & SZ & N1 & N2 & t & NP). rewrite NP. unfold LIS_STRING. destruct (Z.eqb_spec (sp_reprc s) 65); [contradiction|].
    assert (G : good c n m) by (exists (sp_reprc s); exact I). apply good_pos in G. rewrite SZ, (quot_exact _ _ _ Q), (quot_exact q (Z.of_nat n) k K) by lia.
    eexists. split; [reflexivity|]. econstructor; [exists c, m; exact I | apply np_iff; exact NP | lia].
Qed.
Definition is_selected (rate : Z) (s : spec_block) : bool := (0 <=? sp_reserved_size s) && (sp_samples s =? rate).
Lemma chosen_filter rate ss : Forall usable_channel ss -> chosen rate ss (filter (is_selected rate) ss) /\ Forall usable_channel (filter (is_selected rate) ss).
Proof.
  induction 1 as [|s ss U US [IH IF]]; cbn [filter]; [split; constructor|].
  assert (NZ : sp_reserved_size s <> 0) by (destruct U as (q & NZ & L & Q & _); nia).
  destruct (is_selected rate s) eqn:E; unfold is_selected in E.
  - split; [|constructor; assumption]. constructor; [split; lia | exact IH].
  - split; [|assumption]. constructor; [|exact IH]. intros [S1 S2]. lia.
Qed.
Lemma chosen_functional rate ss l l' : chosen rate ss l -> chosen rate ss l' -> l = l'.
Proof.
  intros H. revert l'. induction H as [|s ss l S H IH|s ss l S H IH]; intros l' H'; inversion H'; subst; try contradiction; [reflexivity|f_equal; auto|auto].
Qed.
Lemma map_ok_forall2 {A B} (f : A -> res B) (P : A -> B -> Prop) l : (forall x, In x l -> exists y, f x = Ok y /\ P x y) -> exists r, map_ok f l = Ok r /\ Forall2 P l r.
Proof.
  induction l as [|x l IH]; intros H; [exists []; split; [reflexivity | constructor]|]. destruct (H x (or_introl eq_refl)) as (y & E & Py).
  destruct IH as (r & E' & F). { intros z I. apply H. right. exact I. } exists (y :: r). cbn [map_ok]. rewrite E, E'. split; [reflexivity | constructor; assumption].
Qed.
Lemma str_eqb_eq a b : str_eqb a b = true <-> a = b.
Proof.
  revert b. induction a as [|x a IH]; intros [|y b]; cbn [str_eqb]; try (split; [discriminate | intros H; discriminate] || split; reflexivity).
  rewrite andb_true_iff, Z.eqb_eq, IH. split; [intros [-> ->]; reflexivity | intros H; injection H as -> ->; auto].
Qed.
Lemma exists_in x l : existsb (str_eqb x) l = true <-> In x l.
Proof.
  rewrite existsb_exists. split; [intros (y & I & E); apply str_eqb_eq in E as <-; exact I | intros I; exists x; split; [exact I | apply str_eqb_eq; reflexivity]].
Qed.
Lemma no_duplicates_iff l : no_duplicates l = true <-> NoDup l.
Proof.
  induction l as [|x l IH]; cbn [no_duplicates]; [split; [constructor | reflexivity]|]. rewrite andb_true_iff, negb_true_iff, IH. split.
  - intros [N D]. constructor; [|exact D]. rewrite <- exists_in, N. discriminate.
  - intros H. inversion H as [|? ? N D]; subst. split; [|exact D]. destruct (existsb (str_eqb x) l) eqn:E; [|reflexivity]. apply exists_in in E. contradiction.
Qed.
Lemma relabel_length dup n l : length (relabel dup n l) = length l.
Proof. revert n. induction l as [|x l IH]; intros n; cbn [relabel]; [reflexivity|]. destruct (str_eqb x dup); cbn [length]; rewrite IH; reflexivity. Qed.
Lemma unique_length l : length (unique_mnemonics l) = length l.
Proof.
  unfold unique_mnemonics. generalize (filter (fun x => (1 <? count x l)%nat) (distinct [] l)). intros dups. revert l. induction dups as [|d dups IH]; intros l; cbn [fold_left]; [reflexivity|].
  rewrite IH. apply relabel_length.
Qed.
Lemma mkunique_spec l : map col_label (mkunique l) = unique_mnemonics (map col_label l) /\
  map (fun c => (col_type c, col_width c, col_entries c)) (mkunique l) = map (fun c => (col_type c, col_width c, col_entries c)) l.
Proof.
  unfold mkunique. assert (L : length (unique_mnemonics (map col_label l)) = length l) by (rewrite unique_length, map_length; reflexivity).
  revert L. generalize (unique_mnemonics (map col_label l)). induction l as [|c l IH]; intros [|n ns] L; try discriminate; [split; reflexivity|].
  cbn [combine map]. destruct (IH ns) as [E1 E2]; [cbn in L; lia|]. split; f_equal; assumption || reflexivity.
Qed.
Lemma columns_ext (l l' : list column) : map col_label l = map col_label l' ->
  map (fun c => (col_type c, col_width c, col_entries c)) l = map (fun c => (col_type c, col_width c, col_entries c)) l' -> l = l'.
Proof.
  revert l'. induction l as [|[] l IH]; intros [|[] l'] E1 E2; try discriminate; [reflexivity|]. cbn in E1, E2. injection E1 as -> E1. injection E2 as -> -> -> E2. f_equal. auto.
Qed.
Lemma filter_enumerate (f : spec_block -> bool) mode ss k : (1 <= k)%nat \/ pv_is mode 0 = false ->
  map snd (filter (fun '(i, s) => (0 <=? sp_reserved_size s) && (is_index i mode || f s)) (combine (seq k (length ss)) ss)) =
  filter (fun s => (0 <=? sp_reserved_size s) && f s) ss.
Proof.
  revert k. induction ss as [|s ss IH]; intros k H; cbn [length seq combine filter map]; [reflexivity|].
  assert (E : is_index k mode = false) by (unfold is_index; destruct H as [H| ->]; [destruct k; [lia|]; apply andb_false_r | reflexivity]). rewrite E. cbn [orb].
  assert (IH' := IH (S k) ltac:(destruct H; [left; lia | right; assumption])).
  destruct ((0 <=? sp_reserved_size s) && f s); cbn [map snd]; [f_equal|]; exact IH'.
Qed.
Lemma index_usable s0 n : number_size (sp_reprc s0) n -> sp_reserved_size s0 = Z.of_nat n -> sp_samples s0 = 1 -> usable_channel s0.
Proof.
  intros (c & m & I) SZ S1. assert (G : good c n m) by (exists (sp_reprc s0); exact I). apply good_pos in G.
  exists (Z.of_nat n). split; [lia|]. split; [lia|]. split; [lia|]. right. exists n, 1. split; [exists c, m; exact I | lia].
Qed.
(** the numpy type *)
Definition mode_of (l : layout) : Z := match l with Mode0 _ _ => 0 | Mode1 _ _ _ => 1 end.
Definition code_of (l : layout) : Z := match l with Mode0 s0 _ => sp_reprc s0 | Mode1 rc _ _ => rc end.
Definition specs_of (l : layout) : list spec_block := match l with Mode0 s0 ss => s0 :: ss | Mode1 _ _ ss => ss end.
Lemma columns_exist d l rate : usable l -> df_specs d = specs_of l ->
  exists cols, columns_of dec rate l cols /\
    (let! first := if pv_is (PInt (mode_of l)) 1 then
                  match nptype (code_of l) with
                  | Some (t, w) => Ok [mk_column default_index_mnem t w 1]
                  | None => Exn
                  end
                else Ok [] in
    let wanted '(i, s) := (0 <=? sp_reserved_size s) && (is_index i (PInt (mode_of l)) || (sp_samples s =? rate)) in
    let! cols := map_ok (spec_column dec) (map snd (filter wanted (enumerate (df_specs d)))) in Ok (first ++ cols)) = Ok cols.
Proof.
  intros U E. unfold enumerate. rewrite E. destruct l as [s0 ss|rc spacing ss]; cbn [mode_of code_of specs_of usable layout_channels] in *.
  - destruct U as ((n & NS & SZ) & S1 & US). cbn [pv_is Z.eqb rbind]. cbn [length seq combine filter].
    replace (is_index 0 (PInt 0)) with true by reflexivity. cbn [orb]. replace (0 <=? sp_reserved_size s0) with true by lia. cbn [andb map snd].
    rewrite (filter_enumerate (fun s => sp_samples s =? rate)) by (left; lia). fold (is_selected rate).
    destruct (chosen_filter rate ss US) as [CH UF]. destruct (spec_column_usable s0 (index_usable _ _ NS SZ S1)) as (c0 & E0 & C0).
    destruct (map_ok_forall2 (spec_column dec) (column_of dec) (filter (is_selected rate) ss)) as (cs & EC & FC).
    { intros x I. apply spec_column_usable. exact (proj1 (Forall_forall _ _) UF x I). }
    exists (c0 :: cs). split; [econstructor; [constructor; exact C0 | exact CH | exact FC]|].
    change (filter (fun s => (0 <=? sp_reserved_size s) && (sp_samples s =? rate)) ss) with (filter (is_selected rate) ss).
    cbn [map_ok]. rewrite E0. cbn [rbind]. rewrite EC. reflexivity.
  - destruct U as ((n & c & m & I) & NE & US). replace (pv_is (PInt 1) 1) with true by reflexivity.
    destruct (number_facts _ _ _ _ I) as (_ & _ & _ & _ & t & NP). rewrite NP. cbn [rbind].
    rewrite (filter_enumerate (fun s => sp_samples s =? rate)) by (right; reflexivity).
    change (filter (fun s => (0 <=? sp_reserved_size s) && (sp_samples s =? rate)) ss) with (filter (is_selected rate) ss).
    destruct (chosen_filter rate ss US) as [CH UF].
    destruct (map_ok_forall2 (spec_column dec) (column_of dec) (filter (is_selected rate) ss)) as (cs & EC & FC).
    { intros x J. apply spec_column_usable. exact (proj1 (Forall_forall _ _) UF x J). }
    rewrite EC. cbn [rbind app]. eexists. split; [|reflexivity]. econstructor; [constructor; apply np_iff; exact NP | exact CH | exact FC].
Qed.
Lemma columns_functional l rate cols cols' : usable l -> columns_of dec rate l cols -> columns_of dec rate l cols' -> cols = cols'.
Proof.
  intros U [c0 ch cs I C F] [c0' ch' cs' I' C' F']. rewrite (chosen_functional _ _ _ _ C' C) in *. f_equal.
  - destruct I as [s0 ss c H|rc sp ss t w NP]; inversion I'; subst.
    + destruct U as (_ & S1 & _). eapply column_functional; [|eassumption|eassumption]. lia.
    + apply np_iff in NP. match goal with H : In _ np_types |- _ => apply np_iff in H; rewrite NP in H; injection H as <- <- end. reflexivity.
  - assert (US : Forall usable_channel ch).
    { assert (V : Forall usable_channel (layout_channels l)) by (destruct l; cbn in *; tauto). clear -C V. induction C; inversion V; subst; auto; constructor; auto. }
    clear -F F' US. revert cs' F'. induction F as [|s c ch cs H F IH]; intros cs' F'; inversion F' as [|? c' ? cs'' H' F'']; subst; [reflexivity|]. inversion US as [|? ? U' US']; subst.
    f_equal; [|apply IH; assumption]. destruct U' as (q & _ & L & _). eapply column_functional; [|eassumption|eassumption]. lia.
Qed.
Lemma dtype_iff d l rate strict cols : usable l -> df_specs d = specs_of l ->
  dfsr_dtype dec (PInt (mode_of l)) (code_of l) d rate strict = Ok cols <-> dtype_of dec rate l strict cols.
Proof.
  intros U E. destruct (columns_exist d l rate U E) as (cols0 & C0 & EQ). unfold dfsr_dtype.
  destruct (if pv_is (PInt (mode_of l)) 1 then _ else _) as [first| | |]; try discriminate. cbn [rbind] in *. cbv zeta in *.
  destruct (map_ok _ _) as [cs| | |]; try discriminate. cbn [rbind] in *. injection EQ as EQ. rewrite EQ. unfold np_dtype.
  destruct (no_duplicates (map col_label cols0)) eqn:D.
  - apply no_duplicates_iff in D. split.
    + intros H. injection H as <-. apply dto_plain; assumption.
    + intros [cols' C1 N1|c1 cols' C1 N1 _ _ _ _].
      * f_equal. eapply columns_functional; eassumption.
      * rewrite (columns_functional l rate cols0 c1) in D by assumption. contradiction.
  - assert (ND : ~ NoDup (map col_label cols0)) by (rewrite <- no_duplicates_iff, D; discriminate). destruct (mkunique_spec cols0) as [L T].
    destruct strict.
    + split; [discriminate|]. intros [cols' C1 N1|c1 cols' C1 N1 X _ _ _]; [|discriminate]. rewrite (columns_functional l rate cols0 cols') in ND by assumption. contradiction.
    + destruct (no_duplicates (map col_label (mkunique cols0))) eqn:D'.
      * apply no_duplicates_iff in D'. split.
        -- intros H. injection H as <-. eapply dto_renamed; try eassumption. reflexivity.
        -- intros [cols' C1 N1|c1 cols' C1 N1 _ N2 L2 T2].
           ++ rewrite (columns_functional l rate cols0 cols') in ND by assumption. contradiction.
           ++ rewrite (columns_functional l rate c1 cols0) in L2, T2 by assumption. f_equal. apply columns_ext; congruence.
      * split; [discriminate|]. intros [cols' C1 N1|c1 cols' C1 N1 _ N2 L2 T2].
        -- rewrite (columns_functional l rate cols0 cols') in ND by assumption. contradiction.
        -- rewrite (columns_functional l rate c1 cols0) in L2 by assumption. rewrite L2, <- L in N2. apply no_duplicates_iff in N2. congruence.
Qed.
Lemma dtype_not d l rate strict : usable l -> df_specs d = specs_of l ->
  (exists cols, dfsr_dtype dec (PInt (mode_of l)) (code_of l) d rate strict = Ok cols) \/ dfsr_dtype dec (PInt (mode_of l)) (code_of l) d rate strict = Exn.
Proof.
  intros U E. destruct (columns_exist d l rate U E) as (cols0 & C0 & EQ). unfold dfsr_dtype.
  destruct (if pv_is (PInt (mode_of l)) 1 then _ else _) as [first| | |]; try discriminate. cbn [rbind] in *. cbv zeta in *.
  destruct (map_ok _ _) as [cs| | |]; try discriminate. cbn [rbind] in *. unfold np_dtype. destruct (no_duplicates _); [eauto|]. destruct strict; [auto|]. destruct (no_duplicates _); eauto.
Qed.

(** the row size *)
Lemma row_size_types cols cols' : map (fun c => (col_type c, col_width c, col_entries c)) cols' = map (fun c => (col_type c, col_width c, col_entries c)) cols -> row_size cols' = row_size cols.
Proof.
  revert cols'. unfold row_size. induction cols as [|[] cols IH]; intros [|[] cols'] H; try discriminate; [reflexivity|]. cbn in H |- *. injection H as -> -> -> H. rewrite (IH _ H). reflexivity.
Qed.
Lemma itemsize_row cols : itemsize cols = row_size cols.
Proof. unfold itemsize, row_size. induction cols as [|c cols IH]; [reflexivity|]. cbn [fold_right map]. rewrite IH. reflexivity. Qed.
Lemma column_width rate s it c : usable_channel s -> selected rate s -> item_of rate s it -> column_of dec s c -> col_width c * col_entries c = Z.of_nat (item_width it).
Proof.
  intros (q' & _ & L & _ & _) S I C. destruct I as [N|q _ T Q|ch n m q k [P ER] I Q K]; [contradiction| |].
  - destruct C as [n t w k (ch & m & I) _ _|t w _ NP]; [rewrite T in I; apply no_code_65 in I; contradiction|]. apply np_iff in NP. injection NP as <- <-. reflexivity.
  - destruct C as [n' t w k' (ch' & m' & I') NP E|t w T NP]; [|rewrite T in I; apply no_code_65 in I; contradiction].
    destruct (code_unique _ _ _ _ _ _ _ I I') as (<- & <- & <-). cbn [col_width col_entries item_width].
    assert (G : good ch n m) by (exists (sp_reprc s); exact I). rewrite (char_width_good _ _ _ G). apply good_pos in G.
    apply np_iff in NP. destruct (number_facts _ _ _ _ I) as (_ & _ & _ & _ & t' & NP'). rewrite NP in NP'. injection NP' as <- ->.
    assert (k = k') as <-. { apply (Z.mul_reg_r _ _ (Z.of_nat n)); [lia|]. apply (Z.mul_reg_r _ _ rate); [lia|]. subst rate. lia. }
    assert (0 <= k) by nia. nia.
Qed.
Lemma columns_width rate ss its chans cs : Forall usable_channel ss -> Forall2 (item_of rate) ss its -> chosen rate ss chans -> Forall2 (column_of dec) chans cs ->
  row_size cs = Z.of_nat (items_width its).
Proof.
  intros US IT. revert chans cs US. induction IT as [|s it ss its I IT IH]; intros chans cs US CH FC; inversion CH as [|? ? l S CH'|? ? l S CH']; subst.
  - inversion FC; subst. reflexivity.
  - inversion US as [|? ? U US']; subst. inversion FC as [|? c ? cs' C FC']; subst. unfold row_size. cbn [map fold_right]. fold (row_size cs').
    rewrite (IH _ _ US' CH' FC'), (column_width rate s it c U S I C). unfold items_width. cbn [map list_sum fold_right]. fold (list_sum (map item_width its)). lia.
  - inversion US as [|? ? U US']; subst. rewrite (IH _ _ US' CH' FC). destruct I as [N|q S' T Q|ch n m q k S' I Q K]; [reflexivity|contradiction|contradiction].
Qed.
Lemma index_width_of l c0 c n m : usable l -> In (code_of l, c, n, m) lis_formats -> index_column dec l c0 -> col_width c0 * col_entries c0 = Z.of_nat (char_width c).
Proof.
  intros U F I. rewrite (char_width_good c n m) by (exists (code_of l); exact F). destruct (number_facts _ _ _ _ F) as (_ & _ & T & _ & t' & NP).
  destruct I as [s0 ss c0 C|rc sp ss t w NP']; cbn [code_of] in *.
  - destruct U as ((n' & (ch & m' & I') & SZ) & S1 & _). destruct (code_unique _ _ _ _ _ _ _ F I') as (<- & <- & <-).
    destruct C as [n' t w k (ch' & m'' & I'') NP' E|t w T' _]; [|contradiction]. destruct (code_unique _ _ _ _ _ _ _ F I'') as (<- & <- & <-).
    apply np_iff in NP'. rewrite NP in NP'. injection NP' as <- <-. cbn [col_width col_entries]. assert (G : good c n m) by (exists (sp_reprc s0); exact F). apply good_pos in G.
    rewrite S1, Z.mul_1_r in E. assert (k = 1) by nia. lia.
  - apply np_iff in NP'. rewrite NP in NP'. injection NP' as <- <-. cbn [col_width col_entries]. lia.
Qed.
Lemma dtype_width l rate strict cols c n m its : usable l -> In (code_of l, c, n, m) lis_formats -> Forall2 (item_of rate) (layout_channels l) its ->
  dtype_of dec rate l strict cols -> row_size cols = Z.of_nat (char_width c + items_width its).
Proof.
  intros U F IT D.
  assert (X : forall cols, columns_of dec rate l cols -> row_size cols = Z.of_nat (char_width c + items_width its)).
  { intros cols0 [c0 ch cs I C FC]. unfold row_size. cbn [map fold_right]. fold (row_size cs). rewrite (index_width_of l c0 c n m U F I).
    rewrite (columns_width rate (layout_channels l) its ch cs); [lia| |exact IT|exact C|exact FC]. destruct l; cbn in *; tauto. }
  destruct D as [cols0 C N|cols0 cols' C _ _ _ _ T]; [exact (X _ C)|]. rewrite (row_size_types _ _ T). exact (X _ C).
Qed.

(** ** The configuration *)
Lemma uniform_iff mode d : uniform_sampling mode d = true <-> forall s t, In s (channels mode d) -> In t (channels mode d) -> sp_samples s = sp_samples t.
Proof.
  unfold uniform_sampling. destruct (channels mode d) as [|x l]; cbn [map]; [split; [intros _ s t [] | reflexivity]|]. rewrite forallb_forall. split.
  - intros H. assert (X : forall s, In s (x :: l) -> sp_samples s = sp_samples x).
    { intros s [<- |I]; [reflexivity|]. specialize (H (sp_samples s) (in_map _ _ _ I)). lia. }
    intros s t I J. rewrite (X s I), (X t J). reflexivity.
  - intros H r I. apply in_map_iff in I as (s & <- & I). rewrite (H x s) by (cbn; auto). lia.
Qed.
Lemma layout_specs d l : layout_of d l -> df_specs d = specs_of l /\ channels (PInt (mode_of l)) d = layout_channels l /\ depth_mode d = Ok (PInt (mode_of l)).
Proof.
  intros [s0 ss M E|rc sp dir spacing M _ _ _ _]; cbn [specs_of mode_of layout_channels]; (split; [assumption || reflexivity|]); (split; [|apply entry_iff; exact M]).
  - apply channels0 with (s0 := s0); [reflexivity | exact E].
  - apply channels1. reflexivity.
Qed.
Lemma rate_iff d l asked rate : layout_of d l -> pick_rate (PInt (mode_of l)) d asked = Ok rate <-> rate_used l asked rate.
Proof.
  intros L. destruct (layout_specs d l L) as (_ & CH & _). unfold pick_rate, rate_used. rewrite <- CH. destruct asked as [r|].
  - split; [intros H; injection H as <-; auto | intros [H|[H _]]; congruence].
  - destruct (uniform_sampling _ d) eqn:Un.
    + pose proof (proj1 (uniform_iff _ _) Un). split; [intros E; injection E as <-; auto | intros [E|(_ & -> & _)]; [discriminate | reflexivity]].
    + split; [discriminate|]. intros [E|(_ & _ & E)]; [discriminate|]. apply uniform_iff in E. congruence.
Qed.
Lemma validate_layout d l : layout_of d l -> validate_dfsr d = Ok (code_of l) <-> usable l.
Proof.
  intros L. destruct (layout_specs d l L) as (SP & _ & MD). unfold validate_dfsr. rewrite MD. cbn [rbind].
  assert (CS : forall ss, all_ok validate_spec ss = Ok tt <-> Forall usable_channel ss).
  { intros ss. rewrite all_ok_iff. split; intros H; eapply Forall_impl; try exact H; intros s; apply validate_spec_iff. }
  destruct L as [s0 ss M E|rc sp dir spacing M RC _ _ _]; cbn [mode_of code_of specs_of usable] in *.
  - cbn [pv_is Z.eqb negb andb]. rewrite E. cbn [rbind]. unfold LIS_STRING. split.
    + destruct (validate_reprc _) as [r| | |] eqn:V; try discriminate. cbn [rbind]. apply validate_code in V as [-> V].
      destruct (Z.eqb_spec (sp_reprc s0) 65) as [T|T]; [discriminate|]. destruct V as [V|(n & c & m & I)]; [contradiction|].
      destruct (number_facts _ _ _ _ I) as (_ & SZ & _). rewrite SZ. destruct (_ || _ || _) eqn:B; [discriminate|].
      destruct (all_ok validate_spec (s0 :: ss)) as [[]| | |] eqn:AO; try discriminate. intros _. apply CS in AO. inversion AO as [|? ? U US]; subst.
      destruct U as (q & NZ & S1 & Q & [T'|(n' & k & (c' & m' & I') & K)]); [contradiction|]. destruct (code_unique _ _ _ _ _ _ _ I I') as (_ & <- & _).
      assert (S2 : sp_samples s0 = 1) by lia. rewrite S2, Z.mul_1_r in Q. assert (G : good c n m) by (exists (sp_reprc s0); exact I). apply good_pos in G.
      split; [|auto]. exists n. split; [exists c, m; exact I|]. assert (k = 1) by nia. lia.
    + intros ((n & NS & SZ) & S1 & US). pose proof NS as (c & m & I). assert (V : validate_reprc (PInt (sp_reprc s0)) = Ok (sp_reprc s0)) by (apply validate_code; split; [reflexivity | right; eauto]).
      rewrite V. cbn [rbind]. destruct (number_facts _ _ _ _ I) as (_ & SZ' & T & _). destruct (Z.eqb_spec (sp_reprc s0) 65); [contradiction|].
      rewrite SZ'. replace (_ || _ || _) with false by lia.
      assert (AO : all_ok validate_spec (s0 :: ss) = Ok tt) by (apply CS; constructor; [exact (index_usable _ _ NS SZ S1) | exact US]). rewrite AO. reflexivity.
  - replace (negb (pv_is (PInt 1) 0) && negb (pv_is (PInt 1) 1)) with false by reflexivity. replace (pv_is (PInt 1) 0) with false by reflexivity.
    apply entry_iff in RC. unfold depth_reprc. rewrite RC. cbn [andb]. unfold LIS_STRING. destruct (df_specs d) as [|s0 ss] eqn:E.
    { split; [discriminate | intros (_ & N & _); contradiction]. }
    cbn [rbind]. split.
    + destruct (validate_reprc _) as [r| | |] eqn:V; try discriminate. cbn [rbind]. apply validate_code in V as [-> V].
      destruct (Z.eqb_spec rc 65) as [T|T]; [discriminate|]. destruct V as [V|V]; [contradiction|].
      destruct (all_ok validate_spec (s0 :: ss)) as [[]| | |] eqn:AO; try discriminate. intros _. apply CS in AO. split; [exact V|]. split; [discriminate | exact AO].
    + intros (V & _ & US). pose proof V as (n & c & m & I). assert (V' : validate_reprc (PInt rc) = Ok rc) by (apply validate_code; split; [reflexivity | right; exact V]). rewrite V'. cbn [rbind].
      destruct (number_facts _ _ _ _ I) as (_ & _ & T & _). destruct (Z.eqb_spec rc 65); [contradiction|]. apply CS in US. rewrite US. reflexivity.
Qed.
Definition spacing_value (l : layout) : binary64 := match l with Mode0 _ _ => f64_of 0 0 | Mode1 _ sp _ => sp end.
Lemma spacing_iff dir sp v : (exists w, (if pv_is dir 1 then pv_neg sp else if pv_is dir 255 then Ok sp else Exn) = Ok w /\ arg_double w = Ok v) <-> spacing_of dir sp v.
Proof.
  split.
  - intros (w & H & A). destruct (pv_is dir 1) eqn:D1.
    + apply is_number in D1. destruct sp as [|z|x|s|s]; cbn [pv_neg] in H; try discriminate; injection H as <-; cbn [arg_double] in A; injection A as <-; constructor; exact D1.
    + destruct (pv_is dir 255) eqn:D2; [|discriminate]. apply is_number in D2. injection H as <-.
      destruct sp as [|z|x|s|s]; cbn [arg_double] in A; try discriminate; injection A as <-; constructor; exact D2.
  - assert (X : number_value dir 1 -> pv_is dir 1 = true) by apply is_number. assert (Y : number_value dir 255 -> pv_is dir 1 = false /\ pv_is dir 255 = true).
    { intros H. split; [|apply is_number; exact H]. destruct (pv_is dir 1) eqn:E; [|reflexivity]. apply is_number in E. exfalso.
      destruct H as [-> |(x & -> & _ & H)]; destruct E as [E|(x' & E & _ & H')]; try discriminate. injection E as <-. rewrite H in H'. apply Coq.Reals.RIneq.eq_IZR in H'. discriminate. }
    intros H. destruct H as [d z D|d x D|d z D|d x D].
    1-2: rewrite (X D); eexists; split; reflexivity.
    all: destruct (Y D) as [-> ->]; eexists; split; reflexivity.
Qed.
(** what the configuration is *)
Lemma config_inv d asked strict fc cols : frame_config dec d asked strict = Ok (fc, cols) ->
  exists l rate c n m its, layout_of d l /\ usable l /\ rate_used l asked rate /\ 0 <= rate <= 255 /\ dtype_of dec rate l strict cols /\
    In (code_of l, c, n, m) lis_formats /\ Forall2 (item_of rate) (layout_channels l) its /\
    fc = mk_config (c :: text "1") (fmt_of its) rate (mode_of l) (spacing_value l) (row_size cols).
Proof.
  unfold frame_config. destruct (depth_mode d) as [mode| | |] eqn:MD; try discriminate. cbn [rbind].
  destruct (pick_rate mode d asked) as [rate| | |] eqn:PR; try discriminate. cbn [rbind].
  destruct (validate_dfsr d) as [code| | |] eqn:VD; try discriminate. cbn [rbind].
  destruct (if pv_is mode 1 then directional_spacing d else Ok (PInt 0)) as [sp| | |] eqn:SP; try discriminate. cbn [rbind].
  destruct (dfsr_fmtstr mode code d rate) as [[idx fmt]| | |] eqn:FS; try discriminate. cbn [rbind].
  destruct (dfsr_dtype dec mode code d rate strict) as [dt| | |] eqn:DT; try discriminate. cbn [rbind].
  unfold arg_uint8. destruct ((0 <=? rate) && (rate <? 256)) eqn:RR; [|discriminate]. cbn [rbind].
  destruct (arg_int mode) as [m0| | |] eqn:AI; try discriminate. cbn [rbind]. destruct mode as [|mz| | |]; try discriminate. injection AI as <-.
  destruct (arg_double sp) as [spacing| | |] eqn:AD; try discriminate. cbn [rbind]. intros H. injection H as <- <-.
  assert (X : exists l, layout_of d l /\ mode_of l = mz /\ code_of l = code /\ spacing_value l = spacing).
  { pose proof VD as VD'. unfold validate_dfsr in VD'. rewrite MD in VD'. cbn [rbind pv_is] in VD'.
    destruct (Z.eqb_spec mz 0) as [E0|E0]; [subst mz; cbn [negb andb] in VD' | destruct (Z.eqb_spec mz 1) as [E1|E1]; [subst mz; cbn [negb andb] in VD' | discriminate]].
    - destruct (df_specs d) as [|s0 ss] eqn:E; [discriminate|]. exists (Mode0 s0 ss). split; [constructor; [apply entry_iff; exact MD | exact E]|]. split; [reflexivity|]. cbn [rbind] in VD'.
      destruct (validate_reprc _) as [r| | |] eqn:V; try discriminate. cbn [rbind] in VD'. apply validate_code in V as [-> _]. destruct (_ =? LIS_STRING); [discriminate|].
      destruct (_ || _ || _); [discriminate|]. destruct (all_ok _ _) as [[]| | |]; try discriminate. injection VD' as <-. split; [reflexivity|].
      cbn [pv_is Z.eqb] in SP. injection SP as <-. cbn [arg_double] in AD. cbn [spacing_value]. congruence.
    - replace (1 =? 0) with false in VD' by reflexivity. destruct (df_specs d) as [|s0 ss] eqn:E; [discriminate|].
      destruct (depth_reprc d) as [rp| | |] eqn:RC; try discriminate. cbn [rbind] in VD'. destruct rp as [|rc| | |]; try discriminate.
      destruct (validate_reprc _) as [r| | |] eqn:V; try discriminate. cbn [rbind] in VD'. apply validate_code in V as [-> _]. destruct (_ =? LIS_STRING); [discriminate|].
      cbn [andb] in VD'. destruct (all_ok _ _) as [[]| | |]; try discriminate. injection VD' as <-.
      replace (pv_is (PInt 1) 1) with true in SP by reflexivity. unfold directional_spacing in SP. destruct (LisPy.spacing d) as [spv| | |] eqn:SV; try discriminate. cbn [rbind] in SP.
      assert (SP' : exists dir, direction d = Ok dir /\ (if pv_is dir 1 then pv_neg spv else if pv_is dir 255 then Ok spv else Exn) = Ok sp).
      { destruct spv; try discriminate; destruct (direction d) as [dir| | |]; try discriminate; exists dir; split; try reflexivity; exact SP. }
      destruct SP' as (dir & DI & SP'). exists (Mode1 rc spacing (df_specs d)). split; [|auto].
      apply (lo_mode1 d rc spv dir spacing); try (apply entry_iff; assumption). apply spacing_iff. eauto. }
  destruct X as (l & LO & <- & <- & <-). destruct (layout_specs d l LO) as (SPS & CH & _). apply (validate_layout d l LO) in VD.
  apply (rate_iff d l asked rate LO) in PR. apply (dtype_iff d l rate strict dt VD SPS) in DT.
  unfold dfsr_fmtstr in FS. rewrite CH in FS. destruct (fmt_items rate (layout_channels l)) as (its & FE & FI). { destruct l; cbn in *; tauto. }
  rewrite FE in FS. assert (CD : exists c n m, In (code_of l, c, n, m) lis_formats). { destruct l; cbn [usable code_of] in *; destruct VD as [VD _]; [destruct VD as (n & (c & m & I) & _)|destruct VD as (n & c & m & I)]; eauto. }
  destruct CD as (c & n & m & I). destruct (number_facts _ _ _ _ I) as (F & _). rewrite F in FS. cbn [rbind] in FS. injection FS as <- <-.
  exists l, rate, c, n, m, its. rewrite itemsize_row. repeat split; try assumption; lia.
Qed.
Lemma config_ok d asked strict l rate cols : layout_of d l -> usable l -> rate_used l asked rate -> 0 <= rate <= 255 -> dtype_of dec rate l strict cols ->
  exists fc, frame_config dec d asked strict = Ok (fc, cols).
Proof.
  intros LO U RU RR DT. destruct (layout_specs d l LO) as (SPS & CH & MD). unfold frame_config. rewrite MD. cbn [rbind].
  apply (rate_iff d l asked rate LO) in RU. rewrite RU. cbn [rbind]. pose proof U as U'. apply (validate_layout d l LO) in U'. rewrite U'. cbn [rbind].
  assert (SP : exists sp v, (if pv_is (PInt (mode_of l)) 1 then directional_spacing d else Ok (PInt 0)) = Ok sp /\ arg_double sp = Ok v).
  { destruct LO as [s0 ss M E|rc spv dir spacing M RC SV DI SO]; cbn [mode_of]; [exists (PInt 0); eexists; split; reflexivity|].
    replace (pv_is (PInt 1) 1) with true by reflexivity. unfold directional_spacing, LisPy.spacing, direction. apply entry_iff in SV, DI. rewrite SV, DI. cbn [rbind].
    apply spacing_iff in SO as (w & E & A). exists w, spacing. split; [|exact A]. destruct spv; try exact E.
    destruct (pv_is dir 1); [discriminate|]. destruct (pv_is dir 255); [|discriminate]. injection E as <-. discriminate A. }
  destruct SP as (sp & v & -> & AD). cbn [rbind]. unfold dfsr_fmtstr. rewrite CH. destruct (fmt_items rate (layout_channels l)) as (its & FE & FI). { destruct l; cbn in *; tauto. }
  assert (CD : exists c n m, In (code_of l, c, n, m) lis_formats). { destruct l; cbn [usable code_of] in *; destruct U as [VD _]; [destruct VD as (n & (c & m & I) & _)|destruct VD as (n & c & m & I)]; eauto. }
  destruct CD as (c & n & m & I). destruct (number_facts _ _ _ _ I) as (F & _). rewrite F, FE. cbn [rbind].
  apply (dtype_iff d l rate strict cols U SPS) in DT. rewrite DT. cbn [rbind]. unfold arg_uint8. replace ((0 <=? rate) && (rate <? 256)) with true by lia. cbn [rbind arg_int].
  rewrite AD. cbn [rbind]. eauto.
Qed.
Lemma config_reads c n m its l rate strict cols : usable l -> 1 <= rate -> In (code_of l, c, n, m) lis_formats -> Forall2 (item_of rate) (layout_channels l) its ->
  dtype_of dec rate l strict cols ->
  reads_layout c rate its (mk_config (c :: text "1") (fmt_of its) rate (mode_of l) (spacing_value l) (row_size cols)) l.
Proof.
  intros U R F IT DT. pose proof (dtype_width l rate strict cols c n m its U F IT DT) as W. set (fc := mk_config _ _ _ _ _ _).
  assert (CF : config_of c (Z.to_nat rate) its fc).
  { split; cbn [fc fc_indexfmt fc_fmtstr fc_samples fc_framesize]; try reflexivity; try lia.
    - exists n, m, (code_of l). exact F.
    - clear -IT R. induction IT; constructor; eauto using item_valid. }
  assert (RD : reads c rate its fc (mode_of l) (code_of l) (spacing_value l) (layout_channels l)).
  { split; try assumption; try reflexivity. exists n, m. exact F. }
  destruct l as [s0 ss|rc sp ss]; cbn [mode_of code_of spacing_value layout_channels usable] in *.
  - destruct U as ((n' & (c' & m' & I') & SZ) & S1 & US). destruct (code_unique _ _ _ _ _ _ _ F I') as (<- & <- & <-). econstructor; eassumption.
  - destruct U as (_ & NE & US). econstructor; eassumption.
Qed.
End dec.
