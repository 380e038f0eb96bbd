(** Proofs about strict=False and the numpy type of a frame (DlisFrame.v). *)
From Verif Require LisPy SpecLisPy LisCurvesProofs5 LisPyProofs.
From Verif Require Import Bytes BytesProofs Stream DlisTypes DlisCore DlisIo DlisRecords PyBase DlisFdata SpecFdata DlisFrame SpecDlisFrame DlisObject
  DlisFrameProofs DlisFrameProofs2.
From Coq Require Import ZifyBool ZifyNat Permutation.
Local Open Scope Z_scope.
Import SpecLisPy LisPyProofs.

Lemma label_eqb_eq a b : label_eqb a b = true <-> a = b.
Proof.
  destruct a as [[s|] n], b as [[t|] m]; unfold label_eqb; cbn [fst snd].
  - rewrite andb_true_iff, !ustr_eqb_eq. split; [intros [-> ->]; reflexivity | intros E; injection E as -> ->; auto].
  - split; discriminate.
  - split; discriminate.
  - rewrite ustr_eqb_eq. split; [intros ->; reflexivity | intros E; injection E as ->; reflexivity].
Qed.
Lemma label_eqb_refl a : label_eqb a a = true.
Proof. apply label_eqb_eq. reflexivity. Qed.
Lemma in_labels a l : existsb (label_eqb a) l = true <-> In a l.
Proof.
  rewrite existsb_exists. split.
  - intros (y & I & E). apply label_eqb_eq in E as ->. exact I.
  - intros I. exists a. split; [exact I | apply label_eqb_refl].
Qed.
Lemma count_app a l m : count a (l ++ m) = (count a l + count a m)%nat.
Proof. unfold count. rewrite filter_app, app_length. reflexivity. Qed.
Lemma count_cons a b l : count a (b :: l) = ((if label_eqb a b then 1 else 0) + count a l)%nat.
Proof. unfold count. cbn [filter]. destruct (label_eqb a b); reflexivity. Qed.
Lemma count_in a l : (0 < count a l)%nat <-> In a l.
Proof.
  split.
  - intros H. unfold count in H. destruct (filter (label_eqb a) l) as [|b t] eqn:E; [cbn in H; lia|].
    assert (In b (filter (label_eqb a) l)) as I by (rewrite E; left; reflexivity). apply filter_In in I as [I Eb]. apply label_eqb_eq in Eb as ->. exact I.
  - intros I. apply in_split in I as (x & y & ->). rewrite count_app, count_cons, label_eqb_refl. lia.
Qed.
Lemma distinct_in a l : In a (distinct l) <-> In a l.
Proof.
  induction l as [|b l IH]; [reflexivity|]. cbn [distinct In]. rewrite filter_In, IH. split; [tauto|].
  intros [E|I]; [auto|]. destruct (label_eqb b a) eqn:E; [apply label_eqb_eq in E; auto | right; auto].
Qed.
Lemma distinct_nodup l : NoDup (distinct l).
Proof.
  induction l as [|b l IH]; cbn [distinct]; constructor; [|apply NoDup_filter, IH].
  intros I. apply filter_In in I as [_ I]. rewrite label_eqb_refl in I. discriminate.
Qed.
Definition dups (l : list label) : list label := filter (fun x => (1 <? count x l)%nat) (distinct l).
Lemma dups_in a l : In a (dups l) <-> (1 < count a l)%nat.
Proof.
  unfold dups. rewrite filter_In, distinct_in, Nat.ltb_lt, <- count_in. lia.
Qed.

Definition renamed (a : label) (n : nat) : label := (option_map (fun s => s ++ tail n) (fst a), snd a ++ tail n).
Fixpoint emark (done pre : list label) (l : list entry) : list entry :=
  match l with
  | [] => []
  | (a, t) :: l => ((if existsb (label_eqb a) done then renamed a (count a pre) else a), t) :: emark done (pre ++ [a]) l
  end.
Lemma emark_nil pre l : emark [] pre l = l.
Proof. revert pre. induction l as [|[a t] l IH]; intros pre; [reflexivity|]. cbn [emark existsb]. rewrite IH. reflexivity. Qed.
Lemma number_mark dup done : existsb (label_eqb dup) done = false -> forall l pre,
  (forall a n, In a (map fst l) -> existsb (label_eqb a) done = true -> renamed a n <> dup) ->
  number_label dup (count dup pre) (emark done pre l) = emark (done ++ [dup]) pre l.
Proof.
  intros D. induction l as [|[a t] l IH]; intros pre H; [reflexivity|]. cbn [emark number_label].
  rewrite existsb_app. cbn [existsb]. rewrite orb_false_r.
  assert (IH' := IH (pre ++ [a]) (fun y n I => H y n (or_intror I))). rewrite count_app, count_cons in IH'. change (count dup []) with 0%nat in IH'.
  destruct (existsb (label_eqb a) done) eqn:E.
  - destruct (label_eqb (renamed a (count a pre)) dup) eqn:E2.
    { apply label_eqb_eq in E2. exfalso. exact (H a (count a pre) (or_introl eq_refl) E E2). }
    cbn [orb]. f_equal. destruct (label_eqb dup a) eqn:E3; [apply label_eqb_eq in E3 as ->; congruence|]. rewrite Nat.add_0_r in IH'. exact IH'.
  - cbn [orb]. destruct (label_eqb a dup) eqn:E2.
    + apply label_eqb_eq in E2 as ->. rewrite label_eqb_refl in IH'. apply (f_equal2 cons); [reflexivity|]. etransitivity; [|exact IH']. f_equal. lia.
    + f_equal. destruct (label_eqb dup a) eqn:E3; [apply label_eqb_eq in E3 as ->; rewrite label_eqb_refl in E2; discriminate|].
      rewrite Nat.add_0_r in IH'. exact IH'.
Qed.
Lemma fold_emark l ds : forall done, NoDup ds -> (forall x, In x ds -> ~ In x done) ->
  (forall a n, In a (map fst l) -> In a (done ++ ds) -> ~ In (renamed a n) ds) ->
  fold_left (fun l dup => number_label dup 0 l) ds (emark done [] l) = emark (done ++ ds) [] l.
Proof.
  induction ds as [|d ds IH]; intros done N D H; cbn [fold_left]; [rewrite app_nil_r; reflexivity|].
  inversion N as [|? ? N1 N2]; subst. assert (number_label d 0 (emark done [] l) = emark (done ++ [d]) [] l) as ->.
  { apply (number_mark d done) with (pre := []).
    - destruct (existsb (label_eqb d) done) eqn:E; [|reflexivity]. apply in_labels in E. exfalso. exact (D d (or_introl eq_refl) E).
    - intros a n I E E'. apply in_labels in E. apply (H a n I); [apply in_or_app; auto | left; symmetry; exact E']. }
  rewrite (IH (done ++ [d])).
  - rewrite <- app_assoc. reflexivity.
  - exact N2.
  - intros x I K. apply in_app_or in K as [K|[->|[]]]; [exact (D x (or_intror I) K) | contradiction].
  - intros a n I I' I''. rewrite <- app_assoc in I'. exact (H a n I I' (or_intror I'')).
Qed.
Lemma mkunique_mark l labs : map fst l = labs -> (forall a n, In a (dups labs) -> ~ In (renamed a n) labs) ->
  mkunique l = emark (dups labs) [] l.
Proof.
  intros <- H. unfold mkunique. fold (dups (map fst l)). rewrite <- (emark_nil [] l) at 2. rewrite (fold_emark l); [reflexivity | | intros x _ [] |].
  - apply NoDup_filter, distinct_nodup.
  - intros a n _ I K. apply (H a n I). apply dups_in in K. apply count_in. exact (Nat.lt_trans _ _ _ Nat.lt_0_1 K).
Qed.
(** the types stay *)
Lemma number_types dup l : forall k, map snd (number_label dup k l) = map snd l.
Proof.
  induction l as [|[a t] l IH]; intros k; [reflexivity|]. cbn [number_label]. destruct (label_eqb a dup); cbn [map snd]; rewrite IH; reflexivity.
Qed.
Lemma mkunique_types l : map snd (mkunique l) = map snd l.
Proof.
  unfold mkunique. set (ds := filter _ _). clearbody ds. revert l. induction ds as [|d ds IH]; intros l; [reflexivity|]. cbn [fold_left].
  rewrite IH. apply number_types.
Qed.

(** ** pairs of fingerprint and label *)
Definition lab2 (p : ustr * ustr) : label := (Some (fst p), snd p).
Definition entry2 (pt : ustr * ustr * type) : entry := (lab2 (fst pt), snd pt).
Definition good (ps : list (ustr * ustr)) : Prop := forall p q, In p ps -> In q ps -> (fst p = fst q <-> snd p = snd q).

Lemma occurs_cons x y l : occurs x (y :: l) = ((if ustr_eqb y x then 1 else 0) + occurs x l)%nat.
Proof. change (y :: l) with ([y] ++ l). rewrite occurs_app, occurs_one. reflexivity. Qed.
Lemma count_pairs p ps : (forall q, In q ps -> (fst q = fst p <-> snd q = snd p)) ->
  count (lab2 p) (map lab2 ps) = occurs (fst p) (map fst ps) /\ count (lab2 p) (map lab2 ps) = occurs (snd p) (map snd ps).
Proof.
  induction ps as [|q ps IH]; intros H; [split; reflexivity|]. cbn [map]. rewrite count_cons, !occurs_cons.
  destruct (IH (fun x I => H x (or_intror I))) as [E1 E2]. rewrite E1, <- E2, E1. specialize (H q (or_introl eq_refl)).
  destruct (label_eqb (lab2 p) (lab2 q)) eqn:E.
  - apply label_eqb_eq in E. injection E as F1 F2. rewrite F1, F2, !ustr_eqb_refl. auto.
  - destruct (ustr_eqb_spec (fst q) (fst p)) as [F|F].
    + exfalso. assert (lab2 p = lab2 q) as L by (unfold lab2; rewrite F, (proj1 H F); reflexivity). rewrite L, label_eqb_refl in E. discriminate.
    + destruct (ustr_eqb_spec (snd q) (snd p)) as [F'|F']; [exfalso; apply F, H, F'|]. auto.
Qed.
Lemma emark_pairs D Df Dl F ps : forall p0 ts, fst F = None -> good (p0 ++ ps) -> length ts = length ps ->
  (forall p, In p ps -> existsb (label_eqb (lab2 p)) D = existsb (LisPy.str_eqb (fst p)) Df /\
                        existsb (label_eqb (lab2 p)) D = existsb (LisPy.str_eqb (snd p)) Dl) ->
  emark D (F :: map lab2 p0) (map entry2 (combine ps ts)) =
  map entry2 (combine (combine (mark Df (map fst p0) (map fst ps)) (mark Dl (map snd p0) (map snd ps))) ts).
Proof.
  induction ps as [|p ps IH]; intros p0 ts EF G L H; [reflexivity|]. destruct ts as [|t ts]; [discriminate|].
  cbn [combine map emark mark entry2 fst snd]. destruct (H p (or_introl eq_refl)) as [H1 H2].
  assert (count (lab2 p) (F :: map lab2 p0) = count (lab2 p) (map lab2 p0)) as CF.
  { rewrite count_cons. destruct (label_eqb (lab2 p) F) eqn:E; [|reflexivity]. apply label_eqb_eq in E. subst F. discriminate. }
  destruct (count_pairs p p0) as [C1 C2]; [intros q I; apply G; [apply in_or_app; auto | apply in_elt]|].
  f_equal.
  - rewrite <- H1, <- H2, CF. unfold entry2. cbn [fst snd]. f_equal. destruct (existsb (label_eqb (lab2 p)) D); [|reflexivity].
    rewrite <- C1, <- C2. reflexivity.
  - specialize (IH (p0 ++ [p]) ts EF). rewrite <- app_assoc in IH. cbn [app length] in IH. rewrite !map_app in IH. cbn [map app] in IH.
    apply IH; [exact G | cbn in L; lia |]. intros q I. apply H. right. exact I.
Qed.
Lemma dup_pairs F ps p : fst F = None -> good ps -> In p ps ->
  existsb (label_eqb (lab2 p)) (dups (F :: map lab2 ps)) = existsb (LisPy.str_eqb (fst p)) (duplicates (map fst ps)) /\
  existsb (label_eqb (lab2 p)) (dups (F :: map lab2 ps)) = existsb (LisPy.str_eqb (snd p)) (duplicates (map snd ps)).
Proof.
  intros EF G I. destruct (count_pairs p ps) as [C1 C2]; [intros q J; apply G; assumption|].
  assert (count (lab2 p) (F :: map lab2 ps) = count (lab2 p) (map lab2 ps)) as CF.
  { rewrite count_cons. destruct (label_eqb (lab2 p) F) eqn:E; [|reflexivity]. apply label_eqb_eq in E. subst F. discriminate. }
  split; apply eq_true_iff_eq; rewrite in_labels, LisCurvesProofs5.exists_in, dups_in, duplicates_in, CF; [rewrite C1 | rewrite C2]; reflexivity.
Qed.
Lemma map_fst_combine {A B} (a : list A) (b : list B) : length a = length b -> map fst (combine a b) = a.
Proof. revert b. induction a as [|x a IH]; intros [|y b] L; try discriminate; [reflexivity|]. cbn. f_equal. apply IH. cbn in L. lia. Qed.
Lemma map_snd_combine {A B} (a : list A) (b : list B) : length a = length b -> map snd (combine a b) = b.
Proof. revert b. induction a as [|x a IH]; intros [|y b] L; try discriminate; [reflexivity|]. cbn. f_equal. apply IH. cbn in L. lia. Qed.
Lemma mark_length D l : forall pre, length (mark D pre l) = length l.
Proof. induction l as [|x l IH]; intros pre; [reflexivity|]. cbn [mark length]. rewrite IH. reflexivity. Qed.

Lemma occurs_perm x l m : Permutation l m -> occurs x l = occurs x m.
Proof. intros P. unfold occurs. apply (Permutation_count_occ (list_eq_dec Z.eq_dec)), P. Qed.
Lemma occurs_zero x l : ~ In x l -> occurs x l = 0%nat.
Proof. intros N. apply count_occ_not_In, N. Qed.

Lemma occurs_more x a b : (1 < occurs x a)%nat \/ (1 < occurs x b)%nat -> (1 < occurs x (FRAMENO :: a ++ b))%nat.
Proof. intros H. rewrite occurs_cons, occurs_app. lia. Qed.
(** a part of a list has no numbered labels either *)
Lemma unnumbered_part l a b : unnumbered (FRAMENO :: a ++ b) -> (l = a \/ l = b) -> unnumbered l.
Proof.
  intros U H x y n I O N K. apply (U x y n); [| |exact N|].
  - right. apply in_or_app. destruct H as [->| ->]; auto.
  - apply occurs_more. destruct H as [->| ->]; auto.
  - right. apply in_or_app. destruct H as [->| ->]; auto.
Qed.

Definition pair_keys (fps ls : list ustr) : list ustr := flat_map (fun p => [fst p; snd p]) (combine fps ls).
Lemma pair_keys_perm fps : forall ls, length fps = length ls -> Permutation (pair_keys fps ls) (ls ++ fps).
Proof.
  induction fps as [|f fps IH]; intros [|l ls] L; try discriminate; [constructor|]. unfold pair_keys. cbn [combine flat_map fst snd app].
  fold (pair_keys fps ls). cbn in L. rewrite (IH ls ltac:(lia)). rewrite perm_swap. constructor. rewrite <- Permutation_middle. reflexivity.
Qed.
Lemma entries_pairs (ps : list (ustr * ustr)) : forall ts, length ps = length ts -> (forall p, In p ps -> snd p <> []) ->
  entries_keys (map entry2 (combine ps ts)) = flat_map (fun p => [fst p; snd p]) ps /\
  map entry_name (map entry2 (combine ps ts)) = map snd ps.
Proof.
  induction ps as [|p ps IH]; intros [|t ts] L H; try discriminate; [split; reflexivity|].
  destruct (IH ts) as [E1 E2]; [cbn in L; lia | intros q I; apply H; right; exact I|].
  assert (entry_name (entry2 (p, t)) = snd p) as N.
  { specialize (H p (or_introl eq_refl)). destruct p as [f [|z l]]; [exfalso; apply H; reflexivity | reflexivity]. }
  cbn [combine map]. split.
  - unfold entries_keys. cbn [flat_map]. fold (entries_keys (map entry2 (combine ps ts))). rewrite E1.
    change (entry_keys (entry2 (p, t))) with [fst p; entry_name (entry2 (p, t))]. rewrite N. reflexivity.
  - rewrite N, E2. reflexivity.
Qed.
(** what a NoDup says about keys, also when labels are empty *)
Lemma entries_nonempty (ps : list (ustr * ustr)) : forall ts, length ps = length ts -> NoDup (entries_keys (map entry2 (combine ps ts))) -> forall p, In p ps -> snd p <> [].
Proof.
  induction ps as [|q ps IH]; intros [|t ts] L N p I; try discriminate; [destruct I|].
  cbn [combine map] in N. unfold entries_keys in N. cbn [flat_map] in N. fold (entries_keys (map entry2 (combine ps ts))) in N.
  destruct I as [->|I].
  - intros E. unfold entry2, lab2 in N. cbn [fst snd entry_keys entry_name] in N. rewrite E in N. cbn [app] in N. inversion N as [|? ? N1 N2]; subst. apply N1. left. reflexivity.
  - apply (IH ts); [cbn in L; lia | | exact I]. unfold entry2, lab2 in N. cbn [fst snd entry_keys app] in N.
    inversion N as [|? ? _ N2]; subst. inversion N2; assumption.
Qed.

Lemma nodup_parts {A} (l m : list A) : NoDup (l ++ m) -> NoDup l /\ NoDup m.
Proof.
  induction l as [|x l IH]; cbn [app]; intros N; [split; [constructor | exact N]|]. inversion N as [|? ? N1 N2]; subst. destruct (IH N2) as [H1 H2].
  split; [|exact H2]. constructor; [|exact H1]. intros I. apply N1, in_or_app. auto.
Qed.

(** ** The type of a frame *)
Section dtype.
Variable maxdims : nat.
Variable fmtlabel : ustr -> Z -> Z -> option ustr.

Definition first_entry : entry := (None, ascii (text "FRAMENO"), (text "i4", [])).
Lemma ents_pairs cs es : ents maxdims fmtlabel cs cs = Some es <->
  exists ls ts, labels fmtlabel cs ls /\ Forall2 (fun c t => channel_dtype maxdims c = Some t) cs ts /\
    es = map entry2 (combine (combine (map cl_fp cs) ls) ts).
Proof.
  rewrite ents_split. unfold labels.
  assert (forall q ls ts, map (fun '(c, l, t) => (Some (cl_fp c), l, t)) (combine (combine q ls) ts) = map entry2 (combine (combine (map cl_fp q) ls) ts)) as H.
  { clear. induction q as [|c q IH]; intros [|l ls] [|t ts]; try reflexivity. cbn [map combine]. rewrite <- IH. reflexivity. }
  split; intros (ls & ts & H1 & H2 & ->); exists ls, ts; rewrite H; auto.
Qed.
Lemma dtype_unfold strict cs : frame_dtype maxdims fmtlabel strict (map Some cs) =
  obind (ents maxdims fmtlabel cs cs) (fun es =>
    match np_dtype (first_entry :: es) with Some d => Some d | None => if strict then None else np_dtype (mkunique (first_entry :: es)) end).
Proof. unfold frame_dtype. fold first_entry. rewrite loop_all. destruct (ents maxdims fmtlabel cs cs); reflexivity. Qed.

Lemma labels_unique cs ls ls' : labels fmtlabel cs ls -> labels fmtlabel cs ls' -> ls = ls'.
Proof.
  unfold labels. generalize cs at 2 4. intros q H. revert ls'. induction H as [|c l q' ls H1 H IH]; intros ls' K; inversion K as [|? l' ? ? K1 K2]; subst; [reflexivity|].
  f_equal; [|apply IH; assumption]. destruct H1 as [[R E]|[R ->]], K1 as [[R' E']|[R' ->]]; try contradiction; congruence.
Qed.
Lemma f2_length {A B} (R : A -> B -> Prop) l m : Forall2 R l m -> length l = length m.
Proof. induction 1; cbn [length]; congruence. Qed.
Lemma sample_types cs ts : Forall2 (fun c t => channel_dtype maxdims c = Some t) cs ts -> Forall2 sample_type cs ts.
Proof. induction 1 as [|c t cs ts H _ IH]; constructor; [apply (channel_dtype_sound maxdims c t H) | exact IH]. Qed.

Lemma keys_first es : entries_keys (first_entry :: es) = FRAMENO :: entries_keys es.
Proof. reflexivity. Qed.
Lemma describes_fields cs (ps : list (ustr * ustr)) ts : length ps = length cs -> (forall p, In p ps -> snd p <> []) -> Forall2 sample_type cs ts ->
  describes cs (map snd ps) (map fst ps) (fields_at 0 (first_entry :: map entry2 (combine ps ts))).
Proof.
  intros L E T. pose proof (f2_length _ _ _ T) as L2. split.
  - rewrite fields_names. cbn [map]. rewrite (proj2 (entries_pairs ps ts ltac:(lia) E)). reflexivity.
  - split.
    + rewrite fields_titles. cbn [map]. f_equal. rewrite <- (map_fst_combine ps ts) at 2 by lia. rewrite !map_map. reflexivity.
    + exists (text "i4", []), ts. split; [|split; [reflexivity | exact T]]. rewrite fields_types. cbn [map]. f_equal.
      rewrite map_map. rewrite <- (map_snd_combine ps ts) at 2 by lia. reflexivity.
Qed.

(** success with strict=True *)
Lemma strict_ok cs d : frame_dtype maxdims fmtlabel true (map Some cs) = Some d ->
  exists ls, labels fmtlabel cs ls /\ describes cs ls (map cl_fp cs) d /\ NoDup (FRAMENO :: ls ++ map cl_fp cs).
Proof.
  rewrite dtype_unfold. destruct (ents maxdims fmtlabel cs cs) as [es|] eqn:E; [|discriminate]. cbn [obind].
  destruct (np_dtype (first_entry :: es)) as [d'|] eqn:N; [|discriminate]. intros H. injection H as ->.
  apply ents_pairs in E as (ls & ts & L & T & ->). apply np_dtype_spec in N as [N ->]. rewrite keys_first in N.
  pose proof (f2_length _ _ _ L) as L1. pose proof (f2_length _ _ _ T) as L2.
  set (ps := combine (map cl_fp cs) ls) in *. assert (length ps = length cs) as L3 by (unfold ps; rewrite combine_length, map_length; lia).
  inversion N as [|? ? N1 N2]; subst. pose proof (entries_nonempty ps ts ltac:(lia) N2) as Ne.
  rewrite (proj1 (entries_pairs ps ts ltac:(lia) Ne)) in N1, N2.
  assert (map snd ps = ls) as M1 by (apply map_snd_combine; rewrite map_length; lia).
  assert (map fst ps = map cl_fp cs) as M2 by (apply map_fst_combine; rewrite map_length; lia).
  exists ls. split; [exact L|]. split.
  - pose proof (describes_fields cs ps ts L3 Ne (sample_types cs ts T)) as Q. rewrite M1, M2 in Q. exact Q.
  - apply (Permutation_NoDup (l := FRAMENO :: pair_keys (map cl_fp cs) ls)); [constructor; apply pair_keys_perm; rewrite map_length; lia|].
    constructor; assumption.
Qed.
Lemma all_types cs : Forall (fits maxdims) cs -> exists ts, Forall2 (fun c t => channel_dtype maxdims c = Some t) cs ts.
Proof.
  induction 1 as [|c cs F _ [ts IH]]; [exists []; constructor|]. destruct (channel_dtype_fits maxdims c F) as [t T]. exists (t :: ts). constructor; assumption.
Qed.
Lemma strict_iff cs ls : Forall (fits maxdims) cs -> labels fmtlabel cs ls -> ~ In [] ls ->
  ((exists d, frame_dtype maxdims fmtlabel true (map Some cs) = Some d) <-> NoDup (FRAMENO :: ls ++ map cl_fp cs)).
Proof.
  intros F L Ne. split.
  - intros [d H]. apply strict_ok in H as (ls' & L' & _ & N). rewrite (labels_unique cs ls ls' L L'). exact N.
  - intros N. destruct (all_types cs F) as [ts T]. rewrite dtype_unfold.
    rewrite (proj2 (ents_pairs cs _) (ex_intro _ ls (ex_intro _ ts (conj L (conj T eq_refl))))). cbn [obind].
    pose proof (f2_length _ _ _ L) as L1. pose proof (f2_length _ _ _ T) as L2.
    set (ps := combine (map cl_fp cs) ls). assert (length ps = length cs) as L3 by (unfold ps; rewrite combine_length, map_length; lia).
    assert (map snd ps = ls) as M1 by (apply map_snd_combine; rewrite map_length; lia).
    assert (forall p, In p ps -> snd p <> []) as Ne'.
    { intros p I E. apply Ne. rewrite <- M1, <- E. apply in_map, I. }
    assert (NoDup (entries_keys (first_entry :: map entry2 (combine ps ts)))) as N'; [|rewrite (proj2 (np_dtype_spec _ _) (conj N' eq_refl)); eauto].
    rewrite keys_first, (proj1 (entries_pairs ps ts ltac:(lia) Ne')).
    apply (Permutation_NoDup (l := FRAMENO :: ls ++ map cl_fp cs)); [|exact N]. constructor. apply Permutation_sym, pair_keys_perm. rewrite map_length. lia.
Qed.

Lemma tidy_good fps ls : tidy fps ls -> good (combine fps ls).
Proof.
  intros (T & _) p q P Q. apply In_nth_error in P as [i P]. apply In_nth_error in Q as [j Q].
  assert (forall k (r : ustr * ustr) (a b : list ustr), nth_error (combine a b) k = Some r -> nth_error a k = Some (fst r) /\ nth_error b k = Some (snd r)) as W.
  { clear. induction k as [|k IH]; intros r [|x a] [|y b] E; try discriminate; [injection E as <-; auto|]. apply (IH r a b E). }
  destruct (W _ _ _ _ P) as [P1 P2], (W _ _ _ _ Q) as [Q1 Q2]. exact (T i j _ _ _ _ P1 Q1 P2 Q2).
Qed.
Lemma mark_in D l : forall pre y, In y (mark D pre l) -> exists x n, In x l /\ (y = x \/ (In x D /\ y = label_n x n)).
Proof.
  induction l as [|x l IH]; intros pre y I; [destruct I|]. cbn [mark In] in I. destruct I as [<-|I].
  - exists x, (occurs x pre). split; [left; reflexivity|]. destruct (existsb (LisPy.str_eqb x) D) eqn:E; [right; split; [apply LisCurvesProofs5.exists_in, E | reflexivity] | left; reflexivity].
  - destruct (IH _ _ I) as (x' & n & I' & H). exists x', n. split; [right; exact I' | exact H].
Qed.
Lemma unique_in l y : unnumbered l -> In y (LisPy.unique_mnemonics l) -> exists x n, In x l /\ (y = x \/ ((1 < occurs x l)%nat /\ y = label_n x n)).
Proof.
  intros U I. rewrite (unique_mark l U) in I. apply mark_in in I as (x & n & I & H). exists x, n. split; [exact I|].
  destruct H as [->|[D ->]]; [auto|]. apply duplicates_in in D. auto.
Qed.

Lemma relaxed_ok cs ls : Forall (fits maxdims) cs -> labels fmtlabel cs ls -> tidy (map cl_fp cs) ls ->
  exists d names titles, frame_dtype maxdims fmtlabel false (map Some cs) = Some d /\
    describes cs names titles d /\ made_unique ls names /\ made_unique (map cl_fp cs) titles /\ NoDup (FRAMENO :: names ++ titles).
Proof.
  intros F L T. destruct (all_types cs F) as [ts Ts]. set (fps := map cl_fp cs) in *.
  pose proof (f2_length _ _ _ L) as L1. pose proof (f2_length _ _ _ Ts) as L2. assert (length fps = length cs) as L0 by apply map_length.
  pose proof T as (_ & Dj & U & NF & Ne).
  pose proof (unnumbered_part ls ls fps U (or_introl eq_refl)) as Ul. pose proof (unnumbered_part fps ls fps U (or_intror eq_refl)) as Uf.
  assert (forall (names titles : list ustr) (ts' : list type), length names = length cs -> length titles = length cs -> (forall x, In x names -> x <> []) -> Forall2 sample_type cs ts' ->
            NoDup (FRAMENO :: names ++ titles) ->
            let es := first_entry :: map entry2 (combine (combine titles names) ts') in
            np_dtype es = Some (fields_at 0 es) /\ describes cs names titles (fields_at 0 es)) as K.
  { intros names titles ts' A B C Sts N es. pose proof (f2_length _ _ _ Sts) as L3.
    assert (map snd (combine titles names) = names) as M1 by (apply map_snd_combine; lia).
    assert (map fst (combine titles names) = titles) as M2 by (apply map_fst_combine; lia).
    assert (forall p, In p (combine titles names) -> snd p <> []) as Ne'.
    { intros p I. apply C. rewrite <- M1. apply in_map, I. }
    split.
    - apply np_dtype_spec. split; [|reflexivity]. unfold es. rewrite keys_first, (proj1 (entries_pairs (combine titles names) ts' ltac:(rewrite combine_length; lia) Ne')).
      apply (Permutation_NoDup (l := FRAMENO :: names ++ titles)); [|exact N]. constructor. apply Permutation_sym, pair_keys_perm. lia.
    - assert (length (combine titles names) = length cs) as L4 by (rewrite combine_length; lia).
      pose proof (describes_fields cs (combine titles names) ts' L4 Ne' Sts) as Q. rewrite M1, M2 in Q. exact Q. }
  assert (NoDup (FRAMENO :: LisPy.unique_mnemonics ls ++ LisPy.unique_mnemonics fps)) as N.
  { assert (forall y, In y (LisPy.unique_mnemonics ls) \/ In y (LisPy.unique_mnemonics fps) ->
              exists x n, In x (ls ++ fps) /\ (y = x \/ ((1 < occurs x (FRAMENO :: ls ++ fps))%nat /\ y = label_n x n))) as W.
    { intros y [I|I]; apply unique_in in I as (x & n & I & H); try assumption; exists x, n; (split; [apply in_or_app; auto|]);
        (destruct H as [->|[O ->]]; [auto | right; split; [apply occurs_more; auto | reflexivity]]). }
    constructor.
    - intros I. apply in_app_or in I. destruct (W _ I) as (x & n & Ix & [E|[O E]]); [rewrite E in NF; contradiction|].
      apply (U x FRAMENO n); [right; exact Ix | exact O | apply label_numbered, E | left; reflexivity].
    - assert (forall y, In y (LisPy.unique_mnemonics ls) -> ~ In y (LisPy.unique_mnemonics fps)) as Dis.
      { intros y I J. apply unique_in in I as (x & n & Ix & Hx); [|exact Ul]. apply unique_in in J as (z & m & Iz & Hz); [|exact Uf].
        destruct Hx as [->|[Ox ->]], Hz as [E|[Oz E]].
        - subst z. exact (Dj x Ix Iz).
        - apply (U z x m); [right; apply in_or_app; auto | apply occurs_more; auto | apply label_numbered, E | right; apply in_or_app; auto].
        - apply (U x z n); [right; apply in_or_app; auto | apply occurs_more; auto | apply label_numbered; symmetry; exact E | right; apply in_or_app; auto].
        - apply label_inj in E as [-> _]. exact (Dj z Ix Iz). }
      clear - Dis Ul Uf. pose proof (unique_nodup ls Ul) as N1. pose proof (unique_nodup fps Uf) as N2. revert N1 Dis.
      generalize (LisPy.unique_mnemonics ls). intros l N1 Dis. induction l as [|x l IH]; [exact N2|]. inversion N1; subst. cbn [app]. constructor.
      + intros I. apply in_app_or in I as [I|I]; [contradiction | exact (Dis x (or_introl eq_refl) I)].
      + apply IH; [assumption | intros y I; apply Dis; right; exact I]. }
  assert (forall x, In x (LisPy.unique_mnemonics ls) -> x <> []) as Nn.
  { intros y I E. apply unique_in in I as (x & n & Ix & [H|[_ H]]); [| |exact Ul].
    - apply Ne. rewrite <- E, H. apply in_or_app. auto.
    - rewrite E in H. pose proof (label_longer x n) as Lg. rewrite <- H in Lg. cbn in Lg. lia. }
  rewrite dtype_unfold. rewrite (proj2 (ents_pairs cs _) (ex_intro _ ls (ex_intro _ ts (conj L (conj Ts eq_refl))))). cbn [obind]. fold fps.
  set (es := first_entry :: map entry2 (combine (combine fps ls) ts)).
  destruct (np_dtype es) as [d|] eqn:E.
  - (* no repetition *)
    assert (frame_dtype maxdims fmtlabel true (map Some cs) = Some d) as E'.
    { rewrite dtype_unfold. rewrite (proj2 (ents_pairs cs _) (ex_intro _ ls (ex_intro _ ts (conj L (conj Ts eq_refl))))). cbn [obind]. fold fps. fold es. rewrite E. reflexivity. }
    apply strict_ok in E' as (ls' & L' & Ds & Nd). rewrite <- (labels_unique cs ls ls' L L') in *. fold fps in Ds, Nd.
    exists d, ls, fps. split; [reflexivity|]. split; [exact Ds|].
    assert (NoDup ls /\ NoDup fps) as [Nl Nf].
    { inversion Nd as [|? ? _ Nd']; subst. apply nodup_parts, Nd'. }
    split; [rewrite <- (unique_id ls Nl) at 2; apply unique_made, Ul|]. split; [rewrite <- (unique_id fps Nf) at 2; apply unique_made, Uf | exact Nd].
  - pose proof (tidy_good fps ls T) as G. set (ps := combine fps ls) in *.
    assert (map fst ps = fps) as M1 by (apply map_fst_combine; lia). assert (map snd ps = ls) as M2 by (apply map_snd_combine; lia).
    assert (length ps = length cs) as L3 by (unfold ps; rewrite combine_length; lia).
    assert (map fst es = fst first_entry :: map lab2 ps) as Me.
    { unfold es. cbn [map]. f_equal. rewrite map_map. rewrite <- (map_fst_combine ps ts) at 2 by lia. rewrite map_map. reflexivity. }
    assert (mkunique es = first_entry :: map entry2 (combine (combine (LisPy.unique_mnemonics fps) (LisPy.unique_mnemonics ls)) ts)) as ->.
    { rewrite (mkunique_mark es (fst first_entry :: map lab2 ps) Me).
      - unfold es. cbn [emark first_entry].
        assert (existsb (label_eqb (None, ascii (text "FRAMENO"))) (dups (fst first_entry :: map lab2 ps)) = false) as ->.
        { destruct (existsb _ _) eqn:X; [|reflexivity]. apply in_labels, dups_in in X. rewrite count_cons in X. cbn [first_entry fst] in X. rewrite label_eqb_refl in X.
          assert (0 < count (None, ascii (text "FRAMENO")) (map lab2 ps))%nat as X' by lia. apply count_in, in_map_iff in X' as (p & X' & _). discriminate. }
        cbn [app]. f_equal.
        assert (good ([] ++ ps)) as G' by exact G. assert (length ts = length ps) as L4 by lia.
        pose proof (emark_pairs (dups (fst first_entry :: map lab2 ps)) (duplicates (map fst ps)) (duplicates (map snd ps)) (fst first_entry) ps [] ts eq_refl G' L4
                 (fun p I => dup_pairs (fst first_entry) ps p eq_refl G I)) as R.
        cbn [map] in R. rewrite M1, M2 in R. rewrite (unique_mark fps Uf), (unique_mark ls Ul). exact R.
      - intros a n I J. apply dups_in in I. assert (In a (fst first_entry :: map lab2 ps)) as Ia by (apply count_in; lia).
        destruct Ia as [<-|Ia].
        { rewrite count_cons, label_eqb_refl in I. assert (0 < count (fst first_entry) (map lab2 ps))%nat as X' by lia. apply count_in, in_map_iff in X' as (p & X' & _). discriminate. }
        apply in_map_iff in Ia as (p & <- & Ip).
        assert (count (lab2 p) (fst first_entry :: map lab2 ps) = count (lab2 p) (map lab2 ps)) as CF by (rewrite count_cons; reflexivity).
        rewrite CF in I. destruct (count_pairs p ps) as [C1 C2]; [intros q Iq; apply G; assumption|].
        destruct J as [J|J]; [discriminate|]. apply in_map_iff in J as (q & J & Iq). injection J as J1 J2.
        apply (U (snd p) (snd q) n).
        + right. apply in_or_app. left. rewrite <- M2. apply in_map, Ip.
        + apply occurs_more. left. rewrite <- M2, <- C2. exact I.
        + apply label_numbered. exact J2.
        + right. apply in_or_app. left. rewrite <- M2. apply in_map, Iq. }
    destruct (K (LisPy.unique_mnemonics ls) (LisPy.unique_mnemonics fps) ts) as [Kd Kn].
    + exact (eq_trans (proj1 (unique_made ls Ul)) (eq_sym L1)).
    + exact (eq_trans (proj1 (unique_made fps Uf)) L0).
    + exact Nn.
    + apply (sample_types cs ts Ts).
    + exact N.
    + eexists _, _, _. split; [exact Kd|]. split; [exact Kn|]. split; [apply unique_made, Ul|]. split; [apply unique_made, Uf | exact N].
Qed.

(** whatever the labels: the columns have types and layout of the channels *)
Lemma dtype_layout strict cs d : frame_dtype maxdims fmtlabel strict (map Some cs) = Some d ->
  exists es ts, d = fields_at 0 es /\ map snd es = (text "i4", []) :: ts /\ NoDup (entries_keys es) /\
    Forall2 (fun c t => channel_dtype maxdims c = Some t) cs ts.
Proof.
  rewrite dtype_unfold. destruct (ents maxdims fmtlabel cs cs) as [es|] eqn:E; [|discriminate]. cbn [obind].
  apply ents_pairs in E as (ls & ts & L & T & ->). pose proof (f2_length _ _ _ L) as L1. pose proof (f2_length _ _ _ T) as L2.
  set (es := map entry2 (combine (combine (map cl_fp cs) ls) ts)).
  assert (map snd (first_entry :: es) = (text "i4", []) :: ts) as M.
  { cbn [map]. f_equal. unfold es. rewrite map_map. rewrite <- (map_snd_combine (combine (map cl_fp cs) ls) ts) at 2; [reflexivity|].
    rewrite combine_length, map_length. lia. }
  intros H. destruct (np_dtype (first_entry :: es)) as [d'|] eqn:N.
  - injection H as ->. apply np_dtype_spec in N as [N ->]. exists (first_entry :: es), ts. auto.
  - destruct strict; [discriminate|]. apply np_dtype_spec in H as [N' ->]. exists (mkunique (first_entry :: es)), ts.
    split; [reflexivity|]. split; [rewrite mkunique_types; exact M|]. auto.
Qed.
End dtype.
