(** Proofs about the labels of channels without dots in their names. *)
From Verif Require LisPy.
From Verif Require Import SpecLisPy LisPyProofs.
From Verif Require Import Bytes BytesProofs SpecCore CoreProofs2 DlisTypes DlisFrame SpecDlisFrame DlisFrameProofs DlisFrameProofs2 DlisFrameProofs3.
From Coq Require Import ZifyBool ZifyNat.
Local Open Scope Z_scope.

Lemma ascii_app a b : ascii (a ++ b) = ascii a ++ ascii b.
Proof. apply map_app. Qed.
Lemma ascii_inj a : forall b, map b2z a = map b2z b -> a = b.
Proof.
  induction a as [|x a IH]; intros [|y b] E; try discriminate; [reflexivity|]. cbn [map] in E. injection E as E1 E2. f_equal; [apply b2z_inj, E1 | apply IH, E2].
Qed.
Lemma numeral_chars s n x : is_numeral s n -> In x (map b2z s) -> 48 <= x <= 57.
Proof. intros (_ & F & _) I. apply in_map_iff in I as (b & <- & I). apply (proj1 (Forall_forall _ _) F) in I. unfold digit_char in I. lia. Qed.
Lemma numerals_eq s n t m : is_numeral s n -> is_numeral t m -> map b2z s = map b2z t -> n = m.
Proof. intros S T E. apply ascii_inj in E as ->. exact (numeral_inj _ _ _ S T). Qed.

Lemma default_dotted name o c l : 0 <= o -> 0 <= c -> (default_label name o c = Some l <-> dotted name o c l).
Proof.
  intros O C. unfold default_label, dotted. rewrite !ascii_app. split.
  - intros E. injection E as <-. exists (LisPy.str_int o), (LisPy.str_int c). split; [apply str_int_numeral, O|]. split; [apply str_int_numeral, C | reflexivity].
  - intros (so & sc & No & Nc & ->). rewrite (numeral_unique so _ o No (str_int_numeral o O)), (numeral_unique sc _ c Nc (str_int_numeral c C)). reflexivity.
Qed.

(** the last dot *)
Lemma dotted_inj n o c l n' o' c' : dotted n o c l -> dotted n' o' c' l -> (n, o, c) = (n', o', c').
Proof.
  intros (so & sc & No & Nc & ->) (so' & sc' & No' & Nc' & E).
  assert (forall s k, is_numeral s k -> ~ In 46 (map b2z s)) as D by (intros s k N I; apply (numeral_chars _ _ _ N) in I; lia).
  change (map b2z (text ".")) with [46] in E. cbn [app] in E.
  rewrite (app_comm_cons (map b2z so)), (app_comm_cons (map b2z so')), !app_assoc in E.
  apply LisPyProofs.split_last in E as [E1 E2]; [|apply (D _ _ Nc)|apply (D _ _ Nc')].
  apply LisPyProofs.split_last in E1 as [-> E1]; [|apply (D _ _ No)|apply (D _ _ No')].
  rewrite (numerals_eq _ _ _ _ Nc Nc' E2), (numerals_eq _ _ _ _ No No' E1). reflexivity.
Qed.
Lemma fp_inj c c' : own_fp c -> own_fp c' -> (cl_fp c = cl_fp c' <-> identity c = identity c').
Proof.
  intros (o & k & O & K & E) (o' & k' & O' & K' & E'). unfold identity. split.
  - rewrite E, E'. intros H. apply app_inv_head in H.
    change (map b2z (text "-O.")) with ([45; 79] ++ [46]) in H. change (map b2z (text "-C.")) with ([45; 67] ++ [46]) in H.
    assert (forall s n, is_numeral s n -> ~ In 46 (map b2z s)) as D by (intros s n N I; apply (numeral_chars _ _ _ N) in I; lia).
    assert (forall x y z w : list Z, x ++ ([45; 79] ++ [46]) ++ y ++ ([45; 67] ++ [46]) ++ z = (x ++ ([45; 79] ++ [46]) ++ y ++ [45; 67]) ++ 46 :: z) as S1.
    { intros. rewrite <- !app_assoc. reflexivity. }
    assert (forall x y : list Z, x ++ ([45; 79] ++ [46]) ++ y ++ [45; 67] = (x ++ [45; 79]) ++ 46 :: (y ++ [45; 67])) as S2.
    { intros. rewrite <- !app_assoc. reflexivity. }
    rewrite !S1, !S2 in H by exact []. apply LisPyProofs.split_last in H as [H1 H2]; [|apply (D _ _ K)|apply (D _ _ K')].
    apply LisPyProofs.split_last in H1 as [H0 H1].
    + apply app_inv_tail in H0, H1. rewrite H0, (numerals_eq _ _ _ _ O O' H1), (numerals_eq _ _ _ _ K K' H2). reflexivity.
    + intros I. apply in_app_or in I as [I|[I|[I|[]]]]; [exact (D _ _ O I) | lia | lia].
    + intros I. apply in_app_or in I as [I|[I|[I|[]]]]; [exact (D _ _ O' I) | lia | lia].
  - intros H. injection H as H1 H2 H3. rewrite E, E', H1. rewrite H2 in O. rewrite H3 in K.
    rewrite (numeral_unique o o' _ O O'), (numeral_unique k k' _ K K'). reflexivity.
Qed.
Lemma own_fp_nonneg c : own_fp c -> 0 <= cl_origin c /\ 0 <= cl_copy c.
Proof.
  intros (o & k & (_ & F & O & _) & (_ & F' & K & _) & _). rewrite <- O, <- K.
  assert (forall s, Forall digit_char s -> 0 <= decimal_value s) as D; [|split; auto].
  clear. induction 1 as [|x s X _ IH]; cbn [decimal_value]; [lia|]. unfold digit_char in X. pose proof (Z.pow_nonneg 10 (Z.of_nat (length s)) ltac:(lia)). nia.
Qed.

Lemma f2_nth {A B} (R : A -> B -> Prop) l m : Forall2 R l m -> forall i b, nth_error m i = Some b -> exists a, nth_error l i = Some a /\ R a b.
Proof.
  induction 1 as [|x y l m P _ IH]; intros [|i] b E; try discriminate; cbn in E; [injection E as <-; exists x; auto | exact (IH i b E)].
Qed.
Lemma nth_repeated cs i j a b : nth_error cs i = Some a -> nth_error cs j = Some b -> cl_name a = cl_name b -> i <> j -> repeated cs (cl_name a).
Proof.
  assert (forall i j a b, nth_error cs i = Some a -> nth_error cs j = Some b -> (i < j)%nat -> exists x y z, cs = x ++ a :: y ++ b :: z) as W.
  { clear. intros i j a b Ea Eb Lt. apply nth_error_split in Ea as (x & r & -> & <-). rewrite nth_error_app2 in Eb by lia.
    destruct (j - length x)%nat as [|k] eqn:K; [lia|]. cbn in Eb. apply nth_error_split in Eb as (y & z & -> & _). eauto. }
  intros Ea Eb E N. destruct (Nat.lt_trichotomy i j) as [Lt|[->|Lt]]; [|congruence|].
  - destruct (W _ _ _ _ Ea Eb Lt) as (x & y & z & ->). exists x, a, y, b, z. auto.
  - destruct (W _ _ _ _ Eb Ea Lt) as (x & y & z & ->). exists x, b, y, a, z. auto.
Qed.

Section plain.
Variable cs : list column.
Hypothesis H : Forall plain cs.
Variable ls : list ustr.
Hypothesis L : labels default_label cs ls.

Lemma plain_in c : In c cs -> plain c.
Proof. apply (proj1 (Forall_forall _ _) H). Qed.
Lemma label_cases c l : In c cs -> label_of default_label cs c l ->
  (repeated cs (cl_name c) /\ dotted (cl_name c) (cl_origin c) (cl_copy c) l) \/ (~ repeated cs (cl_name c) /\ l = cl_name c).
Proof.
  intros I [[R E]|[R E]]; [left | right; auto]. split; [exact R|]. destruct (plain_in c I) as (F & _). apply own_fp_nonneg in F as [O C]. apply default_dotted; assumption.
Qed.
Lemma dotted_dot n o c l : dotted n o c l -> In 46 l.
Proof. intros (so & sc & _ & _ & ->). apply in_or_app. right. left. reflexivity. Qed.
Lemma fps_nth i f : nth_error (map cl_fp cs) i = Some f -> exists c, nth_error cs i = Some c /\ cl_fp c = f.
Proof. rewrite nth_error_map. destruct (nth_error cs i) as [c|]; [|discriminate]. intros E. injection E as <-. eauto. Qed.
(** labels are equal exactly when the channels are the same *)
Lemma labels_same i j a b x y : nth_error cs i = Some a -> nth_error cs j = Some b -> nth_error ls i = Some x -> nth_error ls j = Some y ->
  (cl_fp a = cl_fp b <-> x = y).
Proof.
  intros A B X Y. pose proof (nth_error_In _ _ A) as Ia. pose proof (nth_error_In _ _ B) as Ib.
  destruct (plain_in a Ia) as (Fa & _ & _ & Da & _), (plain_in b Ib) as (Fb & _ & _ & Db & _).
  destruct (f2_nth _ _ _ L i x X) as (a' & A' & La). rewrite A in A'. injection A' as <-.
  destruct (f2_nth _ _ _ L j y Y) as (b' & B' & Lb). rewrite B in B'. injection B' as <-.
  rewrite (fp_inj a b Fa Fb). apply (label_cases a x Ia) in La. apply (label_cases b y Ib) in Lb. split.
  - intros E. injection E as E1 E2 E3. destruct La as [[Ra Ta]|[Ra ->]], Lb as [[Rb Tb]|[Rb ->]]; try (rewrite E1 in *; contradiction).
    + destruct Ta as (so & sc & No & Nc & ->), Tb as (so' & sc' & No' & Nc' & ->). rewrite E2 in No. rewrite E3 in Nc.
      rewrite E1, (numeral_unique so so' _ No No'), (numeral_unique sc sc' _ Nc Nc'). reflexivity.
    + exact E1.
  - intros ->. destruct La as [[Ra Ta]|[Ra Ea]], Lb as [[Rb Tb]|[Rb Eb]].
    + exact (dotted_inj _ _ _ _ _ _ _ Ta Tb).
    + exfalso. apply Db. rewrite <- Eb. exact (dotted_dot _ _ _ _ Ta).
    + exfalso. apply Da. rewrite <- Ea. exact (dotted_dot _ _ _ _ Tb).
    + assert (cl_name a = cl_name b) as En by congruence. destruct (Nat.eq_dec i j) as [->|N]; [congruence|].
      exfalso. apply Ra. exact (nth_repeated cs i j a b A B En N).
Qed.
Lemma label_in l : In l ls -> exists c, In c cs /\ ((repeated cs (cl_name c) /\ dotted (cl_name c) (cl_origin c) (cl_copy c) l) \/ l = cl_name c).
Proof.
  intros I. apply In_nth_error in I as [i I]. destruct (f2_nth _ _ _ L i l I) as (c & C & Lc). apply nth_error_In in C.
  exists c. split; [exact C|]. apply (label_cases c l C) in Lc. tauto.
Qed.
Lemma split_dot a b s t : ~ In 46 a -> ~ In 46 b -> a ++ 46 :: s = b ++ 46 :: t -> a = b /\ s = t.
Proof.
  revert b. induction a as [|x a IH]; intros [|y b] A B E; cbn in E.
  - injection E as E. auto.
  - exfalso. injection E as E1 E2. apply B. left. congruence.
  - exfalso. injection E as E1 E2. apply A. left. congruence.
  - injection E as -> E. destruct (IH b) as [-> ->]; [intros I; apply A; right; exact I | intros I; apply B; right; exact I | exact E | auto].
Qed.
Lemma labels_tidy : tidy (map cl_fp cs) ls.
Proof.
  assert (forall l, In l ls -> ~ In l (map cl_fp cs)) as Dj.
  { intros l I J. apply in_map_iff in J as (c' & J & Ic'). destruct (plain_in c' Ic') as ((o & k & O & K & E) & _). rewrite J in E.
    destruct (label_in l I) as (c & Ic & [[_ (so & sc & No & Nc & Ed)]| ->]); destruct (plain_in c Ic) as (_ & _ & _ & D & _).
    - rewrite E in Ed. change (map b2z (text "T.CHANNEL-I.")) with ([84] ++ 46 :: [67; 72; 65; 78; 78; 69; 76; 45; 73; 46]) in Ed.
      change (map b2z (text ".")) with [46] in Ed. cbn [app] in Ed. rewrite (app_comm_cons _ _ 46) in Ed.
      change (84 :: 46 :: ?r) with ([84] ++ 46 :: r) in Ed.
      match type of Ed with ?u = _ => match u with 84 :: 46 :: ?r => change u with ([84] ++ 46 :: r) in Ed end | _ => idtac end.
      apply split_dot in Ed as [_ Ed]; [| cbn; intros [?|[]]; lia | exact D].
      destruct so as [|d so]; [destruct No as [No _]; contradiction|]. cbn [map app] in Ed. injection Ed as Ed _.
      assert (48 <= b2z d <= 57) by (apply (numeral_chars (d :: so) _ _ No); left; reflexivity). lia.
    - apply D. rewrite E. right. left. reflexivity. }
  assert (forall x, In x (FRAMENO :: ls ++ map cl_fp cs) -> ~ In 40 x) as NP.
  { intros x I. destruct I as [<-|I]; [cbn; intuition lia|]. apply in_app_or in I as [I|I].
    - destruct (label_in x I) as (c & Ic & [[_ (so & sc & No & Nc & ->)]| ->]); destruct (plain_in c Ic) as (_ & _ & _ & _ & P); [|exact P].
      intros J. repeat (apply in_app_or in J as [J|J]); [exact (P J) | cbn in J; lia | apply (numeral_chars _ _ _ No) in J; lia | cbn in J; lia | apply (numeral_chars _ _ _ Nc) in J; lia].
    - apply in_map_iff in I as (c & <- & Ic). destruct (plain_in c Ic) as ((o & k & O & K & ->) & _ & _ & _ & P).
      intros J. repeat (apply in_app_or in J as [J|J]).
      + cbn in J. intuition lia.
      + exact (P J).
      + cbn in J. intuition lia.
      + apply (numeral_chars _ _ _ O) in J. lia.
      + cbn in J. intuition lia.
      + apply (numeral_chars _ _ _ K) in J. lia. }
  split; [|split; [exact Dj|split; [|split]]].
  - intros i j a b x y A B X Y. apply fps_nth in A as (ca & A & <-). apply fps_nth in B as (cb & B & <-). exact (labels_same i j ca cb x y A B X Y).
  - intros x y n _ _ N I. apply (NP y I). destruct N as (s & _ & ->). apply in_or_app. right. left. reflexivity.
  - intros I. apply in_app_or in I as [I|I].
    + destruct (label_in _ I) as (c & Ic & [[_ T]|E]); destruct (plain_in c Ic) as (_ & _ & F & _); [|congruence].
      apply dotted_dot in T. cbn in T. intuition lia.
    + apply in_map_iff in I as (c & E & Ic). destruct (plain_in c Ic) as ((o & k & _ & _ & E') & _). rewrite E' in E. discriminate.
  - intros I. apply in_app_or in I as [I|I].
    + destruct (label_in _ I) as (c & Ic & [[_ T]|E]); destruct (plain_in c Ic) as (_ & N & _ & _); [|congruence]. apply dotted_dot in T. destruct T.
    + apply in_map_iff in I as (c & E & Ic). destruct (plain_in c Ic) as ((o & k & _ & _ & E') & _). rewrite E' in E. discriminate.
Qed.
Lemma labels_distinct : NoDup (map identity cs) -> NoDup (FRAMENO :: ls ++ map cl_fp cs).
Proof.
  intros N. destruct labels_tidy as (T & Dj & _ & NF & _). constructor; [exact NF|].
  assert (NoDup (map cl_fp cs)) as Nf.
  { clear - N H. induction cs as [|c l IH]; cbn [map] in *; [constructor|]. inversion N as [|? ? N1 N2]; subst. inversion H as [|? ? P1 P2]; subst. constructor; [|apply IH; assumption].
    intros I. apply N1. apply in_map_iff in I as (c' & E & I). apply in_map_iff. exists c'. split; [|exact I].
    apply fp_inj; [apply (proj1 (Forall_forall _ _) P2 c' I) | apply P1 | exact E]. }
  assert (NoDup ls) as Nl.
  { apply NoDup_nth_error. intros i j Hi E. destruct (nth_error ls i) as [x|] eqn:X; [|apply nth_error_Some in Hi; contradiction]. symmetry in E.
    destruct (f2_nth _ _ _ L i x X) as (a & A & _). destruct (f2_nth _ _ _ L j x E) as (b & B & _).
    pose proof (proj2 (labels_same i j a b x x A B X E) eq_refl) as F.
    apply (proj1 (NoDup_nth_error (map cl_fp cs)) Nf).
    - apply nth_error_Some. rewrite nth_error_map, A. discriminate.
    - rewrite !nth_error_map, A, B. cbn. congruence. }
  clear - Nl Nf Dj. induction Nl as [|x l X _ IH]; [exact Nf|]. cbn [app]. constructor.
  - intros I. apply in_app_or in I as [I|I]; [contradiction | exact (Dj x (or_introl eq_refl) I)].
  - apply IH. intros y I. apply Dj. right. exact I.
Qed.
End plain.
Lemma labels_exist cs : exists ls, labels default_label cs ls.
Proof.
  unfold labels. assert (forall p, exists ls, Forall2 (label_of default_label cs) p ls) as W; [|apply W].
  induction p as [|c p [ls IH]]; [exists []; constructor|].
  assert (exists l, label_of default_label cs c l) as [l Hl].
  { destruct (Nat.ltb_spec 1 (cnt (cl_name c) cs)) as [C|C].
    - eexists. left. split; [apply (cnt_repeated default_label), C | reflexivity].
    - exists (cl_name c). right. split; [intros R; apply (cnt_repeated default_label) in R; lia | reflexivity]. }
  exists (l :: ls). constructor; assumption.
Qed.
