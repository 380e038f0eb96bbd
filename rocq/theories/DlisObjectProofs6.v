(** Proofs about metadata objects: what an attribute stands for is determined. *)
From Verif Require Import Bytes Stream PyBase DlisTypes DlisRecords CommonPy DlisStore SpecDlisStore DlisSchema DlisObject SpecDlisObject.
Local Open Scope Z_scope.

Lemma one_result : forall dec sets r l c vs xs xs' res res',
  Forall2 (turns dec sets l c) vs xs -> shaped r xs res -> Forall2 (turns dec sets l c) vs xs' -> shaped r xs' res' -> res = res'.
Proof.
  intros dec sets r l c vs xs xs' res res' T S T' S'.
  assert (TR : forall u v v', trimmed u v -> trimmed u v' -> v = v').
  { intros u v v' (a & b & E & A & B & N1 & N2) (a' & b' & E' & A' & B' & N1' & N2'). rewrite E in E'. clear u E.
    assert (W : forall a a' w w' : list Z, a ++ w = a' ++ w' -> Forall (fun c => In c white) a -> Forall (fun c => In c white) a' ->
      (forall e t, w = e :: t -> ~ In e white) -> (forall e t, w' = e :: t -> ~ In e white) -> w = w').
    { clear. induction a as [|x a IH]; intros a' w w' E A A' N N'.
      - destruct a' as [|y a']; [exact E|]. cbn [app] in E. destruct (N y (a' ++ w') E). apply Forall_cons_iff in A' as [A' _]. exact A'.
      - destruct a' as [|y a']; cbn [app] in E; [symmetry in E; destruct (N' x (a ++ w) E); apply Forall_cons_iff in A as [A _]; exact A|].
        injection E as -> E. apply Forall_cons_iff in A as [_ A]. apply Forall_cons_iff in A' as [_ A']. exact (IH a' w w' E A A' N N'). }
    assert (ALL : forall w b : list Z, (forall e t, w = e :: t -> ~ In e white) -> forall e t, w ++ b = e :: t -> w <> [] -> ~ In e white).
    { clear. intros [|x w] b N e t E NE; [congruence|]. cbn [app] in E. injection E as <- _. exact (N x w eq_refl). }
    assert (WHITE : forall a v b a' b' : list Z, a ++ v ++ b = a' ++ [] ++ b' -> Forall (fun c => In c white) a' -> Forall (fun c => In c white) b' ->
       (forall e t, v = e :: t -> ~ In e white) -> v = []).
    { clear. intros a v b a' b' E A' B' N. destruct v as [|x v]; [reflexivity|]. exfalso. apply (N x v eq_refl).
      assert (F : Forall (fun c => In c white) (a' ++ b')) by (apply Forall_app; auto). cbn [app] in E. rewrite <- E in F.
      apply Forall_app in F as [_ F]. cbn [app] in F. apply Forall_cons_iff in F as [F _]. exact F. }
    destruct v as [|x v].
    { symmetry. apply (WHITE a' v' b' a b); try assumption. symmetry. exact E'. }
    destruct v' as [|y v'].
    { apply (WHITE a (x :: v) b a' b'); assumption. }
    assert (E1 : (x :: v) ++ b = (y :: v') ++ b').
    { apply (W a a'); try assumption; intros e t EQ; (eapply ALL; [|exact EQ|discriminate]); assumption. }
    apply (f_equal (@rev Z)) in E1. rewrite !rev_app_distr in E1. apply W in E1; try (apply Forall_rev; assumption).
    - apply (f_equal (@rev Z)) in E1. rewrite !rev_involutive in E1. exact E1.
    - intros e t EQ. apply (f_equal (@rev Z)) in EQ. rewrite rev_involutive in EQ. cbn [rev] in EQ. exact (N2 _ _ EQ).
    - intros e t EQ. apply (f_equal (@rev Z)) in EQ. rewrite rev_involutive in EQ. cbn [rev] in EQ. exact (N2' _ _ EQ). }
  assert (RU : forall v t n t' n', refers dec l v t n -> refers dec l v t' n' -> t = t' /\ n = n').
  { intros v t n t' n' R R'. destruct R; inversion R'; auto. }
  assert (TU : forall v x x', turns dec sets l c v x -> turns dec sets l c v x' -> x = x').
  { intros v x x' A B. destruct A; inversion B; subst; try congruence; try reflexivity;
      try match goal with H : refers _ _ _ _ _ |- _ => inversion H; subst; fail end;
      try match goal with H : a_reference _ = true |- _ => discriminate H end.
    - match goal with H : dec s = Str ?a, H' : dec s = Str ?b |- _ => assert (a = b) by congruence; subst b end.
      f_equal. f_equal. eapply TR; eassumption.
    - match goal with H : refers dec l v t n, H' : refers dec l v ?t' ?n' |- _ => destruct (RU v t n t' n' H H') as [<- <-] end.
      match goal with H : the_object _ _ _ _ o, H' : the_object _ _ _ _ _ |- _ => destruct H as (r1 & E1 & _); destruct H' as (r2 & E2 & _) end. congruence.
    - exfalso. match goal with H : forall t n o, _ -> ~ _ |- _ => eapply H; eassumption end.
    - exfalso. match goal with H : forall t n o, _ -> ~ _ |- _ => eapply H; eassumption end. }
  assert (X : xs = xs').
  { clear S S'. revert xs' T'. induction T as [|v x vs xs T1 T IH]; intros xs' T'; inversion T'; subst; [reflexivity|]. f_equal; [eapply TU; eassumption|apply IH; assumption]. }
  subst xs'. destruct S; inversion S'; subst; try reflexivity.
  - f_equal. match goal with H : _ <-> is_false _, H' : _ <-> is_false _ |- _ => rewrite <- H' in H; revert H end. destruct b, b0; intuition congruence.
  - f_equal. apply nth_ext with (d := PNone) (d' := PNone); [congruence|]. intros i Li.
    assert (E : nth_error ws i = nth_error ws0 i) by (match goal with H : forall i, _ -> nth_error ws i = _, H' : forall i, _ -> nth_error ws0 i = _ |- _ => rewrite H, H' by lia; reflexivity end).
    rewrite <- !nth_default_eq. unfold nth_default. rewrite E. reflexivity.
Qed.
