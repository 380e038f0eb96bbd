(** Proofs about the object store. *)
From Coq Require Import Permutation.
From Verif Require Import Bytes BytesProofs Stream DlisTypes DlisRecords RecordsProofs3 CommonPy DlisStore SpecDlisStore.
Local Open Scope Z_scope.

Lemma bytes_eqb_spec a b : bytes_eqb a b = true <-> a = b.
Proof.
  revert b; induction a as [|x a IH]; intros [|y b]; cbn; try (split; congruence).
  rewrite andb_true_iff, IH. split.
  - intros [E ->]. f_equal. apply Byte.byte_dec_bl. exact E.
  - intros [= -> ->]. split; [apply Byte.byte_dec_lb; reflexivity|reflexivity].
Qed.

Lemma pystr_eqb_spec a b : pystr_eqb a b = true <-> a = b.
Proof.
  destruct a as [u|s], b as [v|t]; cbn; try (split; congruence).
  - destruct (list_eq_dec Z.eq_dec u v); split; congruence.
  - rewrite bytes_eqb_spec. split; congruence.
Qed.
Lemma pystr_eqb_refl a : pystr_eqb a a = true.
Proof. apply pystr_eqb_spec. reflexivity. Qed.
Lemma pystr_eqb_neq a b : a <> b -> pystr_eqb a b = false.
Proof. intros N. destruct (pystr_eqb a b) eqn:E; [|reflexivity]. apply pystr_eqb_spec in E. congruence. Qed.

(** ** Dictionaries *)
Section dicts.
Context {A : Type}.
Implicit Types (d : list (pystr * A)).

Lemma get_put_same k (v : A) d : dict_get k (dict_put k v d) = Some v.
Proof.
  induction d as [|[k' v'] d IH]; cbn; [rewrite pystr_eqb_refl; reflexivity|].
  destruct (pystr_eqb k k') eqn:E; cbn; rewrite E; [reflexivity|exact IH].
Qed.
Lemma get_put_other k k' (v : A) d : k <> k' -> dict_get k (dict_put k' v d) = dict_get k d.
Proof.
  intros N. induction d as [|[k2 v2] d IH]; cbn; [rewrite pystr_eqb_neq by exact N; reflexivity|].
  destruct (pystr_eqb k' k2) eqn:E; cbn.
  - apply pystr_eqb_spec in E. subst k2. rewrite pystr_eqb_neq by exact N. reflexivity.
  - rewrite IH. reflexivity.
Qed.
Lemma keys_put k (v : A) d : forall x, In x (map fst (dict_put k v d)) <-> x = k \/ In x (map fst d).
Proof.
  intros x. induction d as [|[k' v'] d IH]; cbn; [intuition congruence|].
  destruct (pystr_eqb k k') eqn:E; cbn.
  - apply pystr_eqb_spec in E. subst k'. intuition congruence.
  - rewrite IH. tauto.
Qed.
Lemma nodup_put k (v : A) d : NoDup (map fst d) -> NoDup (map fst (dict_put k v d)).
Proof.
  induction d as [|[k' v'] d IH]; cbn; intros N; [repeat constructor; intros []|].
  inversion N as [|? ? NI N']; subst. destruct (pystr_eqb k k') eqn:E; cbn; [constructor; assumption|].
  constructor; [|apply IH; exact N']. rewrite keys_put. intros [<-|I]; [|contradiction].
  rewrite pystr_eqb_refl in E. discriminate.
Qed.
Lemma get_in k (v : A) d : dict_get k d = Some v -> In (k, v) d.
Proof.
  induction d as [|[k' v'] d IH]; cbn; [discriminate|]. destruct (pystr_eqb k k') eqn:E.
  - apply pystr_eqb_spec in E. intros [= ->]. left. congruence.
  - intros H. right. apply IH. exact H.
Qed.
Lemma in_get k (v : A) d : NoDup (map fst d) -> In (k, v) d -> dict_get k d = Some v.
Proof.
  induction d as [|[k' v'] d IH]; cbn; intros N []; inversion N as [|? ? NI N']; subst.
  - injection H as -> ->. rewrite pystr_eqb_refl. reflexivity.
  - rewrite pystr_eqb_neq; [apply IH; assumption|]. intros ->. apply NI. apply in_map_iff. exists (k', v). auto.
Qed.
Lemma get_none k d : dict_get k d = None <-> ~ In k (map fst d).
Proof.
  induction d as [|[k' v'] d IH]; cbn; [tauto|]. destruct (pystr_eqb k k') eqn:E.
  - apply pystr_eqb_spec in E. subst. split; [discriminate|tauto].
  - rewrite IH. split; intros H; [intros [->|I]; [rewrite pystr_eqb_refl in E; discriminate|tauto]|tauto].
Qed.
End dicts.

(** ** Grouping *)
Lemma filter_perm {A} (f : A -> bool) l : Permutation l (filter f l ++ filter (fun x => negb (f x)) l).
Proof.
  induction l as [|x l IH]; cbn; [constructor|]. destruct (f x); cbn; [constructor; exact IH|].
  rewrite IH at 1. apply Permutation_middle.
Qed.
Lemma filter_filter {A} (f g : A -> bool) l : filter f (filter g l) = filter (fun x => g x && f x) l.
Proof. induction l as [|x l IH]; cbn; [reflexivity|]. destruct (g x) eqn:E; cbn; rewrite ?IH; reflexivity. Qed.
Lemma filter_ext_in' {A} (f g : A -> bool) l : (forall x, In x l -> f x = g x) -> filter f l = filter g l.
Proof. intros H. induction l as [|x l IH]; cbn; [reflexivity|]. rewrite H by (left; reflexivity). rewrite IH; [reflexivity|]. intros; apply H; right; assumption. Qed.

Lemma group_perm {A} (key : A -> pystr) (g : pystr -> bool) (d : list (pystr * list A)) : NoDup (map fst d) ->
  forall l, (forall k v, In (k, v) d -> v = filter (fun x => pystr_eqb k (key x)) l) ->
  (forall x, In x l -> In (key x) (map fst d)) ->
  Permutation (flat_map snd (filter (fun e => g (fst e)) d)) (filter (fun x => g (key x)) l).
Proof.
  induction d as [|[k v] d IH]; intros N l V K.
  - destruct l as [|x l]; [constructor|]. exfalso. exact (K x (or_introl eq_refl)).
  - inversion N as [|? ? NI N']; subst.
    set (rest := filter (fun x => negb (pystr_eqb k (key x))) l).
    assert (R : Permutation (flat_map snd (filter (fun e => g (fst e)) d)) (filter (fun x => g (key x)) rest)).
    { apply IH; [exact N'| |].
      - intros k' v' I. rewrite (V k' v' (or_intror I)). unfold rest. rewrite filter_filter. apply filter_ext_in'.
        intros x _. destruct (pystr_eqb k' (key x)) eqn:E'; [|rewrite andb_false_r; reflexivity].
        apply pystr_eqb_spec in E'. rewrite pystr_eqb_neq; [reflexivity|]. intros ->. apply NI. apply in_map_iff.
        exists (k', v'). subst. cbn. auto.
      - intros x I. unfold rest in I. apply filter_In in I as [I P]. destruct (K x I) as [E|I']; [|exact I'].
        cbn [fst] in E. subst k. rewrite pystr_eqb_refl in P. discriminate P. }
    assert (P : Permutation (filter (fun x => g (key x)) l)
                 (filter (fun x => g (key x)) (filter (fun x => pystr_eqb k (key x)) l) ++ filter (fun x => g (key x)) rest)).
    { rewrite <- filter_app. assert (F : forall a b : list A, Permutation a b -> Permutation (filter (fun x => g (key x)) a) (filter (fun x => g (key x)) b)).
      { clear. intros a b H. induction H; cbn; try (destruct (g (key x))); try (destruct (g (key y))); auto using perm_swap; try (constructor; assumption). eapply Permutation_trans; eassumption. }
      apply F. apply filter_perm. }
    rewrite P. cbn [filter fst]. specialize (V k v (or_introl eq_refl)). destruct (g k) eqn:Eg.
    + cbn [flat_map snd]. apply Permutation_app; [|exact R]. subst v. rewrite filter_filter.
      erewrite filter_ext_in'; [apply Permutation_refl|]. intros x _. cbn beta. destruct (pystr_eqb k (key x)) eqn:E; [|reflexivity].
      apply pystr_eqb_spec in E. rewrite <- E, Eg. reflexivity.
    + assert (Z0 : forall m, filter (fun x => g (key x)) (filter (fun x => pystr_eqb k (key x)) m) = []).
      { intros m. induction m as [|x m IHm]; cbn [filter]; [reflexivity|]. destruct (pystr_eqb k (key x)) eqn:E; [|exact IHm].
        cbn [filter]. apply pystr_eqb_spec in E. rewrite <- E, Eg. exact IHm. }
      rewrite Z0. exact R.
Qed.

(** ** The pool *)
Lemma pool_get_result f esc type name p :
  (forall s, In s p -> parse_set s <> UB) ->
  snd (snd (pool_get esc (fun a b => Some (f a b)) type name p)) =
  if existsb (fun s => f type (os_type s) && raising esc s) p then Exn
  else Ok (flat_map (fun s => filter (name_matches f name) (objects_in s)) (filter (fun s => f type (os_type s)) p)).
Proof.
  intros Hub. induction p as [|s p IH]; cbn [pool_get filter flat_map existsb]; [reflexivity|].
  specialize (IH (fun x Hx => Hub x (or_intror Hx))).
  destruct (f type (os_type s)) eqn:Ef; cbn [andb orb].
  - cbn [flat_map]. specialize (Hub s (or_introl eq_refl)). unfold raising at 1, objects_in at 1.
    destruct (parse_set_never s) as [N1 N2].
    destruct (parse_set s) as [s'| | |]; try congruence.
    assert (Em : (match name with
                  | None => Some (os_objs s')
                  | Some n =>
                      fold_right (fun o acc =>
                        do b <- (fun a b => Some (f a b)) n (ob_id (obj_name o));
                        do acc <- acc;
                        Some (if (b : bool) then o :: acc else acc)) (Some []) (os_objs s')
                  end) = Some (filter (name_matches f name) (os_objs s'))).
    { destruct name as [n|]; [exact (fold_filter (f n) (os_objs s'))|]. unfold name_matches.
      rewrite filter_true. reflexivity. }
    cbv beta in Em |- *. rewrite Em.
    pose proof (report_result esc (os_log s')) as R. destruct (report_set_errors esc (os_log s')) as [lg r]. cbn [snd] in R. subst r.
    destruct (existsb _ (os_log s')); cbn [orb]; [reflexivity|].
    destruct (pool_get esc _ type name p) as [t r]. cbn [snd] in IH |- *. destruct r as [l2 [o2| | |]]; cbn [snd bind ret] in *; destruct (existsb _ p); try discriminate; congruence.
  - destruct (pool_get esc _ type name p) as [t r]. cbn [snd] in IH |- *. exact IH.
Qed.
