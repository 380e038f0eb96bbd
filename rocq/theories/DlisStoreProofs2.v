(** Proofs about the object store: the cache. *)
From Coq Require Import Permutation.
From Verif Require Import Bytes BytesProofs Stream DlisTypes DlisRecords RecordsProofs3 CommonPy DlisStore SpecDlisStore DlisStoreProofs.
Local Open Scope Z_scope.

Section cache.
Variable dec : bytes -> pystr.
Variable enc : pystr -> bytes.
Variable esc : severity -> bool.
Variable set_order : list pystr -> list pystr.
Variable sets : list object_set.
Hypothesis loaded : as_loaded sets.
Hypothesis parses : parsable sets.
Hypothesis order : a_set_order set_order.

Local Notation selected := (selected dec).
Local Notation selected_raises := (selected_raises dec esc).
Local Notation promote := (promote dec).
Local Notation po_name := (po_name dec).
Local Notation get_item := (get_item dec enc esc).
Local Notation store_find := (store_find dec enc esc set_order).
Local Notation kept := (kept dec enc).

Definition all_of (t : pystr) : list pyobject := map promote (selected (pystr_eqb t) (fun _ => true) sets).
Definition entry_ok (t : pystr) (d : list (pystr * list pyobject)) : Prop :=
  selected_raises (pystr_eqb t) sets = false /\ NoDup (map fst d) /\
  (forall k v, In (k, v) d -> v = filter (fun x => pystr_eqb k (po_name x)) (all_of t)) /\
  (forall x, In x (all_of t) -> In (po_name x) (map fst d)).
Definition sane (st : store) : Prop :=
  Forall2 same_set sets (st_pool st) /\ forall t d, dict_get t (st_cache st) = Some d -> entry_ok t d.

Lemma never_ub : forall s, In s sets -> parse_set s <> UB.
Proof. intros s I. exact (proj1 (Forall_forall _ _) parses s I). Qed.

Lemma pool_result f type name p : Forall2 same_set sets p ->
  Forall2 same_set sets (fst (pool_get esc (fun a b => Some (f a b)) type name p)) /\
  snd (snd (pool_get esc (fun a b => Some (f a b)) type name p)) =
  if existsb (fun s => f type (os_type s) && raising esc s) sets then Exn
  else Ok (flat_map (fun s => filter (name_matches f name) (objects_in s)) (filter (fun s => f type (os_type s)) sets)).
Proof.
  intros H. destruct (pool_get_same esc (fun a b => Some (f a b)) type name sets p H) as [E1 E2]. split; [exact E2|].
  rewrite E1. apply pool_get_result. exact never_ub.
Qed.

Lemma in_pool_total m f : (forall p c, pm_match m p c = Some (f p c)) ->
  forall esc type name p, pool_get esc (in_pool dec m) type name p = pool_get esc (fun a b => Some (f (dec a) (dec b))) type name p.
Proof.
  intros H e type name p. induction p as [|s p IH]; cbn [pool_get]; [reflexivity|].
  unfold in_pool at 1. rewrite H, IH. destruct (f _ _); [|reflexivity]. destruct (parse_set s) as [s'| | |]; try reflexivity.
  destruct name as [n|]; [|reflexivity].
  assert (E : fold_right (fun (o : object) (acc : option (list object)) => do b <- in_pool dec m n (ob_id (obj_name o)); do acc0 <- acc; Some (if b then o :: acc0 else acc0)) (Some []) (os_objs s')
    = fold_right (fun (o : object) (acc : option (list object)) => do b <- Some (f (dec n) (dec (ob_id (obj_name o)))); do acc0 <- acc; Some (if (b : bool) then o :: acc0 else acc0)) (Some []) (os_objs s')).
  { generalize (os_objs s') as os. induction os as [|o os IHo]; cbn [fold_right]; [reflexivity|]. rewrite IHo. unfold in_pool at 1. rewrite H. reflexivity. }
  rewrite E. reflexivity.
Qed.

Lemma by_name_snoc l o : by_name dec (l ++ [o]) =
  dict_put (po_name o) (match dict_get (po_name o) (by_name dec l) with Some l => l | None => [] end ++ [o]) (by_name dec l).
Proof. unfold by_name. rewrite fold_left_app. reflexivity. Qed.

Lemma by_name_ok l : NoDup (map fst (by_name dec l)) /\
  (forall k v, In (k, v) (by_name dec l) -> v = filter (fun x => pystr_eqb k (po_name x)) l) /\
  (forall x, In x l -> In (po_name x) (map fst (by_name dec l))).
Proof.
  induction l as [|o l IH] using rev_ind; [split; [constructor|split; [intros ? ? []|intros ? []]]|].
  destruct IH as (N & V & K). rewrite by_name_snoc. split; [apply nodup_put; exact N|]. split.
  - intros k v I. apply in_get in I; [|apply nodup_put; exact N]. rewrite filter_app. cbn [filter].
    destruct (pystr_eqb k (po_name o)) eqn:E.
    + apply pystr_eqb_spec in E. subst k. rewrite get_put_same in I. injection I as <-. f_equal.
      destruct (dict_get (po_name o) (by_name dec l)) as [v'|] eqn:G; [apply V; apply get_in; exact G|].
      apply get_none in G. symmetry. clear V N. revert K G. generalize (by_name dec l) as d. intros d K G.
      induction l as [|x l IHl]; cbn [filter]; [reflexivity|]. rewrite pystr_eqb_neq.
      * apply IHl. intros y Y. apply K. right. exact Y.
      * intros E. apply G. rewrite E. apply K. left. reflexivity.
    + rewrite app_nil_r. rewrite get_put_other in I by (intros ->; rewrite pystr_eqb_refl in E; discriminate).
      apply V. apply get_in. exact I.
  - intros x I. apply keys_put. apply in_app_iff in I as [I|[<-|[]]]; [right; apply K; exact I|left; reflexivity].
Qed.

Lemma select_all t : flat_map (fun s => filter (name_matches (fun a b => pystr_eqb (dec a) (dec b)) None) (objects_in s))
    (filter (fun s => pystr_eqb (dec (enc t)) (dec (os_type s))) sets) = selected (pystr_eqb (dec (enc t))) (fun _ => true) sets.
Proof. reflexivity. Qed.

Lemma get_item_ok st t : sane st -> kept t ->
  let r := get_item st t in
  sane (fst r) /\ st_caching (fst r) = st_caching st /\
  (selected_raises (pystr_eqb t) sets = true -> snd (snd r) = Exn) /\
  (selected_raises (pystr_eqb t) sets = false ->
   exists d, snd (snd r) = Ok d /\ entry_ok t d /\ (st_caching st = true -> dict_get t (st_cache (fst r)) = Some d)).
Proof.
  intros [P C] K. cbv zeta. unfold DlisStore.get_item. destruct (dict_get t (st_cache st)) as [d|] eqn:G.
  - pose proof (C t d G) as E. cbn [fst snd ret]. split; [split; assumption|]. split; [reflexivity|]. split.
    + intros R. destruct E as [E _]. congruence.
    + intros _. exists d. auto.
  - rewrite (in_pool_total exact pystr_eqb (fun _ _ => eq_refl)).
    destruct (pool_result (fun a b => pystr_eqb (dec a) (dec b)) (enc t) None (st_pool st) P) as [P' R].
    destruct (pool_get _ _ _ _ (st_pool st)) as [pool [l r]]. cbn [fst snd] in P', R.
    rewrite select_all in R. change (existsb _ sets) with (selected_raises (pystr_eqb (dec (enc t))) sets) in R. unfold SpecDlisStore.kept in K. rewrite K in R.
    destruct (selected_raises (pystr_eqb t) sets) eqn:SR; subst r; cbn [fst snd].
    + split; [split; [exact P'|exact C]|]. split; [reflexivity|]. split; [reflexivity|discriminate].
    + set (d := by_name dec _). assert (E : entry_ok t d).
      { split; [exact SR|]. exact (by_name_ok (all_of t)). }
      cbn [with_pool st_caching]. split; [|split; [|split; [discriminate|intros _; exists d; split; [reflexivity|split; [exact E|]]]]].
      * destruct (st_caching st); (split; [exact P'|]); [|exact C].
        cbn [with_cache st_cache with_pool]. intros t' d' G'. destruct (pystr_eqb t' t) eqn:Et.
        -- apply pystr_eqb_spec in Et. subst t'. rewrite get_put_same in G'. injection G' as <-. exact E.
        -- rewrite get_put_other in G' by (intros ->; rewrite pystr_eqb_refl in Et; discriminate). apply C. exact G'.
      * destruct (st_caching st) eqn:CS; cbn [with_cache with_pool st_caching]; exact CS.
      * intros CS. rewrite CS. cbn [with_cache st_cache]. apply get_put_same.
Qed.

(** ** Lookup by name *)
Lemma entry_get t d n : entry_ok t d ->
  match dict_get n d with Some l => l | None => [] end = filter (fun x => pystr_eqb n (po_name x)) (all_of t).
Proof.
  intros (_ & N & V & K). destruct (dict_get n d) as [l|] eqn:G; [apply V; apply get_in; exact G|].
  apply get_none in G. revert K. generalize (all_of t) as l. induction l as [|x l IH]; intros K; cbn [filter]; [reflexivity|].
  rewrite pystr_eqb_neq; [apply IH; intros y Y; apply K; right; exact Y|]. intros ->. apply G. apply K. left. reflexivity.
Qed.
Lemma entry_default t d n : entry_ok t d -> dict_get n d = None -> entry_ok t (dict_put n [] d).
Proof.
  intros E G. pose proof (entry_get t d n E) as F. rewrite G in F. destruct E as (R & N & V & K).
  split; [exact R|]. split; [apply nodup_put; exact N|]. split.
  - intros k v I. apply in_get in I; [|apply nodup_put; exact N]. destruct (pystr_eqb k n) eqn:Ek.
    + apply pystr_eqb_spec in Ek. subst k. rewrite get_put_same in I. congruence.
    + rewrite get_put_other in I by (intros ->; rewrite pystr_eqb_refl in Ek; discriminate). apply V. apply get_in. exact I.
  - intros x I. apply keys_put. right. apply K. exact I.
Qed.

Lemma map_filter {A B} (f : A -> B) (g : B -> bool) l : filter g (map f l) = map f (filter (fun x => g (f x)) l).
Proof. induction l as [|x l IH]; cbn; [reflexivity|]. destruct (g (f x)); cbn; rewrite IH; reflexivity. Qed.
Lemma flat_filter {A B} (f : A -> list B) (g : B -> bool) l : filter g (flat_map f l) = flat_map (fun x => filter g (f x)) l.
Proof. induction l as [|x l IH]; cbn; [reflexivity|]. rewrite filter_app, IH. reflexivity. Qed.

Lemma named_all t (fn : pystr -> bool) :
  filter (fun x => fn (po_name x)) (all_of t) = map promote (selected (pystr_eqb t) fn sets).
Proof.
  unfold all_of. rewrite map_filter. f_equal. unfold SpecDlisStore.selected. rewrite flat_filter.
  induction (filter _ sets) as [|s l IH]; cbn [flat_map]; [reflexivity|]. rewrite IH. f_equal.
  rewrite filter_filter. reflexivity.
Qed.

(** ** Collecting *)
Lemma filter_raising_total {A} (f : A -> option bool) g l : (forall x, In x l -> f x = Some (g x)) -> filter_raising f l = Some (filter g l).
Proof.
  induction l as [|x l IH]; intros H; cbn [filter_raising filter]; [reflexivity|].
  rewrite H by (left; reflexivity). cbn [obind]. rewrite IH by (intros; apply H; right; assumption). reflexivity.
Qed.

Lemma collect_ok m f name ts : (forall p c, pm_match m p c = Some (f p c)) -> Forall kept ts ->
  forall st, sane st -> st_caching st = true ->
  let r := collect dec enc esc m name ts st in
  sane (fst r) /\ st_caching (fst r) = true /\
  (existsb (fun t => selected_raises (pystr_eqb t) sets) ts = true -> snd (snd r) = Exn) /\
  (existsb (fun t => selected_raises (pystr_eqb t) sets) ts = false ->
   exists objs, snd (snd r) = Ok objs /\
     Permutation objs (flat_map (fun t => map promote (selected (pystr_eqb t) (wanted f name) sets)) ts)).
Proof.
  intros M Kt. induction Kt as [|t ts K Kt IH]; intros st SA CA; cbv zeta.
  - cbn [collect fst snd existsb flat_map ret]. split; [exact SA|]. split; [exact CA|]. split; [discriminate|].
    intros _. exists []. split; [reflexivity|constructor].
  - cbn [collect existsb flat_map]. pose proof (get_item_ok st t SA K) as G. cbv zeta in G.
    destruct (get_item st t) as [st1 [l r]]. cbn [fst snd] in G. destruct G as (S1 & C1 & G1 & G2). rewrite CA in C1.
    destruct (selected_raises (pystr_eqb t) sets) eqn:SR; cbn [orb].
    + specialize (G1 eq_refl). subst r. cbn [fst snd]. split; [exact S1|]. split; [exact C1|]. split; [reflexivity|discriminate].
    + destruct (G2 eq_refl) as (d & -> & E & _).
      assert (FR : filter_raising (fun e : pystr * list pyobject => match name with None => Some true | Some n => pm_match m n (fst e) end) d
                   = Some (filter (fun e => wanted f name (fst e)) d)).
      { apply filter_raising_total. intros x _. destruct name as [n|]; [apply M|reflexivity]. }
      rewrite FR. specialize (IH st1 S1 C1). cbv zeta in IH.
      destruct (collect dec enc esc m name ts st1) as [st2 [l2 r2]]. cbn [fst snd] in IH |- *.
      destruct IH as (S2 & C2 & I1 & I2). split; [exact S2|]. split; [exact C2|]. split.
      * intros X. rewrite (I1 X). reflexivity.
      * intros X. destruct (I2 X) as (objs & -> & P). cbn [bind ret snd]. eexists. split; [reflexivity|].
        apply Permutation_app; [|exact P]. rewrite <- named_all. destruct E as (_ & N & V & Kx).
        apply (group_perm po_name (wanted f name) d N (all_of t)); assumption.
Qed.

(** the types: each once *)
Lemma types_perm (g : pystr -> bool) (fn : pystr -> bool) ts : NoDup ts ->
  (forall s, In s sets -> g (dec (os_type s)) = true -> In (dec (os_type s)) ts) -> (forall t, In t ts -> g t = true) ->
  Permutation (flat_map (fun t => map promote (selected (pystr_eqb t) fn sets)) ts) (map promote (selected g fn sets)).
Proof.
  intros N. unfold SpecDlisStore.selected. generalize sets as ss. clear - N.
  assert (Z0 : forall ss, (forall s, In s ss -> g (dec (os_type s)) = false) -> filter (fun s => g (dec (os_type s))) ss = []).
  { induction ss as [|s ss IH]; intros H; cbn; [reflexivity|]. rewrite H by (left; reflexivity). apply IH. intros; apply H; right; assumption. }
  intros ss IN G.
  assert (FP : Permutation (flat_map (fun t => filter (fun s => pystr_eqb t (dec (os_type s))) ss) ts) (filter (fun s => g (dec (os_type s))) ss)).
  { revert ss IN. induction N as [|t ts NI N IH]; intros ss IN; cbn [flat_map].
    - rewrite Z0; [constructor|]. intros s I. destruct (g _) eqn:E; [|reflexivity]. exact (False_ind _ (IN s I E)).
    - set (rest := filter (fun s => negb (pystr_eqb t (dec (os_type s)))) ss).
      assert (R : Permutation (flat_map (fun t => filter (fun s => pystr_eqb t (dec (os_type s))) rest) ts) (filter (fun s => g (dec (os_type s))) rest)).
      { apply IH; [intros x I; apply G; right; exact I|]. intros s I E. unfold rest in I. apply filter_In in I as [I X].
        destruct (IN s I E) as [Y|Y]; [|exact Y]. rewrite Y, pystr_eqb_refl in X. discriminate. }
      assert (ER : flat_map (fun t => filter (fun s => pystr_eqb t (dec (os_type s))) rest) ts = flat_map (fun t => filter (fun s => pystr_eqb t (dec (os_type s))) ss) ts).
      { assert (Y : forall us, ~ In t us -> flat_map (fun t => filter (fun s => pystr_eqb t (dec (os_type s))) rest) us = flat_map (fun t => filter (fun s => pystr_eqb t (dec (os_type s))) ss) us).
        { induction us as [|u us IHu]; intros NU; cbn [flat_map]; [reflexivity|]. rewrite IHu by (intros X; apply NU; right; exact X). f_equal.
          unfold rest. rewrite filter_filter. apply filter_ext_in'. intros s _. destruct (pystr_eqb u (dec (os_type s))) eqn:E; [|apply andb_false_r].
          apply pystr_eqb_spec in E. rewrite pystr_eqb_neq; [reflexivity|]. intros ->. apply NU. left. exact E. }
        apply Y. exact NI. }
      rewrite <- ER, R. rewrite (filter_perm (fun s => pystr_eqb t (dec (os_type s))) (filter (fun s => g (dec (os_type s))) ss)).
      apply Permutation_app.
      + rewrite filter_filter. erewrite filter_ext_in'; [apply Permutation_refl|]. intros s _. cbn beta.
        destruct (pystr_eqb t (dec (os_type s))) eqn:E; [|rewrite andb_false_r; reflexivity]. apply pystr_eqb_spec in E.
        rewrite <- E, G by (left; reflexivity). reflexivity.
      + unfold rest. rewrite !filter_filter. erewrite filter_ext_in'; [apply Permutation_refl|]. intros s _. cbn beta. apply andb_comm. }
  assert (FM : forall a b : list object_set, Permutation a b ->
    Permutation (flat_map (fun s => filter (fun o => fn (dec (ob_id (obj_name o)))) (objects_in s)) a)
                (flat_map (fun s => filter (fun o => fn (dec (ob_id (obj_name o)))) (objects_in s)) b)).
  { intros a b H. apply Permutation_flat_map. exact H. }
  rewrite <- (Permutation_map promote (FM _ _ FP)).
  clear. induction ts as [|t ts IH]; cbn [flat_map map]; [constructor|]. rewrite IH, <- map_app, <- flat_map_app. apply Permutation_refl.
Qed.
End cache.
