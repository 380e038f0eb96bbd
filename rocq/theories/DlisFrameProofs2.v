(** Proofs about the types and the layout of a frame's columns (DlisFrame.v). *)
From Verif Require Import Bytes BytesProofs Stream DlisTypes SpecTypes DlisCore SpecIo DlisIo DlisRecords SpecRecords PyBase DlisFdata SpecFdata FdataProofs
  DlisFrame SpecDlisFrame DlisObject DlisFrameProofs.
From Coq Require Import ZifyBool ZifyNat.
Local Open Scope Z_scope.

(** ** Tables *)
Lemma codes rc : 1 <= rc <= 27 -> In rc (map Z.of_nat (seq 1 27)).
Proof. intros H. apply in_map_iff. exists (Z.to_nat rc). split; [lia|]. apply in_seq. lia. Qed.
Lemma table_in {A} (t : list (Z * A)) rc x : table_get rc t = Some x -> In (rc, x) t.
Proof.
  induction t as [|[k v] t IH]; cbn [table_get]; [discriminate|]. destruct (Z.eqb_spec k rc) as [->|N].
  - intros E. injection E as ->. left. reflexivity.
  - intros E. right. apply IH, E.
Qed.
Lemma table_bounds {A} (t : list (Z * A)) rc x : forallb (fun e => (1 <=? fst e) && (fst e <=? 27)) t = true ->
  table_get rc t = Some x -> 1 <= rc <= 27.
Proof.
  intros F E. apply table_in in E. apply (proj1 (forallb_forall _ _) F) in E. cbn in E. lia.
Qed.
Lemma dtype_table_spec rc : table_get rc dtype_table = if 1 <=? rc then nth_error type_names (Z.to_nat (rc - 1)) else None.
Proof.
  destruct (Z.leb_spec 1 rc) as [L|L]; [destruct (Z.leb_spec rc 27) as [M|M]|].
  - pose proof (codes rc (conj L M)) as I. cbn in I. repeat (destruct I as [<-|I]; [reflexivity|]). destruct I.
  - destruct (table_get rc dtype_table) eqn:E; [apply (table_bounds dtype_table _ _ eq_refl) in E; lia|]. symmetry. apply nth_error_None. cbn [length type_names]. lia.
  - destruct (table_get rc dtype_table) eqn:E; [apply (table_bounds dtype_table _ _ eq_refl) in E; lia|]. reflexivity.
Qed.
Lemma fmt_table_spec rc c : table_get rc fmt_table = Some c <-> char_of rc c.
Proof.
  unfold char_of. split.
  - intros E. pose proof (table_bounds fmt_table rc c eq_refl E) as B. split; [lia|]. rewrite <- E.
    pose proof (codes rc B) as I. cbn in I. repeat (destruct I as [<-|I]; [reflexivity|]). destruct I.
  - intros [L E]. assert (rc <= 27) as M.
    { assert (Z.to_nat (rc - 1) < length format_chars)%nat as H by (apply nth_error_Some; congruence). change (length format_chars) with 27%nat in H. lia. }
    rewrite <- E. pose proof (codes rc (conj L M)) as I. cbn in I. repeat (destruct I as [<-|I]; [reflexivity|]). destruct I.
Qed.
Lemma type_widths k : forall t, nth_error type_names k = Some t -> exists w, nth_error widths k = Some w /\ np_size t = Some w /\ 0 < w.
Proof.
  intros t E. assert (k < 27)%nat as H.
  { change 27%nat with (length type_names). apply nth_error_Some. congruence. }
  assert (In k (seq 0 27)) as I by (apply in_seq; lia). cbn in I.
  repeat (destruct I as [<-|I]; [cbn in E; injection E as <-; eexists; split; [reflexivity|]; split; [reflexivity | lia]|]). destruct I.
Qed.

(** ** Sample types *)
Lemma items_elements shape : forall acc n, Forall (Z.le 0) shape -> np_items acc shape = Some n -> n = acc * elements shape.
Proof.
  induction shape as [|d t IH]; intros acc n F E; cbn [np_items elements fold_right] in *; [injection E as <-; ring|].
  inversion F as [|? ? D F']; subst. destruct (Z.eqb_spec d 0) as [->|N]; [injection E as <-; ring|].
  destruct (acc * d >=? 2 ^ 63); [discriminate|]. apply IH in E; [|exact F']. rewrite E. unfold elements. ring.
Qed.
Lemma elements_pos shape : Forall (Z.le 1) shape -> 1 <= elements shape.
Proof. induction 1 as [|d t D F IH]; cbn [elements fold_right]; [lia|]. fold (elements t). nia. Qed.
Lemma elements_nonneg shape : Forall (Z.le 0) shape -> 0 <= elements shape.
Proof. induction 1 as [|d t D F IH]; cbn [elements fold_right]; [lia|]. fold (elements t). nia. Qed.
Lemma items_ok shape : forall acc, 1 <= acc -> Forall (Z.le 1) shape -> acc * elements shape < 2 ^ 63 -> np_items acc shape = Some (acc * elements shape).
Proof.
  induction shape as [|d t IH]; intros acc A F H; cbn [np_items elements fold_right] in *; [f_equal; ring|].
  inversion F as [|? ? D F']; subst. fold (elements t) in *. pose proof (elements_pos t F') as P.
  destruct (Z.eqb_spec d 0); [lia|]. replace (acc * d >=? 2 ^ 63) with false by nia.
  rewrite IH; [f_equal; ring | nia | exact F' | lia].
Qed.

Section types.
Variable maxdims : nat.
Lemma channel_dtype_sound c t : channel_dtype maxdims c = Some t ->
  sample_type c t /\
  exists w, nth_error widths (Z.to_nat (cl_reprc c - 1)) = Some w /\ 0 < w /\ type_size t = elements (cl_dim c) * w /\
    Forall (Z.le 0) (cl_dim c) /\ elements (cl_dim c) * w < 2 ^ 31.
Proof.
  unfold channel_dtype. rewrite dtype_table_spec. destruct (Z.leb_spec 1 (cl_reprc c)) as [L|L]; [|discriminate].
  destruct (nth_error type_names (Z.to_nat (cl_reprc c - 1))) as [b|] eqn:B; [|discriminate]. cbn [obind].
  destruct (type_widths _ _ B) as (w & W & S & Pw).
  assert (w <= 1020) as Wm.
  { assert (In w widths) as I by (eapply nth_error_In; exact W). cbn in I. lia. }
  destruct (list_eq_dec Z.eq_dec (cl_dim c) [1]) as [E|N].
  - rewrite E. intros H. injection H as <-. split.
    + split; [exact L|]. split; [exact B|]. left. auto.
    + exists w. split; [exact W|]. split; [exact Pw|]. unfold type_size. cbn [fst snd np_items]. rewrite S. cbn [elements fold_right].
      split; [ring|]. split; [repeat constructor; lia | lia].
  - intros H.
    assert (np_subarray maxdims b (cl_dim c) = Some t) as H'.
    { destruct (cl_dim c) as [|[|[p|p|]|p] [|y l]]; try exact H. congruence. }
    clear H. unfold np_subarray in H'. destruct (maxdims <? length (cl_dim c))%nat; [discriminate|].
    destruct (existsb _ (cl_dim c)) eqn:X; [discriminate|]. destruct (np_items 1 (cl_dim c)) as [n|] eqn:I; [|discriminate]. cbn [obind] in H'.
    rewrite S in H'. cbn [obind] in H'. destruct (n * w >? 2 ^ 31 - 1) eqn:G; [discriminate|]. injection H' as <-.
    assert (Forall (Z.le 0) (cl_dim c)) as F.
    { apply Forall_forall. intros d Hd. destruct (Z.leb_spec 0 d) as [|Ld]; [assumption|].
      assert (existsb (fun d => (d <? 0) || (d >? 2 ^ 31 - 1)) (cl_dim c) = true) as Y; [|congruence].
      apply existsb_exists. exists d. split; [exact Hd|]. apply orb_true_iff. left. lia. }
    pose proof (items_elements _ _ _ F I) as En. split.
    + split; [exact L|]. split; [exact B|]. right. auto.
    + exists w. split; [exact W|]. split; [exact Pw|]. unfold type_size. cbn [fst snd]. rewrite S, I, En.
      split; [ring|]. split; [exact F | lia].
Qed.
Lemma dims_small dim : Forall (Z.le 1) dim -> forall d, In d dim -> d <= elements dim.
Proof.
  induction 1 as [|x t X F IH]; intros d I; [destruct I|]. cbn [elements fold_right]. fold (elements t). pose proof (elements_pos t F) as P.
  destruct I as [->|I]; [nia|]. specialize (IH d I). nia.
Qed.
Lemma channel_dtype_fits c : fits maxdims c -> exists t, channel_dtype maxdims c = Some t.
Proof.
  intros (w & L & W & M & F & B). unfold channel_dtype. rewrite dtype_table_spec. replace (1 <=? cl_reprc c) with true by lia.
  destruct (nth_error type_names (Z.to_nat (cl_reprc c - 1))) as [b|] eqn:T.
  2:{ exfalso. apply nth_error_None in T. assert (Z.to_nat (cl_reprc c - 1) < length widths)%nat by (apply nth_error_Some; congruence).
      change (length widths) with (length type_names) in H. lia. }
  cbn [obind]. destruct (type_widths _ _ T) as (w' & W' & S & Pw). rewrite W in W'. injection W' as <-.
  assert (np_subarray maxdims b (cl_dim c) = Some (b, cl_dim c)) as H.
  { pose proof (elements_pos _ F) as P. unfold np_subarray. replace (maxdims <? length (cl_dim c))%nat with false by lia.
    destruct (existsb _ (cl_dim c)) eqn:X.
    - exfalso. apply existsb_exists in X as (d & I & X). pose proof (dims_small _ F d I) as D. pose proof (proj1 (Forall_forall _ _) F d I) as D1.
      assert (elements (cl_dim c) < 2 ^ 31) by nia. lia.
    - rewrite items_ok; [|lia|exact F|nia]. cbn [obind]. rewrite S. cbn [obind]. replace (1 * elements (cl_dim c) * w >? 2 ^ 31 - 1) with false by nia. reflexivity. }
  destruct (cl_dim c) as [|[|[p|p|]|p] [|y l]]; eauto.
Qed.

(** ** Layout *)
Lemma prod_elements l : forall a, fold_left Z.mul l a = a * elements l.
Proof. induction l as [|x l IH]; intros a; cbn [fold_left elements fold_right]; [ring|]. rewrite IH. unfold elements. ring. Qed.
Lemma fmtstr_char c t f : channel_dtype maxdims c = Some t -> channel_fmtstr c = Some f ->
  exists ch, char_of (cl_reprc c) ch /\ f = repeat ch (Z.to_nat (elements (cl_dim c))).
Proof.
  intros T E. unfold channel_fmtstr in E. destruct (cl_dim c) as [|d l] eqn:D; [discriminate|]. rewrite <- D in *.
  destruct (table_get (cl_reprc c) fmt_table) as [ch|] eqn:C; [|discriminate]. cbn [obind] in E. injection E as <-.
  exists ch. split; [apply fmt_table_spec, C|]. do 2 f_equal.
  destruct (channel_dtype_sound c t T) as (_ & w & _ & Pw & _ & F & B). unfold np_prod. rewrite prod_elements, Z.mul_1_l.
  pose proof (elements_nonneg _ F). rewrite Z.mod_small; [ring|]. nia.
Qed.
Lemma char_width rc ch w : char_of rc ch -> nth_error widths (Z.to_nat (rc - 1)) = Some w -> width_of ch w.
Proof. intros [_ E] W. exists (Z.to_nat (rc - 1)). auto. Qed.
Lemma row_width_repeat ch w n : width_of ch w -> row_width (repeat ch n) (Z.of_nat n * w).
Proof.
  intros W. induction n as [|n IH]; cbn [repeat]; [constructor|]. replace (Z.of_nat (S n) * w) with (w + Z.of_nat n * w) by lia. constructor; assumption.
Qed.
Lemma row_width_app f1 n1 f2 n2 : row_width f1 n1 -> row_width f2 n2 -> row_width (f1 ++ f2) (n1 + n2).
Proof.
  intros H. induction H as [|c n f m W H IH]; intros H2; [exact H2|]. cbn [app]. rewrite <- Z.add_assoc. constructor; [exact W | apply IH, H2].
Qed.
Lemma fmtstr_width c t f : channel_dtype maxdims c = Some t -> channel_fmtstr c = Some f -> row_width f (type_size t).
Proof.
  intros T E. destruct (fmtstr_char c t f T E) as (ch & C & ->). destruct (channel_dtype_sound c t T) as (_ & w & W & _ & S & F & _).
  pose proof (elements_nonneg _ F). rewrite S. replace (elements (cl_dim c) * w) with (Z.of_nat (Z.to_nat (elements (cl_dim c))) * w) by (rewrite Z2Nat.id; lia).
  apply row_width_repeat, (char_width _ _ _ C W).
Qed.
End types.
