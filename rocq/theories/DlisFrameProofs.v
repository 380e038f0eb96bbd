(** Proofs about the labels of a frame's columns (DlisFrame.v). *)
From Verif Require LisPy LisCurvesProofs5 LisPyProofs.
From Verif Require Import Bytes BytesProofs Stream DlisTypes DlisCore DlisIo DlisRecords PyBase DlisFdata SpecFdata DlisFrame SpecDlisFrame DlisObject.
From Coq Require Import ZifyBool ZifyNat Permutation.
Local Open Scope Z_scope.

Lemma ustr_eqb_eq a b : ustr_eqb a b = true <-> a = b.
Proof. apply LisCurvesProofs5.str_eqb_eq. Qed.
Lemma ustr_eqb_refl a : ustr_eqb a a = true.
Proof. apply ustr_eqb_eq. reflexivity. Qed.
Lemma ustr_eqb_spec a b : reflect (a = b) (ustr_eqb a b).
Proof. destruct (ustr_eqb a b) eqn:E; constructor; [apply ustr_eqb_eq, E|]. intros H. apply ustr_eqb_eq in H. congruence. Qed.

Lemma map_opt_app2 {A B} (f : A -> option B) a b :
  map_opt f (a ++ b) = obind (map_opt f a) (fun x => obind (map_opt f b) (fun y => Some (x ++ y))).
Proof.
  induction a as [|x a IH]; cbn [app map_opt].
  - destruct (map_opt f b); reflexivity.
  - rewrite IH. destruct (f x); [|reflexivity]. cbn. destruct (map_opt f a); [|reflexivity]. cbn. destruct (map_opt f b); reflexivity.
Qed.
Lemma map_opt_ext_in {A B} (f g : A -> option B) l : (forall x, In x l -> f x = g x) -> map_opt f l = map_opt g l.
Proof.
  induction l as [|x l IH]; intros H; [reflexivity|]. cbn [map_opt]. rewrite (H x (or_introl eq_refl)), IH; [reflexivity|].
  intros y I. apply H. right. exact I.
Qed.
Lemma map_opt_none {A B} (f : A -> option B) l x : In x l -> f x = None -> map_opt f l = None.
Proof.
  induction l as [|y l IH]; intros I E; [destruct I|]. cbn [map_opt]. destruct I as [->|I]; [rewrite E; reflexivity|].
  rewrite (IH I E). destruct (f y); reflexivity.
Qed.
Lemma map_opt_length {A B} (f : A -> option B) l : forall r, map_opt f l = Some r -> length r = length l.
Proof.
  induction l as [|x l IH]; intros r E; cbn [map_opt] in E; [injection E as <-; reflexivity|].
  destruct (f x); [|discriminate]. cbn in E. destruct (map_opt f l) as [r'|]; [|discriminate]. injection E as <-. cbn [length]. rewrite (IH r' eq_refl). reflexivity.
Qed.
Lemma set_nth_app {A} (a : list A) x y b : set_nth (length a) x (a ++ y :: b) = a ++ x :: b.
Proof. induction a as [|z a IH]; cbn [length set_nth app]; [reflexivity|]. rewrite IH. reflexivity. Qed.

Section proofs.
Variable maxdims : nat.
Variable fmtlabel : ustr -> Z -> Z -> option ustr.
Notation channel_dtype := (channel_dtype maxdims).

Definition cnt (n : ustr) (p : list column) : nat := length (filter (fun c => ustr_eqb (cl_name c) n) p).
Definition lab (p : list column) (c : column) : option ustr :=
  if (1 <? cnt (cl_name c) p)%nat then fmtlabel (cl_name c) (cl_origin c) (cl_copy c) else Some (cl_name c).
Definition ent (p : list column) (c : column) : option entry :=
  do l <- lab p c; do t <- channel_dtype c; Some (Some (cl_fp c), l, t).
Definition ents (p q : list column) : option (list entry) := map_opt (ent p) q.

Lemma cnt_app n a b : cnt n (a ++ b) = (cnt n a + cnt n b)%nat.
Proof. unfold cnt. rewrite filter_app, app_length. reflexivity. Qed.
Lemma cnt_cons n c b : cnt n (c :: b) = ((if ustr_eqb (cl_name c) n then 1 else 0) + cnt n b)%nat.
Proof. unfold cnt. cbn [filter]. destruct (ustr_eqb (cl_name c) n); reflexivity. Qed.
Lemma cnt_in n c p : In c p -> cl_name c = n -> (0 < cnt n p)%nat.
Proof.
  intros I E. apply in_split in I as (a & b & ->). rewrite cnt_app, cnt_cons, E, ustr_eqb_refl. lia.
Qed.
Lemma cnt_zero n p c : cnt n p = 0%nat -> In c p -> cl_name c <> n.
Proof. intros Z I E. pose proof (cnt_in n c p I E). lia. Qed.

Lemma seen_get_put k v d n : seen_get n (seen_put k v d) = if ustr_eqb k n then Some v else seen_get n d.
Proof.
  induction d as [|[k' v'] d IH]; cbn [seen_put seen_get]; [reflexivity|].
  destruct (ustr_eqb_spec k' k) as [->|N]; cbn [seen_get].
  - destruct (ustr_eqb k n); reflexivity.
  - rewrite IH. destruct (ustr_eqb_spec k' n) as [->|N']; [|reflexivity].
    destruct (ustr_eqb_spec k n) as [->|]; [congruence | reflexivity].
Qed.

Definition seen_ok (p : list column) (sn : seen) : Prop :=
  forall n, match seen_get n sn with
            | None => cnt n p = 0%nat
            | Some None => (1 < cnt n p)%nat
            | Some (Some (i, c)) => exists p1 p2, p = p1 ++ c :: p2 /\ i = S (length p1) /\ cl_name c = n /\ cnt n p1 = 0%nat /\ cnt n p2 = 0%nat
            end.
Lemma seen_other p sn ch n v : seen_ok p sn -> cl_name ch <> n -> seen_get n sn = v ->
  match v with
  | None => cnt n (p ++ [ch]) = 0%nat
  | Some None => (1 < cnt n (p ++ [ch]))%nat
  | Some (Some (i, c)) => exists p1 p2, p ++ [ch] = p1 ++ c :: p2 /\ i = S (length p1) /\ cl_name c = n /\ cnt n p1 = 0%nat /\ cnt n p2 = 0%nat
  end.
Proof.
  intros S N E. specialize (S n). rewrite E in S. destruct v as [[[i c]|]|].
  - destruct S as (p1 & p2 & -> & -> & C & Z1 & Z2). exists p1, (p2 ++ [ch]). rewrite <- app_assoc. repeat split; try assumption.
    rewrite cnt_app, cnt_cons, Z2. destruct (ustr_eqb_spec (cl_name ch) n); [contradiction | reflexivity].
  - rewrite cnt_app. lia.
  - rewrite cnt_app, cnt_cons, S. destruct (ustr_eqb_spec (cl_name ch) n); [contradiction | reflexivity].
Qed.

(** the labels of [q] are not changed by another channel unless it is the second with
    that name *)
Lemma ents_same p ch q : (forall c, In c q -> cl_name c = cl_name ch -> (1 < cnt (cl_name ch) p)%nat) ->
  ents (p ++ [ch]) q = ents p q.
Proof.
  intros H. apply map_opt_ext_in. intros c I. unfold ent, lab. rewrite cnt_app, cnt_cons. change (cnt (cl_name c) []) with 0%nat.
  destruct (ustr_eqb_spec (cl_name ch) (cl_name c)) as [E|N]; [|rewrite Nat.add_0_r; reflexivity].
  specialize (H c I (eq_sym E)). rewrite E in H.
  replace (1 <? cnt (cl_name c) p + (1 + 0))%nat with true by lia. replace (1 <? cnt (cl_name c) p)%nat with true by lia. reflexivity.
Qed.

Lemma loop_ok F q : forall p sn es, ents p p = Some es -> seen_ok p sn ->
  dtype_loop maxdims fmtlabel (S (length p)) (map Some q) sn (F :: es) =
  obind (ents (p ++ q) (p ++ q)) (fun es => Some (F :: es)).
Proof.
  induction q as [|ch q IH]; intros p sn es E So; cbn [map dtype_loop].
  { rewrite app_nil_r, E. reflexivity. }
  destruct (channel_dtype ch) as [t|] eqn:T; cbn [obind].
  2:{ assert (ents (p ++ ch :: q) (p ++ ch :: q) = None) as ->; [|reflexivity].
      apply (map_opt_none _ _ ch); [apply in_elt|]. unfold ent. destruct (lab _ ch); [cbn; rewrite T|]; reflexivity. }
  assert (forall sn' es', ents (p ++ [ch]) (p ++ [ch]) = Some es' -> seen_ok (p ++ [ch]) sn' ->
    dtype_loop maxdims fmtlabel (S (S (length p))) (map Some q) sn' (F :: es') =
    obind (ents (p ++ ch :: q) (p ++ ch :: q)) (fun es => Some (F :: es))) as IH'.
  { intros sn' es' E' S'. specialize (IH (p ++ [ch]) sn' es' E' S'). rewrite app_length in IH. cbn [length] in IH.
    rewrite Nat.add_1_r in IH. rewrite IH, <- app_assoc. reflexivity. }
  clear IH. pose proof (So (cl_name ch)) as Sn. destruct (seen_get (cl_name ch) sn) as [s|] eqn:G.
  2:{ (* first time *) rewrite <- app_comm_cons. apply IH'.
      - unfold ents at 1. rewrite map_opt_app2. fold (ents (p ++ [ch]) p). rewrite ents_same by (intros c I Ec; exfalso; exact (cnt_zero _ _ _ Sn I Ec)).
        rewrite E. cbn [obind map_opt]. unfold ent, lab. rewrite cnt_app, cnt_cons, Sn, ustr_eqb_refl. cbn. rewrite T. reflexivity.
      - intros n. rewrite seen_get_put. destruct (ustr_eqb_spec (cl_name ch) n) as [<-|N].
        + exists p, []. repeat split; try assumption. 
        + apply (seen_other p sn ch n _ So N eq_refl). }
  assert (1 < cnt (cl_name ch) (p ++ ch :: q))%nat as C2.
  { rewrite cnt_app, cnt_cons, ustr_eqb_refl. destruct s as [[i prev]|]; [|lia].
    destruct Sn as (p1 & p2 & -> & _ & En & _). rewrite cnt_app, cnt_cons, En, ustr_eqb_refl. lia. }
  destruct (fmtlabel (cl_name ch) (cl_origin ch) (cl_copy ch)) as [l|] eqn:L; cbn [obind].
  2:{ assert (ents (p ++ ch :: q) (p ++ ch :: q) = None) as ->; [|reflexivity].
      apply (map_opt_none _ _ ch); [apply in_elt|]. unfold ent, lab. replace (1 <? _)%nat with true by lia. rewrite L. reflexivity. }
  destruct s as [[i prev]|].
  - (* second time *)
    destruct Sn as (p1 & p2 & Ep & -> & En & Z1 & Z2).
    assert (lab (p ++ ch :: q) prev = fmtlabel (cl_name prev) (cl_origin prev) (cl_copy prev)) as LP.
    { unfold lab. rewrite En. replace (1 <? _)%nat with true by lia. reflexivity. }
    destruct (fmtlabel (cl_name prev) (cl_origin prev) (cl_copy prev)) as [lp|] eqn:Lp; cbn [obind].
    2:{ assert (ents (p ++ ch :: q) (p ++ ch :: q) = None) as ->; [|reflexivity].
        apply (map_opt_none _ _ prev); [rewrite Ep, <- app_assoc; apply in_elt|]. unfold ent. rewrite LP. reflexivity. }
    (* the entries so far *)
    unfold ents in E. rewrite Ep in E at 2. rewrite map_opt_app2 in E. destruct (map_opt (ent p) p1) as [es1|] eqn:E1; [|discriminate].
    cbn [obind map_opt] in E. destruct (ent p prev) as [e|] eqn:Ee; [|discriminate]. cbn [obind] in E.
    destruct (map_opt (ent p) p2) as [es2|] eqn:E2; [|discriminate]. cbn [obind] in E. injection E as <-.
    assert (exists tp, channel_dtype prev = Some tp) as [tp Tp].
    { unfold ent in Ee. destruct (lab p prev); [|discriminate]. cbn in Ee. destruct (channel_dtype prev); [eauto | discriminate]. }
    rewrite Tp. cbn [obind]. cbn [app set_nth]. rewrite <- !app_assoc. cbn [app].
    rewrite <- (map_opt_length _ _ _ E1), set_nth_app. apply IH'.
    + unfold ents. rewrite Ep at 2. rewrite <- app_assoc, map_opt_app2.
      assert (forall q', (forall c, In c q' -> cl_name c <> cl_name ch) -> map_opt (ent (p ++ [ch])) q' = map_opt (ent p) q') as R.
      { intros q' D. apply (ents_same p ch q'). intros c I Ec. exfalso. exact (D c I Ec). }
      rewrite (R p1) by (intros c I; apply (cnt_zero _ _ _ Z1 I)). rewrite E1. cbn [obind app map_opt].
      assert (1 < cnt (cl_name ch) (p ++ [ch]))%nat as C3.
      { rewrite cnt_app, Ep, cnt_app, !cnt_cons, En, ustr_eqb_refl. lia. }
      assert (ent (p ++ [ch]) prev = Some (Some (cl_fp prev), lp, tp)) as ->.
      { unfold ent, lab. rewrite En. replace (1 <? _)%nat with true by lia. rewrite <- En, Lp, Tp. reflexivity. }
      cbn [obind]. rewrite map_opt_app2, (R p2) by (intros c I; apply (cnt_zero _ _ _ Z2 I)). rewrite E2. cbn [obind map_opt].
      unfold ent, lab. replace (1 <? _)%nat with true by lia. rewrite L, T. cbn [obind]. reflexivity.
    + intros n. rewrite seen_get_put. destruct (ustr_eqb_spec (cl_name ch) n) as [<-|N]; [|apply (seen_other p sn ch n _ So N eq_refl)].
      rewrite cnt_app, Ep, cnt_app, !cnt_cons, En, ustr_eqb_refl. lia.
  - (* later *) rewrite <- app_comm_cons. apply IH'.
    + unfold ents at 1. rewrite map_opt_app2. fold (ents (p ++ [ch]) p). rewrite ents_same by (intros; exact Sn).
      rewrite E. cbn [obind map_opt]. unfold ent, lab. rewrite cnt_app.
      replace (1 <? cnt (cl_name ch) p + cnt (cl_name ch) [ch])%nat with true by lia. rewrite L. cbn [obind]. rewrite T. reflexivity.
    + intros n. destruct (ustr_eqb_spec (cl_name ch) n) as [<-|N].
      * rewrite G, cnt_app. lia.
      * apply (seen_other p sn ch n _ So N eq_refl).
Qed.
Lemma loop_all F cs : dtype_loop maxdims fmtlabel 1 (map Some cs) [] [F] = obind (ents cs cs) (fun es => Some (F :: es)).
Proof. apply (loop_ok F cs [] [] []); [reflexivity|]. intros n. reflexivity. Qed.
Lemma loop_missing a b : forall i sn types, dtype_loop maxdims fmtlabel i (a ++ None :: b) sn types = None.
Proof.
  induction a as [|[c|] a IH]; intros i sn types; cbn [app dtype_loop]; try reflexivity.
  destruct (channel_dtype c); [|reflexivity]. cbn [obind]. destruct (seen_get (cl_name c) sn) as [s|]; [|apply IH].
  destruct (fmtlabel _ _ _); [|reflexivity]. cbn [obind]. destruct s as [[j prev]|]; [|apply IH].
  destruct (fmtlabel _ _ _); [|reflexivity]. cbn [obind]. destruct (channel_dtype prev); [|reflexivity]. apply IH.
Qed.

(** *** the labels against the specification *)
Lemma cnt_repeated n p : (1 < cnt n p)%nat <-> repeated p n.
Proof.
  split.
  - induction p as [|c p IH]; intros H; [cbn in H; lia|]. rewrite cnt_cons in H. destruct (ustr_eqb_spec (cl_name c) n) as [E|N].
    + assert (0 < cnt n p)%nat as H' by lia. unfold cnt in H'. destruct (filter (fun c => ustr_eqb (cl_name c) n) p) as [|y l] eqn:Ef; [cbn in H'; lia|].
      assert (In y p /\ ustr_eqb (cl_name y) n = true) as [I En] by (apply (filter_In (fun c => ustr_eqb (cl_name c) n)); rewrite Ef; left; reflexivity).
      apply ustr_eqb_eq in En. apply in_split in I as (a & b & ->). exists [], c, a, y, b. auto.
    + destruct (IH H) as (a & x & b & y & d & -> & X & Y). exists (c :: a), x, b, y, d. auto.
  - intros (a & x & b & y & c & -> & X & Y). rewrite !cnt_app, !cnt_cons, cnt_app, cnt_cons, X, Y, ustr_eqb_refl. lia.
Qed.
Lemma lab_label p c l : lab p c = Some l <-> label_of fmtlabel p c l.
Proof.
  unfold lab, label_of. rewrite <- cnt_repeated. destruct (Nat.ltb_spec 1 (cnt (cl_name c) p)) as [H|H].
  - split; [auto|]. intros [[_ E]|[N _]]; [exact E | contradiction].
  - split; [intros E; right; split; [lia | congruence]|]. intros [[N _]|[_ ->]]; [lia | reflexivity].
Qed.
Lemma ents_split p q es : ents p q = Some es <->
  exists ls ts, Forall2 (label_of fmtlabel p) q ls /\ Forall2 (fun c t => channel_dtype c = Some t) q ts /\
    es = map (fun '(c, l, t) => (Some (cl_fp c), l, t)) (combine (combine q ls) ts).
Proof.
  unfold ents. revert es. induction q as [|c q IH]; intros es; cbn [map_opt].
  - split.
    + intros E. injection E as <-. exists [], []. repeat split; constructor.
    + intros (ls & ts & H1 & H2 & ->). inversion H1; subst. reflexivity.
  - unfold ent at 1. split.
    + intros E. destruct (lab p c) as [l|] eqn:L; [|discriminate]. cbn in E. destruct (channel_dtype c) as [t|] eqn:T; [|discriminate]. cbn in E.
      destruct (map_opt (ent p) q) as [es'|]; [|discriminate]. cbn in E. injection E as <-.
      destruct (proj1 (IH es') eq_refl) as (ls & ts & H1 & H2 & ->). exists (l :: ls), (t :: ts).
      split; [constructor; [apply lab_label, L | exact H1]|]. split; [constructor; assumption|]. reflexivity.
    + intros (ls & ts & H1 & H2 & ->). inversion H1 as [|? l ? ls' L H1']; subst. inversion H2 as [|? t ? ts' T H2']; subst.
      apply lab_label in L. rewrite L. cbn [obind]. rewrite T. cbn [obind]. rewrite (proj2 (IH _) (ex_intro _ ls' (ex_intro _ ts' (conj H1' (conj H2' eq_refl))))). reflexivity.
Qed.
End proofs.

(** ** numpy's structured types *)

(** the keys of the fields, with the replacement of empty names *)
Definition entry_name (e : entry) : ustr :=
  match e with (title, name, _) => match name, title with [], Some s => s | _, _ => name end end.
Definition entry_keys (e : entry) : list ustr :=
  match e with (title, _, _) => match title with None => [entry_name e] | Some s => [s; entry_name e] end end.
Definition entries_keys (l : list entry) : list ustr := flat_map entry_keys l.
Fixpoint fields_at (offset : Z) (l : list entry) : list field :=
  match l with
  | [] => []
  | e :: l => mk_field (fst (fst e)) (entry_name e) (snd e) offset :: fields_at (offset + type_size (snd e)) l
  end.
Lemma used_in x l : existsb (ustr_eqb x) l = true <-> In x l.
Proof.
  rewrite existsb_exists. split.
  - intros (y & I & E). apply ustr_eqb_eq in E as ->. exact I.
  - intros I. exists x. split; [exact I | apply ustr_eqb_refl].
Qed.
Lemma used_out x l : existsb (ustr_eqb x) l = false <-> ~ In x l.
Proof. rewrite <- used_in. destruct (existsb (ustr_eqb x) l); split; congruence. Qed.
Lemma np_fields_spec l : forall used offset d, NoDup used ->
  (np_fields used offset l = Some d <-> NoDup (entries_keys l ++ used) /\ d = fields_at offset l).
Proof.
  induction l as [|[[title name] t] l IH]; intros used offset d N; cbn [np_fields].
  - split; [intros E; injection E as <-; auto | intros [_ ->]; reflexivity].
  - change (match name, title with [], Some s => s | _, _ => name end) with (entry_name (title, name, t)).
    set (nm := entry_name (title, name, t)). unfold entries_keys. cbn [flat_map]. fold (entries_keys l).
    destruct (existsb (ustr_eqb nm) used) eqn:U.
    + apply used_in in U. split; [discriminate|]. intros [D _]. exfalso. destruct title as [s|]; cbn [entry_keys app] in D.
      * inversion D as [|? ? D1 D2]; subst. inversion D2 as [|? ? D3 D4]; subst. apply D3. apply in_or_app. right. exact U.
      * inversion D as [|? ? D3 D4]; subst. apply D3. apply in_or_app. right. exact U.
    + apply used_out in U. destruct title as [s|]; cbn [obind].
      * destruct (existsb (ustr_eqb s) (nm :: used)) eqn:V; cbn [obind].
        { apply used_in in V. split; [discriminate|]. intros [D _]. exfalso. cbn [entry_keys app] in D.
          inversion D as [|? ? D1 D2]; subst. apply D1. destruct V as [V|V]; [left; exact V | right; apply in_or_app; right; exact V]. }
        apply used_out in V. assert (NoDup (s :: nm :: used)) as N' by (constructor; [exact V | constructor; assumption]).
        assert (NoDup ((entry_keys (Some s, name, t) ++ entries_keys l) ++ used) <-> NoDup (entries_keys l ++ s :: nm :: used)) as P.
        { cbn [entry_keys]. fold nm. cbn [app]. split; intros D; (eapply Permutation.Permutation_NoDup; [|exact D]).
          - change (s :: nm :: entries_keys l ++ used) with ([s; nm] ++ entries_keys l ++ used). change (s :: nm :: used) with ([s; nm] ++ used).
            rewrite !app_assoc. apply Permutation.Permutation_app_tail, Permutation.Permutation_app_comm.
          - change (s :: nm :: entries_keys l ++ used) with ([s; nm] ++ entries_keys l ++ used). change (s :: nm :: used) with ([s; nm] ++ used).
            rewrite !app_assoc. apply Permutation.Permutation_app_tail, Permutation.Permutation_app_comm. }
        rewrite P. clear P. cbn [fields_at fst snd]. fold nm. split.
        -- intros E. destruct (np_fields (s :: nm :: used) (offset + type_size t) l) as [r|] eqn:R; [|discriminate]. cbn in E. injection E as <-.
           apply (IH _ _ _ N') in R as [D ->]. auto.
        -- intros [D ->]. rewrite (proj2 (IH _ (offset + type_size t) _ N') (conj D eq_refl)). reflexivity.
      * assert (NoDup (nm :: used)) as N' by (constructor; assumption).
        assert (NoDup ((entry_keys (None, name, t) ++ entries_keys l) ++ used) <-> NoDup (entries_keys l ++ nm :: used)) as P.
        { cbn [entry_keys]. fold nm. cbn [app]. split; intros D; (eapply Permutation.Permutation_NoDup; [|exact D]).
          - apply Permutation.Permutation_middle.
          - apply Permutation.Permutation_sym, Permutation.Permutation_middle. }
        rewrite P. clear P. cbn [fields_at fst snd]. fold nm. split.
        -- intros E. destruct (np_fields (nm :: used) (offset + type_size t) l) as [r|] eqn:R; [|discriminate]. cbn in E. injection E as <-.
           apply (IH _ _ _ N') in R as [D ->]. auto.
        -- intros [D ->]. rewrite (proj2 (IH _ (offset + type_size t) _ N') (conj D eq_refl)). reflexivity.
Qed.
Lemma np_dtype_spec l d : np_dtype l = Some d <-> NoDup (entries_keys l) /\ d = fields_at 0 l.
Proof. unfold np_dtype. rewrite np_fields_spec by constructor. rewrite app_nil_r. reflexivity. Qed.
Lemma fields_names l : forall o, map fd_name (fields_at o l) = map entry_name l.
Proof. induction l as [|e l IH]; intros o; cbn [fields_at map fd_name]; [reflexivity|]. rewrite IH. reflexivity. Qed.
Lemma fields_titles l : forall o, map fd_title (fields_at o l) = map (fun e => fst (fst e)) l.
Proof. induction l as [|e l IH]; intros o; cbn [fields_at map fd_title]; [reflexivity|]. rewrite IH. reflexivity. Qed.
Lemma fields_types l : forall o, map fd_type (fields_at o l) = map snd l.
Proof. induction l as [|e l IH]; intros o; cbn [fields_at map fd_type]; [reflexivity|]. rewrite IH. reflexivity. Qed.
Lemma fields_packed l : forall o, packed o (fields_at o l) (o + itemsize (fields_at o l)).
Proof.
  induction l as [|e l IH]; intros o; cbn [fields_at].
  - cbn. rewrite Z.add_0_r. constructor.
  - constructor; [reflexivity|]. cbn [fd_type]. unfold itemsize. cbn [fold_right fd_type].
    fold (itemsize (fields_at (o + type_size (snd e)) l)). rewrite Z.add_assoc. apply IH.
Qed.
