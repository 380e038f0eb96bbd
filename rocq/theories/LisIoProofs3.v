(** Proofs about indexing and reading records (LisIo) against SpecLisIo. *)
From Verif Require Import Bytes BytesProofs DlisTypes SpecTypes TypesProofs Stream SpecIo IoProofs LisProtocol LisIo SpecLisIo LisIoProofs LisIoProofs2.
Local Open Scope Z_scope.
Ltac Zify.zify_post_hook ::= Z.div_mod_to_equations.

(** ** Chains of physical records *)
Lemma phys_len l a h : phys_header l a h -> len h = 4.
Proof. intros (l0 & l1 & a0 & a1 & -> & _). reflexivity. Qed.
Lemma firstn_head l a h x : phys_header l a h -> firstn 4 (h ++ x) = h.
Proof. intros (l0 & l1 & a0 & a1 & -> & _). reflexivity. Qed.
Lemma pieces_min first a (body tr : bytes) : predecessor a = negb first -> len tr = trailer_size a ->
  (first = true -> 2 <= len body) -> (4 + len body + len tr <? min_length a) = false.
Proof.
  intros P T F. rewrite min_length_spec. pose proof (len_nonneg body). rewrite P. destruct first; cbn [negb]; [specialize (F eq_refl)|]; lia.
Qed.
Lemma at_pos_nil data pos : 0 <= pos <= len data -> at_pos data pos [].
Proof.
  intros H. destruct (tail_exists data pos H) as (x & pre & E & L). exists pre, x. auto.
Qed.

Lemma dread_body d pos x : at_pos (d_data d) pos x -> dread d (len x) pos = (DOk x, pos + len x).
Proof. intros A. apply dread_at; auto. Qed.

Lemma read_pieces d padded pos first body e : pieces padded (d_offset d) pos first body e ->
  forall q p fuel acc, q + len p = pos -> (length e < fuel)%nat -> gap (d_offset d) q p (firstn 4 e) ->
  at_pos (d_data d) q (p ++ e) ->
  read_record_loop fuel d acc q = (DOk (acc ++ if first then skipn 2 body else body), pos + len e).
Proof.
  induction 1 as [pos first a h body tr H Ht Hp Hs Hf | pos first a h body tr p' body' e H Ht Hp Hs Hf Hpad G P IH];
    intros q p fuel acc Eq Hfuel Gap A; (destruct fuel as [|fuel]; [lia|]); cbn [read_record_loop];
    rewrite (firstn_head _ _ _ _ H) in Gap; pose proof (len_nonneg body) as Lb; pose proof (len_nonneg tr) as Lt;
    pose proof (phys_len _ _ _ H) as Lh; pose proof (pieces_min first a body tr Hp Ht Hf) as Hmin.
  - assert (A1 : at_pos (d_data d) q (p ++ h)) by (rewrite app_assoc in A; apply at_pos_app in A as [A _]; exact A).
    unfold dbind at 1. rewrite (header_found d q p h _ a H ltac:(lia) Gap A1), Hmin. cbn [prh_attributes prh_length].
    rewrite Eq. rewrite has_pred_bit, has_succ_bit, Hp, Hs, trailer_length_spec, <- Ht, negb_involutive.
    apply at_pos_app in A as [_ A]. rewrite Eq in A. apply at_pos_app in A as [_ A]. rewrite Lh in A. apply at_pos_app in A as [A AT].
    unfold dbind at 1. unfold dtell at 1. unfold dbind at 1. destruct first.
    + unfold dseek at 1. specialize (Hf eq_refl). unfold dbind at 1.
      replace (4 + len body + len tr - 4 - len tr - 2) with (len (skipn 2 body)) by (unfold len in *; rewrite skipn_length; lia).
      pose proof (skipn_at _ _ _ 2 A ltac:(unfold len in Hf; lia)) as A2.
      rewrite (dread_body d (pos + 4 + 2) _ A2). rewrite short_full by reflexivity. unfold dbind at 1, dtell at 1.
      unfold dbind at 1. unfold dseek at 1. cbn [negb]. unfold dret. f_equal. rewrite !len_app.
      unfold len in *. rewrite skipn_length. lia.
    + unfold dret at 1. unfold dbind at 1. replace (4 + len body + len tr - 4 - len tr - 0) with (len body) by lia.
      rewrite (dread_body d (pos + 4) _ A). rewrite short_full by reflexivity. unfold dbind at 1, dtell at 1.
      unfold dbind at 1. unfold dseek at 1. cbn [negb]. unfold dret. f_equal. rewrite !len_app. lia.
  - assert (A1 : at_pos (d_data d) q (p ++ h)) by (rewrite app_assoc in A; apply at_pos_app in A as [A _]; exact A).
    unfold dbind at 1. rewrite (header_found d q p h _ a H ltac:(lia) Gap A1), Hmin. cbn [prh_attributes prh_length].
    rewrite Eq. rewrite has_pred_bit, has_succ_bit, Hp, Hs, trailer_length_spec, <- Ht, negb_involutive.
    apply at_pos_app in A as [_ A]. rewrite Eq in A. apply at_pos_app in A as [_ A]. rewrite Lh in A. apply at_pos_app in A as [A AT].
    apply at_pos_app in AT as [_ AT].
    assert (Hfe : (length e < fuel)%nat) by (rewrite !app_length in Hfuel; unfold len in Lh; lia).
    specialize (IH (pos + 4 + len body + len tr) p' fuel). cbn [negb] in *.
    unfold dbind at 1. unfold dtell at 1. unfold dbind at 1. destruct first.
    + unfold dseek at 1. specialize (Hf eq_refl). unfold dbind at 1.
      replace (4 + len body + len tr - 4 - len tr - 2) with (len (skipn 2 body)) by (unfold len in *; rewrite skipn_length; lia).
      pose proof (skipn_at _ _ _ 2 A ltac:(unfold len in Hf; lia)) as A2.
      rewrite (dread_body d (pos + 4 + 2) _ A2). rewrite short_full by reflexivity. unfold dbind at 1, dtell at 1.
      unfold dbind at 1. unfold dseek at 1. replace (pos + 4 + 2 + len (skipn 2 body) + len tr) with (pos + 4 + len body + len tr)
        by (unfold len in *; rewrite skipn_length; lia).
      rewrite (IH (acc ++ skipn 2 body) eq_refl Hfe G AT). rewrite skipn_app.
      replace (2 - length body)%nat with 0%nat by (unfold len in Hf; lia). cbn [skipn]. rewrite <- app_assoc. f_equal.
      rewrite !len_app. lia.
    + unfold dret at 1. unfold dbind at 1. replace (4 + len body + len tr - 4 - len tr - 0) with (len body) by lia.
      rewrite (dread_body d (pos + 4) _ A). rewrite short_full by reflexivity. unfold dbind at 1, dtell at 1.
      unfold dbind at 1. unfold dseek at 1.
      rewrite (IH (acc ++ body) eq_refl Hfe G AT). rewrite <- app_assoc. f_equal. rewrite !len_app. lia.
Qed.

Lemma at_pos_fuel d pos x : at_pos (d_data d) pos x -> (length x <= length (d_data d))%nat.
Proof. intros (pre & post & -> & _). rewrite !app_length. lia. Qed.

Lemma read_record_spec d padded pos p type ds e sz t0 :
  lis_record padded (d_offset d) (pos + len p) type ds e -> gap (d_offset d) pos p (firstn 4 e) ->
  at_pos (d_data d) pos (p ++ e) ->
  forall q, read_record d (mk_info t0 sz pos) q = (DOk ds, pos + len p + len e).
Proof.
  intros (t & x & _ & P) G A q. unfold read_record. unfold dbind, dseek. cbn [ri_ltell].
  rewrite (read_pieces d padded _ true _ e P pos p _ []); [reflexivity | reflexivity | | exact G | exact A].
  apply at_pos_app in A as [_ A]. apply at_pos_fuel in A. lia.
Qed.

(** ** Consistency of the attributes *)
(** the attributes of a chain *)
Fixpoint chain (first : bool) (attrs : list Z) : Prop :=
  match attrs with
  | [] => False
  | [a] => predecessor a = negb first /\ successor a = false
  | a :: t => predecessor a = negb first /\ successor a = true /\ chain false t
  end.
Lemma chain_cons first a b t : chain first (a :: b :: t) = (predecessor a = negb first /\ successor a = true /\ chain false (b :: t)).
Proof. reflexivity. Qed.
Lemma pairs_cons size pos a b t : pairs_inconsistent size pos (a :: b :: t) =
  if (pos =? 0)%nat && has a predces then true
  else if (S pos =? size)%nat && has b succses then true
  else if negb (has a succses) || negb (has b predces) then true
  else pairs_inconsistent size (S pos) (b :: t).
Proof. reflexivity. Qed.
Lemma pairs_spec t : forall a b pos size, (size = pos + 1 + length t)%nat ->
  pairs_inconsistent size pos (a :: b :: t) = false <->
  ((pos = 0%nat -> predecessor a = false) /\ successor a = true /\ chain false (b :: t)).
Proof.
  induction t as [|c t IH]; intros a b pos size E; rewrite pairs_cons, !has_pred_bit, !has_succ_bit.
  - cbn [pairs_inconsistent]. cbn [length] in E. replace (S pos =? size)%nat with true by lia. cbn [chain negb].
    destruct (Nat.eqb_spec pos 0); destruct (predecessor a), (successor a), (predecessor b), (successor b); cbn [andb orb negb]; intuition congruence.
  - cbn [length] in E. replace (S pos =? size)%nat with false by lia. rewrite chain_cons. cbn [andb negb].
    specialize (IH b c (S pos) size ltac:(lia)).
    destruct (successor a) eqn:Sa, (predecessor b) eqn:Pb; cbn [orb negb];
      destruct (Nat.eqb_spec pos 0); destruct (predecessor a) eqn:Pa; cbn [andb];
      try (split; [discriminate|]; intros (X1 & X2 & X3 & X4); (specialize (X1 ltac:(assumption)) || idtac); congruence);
      rewrite IH; intuition (congruence || lia).
Qed.
Lemma consistent_chain a t : attr_consistent (a :: t) = true <-> chain true (a :: t).
Proof.
  destruct t as [|b t].
  - cbn [attr_consistent chain]. rewrite has_pred_bit, has_succ_bit. cbn [negb].
    destruct (predecessor a), (successor a); cbn; intuition congruence.
  - cbn [attr_consistent]. rewrite negb_true_iff, chain_cons. rewrite (pairs_spec t a b 0) by (cbn [length]; lia). cbn [negb]. intuition.
Qed.
Lemma chain_nth first attrs : attrs <> [] ->
  (chain first attrs <-> forall i a, nth_error attrs i = Some a ->
    predecessor a = negb (first && (i =? 0)%nat) /\ successor a = negb (S i =? length attrs)%nat).
Proof.
  revert first. induction attrs as [|a t IH]; intros first N; [congruence|]. destruct t as [|b t].
  - cbn [chain]. split.
    + intros [P S] i x E. destruct i as [|i]; [|destruct i; discriminate]. injection E as <-. cbn. rewrite andb_true_r. auto.
    + intros F. specialize (F 0%nat a eq_refl). cbn in F. rewrite andb_true_r in F. exact F.
  - rewrite chain_cons. rewrite (IH false) by discriminate. split.
    + intros (P & S & F) i x E. destruct i as [|i].
      * injection E as <-. cbn. rewrite andb_true_r. auto.
      * cbn [nth_error] in E. destruct (F i x E) as [F1 F2]. cbn [andb negb] in F1. rewrite andb_false_r. split; [exact F1 | exact F2].
    + intros F. destruct (F 0%nat a eq_refl) as [F1 F2]. cbn in F1, F2. rewrite andb_true_r in F1. split; [exact F1|]. split; [exact F2|].
      intros i x E. destruct (F (S i) x E) as [G1 G2]. rewrite andb_false_r in G1. split; [exact G1 | exact G2].
Qed.

(** ** Indexing one record *)
Lemma index_pieces d pos first body e : pieces false (d_offset d) pos first body e ->
  at_pos (d_data d) pos e ->
  exists l a rest, phys_header l a (firstn 4 e) /\ min_length a <= l /\ chain first (a :: rest) /\
    forall ltell fuel attrs q, (length e < fuel)%nat ->
    index_loop fuel d ltell (pos - ltell + l) attrs (mk_prh l a) q = (DOk (pos - ltell + len e, attrs ++ rest), pos + len e).
Proof.
  induction 1 as [pos first a h body tr H Ht Hp Hs Hf | pos first a h body tr p body' e H Ht Hp Hs Hf Hpad G P IH];
    intros A; pose proof (len_nonneg body) as Lb; pose proof (len_nonneg tr) as Lt;
    pose proof (phys_len _ _ _ H) as Lh; pose proof (pieces_min first a body tr Hp Ht Hf) as Hmin;
    rewrite (firstn_head _ _ _ _ H).
  - exists (4 + len body + len tr), a, []. split; [exact H|]. split; [lia|]. split; [cbn; auto|].
    intros ltell fuel attrs q Hfuel. destruct fuel as [|fuel]; [lia|]. cbn [index_loop prh_attributes].
    rewrite has_succ_bit, Hs. cbn [negb]. unfold dbind, dseek.
    set (x := h ++ body ++ tr) in *. assert (Lx : len x = 4 + len body + len tr) by (unfold x; rewrite !len_app; lia).
    pose proof (skipn_at _ _ _ (length x - 1) A ltac:(lia)) as A1.
    assert (L1 : len (skipn (length x - 1) x) = 1) by (unfold len in *; rewrite skipn_length; lia).
    replace (ltell + (pos - ltell + (4 + len body + len tr)) - 1) with (pos + Z.of_nat (length x - 1)) by (unfold len in *; lia).
    rewrite (dread_at _ _ _ 1 A1) by lia. rewrite short_full by lia. unfold dret. rewrite app_nil_r.
    f_equal; [f_equal; f_equal; lia|]. rewrite L1. unfold len in *. lia.
  - rewrite (Hpad eq_refl) in *. cbn [app] in *. change (len []) with 0 in *. rewrite Z.add_0_r in *.
    apply at_pos_app in A as [A1 A]. rewrite Lh in A. apply at_pos_app in A as [A2 A]. apply at_pos_app in A as [A3 A].
    destruct (IH A) as (l' & a' & rest & H' & Hmin' & C & I).
    exists (4 + len body + len tr), a, (a' :: rest). split; [exact H|]. split; [lia|]. split; [cbn [chain]; auto|].
    intros ltell fuel attrs q Hfuel. destruct fuel as [|fuel]; [lia|]. cbn [index_loop prh_attributes].
    rewrite has_succ_bit, Hs. cbn [negb]. unfold dbind, dseek.
    replace (ltell + (pos - ltell + (4 + len body + len tr))) with (pos + 4 + len body + len tr) by lia.
    assert (Le : (4 <= length e)%nat).
    { pose proof (phys_len _ _ _ H') as L4. unfold len in L4. rewrite firstn_length in L4. lia. }
    destruct (firstn_at _ _ _ 4 A Le) as [A4 _].
    assert (l' > 0). { rewrite min_length_spec in Hmin'. pose proof (trailer_size_range a'). destruct (predecessor a'); lia. }
    rewrite (header_found d (pos + 4 + len body + len tr) [] (firstn 4 e) l' a' H' ltac:(lia) G A4).
    destruct (Z.ltb_spec l' (min_length a')); [lia|]. cbn [prh_attributes prh_length]. 
    replace (pos - ltell + (4 + len body + len tr) + l') with (pos + 4 + len body + len tr - ltell + l') by lia.
    rewrite I by (rewrite !app_length in Hfuel; unfold len in Lh; lia). rewrite <- app_assoc. cbn [app]. rewrite !len_app.
    f_equal; [f_equal; f_equal; lia | lia].
Qed.

Lemma valid_rectype_spec t : valid_rectype t = true <-> In t record_types.
Proof.
  unfold valid_rectype. rewrite existsb_exists. split.
  - intros (x & I & E). apply Z.eqb_eq in E. subst x. cbn [In record_types] in *. tauto.
  - intros I. exists t. split; [cbn [In record_types] in *; tauto | apply Z.eqb_refl].
Qed.

Lemma pieces_head padded off pos t x ds e : pieces padded off pos true (t :: x :: ds) e ->
  exists h y, e = h ++ [t; x] ++ y /\ len h = 4.
Proof.
  intros P. remember true as first eqn:Ef. remember (t :: x :: ds) as b eqn:Eb.
  destruct P as [pos first a h body tr H Ht Hp Hs Hf | pos first a h body tr p body' e H Ht Hp Hs Hf Hpad G P].
  - subst body. exists h, (ds ++ tr). split; [reflexivity | eapply phys_len; eassumption].
  - specialize (Hf Ef). destruct body as [|b0 [|b1 body]]; [cbn in Hf; lia..|]. injection Eb as -> -> Eb.
    exists h, (body ++ tr ++ p ++ e). split; [reflexivity | eapply phys_len; eassumption].
Qed.

Lemma index_record_spec d pos p type ds e :
  lis_record false (d_offset d) (pos + len p) type ds e -> In type record_types ->
  gap (d_offset d) pos p (firstn 4 e) -> at_pos (d_data d) pos (p ++ e) ->
  index_record d pos = (DOk (mk_info type (len e) (pos + len p)), pos + len p + len e).
Proof.
  intros (t & x & -> & P) V G A. apply at_pos_app in A as [Ap A].
  destruct (index_pieces d _ true _ e P A) as (l & a & rest & H & Hmin & C & I).
  pose proof (phys_len _ _ _ H) as L4.
  assert (A1 : at_pos (d_data d) pos (p ++ firstn 4 e)).
  { apply at_pos_app. split; [exact Ap|]. apply firstn_at; [exact A|]. unfold len in L4. rewrite firstn_length in L4. lia. }
  assert (l > 0). { rewrite min_length_spec in Hmin. pose proof (trailer_size_range a). destruct (predecessor a); lia. }
  unfold index_record. unfold dbind at 1. rewrite (header_found d pos p (firstn 4 e) l a H ltac:(lia) G A1).
  destruct (Z.ltb_spec l (min_length a)); [lia|]. unfold dbind at 1. unfold dtell at 1. unfold dbind at 1.
  replace (pos + len p + 4 - 4) with (pos + len p) by lia.
  assert (T : exists h y, e = h ++ [t; x] ++ y /\ len h = 4).
  { eapply pieces_head, P. }
  destruct T as (h & y & Ee & Lh). assert (A2 : at_pos (d_data d) (pos + len p + 4) [t; x]).
  { rewrite Ee in A. apply at_pos_app in A as [_ A]. rewrite Lh in A. apply at_pos_app in A as [A _]. exact A. }
  unfold read_logical_header at 1. unfold dbind at 1. rewrite (dread_at _ _ _ 2 A2) by reflexivity. unfold dret at 1.
  rewrite (proj2 (valid_rectype_spec (b2z t)) V). cbn [negb]. unfold dbind at 1. cbn [prh_length prh_attributes].
  specialize (I (pos + len p) (S (length (d_data d))) [a] (pos + len p + 4 + len [t; x])).
  replace (pos + len p - (pos + len p) + l) with l in I by lia. rewrite I by (apply at_pos_fuel in A; lia).
  replace (pos + len p - (pos + len p) + len e) with (len e) by lia.
  change ([a] ++ rest) with (a :: rest). rewrite (proj2 (consistent_chain a rest) C). reflexivity.
Qed.
