(** Proofs about indexing whole files (LisIo) against SpecLisIo. *)
From Verif Require Import Bytes BytesProofs DlisTypes SpecTypes TypesProofs Stream SpecIo IoProofs LisProtocol LisIo SpecLisIo LisIoProofs LisIoProofs2 LisIoProofs3.
From Coq Require Import Sorting.Sorted.
Local Open Scope Z_scope.
Ltac Zify.zify_post_hook ::= Z.div_mod_to_equations.

(** ** What a successful indexing tells *)
Lemma min_length_pos a : 4 <= min_length a.
Proof. rewrite min_length_spec. pose proof (trailer_size_range a). destruct (predecessor a); lia. Qed.

Lemma index_loop_inv d ltell : 0 <= ltell -> forall fuel length attrs prh pos,
  0 < length -> Z.max 0 (d_size d - ltell - length) < Z.of_nat fuel ->
  match index_loop fuel d ltell length attrs prh pos with
  | (DOk (length', attrs'), pos') => length <= length' /\ pos' = ltell + length' /\ pos' <= d_size d /\ exists t, attrs' = attrs ++ t
  | (DErr e, pos') => ltell + length - 1 <= pos' /\ e <> EofError
  | (DFuel, _) => False
  end.
Proof.
  intros Hl. induction fuel as [|fuel IH]; intros length attrs prh pos L M; [lia|]. cbn [index_loop].
  destruct (has (prh_attributes prh) succses); cbn [negb].
  - unfold dbind, dseek. pose proof (header_inv d (ltell + length) ltac:(lia)) as H.
    destruct (read_physical_header d (ltell + length)) as [[h|e|] pos'].
    + destruct H as (H1 & H2 & hb & H3 & H4). apply at_pos_bound in H4. rewrite (phys_len _ _ _ H3) in H4.
      change (len (d_data d)) with (d_size d) in H4. pose proof (min_length_pos (prh_attributes h)).
      specialize (IH (length + prh_length h) (attrs ++ [prh_attributes h]) h pos' ltac:(lia) ltac:(lia)).
      destruct (index_loop fuel d ltell _ _ h pos') as [[[l' at']|e|] q]; [| |exact IH].
      * destruct IH as (I1 & I2 & I3 & t & I4). repeat (split; [lia|]). exists ([prh_attributes h] ++ t). rewrite I4, <- app_assoc. reflexivity.
      * split; [lia|]. apply IH.
    + destruct e; (split; [lia | discriminate]).
    + exact H.
  - unfold dbind, dseek. destruct (dread d 1 (ltell + length - 1)) as [[g|e|] pos'] eqn:R.
    + apply dread_inv in R as (-> & R1 & R2); [|lia..]. destruct (short g 1).
      * destruct R2 as [R2 R3]; [reflexivity|]. unfold dfail. pose proof (len_nonneg g). split; [lia | discriminate].
      * destruct R1 as [R1 R3]; [reflexivity|]. unfold dret. apply at_pos_bound in R3. change (len (d_data d)) with (d_size d) in R3.
        repeat (split; [lia|]). exists []. rewrite app_nil_r. reflexivity.
    + apply dread_err in R as [-> R]. split; [lia | discriminate].
    + apply dread_fuel in R. exact R.
Qed.

Lemma index_record_inv d pos : 0 <= pos ->
  match index_record d pos with
  | (DOk i, pos') => pos <= ri_ltell i /\ 6 <= ri_size i /\ pos' = ri_ltell i + ri_size i /\ pos' <= d_size d /\
      In (ri_type i) record_types /\
      exists l a h t x, phys_header l a h /\ at_pos (d_data d) (ri_ltell i) (h ++ [t; x]) /\ b2z t = ri_type i /\
        read_physical_header d pos = (DOk (mk_prh l a), ri_ltell i + 4) /\ l <= ri_size i /\
        predecessor a = false
  | (DErr e, pos') => pos <= pos' /\ (e = EofError -> fst (read_physical_header d pos) = DErr EofError)
  | (DFuel, _) => False
  end.
Proof.
  intros Hp. unfold index_record. unfold dbind at 1. pose proof (header_inv d pos Hp) as H.
  destruct (read_physical_header d pos) as [[[l a]|e|] p1]; [|cbn; split; [exact H | intros ->; reflexivity]|exact H].
  destruct H as (H1 & H2 & h & H3 & H4). cbn [prh_length prh_attributes] in *.
  unfold dbind at 1. unfold dtell at 1. unfold dbind at 1.
  pose proof (min_length_pos a) as Hm.
  unfold read_logical_header at 1. unfold dbind at 1. destruct (dread d 2 p1) as [[b|e|] p2] eqn:R.
  2: { cbn. split; [apply dread_err in R; lia|]. apply dread_err in R as [-> _]. discriminate. }
  2: { apply dread_fuel in R. exact R. }
  apply dread_inv in R as (-> & R1 & R2); [|lia..]. pose proof (len_nonneg b).
  destruct b as [|t [|x [|y b]]].
  { cbn. split; [lia | discriminate]. }
  { cbn. change (len [t]) with 1. split; [lia | discriminate]. }
  2: { cbn. split; [lia | discriminate]. }
  clear R2. destruct R1 as [_ R1]; [reflexivity|]. change (len [t; x]) with 2. unfold dret at 1.
  destruct (valid_rectype (b2z t)) eqn:V; cbn [negb]; [|cbn; split; [lia | discriminate]].
  apply valid_rectype_spec in V. unfold dbind at 1.
  pose proof (index_loop_inv d (p1 - 4) ltac:(lia) (S (length (d_data d))) l [a] (mk_prh l a) (p1 + 2) ltac:(lia) ltac:(unfold d_size; lia)) as I.
  destruct (index_loop _ d (p1 - 4) l [a] _ (p1 + 2)) as [[[l' at']|e|] p3].
  - destruct I as (I1 & I2 & I3 & at'' & ->). cbn [app].
    destruct (attr_consistent (a :: at'')) eqn:C; cbn [negb].
    2: { cbn. split; [lia | discriminate]. }
    unfold dret. cbn [ri_ltell ri_size ri_type].
    assert (P : predecessor a = false).
    { apply consistent_chain in C. destruct at''; cbn [chain negb] in C; apply C. }
    rewrite min_length_spec, P in H2. pose proof (trailer_size_range a).
    split; [lia|]. split; [lia|]. split; [lia|]. split; [lia|]. split; [exact V|].
    exists l, a, h, t, x. split; [exact H3|]. split.
    + apply at_pos_app. split; [exact H4|]. rewrite (phys_len _ _ _ H3). replace (p1 - 4 + 4) with p1 by lia. exact R1.
    + split; [reflexivity|]. split; [f_equal; lia|]. split; [lia | exact P].
  - split; [lia|]. intros ->. destruct I as [_ I]. congruence.
  - exact I.
Qed.

(** ** The first record of a file *)
Lemma index_at_rest d pos : 0 <= pos -> forall p, padding p -> tail_at (d_data d) pos p ->
  index_record d pos = (DErr (stop d EofError), d_size d).
Proof.
  intros Hp p P T. unfold index_record. unfold dbind at 1. rewrite (header_eof d pos p P T). reflexivity.
Qed.

(** ** Sequences *)
Definition info_of (r : Z * Z * Z) : record_info := mk_info (fst (fst r)) (snd (fst r)) (snd r).
Lemma datab_spec r : datab r = true <-> is_data (type_of r).
Proof.
  unfold datab, is_data. rewrite existsb_exists. split.
  - intros (x & I & E). apply Z.eqb_eq in E. rewrite E. exact I.
  - intros I. exists (type_of r). split; [exact I | apply Z.eqb_refl].
Qed.
Lemma implicit_datab r : (type_of r =? 0) || (type_of r =? 1) = datab r.
Proof. unfold datab. cbn [existsb]. rewrite orb_false_r. reflexivity. Qed.

Lemma pieces_length padded off pos first body e : pieces padded off pos first body e -> (if first then 6 else 4) <= len e.
Proof.
  induction 1 as [pos first a h body tr H Ht Hp Hs Hf | pos first a h body tr p body' e H Ht Hp Hs Hf Hpad G P IH];
    rewrite !len_app, (phys_len _ _ _ H); pose proof (len_nonneg body); pose proof (len_nonneg tr);
    try pose proof (len_nonneg p); try pose proof (len_nonneg e); destruct first; try specialize (Hf eq_refl); lia.
Qed.
Lemma records_bound off data pos rs last : records_at off data pos rs last -> 0 <= pos ->
  pos + 6 * Z.of_nat (length rs) <= last /\ (rs <> [] -> last <= len data).
Proof.
  induction 1 as [pos | pos p e type ds rs last A G R V T IH]; intros Hp.
  - split; [unfold len; cbn; lia | congruence].
  - destruct R as (t & x & _ & P). apply pieces_length in P. apply at_pos_bound in A. rewrite len_app in A.
    pose proof (len_nonneg p). destruct IH as [I1 I2]; [lia|]. split.
    + unfold len in *. cbn [length]. lia.
    + intros _. destruct rs as [|r rs]; [|apply I2; discriminate]. inversion T; subst. lia.
Qed.
Lemma records_app off data pos a b last : records_at off data pos (a ++ b) last ->
  exists mid, records_at off data pos a mid /\ records_at off data mid b last.
Proof.
  revert pos. induction a as [|r a IH]; intros pos H.
  - exists pos. split; [constructor | exact H].
  - cbn [app] in H. inversion H; subst. destruct (IH _ ltac:(eassumption)) as (mid & I1 & I2).
    exists mid. split; [econstructor; eassumption | exact I2].
Qed.
Lemma records_head d pos r rs last : records_at (d_offset d) (d_data d) pos (r :: rs) last ->
  index_record d pos = (DOk (info_of r), stop_of r) /\ records_at (d_offset d) (d_data d) (stop_of r) rs last /\ pos <= start_of r.
Proof.
  intros H. inversion H as [|? p e type ds ? ? A G R V T]; subst. split; [|split].
  - rewrite (index_record_spec d pos p type ds e) by auto. reflexivity.
  - exact T.
  - unfold start_of. cbn [snd]. pose proof (len_nonneg p). lia.
Qed.

(** the inside of a logical file, step by step; [fresh]: only data records so far *)
Fixpoint insides (fresh : bool) (ts : list (Z * Z * Z)) : Prop :=
  match ts with
  | [] => True
  | r :: t => ~ is_delimiter (type_of r) /\ ~ is_closing (type_of r) /\ (is_header (type_of r) -> fresh = true) /\
              insides (fresh && datab r) t
  end.
Lemma inside_insides rs : inside (map type_of rs) -> insides true rs.
Proof.
  intros [I1 I2].
  enough (E : forall rs pre fresh, (forall t, In t (map type_of rs) -> ~ is_delimiter t /\ ~ is_closing t) ->
    (forall a t b, map type_of (pre ++ rs) = a ++ t :: b -> is_header t -> forall x, In x a -> is_data x) ->
    fresh = forallb datab pre -> insides fresh rs).
  { apply (E rs [] true); auto. }
  clear rs I1 I2. induction rs as [|r rs IH]; intros pre fresh I1 I2 F; cbn [insides]; [trivial|].
  destruct (I1 (type_of r)) as [D C]; [left; reflexivity|]. split; [exact D|]. split; [exact C|]. split.
  - intros H. rewrite F. apply forallb_forall. intros x X. apply datab_spec.
    refine (I2 (map type_of pre) (type_of r) (map type_of rs) _ H _ _).
    + rewrite map_app. reflexivity.
    + apply in_map, X.
  - apply (IH (pre ++ [r])).
    + intros t T. apply I1. right. exact T.
    + rewrite <- app_assoc. exact I2.
    + rewrite forallb_app, F. cbn [forallb]. rewrite andb_true_r. reflexivity.
Qed.

Lemma not_delim t : ~ is_delimiter t -> (t =? 132) || (t =? 133) || (t =? 130) || (t =? 131) = false.
Proof. unfold is_delimiter. cbn [In]. intros N. lia. Qed.
Lemma not_closing t : ~ is_closing t -> (t =? 137) || (t =? 129) = false.
Proof. unfold is_closing. cbn [In]. intros N. lia. Qed.

Lemma index_insides d rs : forall pos last fresh ex im fuel,
  records_at (d_offset d) (d_data d) pos rs last -> insides fresh rs -> (fresh = true -> ex = []) -> (length rs < fuel)%nat ->
  index_records_loop fuel d ex im pos =
  index_records_loop (fuel - length rs) d (ex ++ map info_of (others_of rs)) (im ++ map info_of (data_of rs)) last.
Proof.
  induction rs as [|r rs IH]; intros pos last fresh ex im fuel R I F Hf.
  - inversion R; subst. cbn [length others_of data_of filter map]. rewrite Nat.sub_0_r, !app_nil_r. reflexivity.
  - apply records_head in R as (E & R & _). destruct I as (D & C & H & I). destruct fuel as [|fuel]; [lia|].
    cbn [length] in *. rewrite Nat.sub_succ. cbn [index_records_loop]. rewrite E.
    change (ri_type (info_of r)) with (type_of r). rewrite implicit_datab, (not_delim _ D), (not_closing _ C).
    unfold others_of, data_of. cbn [filter].
    assert (E128 : forall X Y : dres record_index * Z, (is_header (type_of r) -> X = Y) -> (if type_of r =? 128 then X else Y) = Y).
    { intros X Y XY. destruct (Z.eqb_spec (type_of r) 128) as [E8|E8]; [apply XY; exact E8 | reflexivity]. }
    destruct (datab r) eqn:Db; cbn [negb].
    + rewrite E128.
      * rewrite (IH (stop_of r) last fresh ex (im ++ [info_of r]) fuel R) by
          (auto; try lia; rewrite andb_true_r in I; exact I).
        cbn [map]. rewrite <- app_assoc. reflexivity.
      * intros E8. exfalso. apply datab_spec in Db. unfold is_header in E8. rewrite E8 in Db. cbn in Db. lia.
    + rewrite E128.
      * rewrite andb_false_r in I. rewrite (IH (stop_of r) last false (ex ++ [info_of r]) im fuel R I) by (try lia; discriminate).
        cbn [map]. rewrite <- app_assoc. reflexivity.
      * intros E8. rewrite (F (H E8)). reflexivity.
Qed.

Lemma others_nil rs : others_of rs = [] -> forall t, In t (map type_of rs) -> is_data t.
Proof.
  intros E t T. apply in_map_iff in T as (r & <- & T). apply datab_spec.
  destruct (datab r) eqn:D; [reflexivity|]. exfalso. assert (In r (others_of rs)) by (apply filter_In; rewrite D; auto).
  rewrite E in H. exact H.
Qed.

(** the steps that end an index *)
Lemma step_error d fuel ex im pos e q : index_record d pos = (DErr e, q) ->
  index_records_loop (S fuel) d ex im pos = (DOk (mk_index ex im (match e with EofError => false | _ => true end)), q).
Proof. intros E. cbn [index_records_loop]. rewrite E. destruct e; reflexivity. Qed.
Lemma step_closing d fuel ex im pos r q : index_record d pos = (DOk (info_of r), q) -> is_closing (type_of r) ->
  index_records_loop (S fuel) d ex im pos =
  dbind (reposition_tell d) (fun _ => dret (mk_index (ex ++ [info_of r]) im false)) q.
Proof.
  intros E C. cbn [index_records_loop]. rewrite E. change (ri_type (info_of r)) with (type_of r).
  destruct C as [<-|[<-|[]]]; reflexivity.
Qed.
Lemma step_separate d fuel ex im pos r q : index_record d pos = (DOk (info_of r), q) ->
  is_delimiter (type_of r) \/ is_header (type_of r) -> ex <> [] ->
  index_records_loop (S fuel) d ex im pos = (DOk (mk_index ex im false), start_of r).
Proof.
  intros E C N. cbn [index_records_loop]. rewrite E. change (ri_type (info_of r)) with (type_of r).
  change (ri_ltell (info_of r)) with (start_of r).
  assert (L : (1 < length (ex ++ [info_of r]))%nat) by (rewrite app_length; destruct ex; [congruence|]; cbn [length]; lia).
  assert (L1 : ((length (ex ++ [info_of r]) =? 1) = false)%nat) by lia.
  destruct C as [C|C]; [destruct C as [<-|[<-|[<-|[<-|[]]]]] | unfold is_header in C; rewrite C];
    cbn [Z.eqb Pos.eqb orb]; rewrite ?L1; try reflexivity; replace (1 <? _)%nat with true by lia; reflexivity.
Qed.
Lemma step_first d fuel im pos r q : index_record d pos = (DOk (info_of r), q) -> is_delimiter (type_of r) ->
  index_records_loop (S fuel) d [] im pos = dbind (reposition_tell d) (fun _ => dret (mk_index [info_of r] im false)) q.
Proof.
  intros E C. cbn [index_records_loop]. rewrite E. change (ri_type (info_of r)) with (type_of r).
  destruct C as [<-|[<-|[<-|[<-|[]]]]]; reflexivity.
Qed.
