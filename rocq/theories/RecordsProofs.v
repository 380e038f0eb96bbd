(** Lemmas about records.cpp: reading what a writer wrote. *)
From Verif Require Import Bytes BytesProofs DlisTypes SpecTypes TypesProofs TypesProofs2
  DlisCore CoreProofs CoreProofs2 Stream DlisRecords SpecRecords.
Local Open Scope Z_scope.
Ltac Zify.zify_post_hook ::= Z.div_mod_to_equations.

(** ** Elements *)

Lemma fsingl_read e z rest : ieee_single e z -> dlis_fsingl (e ++ rest) = Some (z, rest).
Proof.
  intros H; destruct H. unfold dlis_fsingl. rewrite read_be_app by reflexivity. rewrite be4. reflexivity.
Qed.
Lemma fdoubl_read e z rest : ieee_double e z -> dlis_fdoubl (e ++ rest) = Some (z, rest).
Proof.
  intros H; destruct H. unfold dlis_fdoubl. rewrite read_be_app by reflexivity. rewrite be8. reflexivity.
Qed.

Lemma fshort_ext e z rest : length e = 2%nat -> dlis_fshort e = Some (z, []) ->
  dlis_fshort (e ++ rest) = Some (z, rest).
Proof.
  intros L H. unfold dlis_fshort, dlis_unorm in *.
  rewrite <- (app_nil_r e) in H. rewrite read_be_app in H by exact L. rewrite read_be_app by exact L.
  cbn [obind] in *. apply Some_eq in H. apply (f_equal fst) in H. cbn [fst] in H. rewrite H. reflexivity.
Qed.
Lemma isingl_ext e z rest : length e = 4%nat -> dlis_isingl e = Some (z, []) ->
  dlis_isingl (e ++ rest) = Some (z, rest).
Proof.
  intros L H. unfold dlis_isingl in *.
  rewrite <- (app_nil_r e) in H. rewrite read_be_app in H by exact L. rewrite read_be_app by exact L.
  cbn [obind] in *. apply Some_eq in H. apply (f_equal fst) in H. cbn [fst] in H. rewrite H. reflexivity.
Qed.
Lemma vsingl_ext e z rest : length e = 4%nat -> dlis_vsingl e = Some (z, []) ->
  dlis_vsingl (e ++ rest) = Some (z, rest).
Proof.
  intros L H. apply list_len4 in L as (x0 & x1 & x2 & x3 & ->).
  unfold dlis_vsingl in *. cbn [take app obind] in *.
  apply Some_eq in H. apply (f_equal fst) in H. cbn [fst] in H. rewrite H. reflexivity.
Qed.

Lemma read_signed n bits e z rest :
  length e = n -> 256 ^ Z.of_nat n = 2 ^ bits -> 0 < bits ->
  twos_complement bits (be e) z ->
  (do (u, r) <- read_be n (e ++ rest); Some (signed bits u, r)) = Some (z, rest).
Proof.
  intros L E Hb H. rewrite read_be_app by exact L. cbn [obind].
  assert (signed bits (be e) = z) as ->; [|reflexivity].
  apply (twos_unique bits (be e)); [exact Hb| |exact H].
  apply signed_twos; [exact Hb|]. rewrite <- E, <- L. apply be_range.
Qed.

Lemma cast_value_read rc e v rest : rp66_value rc e v -> cast_value rc (e ++ rest) = Some (v, rest).
Proof.
  intros H; destruct H; cbn [cast_value num num2 num3 str].
  - rewrite (fshort_ext _ z) by assumption. reflexivity.
  - rewrite (fsingl_read _ z) by assumption. reflexivity.
  - unfold dlis_fsing1. rewrite <- app_assoc, (fsingl_read e v) by assumption. cbn [obind].
    rewrite (fsingl_read f a) by assumption. reflexivity.
  - unfold dlis_fsing2. rewrite <- !app_assoc, (fsingl_read e v) by assumption. cbn [obind].
    rewrite (fsingl_read f a) by assumption. cbn [obind].
    rewrite (fsingl_read g b) by assumption. reflexivity.
  - rewrite (isingl_ext _ z) by assumption. reflexivity.
  - rewrite (vsingl_ext _ z) by assumption. reflexivity.
  - rewrite (fdoubl_read _ z) by assumption. reflexivity.
  - unfold dlis_fdoub1. rewrite <- app_assoc, (fdoubl_read e v) by assumption. cbn [obind].
    rewrite (fdoubl_read f a) by assumption. reflexivity.
  - unfold dlis_fdoub2. rewrite <- !app_assoc, (fdoubl_read e v) by assumption. cbn [obind].
    rewrite (fdoubl_read f a) by assumption. cbn [obind].
    rewrite (fdoubl_read g b) by assumption. reflexivity.
  - unfold dlis_csingl. rewrite <- app_assoc, (fsingl_read e r) by assumption. cbn [obind].
    rewrite (fsingl_read f i) by assumption. reflexivity.
  - unfold dlis_cdoubl. rewrite <- app_assoc, (fdoubl_read e r) by assumption. cbn [obind].
    rewrite (fdoubl_read f i) by assumption. reflexivity.
  - unfold dlis_sshort. rewrite (read_signed 1 8 [b] z) by (try reflexivity; try lia; assumption). reflexivity.
  - unfold dlis_snorm.
    rewrite (read_signed 2 16 [b0; b1] z) by (try reflexivity; try lia; rewrite be2; assumption). reflexivity.
  - unfold dlis_slong.
    rewrite (read_signed 4 32 [b0; b1; b2; b3] z) by (try reflexivity; try lia; rewrite be4; assumption). reflexivity.
  - unfold dlis_ushort. rewrite read_be_app by reflexivity. reflexivity.
  - unfold dlis_unorm. rewrite read_be_app by reflexivity. rewrite be2. reflexivity.
  - unfold dlis_ulong. rewrite read_be_app by reflexivity. rewrite be4. reflexivity.
  - rewrite (uvari_encode_read e z) by assumption. reflexivity.
  - rewrite (proj2 (ident_read_spec (e ++ rest) s rest)) by eauto. reflexivity.
  - rewrite (proj2 (ascii_read_spec (e ++ rest) s rest)) by eauto. reflexivity.
  - cbn [app]. rewrite dtime_read. reflexivity.
  - unfold dlis_origin. rewrite (uvari_encode_read e z) by assumption. reflexivity.
  - rewrite (proj2 (obname_read_spec (e ++ rest) (mk_obname o c i) rest)) by eauto. reflexivity.
  - rewrite (proj2 (objref_read_spec (e ++ rest) (mk_objref t (mk_obname o c i)) rest)) by eauto. reflexivity.
  - rewrite (proj2 (attref_read_spec (e ++ rest) (mk_attref t (mk_obname o c i) l) rest)) by eauto. reflexivity.
  - unfold dlis_status, dlis_ushort. rewrite read_be_app by reflexivity. reflexivity.
  - rewrite units_is_ident, (proj2 (ident_read_spec (e ++ rest) s rest)) by eauto. reflexivity.
Qed.

Lemma cast_values_read rc e vs rest : rp66_values rc e vs ->
  cast_values rc (length vs) (e ++ rest) = Some (vs, rest).
Proof.
  induction 1 as [|e v f vs H _ IH]; cbn [cast_values length]; [reflexivity|].
  rewrite <- app_assoc, (cast_value_read rc e v) by exact H. cbn [obind].
  rewrite IH. reflexivity.
Qed.

Lemma zero_value_default rc : known_reprc rc = true -> zero_value rc (default_value rc).
Proof.
  unfold known_reprc. intros H.
  assert (K : rc = 1 \/ rc = 2 \/ rc = 3 \/ rc = 4 \/ rc = 5 \/ rc = 6 \/ rc = 7 \/ rc = 8 \/ rc = 9 \/
              rc = 10 \/ rc = 11 \/ rc = 12 \/ rc = 13 \/ rc = 14 \/ rc = 15 \/ rc = 16 \/ rc = 17 \/
              rc = 18 \/ rc = 19 \/ rc = 20 \/ rc = 21 \/ rc = 22 \/ rc = 23 \/ rc = 24 \/ rc = 25 \/
              rc = 26 \/ rc = 27) by lia.
  repeat (destruct K as [-> | K]; [cbn [default_value]; constructor; cbn [In]; tauto|]).
  subst; cbn [default_value]; constructor; cbn [In]; tauto.
Qed.

(** ** Descriptors *)

Lemma attr_descriptor d (inv l c r u v : bool) :
  b2z d = (if inv then 64 else 32) + bit l 16 + (bit c 8 + bit r 4 + bit u 2 + bit v 1) ->
  parse_attribute_descriptor d = DAttr (mk_aflags l c r u v inv).
Proof.
  intros H. rewrite <- (z2b_b2z d), H.
  destruct inv, l, c, r, u, v; vm_compute; reflexivity.
Qed.

Lemma absent_descriptor d : b2z d < 32 -> parse_attribute_descriptor d = DAbsent.
Proof. intros H. destruct d; try (vm_compute in H; discriminate H); reflexivity. Qed.

Lemma object_descriptor d : 112 <= b2z d < 128 ->
  parse_attribute_descriptor d = DObject /\ parse_object_descriptor d = Some true.
Proof.
  intros [H1 H2]. destruct d; try (vm_compute in H2; discriminate H2);
    try (exfalso; revert H1; vm_compute; intuition congruence); split; reflexivity.
Qed.

Definition kind_role (k : set_kind) : Z :=
  match k with Normal => ROLE_SET | Replacement => ROLE_RSET | Redundant => ROLE_RDSET end.

Lemma set_descriptor d k (n : bool) r : 0 <= r < 8 ->
  b2z d = kind_bits k + 16 + bit n 8 + r ->
  parse_set_descriptor d = Some (kind_role k, true, n).
Proof.
  intros Hr H. rewrite <- (z2b_b2z d), H.
  assert (K : r = 0 \/ r = 1 \/ r = 2 \/ r = 3 \/ r = 4 \/ r = 5 \/ r = 6 \/ r = 7) by lia.
  destruct k, n; repeat (destruct K as [-> | K]; [vm_compute; reflexivity|]); subst; vm_compute; reflexivity.
Qed.

(** ** Attribute fields *)

Definition flags_of (c : chars) (l inv : bool) : aflags :=
  mk_aflags l (given (c_count c)) (given (c_reprc c)) (given (c_units c)) (given (c_value c)) inv.

Definition after_fields (a : attribute) (c : chars) : attribute :=
  let n := or_else (c_count c) (at_count a) in
  let rc := or_else (c_reprc c) (at_reprc a) in
  mk_attr (at_label a) n rc (or_else (c_units c) (at_units a))
    (match c_value c with Some vs => if n =? 0 then Mono else Vec rc vs | None => at_value a end)
    (at_invariant a) (at_log a).

Lemma enc_chars_ranges n rc e c : 0 <= n -> 1 <= rc <= 27 -> enc_chars n rc e c ->
  0 <= or_else (c_count c) n /\ 1 <= or_else (c_reprc c) rc <= 27.
Proof.
  intros Hn Hr (ec & er & eu & ev & _ & Hc & Hrc & _).
  destruct c as [[n'|] [rc'|] u v]; cbn [optional or_else c_count c_reprc] in *; split; try assumption.
  1, 3: destruct (uvari_spec_range ec n' Hc) as [[_ [H _]] | [[_ [H _]] | [_ [H _]]]]; exact H.
  1, 2: destruct Hrc as (b & -> & Hb & Hz); exact Hz.
Qed.

Lemma read_fields_read a n rc e c l inv rest :
  at_count a = n -> at_reprc a = rc -> 0 <= n -> 1 <= rc <= 27 ->
  enc_chars n rc e c ->
  read_fields (flags_of c l inv) a (e ++ rest) = Ok (after_fields a c, rest).
Proof.
  intros En Erc Hn Hrc He. pose proof (enc_chars_ranges n rc e c Hn Hrc He) as [Rn Rrc].
  destruct He as (ec & er & eu & ev & -> & Hc & Hr & Hu & Hv).
  destruct a as [al an arc au av ai alog]. cbn [at_count at_reprc] in En, Erc. subst an arc.
  destruct c as [oc orc ou ov]. unfold read_fields, flags_of, after_fields.
  cbn [f_count f_reprc f_units f_value c_count c_reprc c_units c_value at_label at_count at_reprc
       at_units at_value at_invariant at_log] in *.
  rewrite <- !app_assoc.
  (* count *)
  assert (S1 : (if given oc then
                  let! (c0, r) := unchecked (dlis_uvari (ec ++ er ++ eu ++ ev ++ rest)) in
                  Ok (with_count (mk_attr al n rc au av ai alog) c0, r)
                else Ok (mk_attr al n rc au av ai alog, ec ++ er ++ eu ++ ev ++ rest)) =
               Ok (mk_attr al (or_else oc n) rc au av ai alog, er ++ eu ++ ev ++ rest)).
  { destruct oc as [z|]; cbn [given or_else optional] in *.
    - rewrite (uvari_encode_read ec z) by exact Hc. reflexivity.
    - rewrite Hc. reflexivity. }
  rewrite S1; clear S1; cbn [rbind].
  (* reprc *)
  set (m := or_else oc n) in *.
  assert (S2 : (if given orc then repcode (mk_attr al m rc au av ai alog) (er ++ eu ++ ev ++ rest)
                else Ok (mk_attr al m rc au av ai alog, er ++ eu ++ ev ++ rest)) =
               Ok (mk_attr al m (or_else orc rc) au av ai alog, eu ++ ev ++ rest)).
  { destruct orc as [z|]; cbn [given or_else optional] in *.
    - destruct Hr as (b & -> & Hb & Hz). unfold repcode, dlis_ushort.
      rewrite read_be_app by reflexivity. rewrite be1, Hb. cbn [unchecked rbind].
      replace ((z <? 1) || (z >? 27)) with false by lia. reflexivity.
    - rewrite Hr. reflexivity. }
  rewrite S2; clear S2; cbn [rbind].
  set (rc' := or_else orc rc) in *.
  assert (S3 : (if given ou then
                  let! (u, r) := unchecked (dlis_units (eu ++ ev ++ rest)) in
                  Ok (with_units (mk_attr al m rc' au av ai alog) u, r)
                else Ok (mk_attr al m rc' au av ai alog, eu ++ ev ++ rest)) =
               Ok (mk_attr al m rc' (or_else ou au) av ai alog, ev ++ rest)).
  { destruct ou as [z|]; cbn [given or_else optional] in *.
    - rewrite units_is_ident, (proj2 (ident_read_spec (eu ++ ev ++ rest) z (ev ++ rest))) by eauto. reflexivity.
    - rewrite Hu. reflexivity. }
  rewrite S3; clear S3; cbn [rbind].
  destruct ov as [vs|]; cbn [given optional] in *.
  - destruct Hv as [Hl Hvs]. unfold elements. cbn [at_count at_reprc].
    destruct (m =? 0) eqn:E.
    + destruct vs as [|v vs]; [|cbn [length] in Hl; lia]. inversion Hvs; subst. reflexivity.
    + replace (known_reprc rc') with true by (unfold known_reprc; lia).
      replace (Z.to_nat m) with (length vs) by lia.
      rewrite (cast_values_read rc' ev vs) by exact Hvs. reflexivity.
  - rewrite Hv. reflexivity.
Qed.

Lemma tattr_ranges e t : enc_tattr e t ->
  0 <= at_count (template_attribute t) /\ 1 <= at_reprc (template_attribute t) <= 27.
Proof.
  intros (d & el & ec & _ & _ & _ & H). cbn [template_attribute at_count at_reprc].
  apply (enc_chars_ranges 1 19 ec (ta_chars t)); [lia|lia|exact H].
Qed.

(** ** Objects' attributes *)

Lemma object_attr_read t c e rest :
  at_invariant t = false -> at_log t = [] ->
  0 <= at_count t -> 1 <= at_reprc t <= 27 ->
  (forall rc vs, at_value t = Vec rc vs -> rc = at_reprc t) ->
  enc_chars (at_count t) (at_reprc t) e c ->
  exists a, object_attr t (flags_of c false false) (e ++ rest) = Ok (a, rest) /\ overrides t c a.
Proof.
  intros Hi Hlog Hn Hrc Hv He.
  pose proof (enc_chars_ranges _ _ e c Hn Hrc He) as [Rn Rrc].
  unfold object_attr. cbn [f_invariant f_label flags_of].
  rewrite (read_fields_read t (at_count t) (at_reprc t) e c false false rest) by auto.
  cbn [rbind]. eexists. split; [reflexivity|].
  destruct t as [tl tn trc tu tv ti tlog]. cbn [at_invariant at_log at_count at_reprc at_value] in *. subst ti tlog.
  destruct c as [oc orc ou ov]. unfold after_fields.
  cbn [f_reprc f_value flags_of c_count c_reprc c_units c_value at_label at_count at_reprc at_units at_value at_invariant at_log] in *.
  set (m := or_else oc tn) in *.
  destruct (m =? 0) eqn:E0.
  { assert (m = 0) by lia. unfold overrides.
    cbn [with_value at_label at_count at_reprc at_units at_value at_invariant at_log c_count c_reprc c_units].
    repeat (split; [reflexivity|]). apply r_none. cbn [c_count at_count]. assumption. }
  assert (M : m <> 0) by lia.
  destruct ov as [vs|]; cbn [given negb].
  { unfold overrides. cbn [at_label at_count at_reprc at_units at_value at_invariant at_log c_count c_reprc c_units].
    repeat (split; [reflexivity|]). apply (r_given (mk_attr tl tn trc tu tv false []) (mk_chars oc orc ou (Some vs)) vs); [exact M|reflexivity]. }
  destruct (given orc && negb (or_else orc trc =? trc)) eqn:Ech.
  { destruct orc as [rc'|]; [|discriminate Ech]. cbn [given or_else] in *.
    unfold patch_missing_value, default_values.
    cbn [with_value add_log at_label at_count at_reprc at_units at_value at_invariant at_log].
    assert (K : known_reprc rc' = true) by (unfold known_reprc; lia). rewrite K.
    unfold overrides.
    cbn [with_value add_log at_label at_count at_reprc at_units at_value at_invariant at_log c_count c_reprc c_units].
    repeat (split; [reflexivity|]). cbn [app].
    apply (r_changed (mk_attr tl tn trc tu tv false []) (mk_chars oc (Some rc') ou None) rc'); cbn [c_count at_count c_value c_reprc at_reprc];
      try assumption; try reflexivity; [lia|]. apply zero_value_default, K. }
  assert (Esame : or_else orc trc = trc) by (destruct orc as [rc'|]; cbn [given or_else] in *; lia).
  rewrite Esame in *.
  assert (K : known_reprc trc = true) by (unfold known_reprc; lia).
  unfold patch_missing_value. cbn [at_value at_count].
  destruct tv as [|c0 vs].
  - unfold default_values. cbn [at_reprc at_count]. rewrite K.
    unfold overrides.
    cbn [with_value add_log at_label at_count at_reprc at_units at_value at_invariant at_log c_count c_reprc c_units].
    split; [reflexivity|]. split; [reflexivity|]. split; [symmetry; assumption|]. do 2 (split; [reflexivity|]).
    apply (r_defaulted (mk_attr tl tn trc tu Mono false []) (mk_chars oc orc ou None)); cbn [c_count at_count c_value c_reprc at_reprc at_value];
      try assumption; try reflexivity. apply zero_value_default, K.
  - rewrite (Hv c0 vs eq_refl) in *. clear c0 Hv.
    destruct (Z.of_nat (length vs) =? m) eqn:El; [|destruct (Z.of_nat (length vs) >? m) eqn:Eg].
    + unfold overrides.
      cbn [at_label at_count at_reprc at_units at_value at_invariant at_log c_count c_reprc c_units].
      split; [reflexivity|]. split; [reflexivity|]. split; [symmetry; assumption|]. do 2 (split; [reflexivity|]).
      apply (r_inherited (mk_attr tl tn trc tu (Vec trc vs) false []) (mk_chars oc orc ou None) vs);
        cbn [c_count at_count c_value c_reprc at_reprc at_value]; try assumption; try reflexivity. fold m. lia.
    + unfold overrides.
      cbn [add_log with_value at_label at_count at_reprc at_units at_value at_invariant at_log c_count c_reprc c_units app].
      split; [reflexivity|]. split; [reflexivity|]. split; [symmetry; assumption|]. do 2 (split; [reflexivity|]).
      apply (r_shrunk (mk_attr tl tn trc tu (Vec trc vs) false []) (mk_chars oc orc ou None) vs);
        cbn [c_count at_count c_value c_reprc at_reprc at_value]; try assumption; try reflexivity. fold m. lia.
    + unfold default_values. cbn [add_log at_reprc at_count]. rewrite K.
      unfold overrides.
      cbn [add_log with_value at_label at_count at_reprc at_units at_value at_invariant at_log c_count c_reprc c_units app].
      split; [reflexivity|]. split; [reflexivity|]. split; [symmetry; assumption|]. do 2 (split; [reflexivity|]).
      apply (r_enlarged (mk_attr tl tn trc tu (Vec trc vs) false []) (mk_chars oc orc ou None) vs);
        cbn [c_count at_count c_value c_reprc at_reprc at_value]; try assumption; try reflexivity; [fold m; lia|].
      apply zero_value_default, K.
Qed.

Lemma set_attr_replace a pre x post :
  ~ In (at_label a) (map at_label pre) -> at_label x = at_label a ->
  set_attr a (pre ++ x :: post) = pre ++ a :: post.
Proof.
  intros Hn Hx. induction pre as [|p pre IH]; cbn [app set_attr].
  - rewrite Hx, bytes_eqb_refl. reflexivity.
  - cbn [map In] in Hn. rewrite (proj2 (bytes_eqb_neq (at_label a) (at_label p))) by intuition.
    rewrite IH by intuition. reflexivity.
Qed.

Lemma set_attr_new a attrs :
  ~ In (at_label a) (map at_label attrs) -> set_attr a attrs = attrs ++ [a].
Proof.
  induction attrs as [|p pre IH]; cbn [app set_attr map In]; intros Hn; [reflexivity|].
  rewrite (proj2 (bytes_eqb_neq (at_label a) (at_label p))) by intuition.
  rewrite IH by intuition. reflexivity.
Qed.

Lemma remove_attr_not_in a attrs :
  ~ In (at_label a) (map at_label attrs) -> remove_attr a attrs = attrs.
Proof.
  unfold remove_attr. induction attrs as [|p pre IH]; cbn [filter map In]; intros Hn; [reflexivity|].
  rewrite (proj2 (bytes_eqb_neq (at_label a) (at_label p))) by intuition. cbn [negb].
  rewrite IH by intuition. reflexivity.
Qed.

Lemma remove_attr_one a pre post :
  ~ In (at_label a) (map at_label pre) -> ~ In (at_label a) (map at_label post) ->
  remove_attr a (pre ++ a :: post) = pre ++ post.
Proof.
  intros H1 H2. unfold remove_attr. rewrite filter_app. cbn [filter].
  rewrite bytes_eqb_refl. cbn [negb].
  change (filter _ pre) with (remove_attr a pre). change (filter _ post) with (remove_attr a post).
  rewrite !remove_attr_not_in by assumption. reflexivity.
Qed.

Lemma label_template t : at_label (template_attribute t) = ta_label t.
Proof. reflexivity. Qed.

Lemma labels_template ts : map at_label (map template_attribute ts) = map ta_label ts.
Proof. rewrite map_map. reflexivity. Qed.

Lemma defaulted_object_template ts pre :
  NoDup (map at_label pre ++ map ta_label ts) ->
  fold_left (fun attrs a => set_attr a attrs) (map template_attribute ts) pre =
  pre ++ map template_attribute ts.
Proof.
  revert pre; induction ts as [|t ts IH]; intros pre H; cbn [map fold_left]; [rewrite app_nil_r; reflexivity|].
  cbn [map] in H. apply NoDup_remove in H as [H1 H2].
  rewrite set_attr_new by (rewrite label_template; intros Hin; apply H2, in_or_app; auto).
  rewrite IH.
  - rewrite <- app_assoc. reflexivity.
  - rewrite map_app. cbn [map]. rewrite label_template, <- app_assoc. cbn [app].
    apply (NoDup_Add (a := ta_label t) (l := map at_label pre ++ map ta_label ts)); [apply Add_app|].
    split; assumption.
Qed.

Lemma value_rule_log t c v l : value_rule t c v l ->
  is_log_clear l = match l with [] => true | _ => false end.
Proof. intros H; destruct H; reflexivity. Qed.

Definition clean (a : attribute) : bool := match at_log a with [] => true | _ => false end.

(** the bytes after an object: the end of the record or the next object *)
Definition next_object (rest : bytes) : Prop :=
  rest = [] \/ exists d r, rest = d :: r /\ 112 <= b2z d < 128.

(** [n] components are all an object can have *)
Definition complete (ts : list tattr) (cs : list comp) : Prop :=
  length cs = length (filter (fun t => negb (ta_invariant t)) ts).

Lemma forallb_clean_template ts : forallb clean (map template_attribute ts) = true.
Proof. induction ts; cbn; auto. Qed.

Lemma complete_nil ts cs : complete ts cs -> cs = [] -> Forall (fun t => ta_invariant t = true) ts.
Proof.
  unfold complete. intros H ->. induction ts as [|t ts IH]; [constructor|].
  cbn [filter length] in *. destruct (ta_invariant t) eqn:E; cbn [negb] in *; [constructor; auto|].
  cbn [length] in H. lia.
Qed.

Lemma object_attrs_invariants ts cur clear xs :
  Forall (fun t => ta_invariant t = true) ts ->
  object_attrs (map template_attribute ts) cur clear xs = Ok (cur, clear, xs).
Proof.
  induction 1 as [|t ts H _ IH]; cbn [map object_attrs]; [reflexivity|].
  cbn [template_attribute at_invariant]. rewrite H. exact IH.
Qed.

Lemma object_attrs_stop ts cur clear rest : next_object rest ->
  object_attrs (map template_attribute ts) cur clear rest = Ok (cur, clear, rest).
Proof.
  intros Hr. induction ts as [|t ts IH]; cbn [map object_attrs]; [reflexivity|].
  cbn [template_attribute at_invariant].
  destruct (ta_invariant t); [exact IH|].
  destruct Hr as [-> | (d & r & -> & Hd)]; [reflexivity|].
  rewrite (proj1 (object_descriptor d Hd)). reflexivity.
Qed.

Lemma object_attrs_read ts e cs : enc_comps ts e cs ->
  (forall t, In t ts -> exists et, enc_tattr et t) ->
  forall pre clear rest,
  NoDup (map at_label pre ++ map ta_label ts) ->
  next_object rest \/ complete ts cs ->
  exists r,
    object_attrs (map template_attribute ts) (pre ++ map template_attribute ts) clear (e ++ rest) =
      Ok (pre ++ r, clear && forallb clean r, rest) /\
    object_reads ts cs r.
Proof.
  induction 1 as [ts | t ts e cs Hi _ IH | t ts d e cs Hi Hd _ IH | t ts d ec c e cs Hi Hd Hc _ IH];
    intros Hts pre clear rest Hnd Hrest.
  - exists (map template_attribute ts). cbn [app]. rewrite forallb_clean_template, andb_true_r.
    split; [|apply o_end].
    destruct Hrest as [Hr | Hr]; [apply object_attrs_stop; exact Hr|].
    apply object_attrs_invariants. apply (complete_nil ts []); auto.
  - assert (Hnd' : NoDup (map at_label (pre ++ [template_attribute t]) ++ map ta_label ts)).
    { rewrite map_app, <- app_assoc. exact Hnd. }
    destruct (IH (fun t' Hin => Hts t' (or_intror Hin)) (pre ++ [template_attribute t]) clear rest Hnd') as (r & E & R).
    { destruct Hrest as [Hr | Hr]; [left; exact Hr|right].
      unfold complete in *. cbn [filter] in Hr. rewrite Hi in Hr. exact Hr. }
    exists (template_attribute t :: r). split; [|apply o_invariant; assumption].
    cbn [map object_attrs]. cbn [template_attribute at_invariant]. rewrite Hi.
    rewrite <- app_assoc in E. cbn [app] in E. rewrite <- app_assoc in E. exact E.
  - cbn [map] in Hnd. pose proof Hnd as Hnd0. apply NoDup_remove in Hnd as [Hnd' Hn].
    destruct (IH (fun t' Hin => Hts t' (or_intror Hin)) pre clear rest Hnd') as (r & E & R).
    { destruct Hrest as [Hr | Hr]; [left; exact Hr|right].
      unfold complete in *. cbn [filter] in Hr. rewrite Hi in Hr. cbn [negb length] in Hr. lia. }
    exists r. split; [|apply o_absent; assumption].
    cbn [map object_attrs app]. cbn [template_attribute at_invariant]. rewrite Hi.
    rewrite (absent_descriptor d Hd).
    change (mk_attr (ta_label t) _ _ _ _ _ _) with (template_attribute t).
    rewrite remove_attr_one.
    + exact E.
    + rewrite label_template. intros Hin. apply Hn, in_or_app; auto.
    + rewrite labels_template, label_template. intros Hin. apply Hn, in_or_app; auto.
  - cbn [map] in Hnd. pose proof Hnd as Hnd0. apply NoDup_remove in Hnd as [Hnd' Hn].
    destruct (Hts t (or_introl eq_refl)) as [et Het].
    destruct (tattr_ranges et t Het) as [Rn Rrc].
    destruct (object_attr_read (template_attribute t) c ec (e ++ rest)) as (a & Ea & Oa); auto.
    { cbn [template_attribute at_value at_reprc]. intros rc vs.
      destruct (c_value (ta_chars t)); [|discriminate].
      destruct (or_else (c_count (ta_chars t)) 1 =? 0); [discriminate|]. intros [= <- _]. reflexivity. }
    assert (La : at_label a = ta_label t) by (destruct Oa as [-> _]; reflexivity).
    assert (Hnd1 : NoDup (map at_label (pre ++ [a]) ++ map ta_label ts)).
    { rewrite map_app. cbn [map]. rewrite La, <- app_assoc. exact Hnd0. }
    destruct (IH (fun t' Hin => Hts t' (or_intror Hin)) (pre ++ [a]) (clear && clean a) rest Hnd1) as (r & E & R).
    { destruct Hrest as [Hr | Hr]; [left; exact Hr|right].
      unfold complete in *. cbn [filter] in Hr. rewrite Hi in Hr. cbn [negb length] in Hr. lia. }
    exists (a :: r). split; [|apply o_given; assumption].
    cbn [map object_attrs app]. cbn [template_attribute at_invariant]. rewrite Hi.
    change (mk_attr (ta_label t) _ _ _ _ _ _) with (template_attribute t).
    assert (Ed : parse_attribute_descriptor d = DAttr (flags_of c false false)).
    { apply attr_descriptor. cbn [bit]. unfold char_bits in Hd. lia. }
    rewrite Ed. rewrite <- app_assoc, Ea. cbn [rbind].
    rewrite (set_attr_replace a pre (template_attribute t));
      [|rewrite La; intros Hin; apply Hn, in_or_app; auto | symmetry; exact La].
    assert (Ec : is_log_clear (at_log a) = clean a).
    { destruct Oa as (_ & _ & _ & _ & _ & Hr). apply value_rule_log in Hr. exact Hr. }
    rewrite Ec. rewrite <- !app_assoc in E. cbn [app] in E. rewrite E.
    cbn [forallb]. rewrite andb_assoc. reflexivity.
Qed.
