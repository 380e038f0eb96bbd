(** Lemmas about dlisio.cpp: label, search, headers, trimming, fingerprints. *)
From Verif Require Import Bytes BytesProofs DlisTypes SpecTypes TypesProofs DlisCore SpecCore.
Local Open Scope Z_scope.
Ltac Zify.zify_post_hook ::= Z.div_mod_to_equations.

(** ** Character classes *)
Lemma isspace_iff b : c_isspace b = true <-> space_char b.
Proof. unfold c_isspace, space_char. lia. Qed.
Lemma isdigit_iff b : c_isdigit b = true <-> digit_char b.
Proof. unfold c_isdigit, digit_char. lia. Qed.
Lemma space_not_digit b : space_char b -> ~ digit_char b.
Proof. unfold space_char, digit_char. lia. Qed.

Lemma forallb_Forall {A} (f : A -> bool) (P : A -> Prop) l :
  (forall x, f x = true <-> P x) -> forallb f l = true <-> Forall P l.
Proof.
  intros H. rewrite forallb_forall, Forall_forall. split; intros K x Hx; apply H; auto.
Qed.

Lemma drop_while_split f xs :
  xs = take_while f xs ++ drop_while f xs /\ forallb f (take_while f xs) = true /\
  match drop_while f xs with [] => True | b :: _ => f b = false end.
Proof.
  induction xs as [|b t (E & F & G)]; cbn [take_while drop_while]; [auto|].
  destruct (f b) eqn:Hb; cbn [app forallb].
  - rewrite Hb. cbn [andb]. repeat split; [congruence | exact F | exact G].
  - auto.
Qed.

Lemma drop_while_app f a b :
  forallb f a = true -> match b with [] => True | x :: _ => f x = false end ->
  drop_while f (a ++ b) = b /\ take_while f (a ++ b) = a.
Proof.
  intros Ha Hb. induction a as [|x a IH]; cbn [app].
  - destruct b as [|y b]; [auto|]. cbn. rewrite Hb. auto.
  - cbn [forallb] in Ha. apply andb_prop in Ha as [Hx Ha]. destruct (IH Ha) as [E1 E2].
    cbn. rewrite Hx, E1, E2. auto.
Qed.

Lemma cstr_spec buf : c_string_of buf (cstr buf).
Proof.
  induction buf as [|b t (H1 & tl & H2 & H3)]; cbn [cstr].
  - split; [intros [] |]. exists []. auto.
  - destruct (b2z b =? 0) eqn:Hb.
    + split; [intros [] |]. exists (b :: t). split; [reflexivity|]. right. exists t. f_equal.
      apply b2z_inj. rewrite (proj1 (Z.eqb_eq _ _) Hb). reflexivity.
    + split.
      * intros [E|E]; [|contradiction]. subst b. discriminate.
      * exists tl. split; [cbn; congruence | exact H3].
Qed.

Lemma c_string_unique buf s1 s2 : c_string_of buf s1 -> c_string_of buf s2 -> s1 = s2.
Proof.
  revert s1 s2. induction buf as [|b t IH]; intros s1 s2 (N1 & t1 & E1 & T1) (N2 & t2 & E2 & T2).
  - symmetry in E1, E2. apply app_eq_nil in E1, E2. destruct E1, E2. congruence.
  - destruct s1 as [|c1 s1], s2 as [|c2 s2]; cbn in E1, E2; [reflexivity | | |].
    + destruct T1 as [->|[u ->]]; [discriminate|]. injection E1 as -> ->. injection E2 as <- ->.
      exfalso. apply N2. left. reflexivity.
    + destruct T2 as [->|[u ->]]; [discriminate|]. injection E2 as -> ->. injection E1 as <- ->.
      exfalso. apply N1. left. reflexivity.
    + injection E1 as <- E1. injection E2 as <- E2. f_equal. apply IH.
      * split; [intros H; apply N1; right; exact H | eauto].
      * split; [intros H; apply N2; right; exact H | eauto].
Qed.

(** ** Number fields *)
Lemma fold_digits ds acc :
  fold_left (fun acc b => acc * 10 + (b2z b - 48)) ds acc =
  acc * 10 ^ Z.of_nat (length ds) + decimal_value ds.
Proof.
  revert acc. induction ds as [|d t IH]; intros acc; cbn [fold_left decimal_value length].
  - change (10 ^ Z.of_nat 0) with 1. ring.
  - rewrite IH. rewrite Nat2Z.inj_succ, Z.pow_succ_r by lia. ring.
Qed.

Lemma cstr_app_nul s tail :
  ~ In x00 s -> (tail = [] \/ exists t, tail = x00 :: t) -> cstr (s ++ tail) = s.
Proof.
  intros N T. apply (c_string_unique (s ++ tail)); [apply cstr_spec|].
  split; [exact N | eauto].
Qed.

Lemma digits_not_nul ds : Forall digit_char ds -> ~ In x00 ds.
Proof. intros F I. rewrite Forall_forall in F. specialize (F _ I). unfold digit_char in F. change (b2z x00) with 0 in F. lia. Qed.
Lemma spaces_not_nul ds : Forall space_char ds -> ~ In x00 ds.
Proof. intros F I. rewrite Forall_forall in F. specialize (F _ I). unfold space_char in F. change (b2z x00) with 0 in F. lia. Qed.

(** value of a number field in the code, when it is accepted *)
Definition code_number (fld : bytes) : option Z :=
  let s := cstr fld in if is_number_string s then Some (atoi s) else None.

Lemma number_shape (f : byte -> bool) s :
  (forall b, f b = true -> digit_char b) ->
  is_sul_number_field_valid f s = true <->
  exists pre ds post, s = pre ++ ds ++ post /\ Forall space_char pre /\ ds <> [] /\
    Forall (fun b => f b = true) ds /\ Forall space_char post.
Proof.
  intros Hf. unfold is_sul_number_field_valid.
  destruct (drop_while_split c_isspace s) as (E & F & G). split.
  - intros V. destruct (drop_while c_isspace s) as [|b r] eqn:D; [discriminate|].
    destruct (drop_while_split f (b :: r)) as (E2 & F2 & G2).
    exists (take_while c_isspace s), (take_while f (b :: r)), (drop_while f (b :: r)).
    split; [rewrite <- E2; exact E|].
    split; [apply (forallb_Forall _ _ _ isspace_iff); exact F|].
    split.
    + intros N. rewrite N in E2. cbn [app] in E2. rewrite <- E2 in V.
      cbn [forallb] in V. rewrite G in V. discriminate.
    + split; [rewrite Forall_forall; rewrite forallb_forall in F2; exact F2|].
      apply (forallb_Forall _ _ _ isspace_iff); exact V.
  - intros (pre & ds & post & -> & Hpre & Hne & Hds & Hpost).
    destruct ds as [|d ds]; [congruence|].
    assert (Hd : f d = true) by (inversion Hds; assumption).
    destruct (drop_while_app c_isspace pre ((d :: ds) ++ post)) as [D _].
    + apply (forallb_Forall _ _ _ isspace_iff). exact Hpre.
    + cbn. destruct (c_isspace d) eqn:S; [|reflexivity]. apply isspace_iff in S.
      exfalso. apply (space_not_digit _ S). apply Hf. exact Hd.
    + rewrite D. cbn [app].
      destruct (drop_while_app f (d :: ds) post) as [D2 _].
      * rewrite forallb_forall. rewrite Forall_forall in Hds. exact Hds.
      * destruct post as [|p post]; [exact I|]. destruct (f p) eqn:P; [|reflexivity].
        exfalso. apply Hf in P. inversion Hpost; subst. eapply space_not_digit; eauto.
      * cbn [app] in D2. rewrite D2. apply (forallb_Forall _ _ _ isspace_iff). exact Hpost.
Qed.

Lemma atoi_shape pre ds post :
  Forall space_char pre -> ds <> [] -> Forall digit_char ds -> Forall space_char post ->
  atoi (pre ++ ds ++ post) = decimal_value ds.
Proof.
  intros Hpre Hne Hds Hpost. destruct ds as [|d ds]; [congruence|].
  assert (Hd : digit_char d) by (inversion Hds; assumption).
  unfold atoi. destruct (drop_while_app c_isspace pre ((d :: ds) ++ post)) as [D _].
  - apply (forallb_Forall _ _ _ isspace_iff). exact Hpre.
  - cbn. destruct (c_isspace d) eqn:S; [|reflexivity]. apply isspace_iff in S.
    exfalso. exact (space_not_digit _ S Hd).
  - rewrite D. cbn [app].
    replace (b2z d =? 45) with false by (unfold digit_char in Hd; lia).
    replace (b2z d =? 43) with false by (unfold digit_char in Hd; lia).
    destruct (drop_while_app c_isdigit (d :: ds) post) as [_ T].
    + apply (forallb_Forall _ _ _ isdigit_iff). exact Hds.
    + destruct post as [|p post]; [exact I|]. destruct (c_isdigit p) eqn:P; [|reflexivity].
      apply isdigit_iff in P. inversion Hpost; subst. exfalso. eapply space_not_digit; eauto.
    + cbn [app] in T. rewrite T. rewrite fold_digits. cbn [Z.mul]. ring.
Qed.

Lemma code_number_spec fld n : code_number fld = Some n <-> sul_number fld n.
Proof.
  unfold code_number. split.
  - destruct (is_number_string (cstr fld)) eqn:V; [|discriminate]. intros E. injection E as <-.
    apply number_shape in V; [|intros b; apply isdigit_iff].
    destruct V as (pre & ds & post & E & Hpre & Hne & Hds & Hpost).
    assert (Hds' : Forall digit_char ds)
      by (eapply Forall_impl; [|exact Hds]; intros b; apply isdigit_iff).
    rewrite E. rewrite atoi_shape by assumption.
    destruct (cstr_spec fld) as (_ & tail & E2 & T). rewrite E2. rewrite E. rewrite <- !app_assoc.
    constructor; assumption.
  - intros H. destruct H as [pre ds post tail Hpre Hne Hds Hpost T].
    replace (pre ++ ds ++ post ++ tail) with ((pre ++ ds ++ post) ++ tail) by (rewrite <- !app_assoc; reflexivity).
    rewrite cstr_app_nul.
    + replace (is_number_string (pre ++ ds ++ post)) with true.
      * rewrite atoi_shape by assumption. reflexivity.
      * symmetry. apply number_shape; [intros b; apply isdigit_iff|].
        exists pre, ds, post. repeat split; try assumption.
        eapply Forall_impl; [|exact Hds]. intros b. apply isdigit_iff.
    + rewrite !in_app_iff. intros [I|[I|I]]; revert I;
        [apply spaces_not_nul | apply digits_not_nul | apply spaces_not_nul]; assumption.
    + exact T.
Qed.

Lemma decimal_value_nonneg ds : Forall digit_char ds -> 0 <= decimal_value ds.
Proof.
  induction 1 as [|d t Hd _ IH]; cbn [decimal_value]; [lia|].
  pose proof (Z.pow_nonneg 10 (Z.of_nat (length t)) ltac:(lia)). unfold digit_char in Hd. nia.
Qed.

Lemma sul_number_nonneg fld n : sul_number fld n -> 0 <= n.
Proof. intros H. destruct H. apply decimal_value_nonneg. assumption. Qed.

Lemma decimal_zero ds : Forall digit_char ds -> decimal_value ds = 0 -> Forall (fun b => b2z b =? 48 = true) ds.
Proof.
  induction 1 as [|d t Hd Ht IH]; cbn [decimal_value]; intros E; [constructor|].
  pose proof (Z.pow_pos_nonneg 10 (Z.of_nat (length t)) ltac:(lia) ltac:(lia)).
  pose proof (decimal_value_nonneg t Ht). unfold digit_char in Hd.
  assert (b2z d = 48) by nia. constructor; [lia|]. apply IH. nia.
Qed.

Lemma zero_string_spec fld : sul_number fld 0 -> is_zero_string (cstr fld) = true.
Proof.
  intros H. remember 0 as z eqn:Z0. destruct H as [pre ds post tail Hpre Hne Hds Hpost T].
  replace (pre ++ ds ++ post ++ tail) with ((pre ++ ds ++ post) ++ tail) by (rewrite <- !app_assoc; reflexivity).
  rewrite cstr_app_nul; [|rewrite !in_app_iff; intros [I|[I|I]]; revert I;
    [apply spaces_not_nul | apply digits_not_nul | apply spaces_not_nul]; assumption | exact T].
  apply number_shape.
  - intros b Hb. unfold digit_char. lia.
  - exists pre, ds, post. repeat split; try assumption. apply decimal_zero; assumption.
Qed.

(** ** Revision *)
Lemma revision_spec rev major minor :
  parse_revision rev = Some (major, minor) <-> revision_text rev major minor.
Proof.
  unfold parse_revision, revision_text. split.
  - destruct (bytes_eqb rev (text "V1.00")) eqn:E.
    + apply bytes_eqb_eq in E. intros H. injection H as <- <-. subst rev.
      exists "1"%byte, "0"%byte, "0"%byte. unfold digit_char. vm_compute. intuition congruence.
    + destruct rev as [|v [|n [|dot [|m1 [|m2 [|x r]]]]]]; try discriminate.
      destruct (_ && _ && _ && _ && _) eqn:C; [|discriminate]. intros H. injection H as <- <-.
      apply andb_prop in C as [C C5]. apply andb_prop in C as [C C4]. apply andb_prop in C as [C C3].
      apply andb_prop in C as [C1 C2]. apply beqb_eq in C1, C3. subst.
      exists n, m1, m2. rewrite <- !isdigit_iff. repeat split; try assumption. lia.
  - intros (n & m1 & m2 & -> & Hn & H1 & H2 & -> & ->).
    destruct (bytes_eqb _ _) eqn:E.
    + apply bytes_eqb_eq in E. injection E as -> -> ->. reflexivity.
    + rewrite !beqb_refl. rewrite (proj2 (isdigit_iff n) Hn), (proj2 (isdigit_iff m1) H1), (proj2 (isdigit_iff m2) H2).
      cbn [andb]. do 2 f_equal. lia.
Qed.

(** ** Storage label *)
Lemma field_skip k n a xs : length a = k -> field k n (a ++ xs) = firstn n xs.
Proof. intros <-. unfold field. rewrite skipn_app, Nat.sub_diag, skipn_all. reflexivity. Qed.
Lemma firstn_len {A} n (a xs : list A) : length a = n -> firstn n (a ++ xs) = a.
Proof. intros <-. rewrite firstn_app, Nat.sub_diag, firstn_all, firstn_O, app_nil_r. reflexivity. Qed.

Section Label.
  Variables seq rev lay len id rest : bytes.
  Hypothesis Hseq : length seq = 4%nat.
  Hypothesis Hrev : length rev = 5%nat.
  Hypothesis Hlay : length lay = 6%nat.
  Hypothesis Hlen : length len = 5%nat.
  Hypothesis Hid : length id = 60%nat.
  Let xs := seq ++ rev ++ lay ++ len ++ id ++ rest.

  Lemma label_fields :
    field 0 4 xs = seq /\ field 4 5 xs = rev /\ field 9 6 xs = lay /\ field 15 5 xs = len /\
    field 20 60 xs = id /\ (length xs <? 80)%nat = false.
  Proof.
    unfold xs. repeat split.
    - unfold field. cbn [skipn]. apply firstn_len; exact Hseq.
    - rewrite field_skip by exact Hseq. apply firstn_len; exact Hrev.
    - rewrite (app_assoc seq). rewrite field_skip by (rewrite app_length; lia). apply firstn_len; exact Hlay.
    - rewrite (app_assoc seq), (app_assoc (seq ++ rev)).
      rewrite field_skip by (rewrite !app_length; lia). apply firstn_len; exact Hlen.
    - rewrite (app_assoc seq), (app_assoc (seq ++ rev)), (app_assoc ((seq ++ rev) ++ lay)).
      rewrite field_skip by (rewrite !app_length; lia). apply firstn_len; exact Hid.
    - rewrite !app_length. lia.
  Qed.

  Definition num_or (d : Z) (o : option Z) : Z := match o with Some n => n | None => d end.

  Lemma sulv1_eq :
    sulv1 xs =
    let sq := num_or (-1) (code_number seq) in
    let ln := num_or (-1) (code_number len) in
    let rc := bytes_eqb lay (text "RECORD") in
    (if (sq >? 0) && (ln >=? 0) && rc then DLIS_OK else DLIS_INCONSISTENT,
     (if sq >? 0 then Some sq else None,
      if (ln >? 0) || ((ln =? 0) && (sq >? 0) && rc) then Some ln else None, rc, id)).
  Proof.
    destruct label_fields as (F1 & _ & F3 & F4 & F5 & _). unfold sulv1. rewrite F1, F3, F4, F5.
    assert (A : forall f, (if is_number_string (cstr f) then atoi (cstr f) else -1) = num_or (-1) (code_number f)).
    { intros f. unfold code_number. destruct (is_number_string (cstr f)); reflexivity. }
    rewrite !A. cbn zeta.
    destruct (code_number seq) as [sq|] eqn:S; destruct (code_number len) as [ln|] eqn:L; cbn [num_or];
      destruct (bytes_eqb lay (text "RECORD")) eqn:R.
    all: try (apply code_number_spec, sul_number_nonneg in S as S0).
    all: try (apply code_number_spec, sul_number_nonneg in L as L0).
    1: { destruct (ln =? 0) eqn:E0.
         - assert (ln = 0) by lia. subst ln.
           rewrite (zero_string_spec len) by exact L.
           destruct (sq >? 0) eqn:E1.
           + replace (sq <=? 0) with false by lia. reflexivity.
           + replace (sq <=? 0) with true by lia. reflexivity.
         - replace (ln >? 0) with true by lia. replace (ln <? 0) with false by lia.
           replace (ln >=? 0) with true by lia.
           destruct (sq >? 0) eqn:E1.
           + replace (sq <=? 0) with false by lia. reflexivity.
           + replace (sq <=? 0) with true by lia. reflexivity. }
    1: { destruct (sq >? 0) eqn:E1; [replace (sq <=? 0) with false by lia | replace (sq <=? 0) with true by lia];
         destruct (ln >? 0) eqn:E2; destruct (ln =? 0) eqn:E3; destruct (ln <? 0) eqn:E4;
         destruct (ln >=? 0) eqn:E5; try lia; reflexivity. }
    all: try (destruct (sq >? 0) eqn:E1; [replace (sq <=? 0) with false by lia | replace (sq <=? 0) with true by lia]; reflexivity).
    all: try reflexivity.
    all: destruct (ln >? 0) eqn:E2; destruct (ln =? 0) eqn:E3; try lia; reflexivity.
  Qed.

  Lemma storage_label_cases :
    (exists major minor, revision_text rev major minor /\ (major, minor) <> (1, 0) /\
       storage_label xs = LabelUnparsable) \/
    ((forall major minor, revision_text rev major minor -> major = 1 /\ minor = 0) /\
     exists l, storage_label xs = LabelOk l /\
      label_major l = 1 /\ label_minor l = 0 /\
      (forall n, sul_number seq n -> 0 < n -> label_sequence l = n) /\
      ((forall n, sul_number seq n -> n <= 0) -> label_sequence l = -1) /\
      (forall n, sul_number len n -> label_maxlen l = n) /\
      ((forall n, ~ sul_number len n) -> label_maxlen l = 0) /\
      (lay = text "RECORD" -> label_layout l = text "record") /\
      (lay <> text "RECORD" -> label_layout l = text "unknown") /\
      c_string_of id (label_id l) /\
      (label_warning l = false <->
         revision_text rev 1 0 /\ lay = text "RECORD" /\
         (exists n, sul_number seq n /\ 0 < n) /\ (exists n, sul_number len n))).
  Proof.
    destruct label_fields as (_ & F2 & _ & _ & _ & F6).
    unfold storage_label. rewrite F6. unfold dlis_sul. rewrite F6, F2.
    destruct (parse_revision rev) as [[ma mi]|] eqn:P.
    - pose proof (proj1 (revision_spec _ _ _) P) as PR.
      destruct ((ma =? 1) && (mi =? 0)) eqn:V.
      + right. assert (ma = 1 /\ mi = 0) as [-> ->] by lia. split.
        { intros a b H. apply revision_spec in H. rewrite P in H. injection H as <- <-. auto. }
        rewrite sulv1_eq. cbn zeta.
        set (sq := num_or (-1) (code_number seq)). set (ln := num_or (-1) (code_number len)).
        set (rc := bytes_eqb lay (text "RECORD")).
        assert (RC : rc = true <-> lay = text "RECORD") by apply bytes_eqb_eq.
        assert (HL : match code_number len with Some n => 0 <= n | None => True end).
        { destruct (code_number len) eqn:E; [|exact I]. apply code_number_spec in E. eapply sul_number_nonneg; exact E. }
        destruct ((sq >? 0) && (ln >=? 0) && rc) eqn:OKC; cbn [err_is_ok andb];
        (eexists; split; [reflexivity|]);
        cbn [so_seqnum so_maxlen so_major so_minor so_layout_record so_id label_major label_minor
             label_sequence label_maxlen label_layout label_id label_warning].
        all: (split; [reflexivity|]); (split; [reflexivity|]).
        all: (split; [intros n H Hn; apply code_number_spec in H; unfold sq; rewrite H; cbn [num_or];
                replace (n >? 0) with true by lia; reflexivity|]).
        all: (split; [intros H; destruct (sq >? 0) eqn:E; [|reflexivity]; exfalso; unfold sq in E;
                destruct (code_number seq) as [n|] eqn:C; cbn [num_or] in E; [|lia];
                apply code_number_spec in C; specialize (H _ C); lia|]).
        all: (split; [intros n H; apply code_number_spec in H; unfold ln; rewrite H; cbn [num_or];
                rewrite H in HL; destruct (n >? 0) eqn:E; [reflexivity|]; cbn [orb];
                replace n with 0 by lia; destruct ((0 =? 0) && (sq >? 0) && rc); reflexivity|]).
        all: (split; [intros H; unfold ln; destruct (code_number len) as [n|] eqn:C;
                [apply code_number_spec in C; exfalso; exact (H _ C) | reflexivity]|]).
        all: (split; [intros H; rewrite (proj2 RC H); reflexivity|]).
        all: (split; [intros H; destruct rc eqn:E; [exfalso; apply H; apply RC; reflexivity | reflexivity]|]).
        all: (split; [apply cstr_spec|]).
        * split; [intros _|reflexivity]. apply andb_prop in OKC as [OKC R]. apply andb_prop in OKC as [S L].
          split; [exact PR|]. split; [apply RC; exact R|]. split.
          -- unfold sq in S. destruct (code_number seq) as [n|] eqn:C; cbn [num_or] in S; [|lia].
             exists n. split; [apply code_number_spec; exact C | lia].
          -- unfold ln in L. destruct (code_number len) as [n|] eqn:C; cbn [num_or] in L; [|lia].
             exists n. apply code_number_spec; exact C.
        * split; [discriminate|]. intros (_ & R & (n & S & Hn) & (m & L)). exfalso.
          apply code_number_spec in S, L. rewrite L in HL. unfold sq, ln in OKC. rewrite S, L in OKC. cbn [num_or] in OKC.
          rewrite (proj2 RC R) in OKC. lia.
      + left. exists ma, mi. split; [exact PR|]. split; [intros E; injection E as -> ->; discriminate | reflexivity].
    - right. split.
      { intros a b H. apply revision_spec in H. rewrite P in H. discriminate. }
      cbn [Z.eqb Pos.eqb andb]. rewrite sulv1_eq. cbn zeta.
      set (sq := num_or (-1) (code_number seq)). set (ln := num_or (-1) (code_number len)).
      set (rc := bytes_eqb lay (text "RECORD")).
      assert (RC : rc = true <-> lay = text "RECORD") by apply bytes_eqb_eq.
      assert (HL : match code_number len with Some n => 0 <= n | None => True end).
      { destruct (code_number len) eqn:E; [|exact I]. apply code_number_spec in E. eapply sul_number_nonneg; exact E. }
      cbv beta iota zeta. rewrite andb_false_r. eexists. split; [reflexivity|].
      cbn [so_seqnum so_maxlen so_major so_minor so_layout_record so_id label_major label_minor
             label_sequence label_maxlen label_layout label_id label_warning].
      (split; [reflexivity|]); (split; [reflexivity|]).
      (split; [intros n H Hn; apply code_number_spec in H; unfold sq; rewrite H; cbn [num_or];
                replace (n >? 0) with true by lia; reflexivity|]).
      (split; [intros H; destruct (sq >? 0) eqn:E; [|reflexivity]; exfalso; unfold sq in E;
                destruct (code_number seq) as [n|] eqn:C; cbn [num_or] in E; [|lia];
                apply code_number_spec in C; specialize (H _ C); lia|]).
      (split; [intros n H; apply code_number_spec in H; unfold ln; rewrite H; cbn [num_or];
                rewrite H in HL; destruct (n >? 0) eqn:E; [reflexivity|]; cbn [orb];
                replace n with 0 by lia; destruct ((0 =? 0) && (sq >? 0) && rc); reflexivity|]).
      (split; [intros H; unfold ln; destruct (code_number len) as [n|] eqn:C;
                [apply code_number_spec in C; exfalso; exact (H _ C) | reflexivity]|]).
      (split; [intros H; rewrite (proj2 RC H); reflexivity|]).
      (split; [intros H; destruct rc eqn:E; [exfalso; apply H; apply RC; reflexivity | reflexivity]|]).
      (split; [apply cstr_spec|]).
      split; [discriminate|]. intros (H & _). apply revision_spec in H. congruence.
  Qed.
End Label.

(** ** Search *)
Lemma is_prefix_spec needle hay : is_prefix needle hay = true <-> exists post, hay = needle ++ post.
Proof.
  revert hay. induction needle as [|n ns IH]; intros hay; cbn [is_prefix].
  - split; [intros _; exists hay; reflexivity | reflexivity].
  - destruct hay as [|h hs].
    + split; [discriminate|]. intros [p E]. discriminate.
    + rewrite andb_true_iff, IH, beqb_eq. split.
      * intros [-> [p ->]]. exists p. reflexivity.
      * intros [p E]. injection E as -> ->. eauto.
Qed.

Lemma occurs_cons needle h t k : occurs_at needle (h :: t) (S k) <-> occurs_at needle t k.
Proof.
  unfold occurs_at. split.
  - intros (pre & post & E & L). destruct pre as [|p pre]; [discriminate|]. injection E as -> ->. 
    exists pre, post. split; [reflexivity | cbn in L; lia].
  - intros (pre & post & -> & L). exists (h :: pre), post. split; [reflexivity | cbn; lia].
Qed.

Lemma occurs_0 needle hay : occurs_at needle hay 0 <-> is_prefix needle hay = true.
Proof.
  rewrite is_prefix_spec. unfold occurs_at. split.
  - intros (pre & post & -> & L). destruct pre; [|discriminate]. exists post. reflexivity.
  - intros [post ->]. exists [], post. auto.
Qed.

Lemma search_Some needle hay k : search needle hay = Some k <-> first_occurrence needle hay k.
Proof.
  unfold first_occurrence. revert k. induction hay as [|h t IH]; intros k; cbn [search];
  destruct (is_prefix needle _) eqn:P.
  - split.
    + intros E. injection E as <-. split; [apply occurs_0; exact P | lia].
    + intros [_ H]. apply occurs_0 in P. specialize (H _ P). f_equal. lia.
  - split; [discriminate|]. intros [(pre & post & E & L) _]. exfalso.
    symmetry in E. apply app_eq_nil in E as [-> E]. apply app_eq_nil in E as [-> ->].
    rewrite (proj2 (is_prefix_spec [] [])) in P; [discriminate|]. exists []. reflexivity.
  - split.
    + intros E. injection E as <-. split; [apply occurs_0; exact P | lia].
    + intros [_ H]. apply occurs_0 in P. specialize (H _ P). f_equal. lia.
  - split.
    + destruct (search needle t) as [j|] eqn:S; [|discriminate]. intros E. injection E as <-.
      destruct (proj1 (IH j) eq_refl) as [O M]. split; [apply occurs_cons; exact O|].
      intros i Hi. destruct i as [|i]; [apply occurs_0 in Hi; congruence|].
      apply (proj1 (occurs_cons _ _ _ _)) in Hi. specialize (M _ Hi). lia.
    + intros [O M]. destruct k as [|k]; [apply occurs_0 in O; congruence|].
      apply (proj1 (occurs_cons _ _ _ _)) in O. rewrite (proj2 (IH k)); [reflexivity|].
      split; [exact O|]. intros j Hj. apply (proj2 (occurs_cons needle h t j)) in Hj. specialize (M _ Hj). lia.
Qed.

Lemma search_None needle hay : search needle hay = None <-> forall k, ~ occurs_at needle hay k.
Proof.
  induction hay as [|h t IH]; cbn [search]; destruct (is_prefix needle _) eqn:P.
  - split; [discriminate|]. intros H. exfalso. apply (H O). apply occurs_0. exact P.
  - split; [|reflexivity]. intros _ k (pre & post & E & L).
    symmetry in E. apply app_eq_nil in E as [-> E]. apply app_eq_nil in E as [-> ->].
    rewrite (proj2 (is_prefix_spec [] [])) in P; [discriminate|]. exists []. reflexivity.
  - split; [discriminate|]. intros H. exfalso. apply (H O). apply occurs_0. exact P.
  - destruct (search needle t) as [j|] eqn:S.
    + split; [discriminate|]. intros H. apply search_Some in S as [O _]. exfalso.
      apply (H (Datatypes.S j)). apply occurs_cons. exact O.
    + split; [|reflexivity]. intros _ k. destruct k as [|k].
      * rewrite occurs_0. congruence.
      * rewrite occurs_cons. apply IH. reflexivity.
Qed.

Lemma first_occurrence_unique needle hay j k :
  first_occurrence needle hay j -> first_occurrence needle hay k -> j = k.
Proof. intros [O1 M1] [O2 M2]. specialize (M1 _ O2). specialize (M2 _ O1). lia. Qed.

Section Find.
  Variables (needle : bytes) (room : Z).
  Hypothesis Hroom : 0 <= room.
  Definition find_gen (hay : bytes) : err * option Z :=
    match search needle hay with
    | None => (DLIS_NOTFOUND, None)
    | Some k => if Z.of_nat k <? room then (DLIS_INCONSISTENT, None)
                else (DLIS_OK, Some (Z.of_nat k - room))
    end.
  Lemma find_gen_spec hay :
    (forall off, find_gen hay = (DLIS_OK, Some off) <->
       0 <= off /\ first_occurrence needle hay (Z.to_nat (off + room))) /\
    (find_gen hay = (DLIS_NOTFOUND, None) <-> forall k, ~ occurs_at needle hay k) /\
    (find_gen hay = (DLIS_INCONSISTENT, None) <->
       exists k, Z.of_nat k < room /\ first_occurrence needle hay k).
  Proof.
    unfold find_gen. destruct (search needle hay) as [k|] eqn:S.
    - pose proof (proj1 (search_Some _ _ _) S) as F.
      assert (U : forall j, first_occurrence needle hay j -> j = k)
        by (intros j Hj; eapply first_occurrence_unique; eauto).
      destruct (Z.of_nat k <? room) eqn:L.
      + split; [|split].
        * intros off. split; [discriminate|]. intros [H0 H]. apply U in H. lia.
        * split; [discriminate|]. intros H. exfalso. apply (H k). apply F.
        * split; [|reflexivity]. intros _. exists k. split; [lia | exact F].
      + split; [|split].
        * intros off. split.
          -- intros E. injection E as <-. split; [lia|]. replace (Z.to_nat _) with k by lia. exact F.
          -- intros [H0 H]. apply U in H. do 2 f_equal. lia.
        * split; [discriminate|]. intros H. exfalso. apply (H k). apply F.
        * split; [discriminate|]. intros (j & Hj & H). apply U in H. lia.
    - pose proof (proj1 (search_None _ _) S) as F. split; [|split].
      + intros off. split; [discriminate|]. intros [_ [O _]]. exfalso. exact (F _ O).
      + split; [intros _; exact F | reflexivity].
      + split; [discriminate|]. intros (j & _ & [O _]). exfalso. exact (F _ O).
  Qed.
End Find.

Lemma find_sul_spec hay :
  (forall off, dlis_find_sul hay = (DLIS_OK, Some off) <->
     0 <= off /\ first_occurrence (text "RECORD") hay (Z.to_nat (off + 9))) /\
  (dlis_find_sul hay = (DLIS_NOTFOUND, None) <-> forall k, ~ occurs_at (text "RECORD") hay k) /\
  (dlis_find_sul hay = (DLIS_INCONSISTENT, None) <->
     exists k, Z.of_nat k < 9 /\ first_occurrence (text "RECORD") hay k).
Proof. apply (find_gen_spec (text "RECORD") 9). lia. Qed.

Lemma find_vrl_spec hay :
  (forall off, dlis_find_vrl hay = (DLIS_OK, Some off) <->
     0 <= off /\ first_occurrence [xff; x01] hay (Z.to_nat (off + 2))) /\
  (dlis_find_vrl hay = (DLIS_NOTFOUND, None) <-> forall k, ~ occurs_at [xff; x01] hay k) /\
  (dlis_find_vrl hay = (DLIS_INCONSISTENT, None) <->
     exists k, Z.of_nat k < 2 /\ first_occurrence [xff; x01] hay k).
Proof. apply (find_gen_spec [xff; x01] 2). lia. Qed.

(** ** Headers *)
Lemma vrl_decode l0 l1 ff v rest :
  dlis_vrl (l0 :: l1 :: ff :: v :: rest) = Some (u16 l0 l1, b2z v).
Proof.
  unfold dlis_vrl, dlis_unorm. change (l0 :: l1 :: ff :: v :: rest) with ([l0; l1] ++ ff :: v :: rest).
  rewrite read_be_app by reflexivity. cbn [obind take]. unfold dlis_ushort.
  change (v :: rest) with ([v] ++ rest). rewrite read_be_app by reflexivity. cbn [obind].
  rewrite be2, be1. reflexivity.
Qed.

Lemma lrsh_decode l0 l1 a t rest :
  dlis_lrsh (l0 :: l1 :: a :: t :: rest) = Some (u16 l0 l1, b2z a, b2z t).
Proof.
  unfold dlis_lrsh, dlis_unorm, dlis_ushort.
  change (l0 :: l1 :: a :: t :: rest) with ([l0; l1] ++ [a] ++ [t] ++ rest).
  rewrite !read_be_app by reflexivity. cbn [obind]. rewrite !read_be_app by reflexivity. cbn [obind].
  rewrite !read_be_app by reflexivity. cbn [obind]. rewrite be2, !be1. reflexivity.
Qed.

Lemma vrl_short xs : (length xs < 4)%nat -> dlis_vrl xs = None.
Proof. destruct xs as [|a [|b [|c [|d xs]]]]; cbn [length]; intros H; try lia; reflexivity. Qed.
Lemma lrsh_short xs : (length xs < 4)%nat -> dlis_lrsh xs = None.
Proof. destruct xs as [|a [|b [|c [|d xs]]]]; cbn [length]; intros H; try lia; reflexivity. Qed.

Lemma land_bit a k : 0 <= k -> Z.land a (2 ^ k) = bit_value a k.
Proof.
  intros Hk. unfold bit_value. apply Z.bits_inj'. intros n Hn. rewrite Z.land_spec.
  rewrite Z.pow2_bits_eqb by exact Hk.
  destruct (Z.eqb_spec k n) as [->|N].
  - rewrite andb_true_r. destruct (Z.testbit a n); [rewrite Z.pow2_bits_true by lia; reflexivity | rewrite Z.bits_0; reflexivity].
  - rewrite andb_false_r. destruct (Z.testbit a k); [rewrite Z.pow2_bits_false by lia; reflexivity | rewrite Z.bits_0; reflexivity].
Qed.

Lemma has_bit a k : 0 <= k -> has a (2 ^ k) = Z.testbit a k.
Proof.
  intros Hk. unfold has. rewrite land_bit by exact Hk. unfold bit_value.
  destruct (Z.testbit a k); [|reflexivity].
  pose proof (Z.pow_pos_nonneg 2 k ltac:(lia) Hk). lia.
Qed.

Lemma segment_attributes_bits a :
  dlis_segment_attributes a =
  mk_segattr (bit_value a 7) (bit_value a 6) (bit_value a 5) (bit_value a 4)
             (bit_value a 3) (bit_value a 2) (bit_value a 1) (bit_value a 0).
Proof.
  unfold dlis_segment_attributes. rewrite <- !land_bit by lia. reflexivity.
Qed.

(** ** Trimming *)
Lemma nth_error_app_r {A} (a b : list A) x r : nth_error (a ++ b ++ x :: r) (length a + length b) = Some x.
Proof.
  rewrite nth_error_app2 by lia. rewrite nth_error_app2 by lia.
  replace (length a + length b - length a - length b)%nat with O by lia. reflexivity.
Qed.

Lemma trim_eq a before seg :
  dlis_trim_record_segment a before seg =
  if Z.testbit a 4 then Some (DLIS_OK, 0)
  else if Z.testbit a 0 then
    let at_ := Z.of_nat (length before) + Z.of_nat (length seg) - 1 - tail_size a in
    if at_ <? 0 then None
    else do b <- nth_error (before ++ seg) (Z.to_nat at_);
         let t := tail_size a + b2z b in
         Some (if t >? Z.of_nat (length seg) then DLIS_BAD_SIZE else DLIS_OK, t)
  else Some (if tail_size a >? Z.of_nat (length seg) then DLIS_BAD_SIZE else DLIS_OK, tail_size a).
Proof.
  unfold dlis_trim_record_segment.
  change SEGATTR_ENCRYPT with (2 ^ 4). change SEGATTR_CHCKSUM with (2 ^ 2).
  change SEGATTR_TRAILEN with (2 ^ 1). change SEGATTR_PADDING with (2 ^ 0).
  rewrite !has_bit by lia. destruct (Z.testbit a 4) eqn:E; cbn [negb].
  - cbn [obind]. replace (0 >? Z.of_nat (length seg)) with false by lia. reflexivity.
  - cbn zeta. change ((if Z.testbit a 2 then 2 else 0) + (if Z.testbit a 1 then 2 else 0)) with (tail_size a).
    destruct (Z.testbit a 0).
    + destruct (_ <? 0); [reflexivity|]. destruct (nth_error _ _); reflexivity.
    + reflexivity.
Qed.

Lemma trim_exact a before body pad tail :
  Z.testbit a 4 = false ->
  Z.of_nat (length tail) = tail_size a ->
  (if Z.testbit a 0 then exists p c, pad = p ++ [c] /\ b2z c = Z.of_nat (length pad) else pad = []) ->
  dlis_trim_record_segment a before (body ++ pad ++ tail) =
  Some (DLIS_OK, Z.of_nat (length pad) + Z.of_nat (length tail)).
Proof.
  intros E T P. rewrite trim_eq, E. destruct (Z.testbit a 0).
  - destruct P as (p & c & -> & C). cbn zeta.
    rewrite !app_length in *. cbn [length] in *. rewrite !Nat2Z.inj_add in *.
    rewrite <- T. replace (_ <? 0) with false by lia.
    replace (Z.to_nat _) with (length before + length (body ++ p))%nat by (rewrite app_length; lia).
    replace (before ++ body ++ (p ++ [c]) ++ tail) with (before ++ (body ++ p) ++ c :: tail)
      by (rewrite <- !app_assoc; reflexivity).
    rewrite nth_error_app_r. cbn [obind]. rewrite C.
    replace (_ >? _) with false by lia. do 2 f_equal. lia.
  - subst pad. cbn [app length]. rewrite <- T. rewrite app_length.
    replace (_ >? _) with false by lia. do 2 f_equal.
Qed.

Lemma trim_bad a before seg :
  Z.testbit a 4 = false -> tail_size a < Z.of_nat (length seg) ->
  forall e t, dlis_trim_record_segment a before seg = Some (e, t) ->
  exists n, t = tail_size a + n /\
    (if Z.testbit a 0
     then exists pre c post, seg = pre ++ c :: post /\ Z.of_nat (length post) = tail_size a /\ n = b2z c
     else n = 0) /\
    (e = DLIS_BAD_SIZE <-> t > Z.of_nat (length seg)) /\ (e = DLIS_OK <-> t <= Z.of_nat (length seg)).
Proof.
  intros E L e t. rewrite trim_eq, E. cbn zeta. destruct (Z.testbit a 0).
  - assert (T0 : 0 <= tail_size a) by (unfold tail_size; destruct (Z.testbit a 2), (Z.testbit a 1); lia).
    set (k := (length seg - 1 - Z.to_nat (tail_size a))%nat).
    replace (_ <? 0) with false by lia.
    replace (Z.to_nat _) with (length before + k)%nat by lia.
    rewrite nth_error_app2 by lia. replace (length before + k - length before)%nat with k by lia.
    destruct (nth_error seg k) as [c|] eqn:N; [|discriminate]. cbn [obind]. intros H.
    apply nth_error_split in N as (pre & post & -> & Lp).
    exists (b2z c). injection H as <- <-. split; [reflexivity|]. split.
    + exists pre, c, post. split; [reflexivity|]. split; [|reflexivity].
      unfold k in Lp. clear k. rewrite app_length in *. cbn [length] in *. lia.
    + destruct (_ >? _) eqn:G; (split; split; try discriminate; try lia; reflexivity).
  - intros H. exists 0. injection H as <- <-. split; [lia|]. split; [reflexivity|].
    destruct (_ >? _) eqn:G; (split; split; try discriminate; try lia; reflexivity).
Qed.
