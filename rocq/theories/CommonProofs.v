(** Proofs about strings and error handlers. *)
From Verif Require Import Bytes BytesProofs Stream PyBase CommonPy SpecCommon.
Local Open Scope Z_scope.
Ltac Zify.zify_post_hook ::= Z.div_mod_to_equations.

Lemma z2b_of a z : b2z a = z -> z2b z = a.
Proof. intros <-. apply z2b_b2z. Qed.

Ltac bz := rewrite ?b2z_z2b, ?Z.mod_small by (try rewrite !Z.mod_small; lia).
Ltac byte_is a z := let R := fresh in assert (z2b z = a) as R by (apply z2b_of; lia); rewrite R; clear R.

Lemma utf8_1 a s : b2z a <= 127 -> utf8 (a :: s) = do t <- utf8 s; Some (b2z a :: t).
Proof. intros H. cbn [utf8]. replace (b2z a <=? 127) with true by lia. reflexivity. Qed.
Lemma utf8_2 a b s : 127 < b2z a -> between 0xC2 a 0xDF && cont b = true ->
  utf8 (a :: b :: s) = do t <- utf8 s; Some ((b2z a - 192) * 64 + (b2z b - 128) :: t).
Proof. intros H C. cbn [utf8]. replace (b2z a <=? 127) with false by lia. rewrite C. reflexivity. Qed.
Definition lead3 (a b : byte) : bool :=
  (b2z a =? 0xE0) && between 0xA0 b 0xBF || between 0xE1 a 0xEC && cont b
  || (b2z a =? 0xED) && between 0x80 b 0x9F || between 0xEE a 0xEF && cont b.
Lemma utf8_3 a b c s : 0xDF < b2z a -> cont c && lead3 a b = true ->
  utf8 (a :: b :: c :: s) = do t <- utf8 s; Some ((b2z a - 224) * 4096 + (b2z b - 128) * 64 + (b2z c - 128) :: t).
Proof.
  intros H C. cbn [utf8]. replace (b2z a <=? 127) with false by lia.
  replace (between 0xC2 a 0xDF) with false by (unfold between; lia). cbn [andb]. fold (lead3 a b). rewrite C. reflexivity.
Qed.
Definition lead4 (a b : byte) : bool :=
  (b2z a =? 0xF0) && between 0x90 b 0xBF || between 0xF1 a 0xF3 && cont b || (b2z a =? 0xF4) && between 0x80 b 0x8F.
Lemma utf8_4 a b c d s : 0xEF < b2z a -> cont c && cont d && lead4 a b = true ->
  utf8 (a :: b :: c :: d :: s) =
  do t <- utf8 s; Some ((b2z a - 240) * 262144 + (b2z b - 128) * 4096 + (b2z c - 128) * 64 + (b2z d - 128) :: t).
Proof.
  intros H C. cbn [utf8]. replace (b2z a <=? 127) with false by lia.
  replace (between 0xC2 a 0xDF) with false by (unfold between; lia). cbn [andb]. fold (lead3 a b).
  replace (lead3 a b) with false by (unfold lead3, between; lia). rewrite andb_false_r. fold (lead4 a b). rewrite C. reflexivity.
Qed.
Lemma utf8_enc c s : scalar c -> utf8 (enc_char c ++ s) = do t <- utf8 s; Some (c :: t).
Proof.
  intros [H1 H2]. unfold enc_char.
  assert (S : forall z, 0 <= z < 256 -> b2z (z2b z) = z) by (intros z Hz; rewrite b2z_z2b; apply Z.mod_small; lia).
  destruct (Z.ltb_spec c 0x80); [|destruct (Z.ltb_spec c 0x800); [|destruct (Z.ltb_spec c 0x10000)]]; cbn [app].
  - rewrite utf8_1 by (rewrite S; lia). rewrite S by lia. reflexivity.
  - rewrite utf8_2 by (unfold between, cont; rewrite !S by lia; lia). rewrite !S by lia.
    destruct (utf8 s); [|reflexivity]. cbn [obind]. do 2 f_equal. lia.
  - rewrite utf8_3 by (unfold lead3, between, cont; rewrite !S by lia; lia). rewrite !S by lia.
    destruct (utf8 s); [|reflexivity]. cbn [obind]. do 2 f_equal. lia.
  - rewrite utf8_4 by (unfold lead4, between, cont; rewrite !S by lia; lia). rewrite !S by lia.
    destruct (utf8 s); [|reflexivity]. cbn [obind]. do 2 f_equal. lia.
Qed.
Lemma utf8_complete u s : utf8_text u s -> utf8 s = Some u.
Proof.
  intros [F ->]. induction F as [|c u H F IH]; [reflexivity|]. cbn [flat_map]. rewrite utf8_enc, IH by exact H. reflexivity.
Qed.
Lemma cons_text c u e s : scalar c -> e = enc_char c -> utf8_text u s -> utf8_text (c :: u) (e ++ s).
Proof. intros H -> [F ->]. split; [constructor; assumption | reflexivity]. Qed.

Lemma utf8_sound : forall n s u, (length s <= n)%nat -> utf8 s = Some u -> utf8_text u s.
Proof.
  induction n as [|n IH]; intros s u L E.
  { destruct s; [|cbn in L; lia]. injection E as <-. split; [constructor | reflexivity]. }
  destruct s as [|a s1]; [injection E as <-; split; [constructor | reflexivity]|]. cbn [length] in L. cbn [utf8] in E.
  pose proof (b2z_range a) as Ra.
  destruct (Z.leb_spec (b2z a) 127) as [A1|A1].
  { destruct (utf8 s1) as [t|] eqn:T; [|discriminate]. injection E as <-.
    apply (cons_text _ _ [a]); [unfold scalar; lia | | apply IH; [lia | exact T]].
    unfold enc_char. replace (_ <? 128) with true by lia. rewrite z2b_b2z. reflexivity. }
  destruct s1 as [|b s2]; [discriminate|]. pose proof (b2z_range b) as Rb. cbn [length] in L. unfold between, cont in E.
  destruct (_ && _ && _) eqn:C in E.
  { destruct (utf8 s2) as [t|] eqn:T; [|discriminate]. injection E as <-.
    apply (cons_text _ _ [a; b]); [unfold scalar; lia | | apply IH; [lia | exact T]].
    unfold enc_char. replace (_ <? 128) with false by lia. replace (_ <? 2048) with true by lia.
    rewrite (z2b_of a), (z2b_of b) by lia. reflexivity. }
  clear C. destruct s2 as [|c s3]; [discriminate|]. pose proof (b2z_range c) as Rc. cbn [length] in L.
  match type of E with (if ?x then _ else _) = _ => destruct x eqn:C in E end.
  { destruct (utf8 s3) as [t|] eqn:T; [|discriminate]. injection E as <-.
    apply (cons_text _ _ [a; b; c]); [unfold scalar; lia | | apply IH; [lia | exact T]].
    unfold enc_char. replace (_ <? 128) with false by lia. replace (_ <? 2048) with false by lia. replace (_ <? 65536) with true by lia.
    rewrite (z2b_of a), (z2b_of b), (z2b_of c) by lia. reflexivity. }
  clear C. destruct s3 as [|d s4]; [discriminate|]. pose proof (b2z_range d) as Rd. cbn [length] in L.
  match type of E with (if ?x then _ else _) = _ => destruct x eqn:C in E end; [|discriminate].
  destruct (utf8 s4) as [t|] eqn:T; [|discriminate]. injection E as <-.
  apply (cons_text _ _ [a; b; c; d]); [unfold scalar; lia | | apply IH; [lia | exact T]].
  unfold enc_char. replace (_ <? 128) with false by lia. replace (_ <? 2048) with false by lia. replace (_ <? 65536) with false by lia.
  rewrite (z2b_of a), (z2b_of b), (z2b_of c), (z2b_of d) by lia. reflexivity.
Qed.
Lemma utf8_spec s u : utf8 s = Some u <-> utf8_text u s.
Proof. split; [apply (utf8_sound (length s)); lia | apply utf8_complete]. Qed.

Lemma c_string_nul p t : no_nul p -> c_string (p ++ x00 :: t) = p.
Proof.
  induction p as [|b p IH]; intros N; [reflexivity|]. cbn [app c_string].
  assert (b2z b =? 0 = false) as ->.
  { apply Z.eqb_neq. intros E. apply N. left. apply b2z_inj. rewrite E. reflexivity. }
  rewrite IH; [reflexivity|]. intros H. apply N. right. exact H.
Qed.
Lemma c_string_id p : no_nul p -> c_string p = p.
Proof.
  induction p as [|b p IH]; intros N; [reflexivity|]. cbn [app c_string].
  assert (b2z b =? 0 = false) as ->.
  { apply Z.eqb_neq. intros E. apply N. left. apply b2z_inj. rewrite E. reflexivity. }
  rewrite IH; [reflexivity|]. intros H. apply N. right. exact H.
Qed.

Section encodings.
Variable encoding : Type.
Variable codec : encoding -> bytes -> option (list Z).
Lemma try_spec encs s u : try_encodings encoding codec encs s = Some u <->
  exists a e b, encs = a ++ e :: b /\ (forall x, In x a -> codec x s = None) /\ codec e s = Some u.
Proof.
  induction encs as [|e encs IH]; cbn.
  - split; [discriminate | intros (a & e & b & E & _); destruct a; discriminate].
  - destruct (codec e s) as [v|] eqn:C.
    + split.
      * intros E. injection E as <-. exists [], e, encs. repeat split; auto. intros x [].
      * intros (a & e' & b & E & N & C'). destruct a as [|x a].
        { injection E as <- _. congruence. }
        injection E as <- _. rewrite N in C by (left; reflexivity). discriminate.
    + rewrite IH. split.
      * intros (a & e' & b & -> & N & C'). exists (e :: a), e', b. repeat split; auto. intros x [<-|X]; auto.
      * intros (a & e' & b & E & N & C'). destruct a as [|x a]; [injection E as <- _; congruence|].
        injection E as <- ->. exists a, e', b. repeat split; auto. intros y Y. apply N. right. exact Y.
Qed.
Lemma try_none encs s : try_encodings encoding codec encs s = None <-> forall e, In e encs -> codec e s = None.
Proof.
  induction encs as [|e encs IH]; cbn; [split; [intros _ e [] | reflexivity]|].
  destruct (codec e s) eqn:C; [split; [discriminate | intros H; rewrite (H e) in C by auto; discriminate]|].
  rewrite IH. split; [intros H x [<-|X]; auto | intros H x X; auto].
Qed.
End encodings.

(** ** Error handlers *)
Section handler.
Variables message world : Type.
Variable logging : level -> message -> world -> world.
Notation handler := (error_handler message world).
Definition raised (o : outcome) : option outcome := match o with Returns => None | _ => Some o end.
Definition responses (info minor major critical : action message world) (s : severity) (m : message) (w : world) : world * option outcome :=
  let '(w', o) := match s with INFO => info | MINOR => minor | MAJOR => major | CRITICAL => critical end m w in (w', raised o).

Lemma report_responds i mi ma c problems : forall w w' o,
  report message world (mk_error_handler message world i mi ma c) problems w = (w', o) ->
  responds message world outcome (responses i mi ma c) problems w w' (raised o).
Proof.
  induction problems as [|[s m] rest IH]; intros w w' o E; cbn [report] in E.
  - injection E as <- <-. constructor.
  - unfold handler_log in E. cbn in E.
    destruct (match s with INFO => i m w | MINOR => mi m w | MAJOR => ma m w | CRITICAL => c m w end) as [w1 o1] eqn:A.
    assert (R : responses i mi ma c s m w = (w1, raised o1)).
    { unfold responses. destruct s; rewrite A; reflexivity. }
    destruct o1.
    + eapply rp_goes_on; [exact R | apply IH; exact E].
    + injection E as <- <-. apply rp_stops. exact R.
    + injection E as <- <-. apply rp_stops. exact R.
Qed.

Definition level_of (s : severity) : level := match s with INFO => LDebug | MINOR => LInfo | _ => LWarning end.
Lemma default_quiet problems : forall w, (forall m, ~ In (CRITICAL, m) problems) ->
  report message world (default_handler message world logging) problems w =
  (fold_left (fun w p => logging (level_of (fst p)) (snd p) w) problems w, Returns).
Proof.
  induction problems as [|[s m] rest IH]; intros w N; [reflexivity|]. cbn [report].
  destruct s; cbn; try (rewrite IH by (intros m' M; apply (N m'); right; exact M); reflexivity).
  destruct (N m). left. reflexivity.
Qed.
Lemma default_raises before m after : forall w, (forall m, ~ In (CRITICAL, m) before) ->
  report message world (default_handler message world logging) (before ++ (CRITICAL, m) :: after) w =
  (fold_left (fun w p => logging (level_of (fst p)) (snd p) w) before w, RaisesRuntime).
Proof.
  induction before as [|[s m'] rest IH]; intros w N; [reflexivity|]. cbn [app report].
  destruct s; cbn; try (rewrite IH by (intros m'' M; apply (N m''); right; exact M); reflexivity).
  destruct (N m'). left. reflexivity.
Qed.
End handler.
