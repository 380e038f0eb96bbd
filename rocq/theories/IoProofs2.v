(** Searching, indexing and attributing records. *)
From Verif Require Import Bytes BytesProofs Stream DlisTypes SpecTypes TypesProofs DlisCore SpecCore CoreProofs CoreProofs2
  DlisIo SpecIo IoProofs.
Local Open Scope Z_scope.
Ltac Zify.zify_post_hook ::= Z.div_mod_to_equations.

(** ** Searching *)
Definition readable (s : stream) (p n : Z) : Prop := s_hard s = false \/ p + n <= len (s_data s).

Lemma read_window s p n : 0 <= p -> 0 < n ->
  (readable s p n -> read s p n = Some (window (s_data s) p n)) /\
  (~ readable s p n -> read s p n = None).
Proof.
  intros Hp Hn. split; intros R.
  - unfold read, window. replace (n =? 0) with false by lia. replace (_ || _) with false by lia.
    destruct (_ =? _)%nat eqn:E; [reflexivity|]. apply Nat.eqb_neq in E.
    destruct R as [->|R]; [reflexivity|]. exfalso. rewrite firstn_length, skipn_length in E. unfold len in R. lia.
  - apply read_None; [lia|lia|]. unfold readable in R.
    destruct (s_hard s); [|exfalso; tauto]. split; [reflexivity|]. split; [lia|].
    destruct (Z_lt_le_dec (len (s_data s)) (p + n)) as [L|L]; [exact L|]. exfalso. apply R. auto.
Qed.

Lemma read_dec s p n : readable s p n \/ ~ readable s p n.
Proof.
  unfold readable. destruct (s_hard s); [|auto]. destruct (Z_le_gt_dec (p + n) (len (s_data s))); [auto|].
  right. intros [H|H]; [discriminate | lia].
Qed.

Lemma window_split s p n m : 0 <= n <= m -> exists rest, window (s_data s) p m = window (s_data s) p n ++ rest.
Proof.
  intros H. unfold window. set (xs := skipn _ _). exists (skipn (Z.to_nat n) (firstn (Z.to_nat m) xs)).
  rewrite <- (firstn_skipn (Z.to_nat n) (firstn (Z.to_nat m) xs)) at 1. f_equal.
  rewrite firstn_firstn. f_equal. lia.
Qed.

Section Search.
  Variables (needle : bytes) (lead : Z) (find : bytes -> err * option Z) (esc : severity -> bool) (s : stream).
  Hypothesis Hlead : 0 <= lead.
  Hypothesis Hneedle : needle <> [].
  Hypothesis find_ok : forall hay off, find hay = (DLIS_OK, Some off) <->
     0 <= off /\ first_occurrence needle hay (Z.to_nat (off + lead)).

  Let win (lfrom toread : Z) : option Z :=
    match read s lfrom toread with
    | None => None
    | Some buffer => match find buffer with (DLIS_OK, Some offset) => Some (lfrom + offset) | _ => None end
    end.

  Lemma win_spec p n q : 0 <= p -> 0 < n ->
    win p n = Some q <->
    readable s p n /\ p <= q /\ first_occurrence needle (window (s_data s) p n) (Z.to_nat (q - p + lead)).
  Proof.
    intros Hp Hn. unfold win. destruct (read_window s p n Hp Hn) as [RY RN].
    destruct (read_dec s p n) as [R|R].
    - rewrite (RY R). destruct (find (window (s_data s) p n)) as [e o] eqn:F. split.
      + destruct e; try discriminate. destruct o as [off|]; [|discriminate]. intros E. injection E as <-.
        apply find_ok in F as [F1 F2]. split; [exact R|]. split; [lia|].
        replace (p + off - p + lead) with (off + lead) by lia. exact F2.
      + intros (_ & Hq & O).
        assert (X : find (window (s_data s) p n) = (DLIS_OK, Some (q - p))).
        { apply find_ok. split; [lia|]. exact O. }
        rewrite X in F. injection F as <- <-. f_equal. lia.
    - rewrite (RN R). split; [discriminate|]. tauto.
  Qed.

  (** the first window is just long enough, so a hit is at the very start *)
  Lemma win_min p q : 0 <= p -> win p (lead + len needle) = Some q -> q = p.
  Proof.
    intros Hp W. assert (0 < len needle) by (destruct needle; [congruence | rewrite len_cons; pose proof (len_nonneg l); lia]).
    apply win_spec in W as (_ & Hq & (pre & post & E & L) & _); [|lia|lia].
    assert (LW : len (window (s_data s) p (lead + len needle)) <= lead + len needle).
    { unfold window, len. rewrite firstn_length. lia. }
    rewrite E, !len_app in LW. unfold len in *. lia.
  Qed.

  (** the long search reports a position at the start only when the short one does *)
  Lemma win_agree p m : 0 <= p -> lead + len needle <= m -> win p m = Some p -> win p (lead + len needle) = Some p.
  Proof.
    intros Hp Hm W. assert (0 < len needle) by (destruct needle; [congruence | rewrite len_cons; pose proof (len_nonneg l); lia]).
    apply win_spec in W as (R & _ & (pre & post & E & L) & F); [|lia|lia].
    replace (p - p + lead) with lead in * by lia.
    apply win_spec; [lia|lia|].
    split; [destruct R as [R|R]; [left; exact R | right; lia]|]. split; [lia|].
    replace (p - p + lead) with lead by lia.
    destruct (window_split s p (lead + len needle) m) as [rest S]; [lia|].
    assert (W1 : window (s_data s) p (lead + len needle) = pre ++ needle).
    { assert (Q : window (s_data s) p (lead + len needle) = firstn (Z.to_nat (lead + len needle)) (window (s_data s) p m)).
      { unfold window. rewrite firstn_firstn. f_equal. lia. }
      rewrite Q, E, app_assoc. apply firstn_len. rewrite app_length. unfold len. lia. }
    split.
    - exists pre, []. rewrite app_nil_r. auto.
    - intros j (pj & qj & Ej & Lj). apply F. exists pj, (qj ++ rest). rewrite S, Ej, <- !app_assoc. auto.
  Qed.
End Search.

Lemma findsul_spec esc s p expected l q : 0 <= p ->
  findsul esc s p expected = (l, Ok q) <->
  (l = [] /\ q = p /\ readable s p 15 /\ first_occurrence (text "RECORD") (window (s_data s) p 15) 9) \/
  (l = [MINOR] /\ esc MINOR = false /\ expected = true /\ p < q /\ readable s p 1700 /\
   first_occurrence (text "RECORD") (window (s_data s) p 1700) (Z.to_nat (q - p + 9))).
Proof.
  intros Hp. pose proof (fun hay off => proj1 (find_sul_spec hay) off) as FO.
  assert (NE : text "RECORD" <> []) by discriminate.
  assert (WS' : forall n q, 0 < n -> findsul_window s p n = Some q <->
     readable s p n /\ p <= q /\ first_occurrence (text "RECORD") (window (s_data s) p n) (Z.to_nat (q - p + 9)))
    by (intros; apply (win_spec (text "RECORD") 9 dlis_find_sul s FO); lia).
  assert (WM' : forall q, findsul_window s p 15 = Some q -> q = p)
    by (intros q0; apply (win_min (text "RECORD") 9 dlis_find_sul s ltac:(lia) NE FO p q0 Hp)).
  assert (WA' : forall m, 15 <= m -> findsul_window s p m = Some p -> findsul_window s p 15 = Some p)
    by (intros m Hm; apply (win_agree (text "RECORD") 9 dlis_find_sul s ltac:(lia) NE FO p m Hp Hm)).
  unfold findsul.
  assert (W15 : findsul_window s p 15 = Some p <-> readable s p 15 /\ first_occurrence (text "RECORD") (window (s_data s) p 15) 9).
  { rewrite WS' by lia. replace (p - p + 9) with 9 by lia. change (Z.to_nat 9) with 9%nat. intuition lia. }
  destruct (findsul_window s p 15) as [q0|] eqn:E15.
  - pose proof (WM' _ eq_refl) as X. subst q0. destruct (proj1 W15 eq_refl) as [R O]. unfold ret. split.
    + intros H. injection H as <- <-. left. auto.
    + intros [(-> & -> & _)|(_ & _ & _ & Hq & R2 & O2)]; [reflexivity|]. exfalso.
      assert (X : findsul_window s p 1700 = Some q) by (apply WS'; auto with zarith).
      destruct O as [(pre & post & Ew & L) _]. destruct O2 as [_ F].
      assert (9 < Z.to_nat (q - p + 9))%nat by lia.
      destruct (window_split s p 15 1700) as [rest S]; [lia|].
      specialize (F 9%nat). assert (occurs_at (text "RECORD") (window (s_data s) p 1700) 9).
      { exists pre, (post ++ rest). rewrite S, Ew, <- !app_assoc. auto. }
      specialize (F H0). lia.
  - destruct expected; cbn [negb].
    + destruct (findsul_window s p 1700) as [q0|] eqn:E17.
      * apply WS' in E17 as (R & Hq & O); [|lia].
        assert (NQ : q0 <> p). { intros ->. assert (None = Some p) by (apply (WA' 1700); [lia|]; apply WS'; auto with zarith). discriminate. }
        cbn [bind log]. split.
        -- destruct (esc MINOR) eqn:EM; [discriminate|]. cbn [bind ret app]. intros H. injection H as <- <-. right.
           repeat split; auto; [lia | apply O | apply O].
        -- intros [(_ & -> & R1 & O1)|(-> & EM & _ & Hq1 & R1 & O1)].
           { exfalso. assert (None = Some p) by (apply W15; auto). discriminate. }
           rewrite EM. cbn. f_equal. f_equal.
           destruct O as [O F], O1 as [O1 F1]. specialize (F _ O1). specialize (F1 _ O). lia.
      * split; [discriminate|]. intros [(_ & -> & R1 & O1)|(-> & EM & _ & Hq1 & R1 & O1)].
        -- exfalso. assert (None = Some p) by (apply W15; auto). discriminate.
        -- exfalso. assert (None = Some q) by (rewrite <- E17; apply WS'; auto with zarith). discriminate.
    + split; [discriminate|]. intros [(_ & -> & R1 & O1)|(-> & EM & X & _)]; [|discriminate].
      exfalso. assert (None = Some p) by (apply W15; auto). discriminate.
Qed.

Lemma findvrl_spec esc s p l q : 0 <= p ->
  findvrl esc s p = (l, Ok q) <->
  (l = [] /\ q = p /\ readable s p 4 /\ first_occurrence [xff; x01] (window (s_data s) p 4) 2) \/
  (l = [MINOR] /\ esc MINOR = false /\ p < q /\ readable s p 200 /\
   first_occurrence [xff; x01] (window (s_data s) p 200) (Z.to_nat (q - p + 2))).
Proof.
  intros Hp. pose proof (fun hay off => proj1 (find_vrl_spec hay) off) as FO.
  assert (NE : [xff; x01] <> []) by discriminate.
  assert (WS' : forall n q, 0 < n -> findvrl_window s p n = Some q <->
     readable s p n /\ p <= q /\ first_occurrence [xff; x01] (window (s_data s) p n) (Z.to_nat (q - p + 2)))
    by (intros; apply (win_spec [xff; x01] 2 dlis_find_vrl s FO); lia).
  assert (WM' : forall q, findvrl_window s p 4 = Some q -> q = p)
    by (intros q0; apply (win_min [xff; x01] 2 dlis_find_vrl s ltac:(lia) NE FO p q0 Hp)).
  assert (WA' : forall m, 4 <= m -> findvrl_window s p m = Some p -> findvrl_window s p 4 = Some p)
    by (intros m Hm; apply (win_agree [xff; x01] 2 dlis_find_vrl s ltac:(lia) NE FO p m Hp Hm)).
  unfold findvrl.
  assert (W15 : findvrl_window s p 4 = Some p <-> readable s p 4 /\ first_occurrence [xff; x01] (window (s_data s) p 4) 2).
  { rewrite WS' by lia. replace (p - p + 2) with 2 by lia. change (Z.to_nat 2) with 2%nat. intuition lia. }
  destruct (findvrl_window s p 4) as [q0|] eqn:E15.
  - pose proof (WM' _ eq_refl) as X. subst q0. destruct (proj1 W15 eq_refl) as [R O]. unfold ret. split.
    + intros H. injection H as <- <-. left. auto.
    + intros [(-> & -> & _)|(_ & _ & Hq & R2 & O2)]; [reflexivity|]. exfalso.
      destruct O as [(pre & post & Ew & L) _]. destruct O2 as [_ F].
      destruct (window_split s p 4 200) as [rest S]; [lia|].
      specialize (F 2%nat). assert (H0 : occurs_at [xff; x01] (window (s_data s) p 200) 2).
      { exists pre, (post ++ rest). rewrite S, Ew, <- !app_assoc. auto. }
      specialize (F H0). lia.
  - destruct (findvrl_window s p 200) as [q0|] eqn:E17.
    + apply WS' in E17 as (R & Hq & O); [|lia].
      assert (NQ : q0 <> p). { intros ->. assert (None = Some p) by (apply (WA' 200); [lia|]; apply WS'; auto with zarith). discriminate. }
      cbn [bind log]. split.
      * destruct (esc MINOR) eqn:EM; [discriminate|]. cbn [bind ret app]. intros H. injection H as <- <-. right.
        repeat split; auto; [lia | apply O | apply O].
      * intros [(_ & -> & R1 & O1)|(-> & EM & Hq1 & R1 & O1)].
        { exfalso. assert (None = Some p) by (apply W15; auto). discriminate. }
        rewrite EM. cbn. f_equal. f_equal.
        destruct O as [O F], O1 as [O1 F1]. specialize (F _ O1). specialize (F1 _ O). lia.
    + split; [discriminate|]. intros [(_ & -> & R1 & O1)|(-> & EM & Hq1 & R1 & O1)].
      * exfalso. assert (None = Some p) by (apply W15; auto). discriminate.
      * exfalso. assert (None = Some q) by (rewrite <- E17; apply WS'; auto with zarith). discriminate.
Qed.

(** the searches otherwise raise *)
Lemma search_ends esc s p expected :
  (exists l, findsul esc s p expected = (l, Exn) \/ exists q, findsul esc s p expected = (l, Ok q)) /\
  (exists l, findvrl esc s p = (l, Exn) \/ exists q, findvrl esc s p = (l, Ok q)).
Proof.
  unfold findsul, findvrl. split.
  - destruct (findsul_window s p 15); [exists []; right; eexists; reflexivity|].
    destruct expected; cbn [negb]; [|exists []; left; reflexivity].
    destruct (findsul_window s p 1700); [|exists []; left; reflexivity].
    cbn [bind log]. exists [MINOR]. destruct (esc MINOR); [left; reflexivity | right; eexists; reflexivity].
  - destruct (findvrl_window s p 4); [exists []; right; eexists; reflexivity|].
    destruct (findvrl_window s p 200); [|exists []; left; reflexivity].
    cbn [bind log]. exists [MINOR]. destruct (esc MINOR); [left; reflexivity | right; eexists; reflexivity].
Qed.

(** ** Indexing *)
Lemma header_inj data p l a t l' a' t' : header_at data p l a t -> header_at data p l' a' t' -> l = l' /\ a = a' /\ t = t'.
Proof.
  intros (pre & post & x0 & x1 & x2 & x3 & E & L & -> & -> & ->) (pre' & post' & y0 & y1 & y2 & y3 & E' & L' & -> & -> & ->).
  rewrite E in E'. apply app_eq_len in E' as [_ E']; [|unfold len in *; lia]. injection E' as -> -> -> -> _. auto.
Qed.

Lemma header_bounds data p l a t : header_at data p l a t -> 0 <= p /\ p + 4 <= len data /\ 0 <= l < 65536 /\ 0 <= a < 256 /\ 0 <= t < 256.
Proof.
  intros (pre & post & x0 & x1 & x2 & x3 & E & L & -> & -> & ->). rewrite E, len_app, !len_cons.
  pose proof (len_nonneg pre). pose proof (len_nonneg post).
  pose proof (b2z_range x0). pose proof (b2z_range x1). pose proof (b2z_range x2). pose proof (b2z_range x3). lia.
Qed.

Lemma header_of data p : 0 <= p -> p + 4 <= len data -> exists l a t, header_at data p l a t.
Proof.
  intros Hp L. unfold len in L.
  destruct (skipn (Z.to_nat p) data) as [|x0 [|x1 [|x2 [|x3 post]]]] eqn:E;
    try (apply (f_equal (@length _)) in E; rewrite skipn_length in E; cbn [length] in E; lia).
  do 3 eexists. exists (firstn (Z.to_nat p) data), post, x0, x1, x2, x3.
  split; [rewrite <- E; symmetry; apply firstn_skipn|]. split; [unfold len; rewrite firstn_length; lia|]. repeat split.
Qed.

Lemma read_at_header s p l a t : header_at (s_data s) p l a t ->
  exists h, read s p 4 = Some h /\ h <> [] /\ dlis_lrsh h = Some (l, a, t).
Proof.
  intros (pre & post & x0 & x1 & x2 & x3 & E & L & -> & -> & ->).
  exists [x0; x1; x2; x3]. split; [|split; [discriminate|]].
  - destruct s as [d h]. cbn [s_data] in E. subst d. apply (read_mid' pre [x0; x1; x2; x3] post); auto.
  - rewrite lrsh_decode. unfold u16. f_equal. f_equal. f_equal. lia.
Qed.

Lemma read4 s p : 0 <= p ->
  (exists l a t h, header_at (s_data s) p l a t /\ read s p 4 = Some h /\ h <> [] /\ dlis_lrsh h = Some (l, a, t)) \/
  (len (s_data s) < p + 4 /\ s_hard s = true /\ read s p 4 = None) \/
  (len (s_data s) <= p /\ s_hard s = false /\ read s p 4 = Some []) \/
  (p < len (s_data s) < p + 4 /\ s_hard s = false /\ exists h, read s p 4 = Some h /\ h <> [] /\ dlis_lrsh h = None).
Proof.
  intros Hp. destruct (Z_le_gt_dec (p + 4) (len (s_data s))) as [L|L].
  - left. destruct (header_of _ _ Hp L) as (l & a & t & H). destruct (read_at_header _ _ _ _ _ H) as (h & R). eauto 10.
  - right. destruct (s_hard s) eqn:SH.
    + left. split; [lia|]. split; [reflexivity|]. apply read_None; auto with zarith.
    + right. destruct (read_window s p 4 Hp ltac:(lia)) as [RW _]. rewrite RW by (left; exact SH). clear RW.
      assert (LW : len (window (s_data s) p 4) = Z.max 0 (len (s_data s) - p)).
      { unfold window, len in *. rewrite firstn_length, skipn_length. lia. }
      destruct (Z_le_gt_dec (len (s_data s)) p) as [L1|L1]; [left|right].
      * split; [lia|]. split; [reflexivity|]. destruct (window (s_data s) p 4) as [|b w]; [reflexivity|].
        rewrite len_cons in LW. pose proof (len_nonneg w). lia.
      * split; [lia|]. split; [reflexivity|]. eexists. split; [reflexivity|]. split.
        -- intros E. rewrite E in LW. rewrite len_nil in LW. lia.
        -- apply lrsh_short. unfold len in LW, L, L1. lia.
Qed.

Lemma record_at_fun data hard seen p q e q' e' :
  record_at data hard seen p q e -> record_at data hard seen p q' e' -> q = q' /\ e = e'.
Proof.
  intros H. revert q' e'. induction H as [p ln at_ ty S T|p ln at_ ty q e S T R IH]; intros q' e' H'.
  - inversion H' as [? ln' at' ty' S' T'|? ln' at' ty' ? ? S' T' R']; subst;
      destruct (header_inj _ _ _ _ _ _ _ _ (proj1 S) (proj1 S')) as (-> & -> & ->); [auto | congruence].
  - inversion H' as [? ln' at' ty' S' T'|? ln' at' ty' ? ? S' T' R']; subst;
      destruct (header_inj _ _ _ _ _ _ _ _ (proj1 S) (proj1 S')) as (-> & -> & ->); [congruence|auto].
Qed.

Lemma record_at_lt data hard seen p q e : record_at data hard seen p q e -> p + 4 <= q /\ p + 4 <= len data /\ (hard = true -> q <= len data).
Proof.
  intros H. induction H as [p ln at_ ty (S1 & S2 & S3 & _) T|p ln at_ ty q e (S1 & S2 & _) T R IH].
  - apply header_bounds in S1. split; [lia|]. split; [lia|auto].
  - apply header_bounds in S1. split; [lia|]. split; [lia | tauto].
Qed.

(** a maximal run of records is unique *)
Lemma records_at_fun data hard seen p q l : records_at data hard seen p q l ->
  forall q' l', records_at data hard seen p q' l' ->
  (forall r e, ~ record_at data hard (seen || existsb snd l) q r e) ->
  (forall r e, ~ record_at data hard (seen || existsb snd l') q' r e) ->
  q = q' /\ l = l'.
Proof.
  intros H. induction H as [seen p|seen p q e r l R RS IH]; intros q' l' H' M M'.
  - inversion H' as [|? ? q2 e2 ? l2 R2 RS2]; subst; [auto|]. exfalso. apply (M q2 e2). cbn [existsb].
    rewrite orb_false_r. exact R2.
  - inversion H' as [|? ? q2 e2 ? l2 R2 RS2]; subst.
    + exfalso. apply (M' q e). cbn [existsb]. rewrite orb_false_r. exact R.
    + destruct (record_at_fun _ _ _ _ _ _ _ _ R R2) as [<- <-].
      cbn [existsb snd] in *. rewrite orb_assoc in M, M'.
      destruct (IH q' l2 RS2 M M') as [-> ->]. auto.
Qed.

Definition index_ends (esc : severity -> bool) (data : bytes) (hard seen : bool) (stop : Z) (ex im : list Z) (r : io stream_offsets) : Prop :=
  (clean_end data hard seen stop /\ r = ([], Ok (mk_offsets ex im []))) \/
  (~ clean_end data hard seen stop /\ (forall q e, ~ record_at data hard seen stop q e) /\
   r = ([CRITICAL], if esc CRITICAL then Exn else Ok (mk_offsets ex im [stop]))).

Lemma handle_eq esc ex im lr : (let* _ := log esc CRITICAL in ret (mk_offsets ex im [lr])) =
  ([CRITICAL], if esc CRITICAL then Exn else Ok (mk_offsets ex im [lr])).
Proof. unfold log, bind. destruct (esc CRITICAL); reflexivity. Qed.

Definition file_header_bits (a t : Z) : bool := negb (Z.testbit a 6) && Z.testbit a 7 && (t =? 0).
Lemma file_header_bits_spec a t : file_header_bits a t = true <-> header_of_file a t.
Proof.
  unfold file_header_bits, header_of_file. destruct (Z.testbit a 6), (Z.testbit a 7), (t =? 0) eqn:T;
    cbn; intuition (try discriminate; try lia).
Qed.

Lemma findoffsets_step fuel esc s lr lrs hs ex im l a t h :
  read s lrs 4 = Some h -> h <> [] -> dlis_lrsh h = Some (l, a, t) -> 0 <= lrs ->
  findoffsets_loop (S fuel) esc s lr lrs hs ex im =
  let handle := ([CRITICAL], if esc CRITICAL then Exn else Ok (mk_offsets ex im [lr])) in
  if l <? 4 then handle
  else if file_header_bits a t && negb (length ex =? 0)%nat then (if hs then handle else ([], Ok (mk_offsets ex im [])))
  else if s_hard s && (len (s_data s) <? lrs + l) then handle
  else if Z.testbit a 5 then findoffsets_loop fuel esc s lr (lrs + l) true ex im
  else if Z.testbit a 7 then findoffsets_loop fuel esc s (lrs + l) (lrs + l) false (ex ++ [lr]) im
  else findoffsets_loop fuel esc s (lrs + l) (lrs + l) false ex (im ++ [lr]).
Proof.
  intros R NE LR Hp. cbn [findoffsets_loop]. rewrite R, handle_eq, LR.
  destruct h as [|b0 h]; [congruence|]. cbv zeta.
  destruct (has_bits a) as (_ & _ & _ & _ & -> & -> & ->).
  destruct (l <? 4) eqn:L4; [reflexivity|]. unfold file_header_bits.
  destruct (_ && negb (length ex =? 0)%nat); [reflexivity|].
  destruct (read s (lrs + l - 1) 1) as [b|] eqn:R1.
  - replace (s_hard s && _) with false; [destruct (Z.testbit a 5), (Z.testbit a 7); reflexivity|].
    symmetry. destruct (s_hard s) eqn:SH; [cbn [andb]|reflexivity].
    destruct (len (s_data s) <? lrs + l) eqn:LL; [|reflexivity].
    exfalso. assert (read s (lrs + l - 1) 1 = None) by (apply read_None; [lia|lia|split; [exact SH|lia]]). congruence.
  - apply read_None in R1; [|lia|lia]. destruct R1 as (-> & _ & R1). replace (_ <? lrs + l) with true by lia. reflexivity.
Qed.

Lemma findoffsets_loop_spec fuel : forall esc s lr lrs hs ex im,
  0 <= lrs -> (0 < fuel)%nat -> len (s_data s) - lrs < Z.of_nat fuel ->
  let data := s_data s in let hard := s_hard s in
  let seen := negb (length ex =? 0)%nat in
  let r := findoffsets_loop fuel esc s lr lrs hs ex im in
  (hs = false -> lr = lrs -> exists recs stop,
     records_at data hard seen lrs stop recs /\
     index_ends esc data hard (seen || existsb snd recs) stop
       (ex ++ starts_where (fun b => b) recs) (im ++ starts_where negb recs) r) /\
  (hs = true ->
     (exists q e recs stop, record_at data hard seen lrs q e /\ records_at data hard (seen || e) q stop recs /\
        index_ends esc data hard (seen || e || existsb snd recs) stop
          (ex ++ starts_where (fun b => b) ((lr, e) :: recs)) (im ++ starts_where negb ((lr, e) :: recs)) r) \/
     ((forall q e, ~ record_at data hard seen lrs q e) /\
      r = ([CRITICAL], if esc CRITICAL then Exn else Ok (mk_offsets ex im [lr])))).
Proof.
  induction fuel as [|fuel IH]; intros esc s lr lrs hs ex im Hp F0 HF; [lia|]. cbv zeta.
  set (data := s_data s) in *. set (hard := s_hard s) in *. set (seen := negb (length ex =? 0)%nat) in *.
  set (HANDLE := ([CRITICAL], if esc CRITICAL then Exn else Ok (mk_offsets ex im [lr]))).
  (* the result is a failure and there is no record here *)
  assert (BAD : (forall q e, ~ record_at data hard seen lrs q e) -> ~ clean_end data hard seen lrs ->
     forall r, r = HANDLE ->
     (hs = false -> lr = lrs -> exists recs stop, records_at data hard seen lrs stop recs /\
        index_ends esc data hard (seen || existsb snd recs) stop
         (ex ++ starts_where (fun b => b) recs) (im ++ starts_where negb recs) r) /\
     (hs = true -> (exists q e recs stop, record_at data hard seen lrs q e /\ records_at data hard (seen || e) q stop recs /\
        index_ends esc data hard (seen || e || existsb snd recs) stop
          (ex ++ starts_where (fun b => b) ((lr, e) :: recs)) (im ++ starts_where negb ((lr, e) :: recs)) r) \/
       ((forall q e, ~ record_at data hard seen lrs q e) /\ r = HANDLE))).
  { intros NR NC r ->. split.
    - intros -> ->. exists [], lrs. split; [constructor|]. cbn [existsb starts_where filter map].
      rewrite orb_false_r, !app_nil_r. right. auto.
    - intros ->. right. auto. }
  (* a clean end *)
  assert (STOP : clean_end data hard seen lrs -> (forall q e, ~ record_at data hard seen lrs q e) ->
     forall r, r = (if hs then HANDLE else ([], Ok (mk_offsets ex im []))) ->
     (hs = false -> lr = lrs -> exists recs stop, records_at data hard seen lrs stop recs /\
        index_ends esc data hard (seen || existsb snd recs) stop
         (ex ++ starts_where (fun b => b) recs) (im ++ starts_where negb recs) r) /\
     (hs = true -> (exists q e recs stop, record_at data hard seen lrs q e /\ records_at data hard (seen || e) q stop recs /\
        index_ends esc data hard (seen || e || existsb snd recs) stop
          (ex ++ starts_where (fun b => b) ((lr, e) :: recs)) (im ++ starts_where negb ((lr, e) :: recs)) r) \/
       ((forall q e, ~ record_at data hard seen lrs q e) /\ r = HANDLE))).
  { intros C NR r ->. split.
    - intros -> ->. exists [], lrs. split; [constructor|]. cbn [existsb starts_where filter map].
      rewrite orb_false_r, !app_nil_r. left. auto.
    - intros ->. right. auto. }
  assert (NOHDR : len data < lrs + 4 -> (forall q e, ~ record_at data hard seen lrs q e) /\
      (forall l a t, ~ header_at data lrs l a t)).
  { intros L. split.
    - intros q e R. apply record_at_lt in R. lia.
    - intros l a t H. apply header_bounds in H. lia. }
  destruct (read4 s lrs Hp) as [(l & a & t & h & H & R & NE & LR)|[(L & SH & R)|[(L & SH & R)|(L & SH & h & R & NE & LR)]]].
  2:{ fold data in L. fold hard in SH. apply BAD; [apply NOHDR; exact L| |].
      - intros [[C _]|(_ & l & a & t & C & _)]; [congruence|]. apply NOHDR in C; [exact C | exact L].
      - cbn [findoffsets_loop]. rewrite R. apply handle_eq. }
  2:{ fold data in L. fold hard in SH. apply STOP; [left; auto | apply NOHDR; lia |].
      cbn [findoffsets_loop]. rewrite R. destruct hs; [apply handle_eq | reflexivity]. }
  2:{ fold data in L. fold hard in SH. apply BAD; [apply NOHDR; lia| |].
      - intros [[_ C]|(_ & l & a & t & C & _)]; [lia|]. apply NOHDR in C; [exact C | lia].
      - cbn [findoffsets_loop]. rewrite R, LR. destruct h; [congruence | apply handle_eq]. }
  fold data in H. pose proof (header_bounds _ _ _ _ _ H) as HB.
  rewrite (findoffsets_step _ _ _ _ _ _ _ _ _ _ _ _ R NE LR Hp). cbv zeta. fold seen hard data HANDLE.
  assert (ONE : forall q e, record_at data hard seen lrs q e -> segment_at data hard seen lrs l a t).
  { intros q e RA. inversion RA as [? ? ? ? S T|? ? ? ? ? ? S T RR]; subst;
      destruct (header_inj _ _ _ _ _ _ _ _ (proj1 S) H) as (-> & -> & ->); exact S. }
  destruct (l <? 4) eqn:L4.
  { apply BAD; [| |reflexivity].
    - intros q e RA. apply ONE in RA. destruct RA as (_ & RA & _). lia.
    - intros [[_ C]|(_ & l' & a' & t' & C & L4' & _)]; [lia|].
      destruct (header_inj _ _ _ _ _ _ _ _ C H) as (-> & _). lia. }
  destruct (file_header_bits a t && seen) eqn:FH.
  { apply andb_true_iff in FH as [FH SE]. apply file_header_bits_spec in FH.
    apply STOP; [| |reflexivity].
    - right. split; [exact SE|]. exists l, a, t. split; [exact H|]. split; [lia | exact FH].
    - intros q e RA. apply ONE in RA. destruct RA as (_ & _ & _ & RA). auto. }
  assert (NC : ~ clean_end data hard seen lrs).
  { intros [[_ C]|(SE & l' & a' & t' & C & _ & FB)]; [lia|].
    destruct (header_inj _ _ _ _ _ _ _ _ C H) as (_ & -> & ->). apply file_header_bits_spec in FB.
    rewrite FB, SE in FH. discriminate. }
  destruct (hard && (len data <? lrs + l)) eqn:HL.
  { apply andb_true_iff in HL as [HH HL]. apply BAD; [| exact NC | reflexivity].
    intros q e RA. apply ONE in RA. destruct RA as (_ & _ & RA & _). specialize (RA HH). lia. }
  assert (SEG : segment_at data hard seen lrs l a t).
  { split; [exact H|]. split; [lia|]. split.
    - intros HH. rewrite HH in HL. cbn [andb] in HL. lia.
    - intros [SE FB]. apply file_header_bits_spec in FB. rewrite FB, SE in FH. discriminate. }
  assert (F1 : (0 < fuel)%nat) by lia.
  assert (F2 : len (s_data s) - (lrs + l) < Z.of_nat fuel) by (fold data; lia).
  assert (P2 : 0 <= lrs + l) by lia.
  destruct (Z.testbit a 5) eqn:SU.
  - destruct (IH esc s lr (lrs + l) true ex im P2 F1 F2) as [_ IH2]. specialize (IH2 eq_refl). cbv zeta in IH2.
    fold data hard seen in IH2.
    assert (MORE : forall q e, record_at data hard seen (lrs + l) q e <-> record_at data hard seen lrs q e).
    { intros q e. split; [apply ra_more with (attrs := a) (type := t); assumption|].
      intros RA. inversion RA as [? ? ? ? S T|? ? ? ? ? ? S T RR]; subst;
      destruct (header_inj _ _ _ _ _ _ _ _ (proj1 S) H) as (-> & -> & ->); [congruence|exact RR]. }
    split.
    + intros -> ->. destruct IH2 as [(q & e & recs & stop & RA & RS & IE)|(NR & ->)].
      * exists ((lrs, e) :: recs), stop. split; [econstructor; [apply MORE; exact RA|exact RS]|].
        cbn [existsb snd]. rewrite orb_assoc. exact IE.
      * exists [], lrs. split; [constructor|]. cbn [existsb starts_where filter map]. rewrite orb_false_r, !app_nil_r.
        right. split; [exact NC|]. split; [|reflexivity]. intros q e RA. apply MORE in RA. apply (NR _ _ RA).
    + intros ->. destruct IH2 as [(q & e & recs & stop & RA & RS & IE)|(NR & ->)].
      * left. exists q, e, recs, stop. split; [apply MORE; exact RA|]. auto.
      * right. split; [|reflexivity]. intros q e RA. apply MORE in RA. apply (NR _ _ RA).
  - assert (LAST : record_at data hard seen lrs (lrs + l) (Z.testbit a 7)) by (eapply ra_last; eassumption).
    assert (GO : exists recs stop, records_at data hard (seen || Z.testbit a 7) (lrs + l) stop recs /\
        index_ends esc data hard (seen || Z.testbit a 7 || existsb snd recs) stop
          (ex ++ starts_where (fun b => b) ((lr, Z.testbit a 7) :: recs))
          (im ++ starts_where negb ((lr, Z.testbit a 7) :: recs))
          (if Z.testbit a 7
           then findoffsets_loop fuel esc s (lrs + l) (lrs + l) false (ex ++ [lr]) im
           else findoffsets_loop fuel esc s (lrs + l) (lrs + l) false ex (im ++ [lr]))).
    { destruct (Z.testbit a 7) eqn:EX.
      - destruct (IH esc s (lrs + l) (lrs + l) false (ex ++ [lr]) im P2 F1 F2) as [IH1 _].
        specialize (IH1 eq_refl eq_refl). cbv zeta in IH1. fold data hard in IH1.
        assert (X : negb (length (ex ++ [lr]) =? 0)%nat = true).
        { rewrite app_length. cbn [length]. replace (_ =? 0)%nat with false; [reflexivity|]. symmetry. apply Nat.eqb_neq. lia. }
        rewrite X in IH1. destruct IH1 as (recs & stop & RS & IE). exists recs, stop. rewrite orb_true_r.
        split; [exact RS|]. unfold starts_where in *. cbn [filter snd map fst negb]. rewrite <- app_assoc in IE. exact IE.
      - destruct (IH esc s (lrs + l) (lrs + l) false ex (im ++ [lr]) P2 F1 F2) as [IH1 _].
        specialize (IH1 eq_refl eq_refl). cbv zeta in IH1. fold data hard seen in IH1.
        destruct IH1 as (recs & stop & RS & IE). exists recs, stop. rewrite orb_false_r.
        split; [exact RS|]. unfold starts_where in *. cbn [filter snd map fst negb]. rewrite <- app_assoc in IE. exact IE. }
    destruct GO as (recs & stop & RS & IE). split.
    + intros -> ->. exists ((lrs, Z.testbit a 7) :: recs), stop. split; [econstructor; eassumption|].
      cbn [existsb snd]. rewrite orb_assoc. exact IE.
    + intros ->. left. exists (lrs + l), (Z.testbit a 7), recs, stop. auto.
Qed.

(** complete description of indexing, for any stream *)
Lemma findoffsets_total esc s :
  exists recs stop,
    records_at (s_data s) (s_hard s) false 0 stop recs /\
    index_ends esc (s_data s) (s_hard s) (existsb snd recs) stop
      (starts_where (fun b => b) recs) (starts_where negb recs) (findoffsets esc s).
Proof.
  unfold findoffsets.
  destruct (findoffsets_loop_spec (S (S (length (s_data s)))) esc s 0 0 false [] []) as [H _]; [lia|lia|unfold len; lia|].
  exact (H eq_refl eq_refl).
Qed.

Lemma clean_no_record data hard seen p : clean_end data hard seen p -> forall q e, ~ record_at data hard seen p q e.
Proof.
  intros [[C L]|(SE & l & a & t & H & L4 & FB)] q e RA.
  - apply record_at_lt in RA. lia.
  - assert (S : exists l a t, segment_at data hard seen p l a t) by (inversion RA; eauto).
    destruct S as (l' & a' & t' & S & _ & _ & N).
    destruct (header_inj _ _ _ _ _ _ _ _ S H) as (_ & -> & ->). auto.
Qed.

(** hence any maximal run of records determines the result *)
Lemma findoffsets_by esc s recs stop :
  records_at (s_data s) (s_hard s) false 0 stop recs ->
  (clean_end (s_data s) (s_hard s) (existsb snd recs) stop ->
   findoffsets esc s = ([], Ok (mk_offsets (starts_where (fun b => b) recs) (starts_where negb recs) []))) /\
  (~ clean_end (s_data s) (s_hard s) (existsb snd recs) stop ->
   (forall q e, ~ record_at (s_data s) (s_hard s) (existsb snd recs) stop q e) ->
   findoffsets esc s = ([CRITICAL], if esc CRITICAL then Exn
     else Ok (mk_offsets (starts_where (fun b => b) recs) (starts_where negb recs) [stop]))).
Proof.
  intros RS. destruct (findoffsets_total esc s) as (recs' & stop' & RS' & IE).
  assert (U : (forall q e, ~ record_at (s_data s) (s_hard s) (existsb snd recs) stop q e) -> stop = stop' /\ recs = recs').
  { intros M. eapply records_at_fun; [exact RS | exact RS' | exact M|]. cbn [orb].
    destruct IE as [[C _]|(_ & N & _)]; [apply clean_no_record; exact C | exact N]. }
  split.
  - intros C. destruct (U (clean_no_record _ _ _ _ C)) as [<- <-]. destruct IE as [[_ IE]|(N & _)]; [exact IE | tauto].
  - intros NC M. destruct (U M) as [<- <-]. destruct IE as [[C _]|(_ & _ & IE)]; [tauto | exact IE].
Qed.

(** *** Indexing what a producer wrote *)
Lemma enc_record_app a b : enc_record (a ++ b) = enc_record a ++ enc_record b.
Proof. unfold enc_record. rewrite map_app, concat_app. reflexivity. Qed.
Lemma enc_record_one g : enc_record [g] = enc_segment g.
Proof. unfold enc_record. cbn [map concat]. apply app_nil_r. Qed.

Lemma seg_header pre g post : seg_fits g ->
  header_at (pre ++ firstn 4 (enc_segment g) ++ post) (len pre) (4 + len (g_payload g)) (b2z (g_attrs g)) (b2z (g_type g)).
Proof.
  intros F. unfold seg_fits in F. pose proof (len_nonneg (g_payload g)).
  exists pre, post, (z2b ((4 + len (g_payload g)) / 256)), (z2b (4 + len (g_payload g))), (g_attrs g), (g_type g).
  split; [reflexivity|]. split; [reflexivity|]. split; [|auto].
  rewrite !b2z_z2b. lia.
Qed.

Definition not_next_file (seen : bool) (g : segment) : Prop :=
  ~ (seen = true /\ header_of_file (b2z (g_attrs g)) (b2z (g_type g))).

Lemma chain_last hard seen g : forall segs pre post,
  chained (segs ++ [g]) -> Forall seg_fits (segs ++ [g]) -> Forall (not_next_file seen) (segs ++ [g]) ->
  let data := pre ++ enc_record segs ++ firstn 4 (enc_segment g) ++ post in
  let stop := len pre + len (enc_record (segs ++ [g])) in
  (hard = true -> stop <= len data) ->
  record_at data hard seen (len pre) stop (explicit_seg g).
Proof.
  induction segs as [|h t IH]; intros pre post C F N data stop HS; cbn [app] in *.
  - inversion F as [|? ? Fg _]; subst. inversion N as [|? ? Ng _]; subst.
    unfold stop in *. rewrite enc_record_one, enc_segment_len in *.
    apply ra_last with (type := b2z (g_type g)).
    + split; [apply seg_header; exact Fg|]. split; [pose proof (len_nonneg (g_payload g)); lia|]. split; [exact HS | exact Ng].
    + exact C.
  - inversion F as [|? ? Fh Ft]; subst. inversion N as [|? ? Nh Nt]; subst.
    assert (C' : has_succ h = true /\ chained (t ++ [g])) by (destruct (t ++ [g]) eqn:E; [destruct t; discriminate | exact C]).
    destruct C' as [S C'].
    assert (E : data = (pre ++ enc_segment h) ++ enc_record t ++ firstn 4 (enc_segment g) ++ post).
    { unfold data. rewrite enc_record_cons, <- !app_assoc. reflexivity. }
    assert (X : stop = len (pre ++ enc_segment h) + len (enc_record (t ++ [g]))).
    { unfold stop. rewrite enc_record_cons, !len_app. lia. }
    specialize (IH (pre ++ enc_segment h) post C' Ft Nt). cbv zeta in IH. rewrite <- E, <- X in IH. specialize (IH HS).
    apply ra_more with (ln := 4 + len (g_payload h)) (attrs := b2z (g_attrs h)) (type := b2z (g_type h)).
    + split; [|split; [pose proof (len_nonneg (g_payload h)); lia|split; [|exact Nh]]].
      * rewrite E, <- app_assoc. rewrite <- (firstn_skipn 4 (enc_segment h)) at 1. rewrite <- app_assoc. apply seg_header. exact Fh.
      * intros HH. specialize (HS HH). unfold stop in HS. rewrite enc_record_cons, len_app, enc_segment_len in HS.
        pose proof (len_nonneg (enc_record (t ++ [g]))). lia.
    + exact S.
    + rewrite len_app, enc_segment_len in IH. exact IH.
Qed.

Lemma wf_not_next seen e r : wf_record e r -> (seen = true -> ~ file_header r) -> Forall (not_next_file seen) r.
Proof.
  intros (C & _ & _ & P) N. destruct r as [|g t]; [constructor|]. cbn [tl] in P. constructor.
  - intros [SE (B6 & B7 & T)]. apply (N SE). cbn. split; [exact B6|]. split; [exact B7|].
    apply b2z_inj. exact T.
  - eapply Forall_impl; [|exact P]. intros h Hh [_ (B6 & _)]. unfold has_pred, seg_bit in Hh. congruence.
Qed.

Lemma wf_last e r : wf_record e r -> exists segs g, r = segs ++ [g] /\ explicit_seg g = e.
Proof.
  intros (C & _ & E & _). destruct (exists_last (l := r)) as (segs & g & ->).
  - intros ->. exact C.
  - exists segs, g. split; [reflexivity|]. apply Forall_app in E as [_ E]. inversion E; auto.
Qed.

Lemma record_ok hard seen e r pre post : wf_record e r -> (seen = true -> ~ file_header r) ->
  record_at (pre ++ enc_record r ++ post) hard seen (len pre) (len pre + len (enc_record r)) e.
Proof.
  intros W N. destruct (wf_last _ _ W) as (segs & g & -> & <-).
  pose proof (wf_not_next _ _ _ W N) as NN. destruct W as (C & F & _).
  pose proof (chain_last hard seen g segs pre (skipn 4 (enc_segment g) ++ post) C F NN) as H. cbv zeta in H.
  assert (E : pre ++ enc_record (segs ++ [g]) ++ post =
    pre ++ enc_record segs ++ firstn 4 (enc_segment g) ++ skipn 4 (enc_segment g) ++ post).
  { rewrite enc_record_app, enc_record_one. rewrite <- (firstn_skipn 4 (enc_segment g)) at 1. rewrite <- !app_assoc. reflexivity. }
  rewrite E. apply H. intros _. rewrite <- E, !len_app. pose proof (len_nonneg post). lia.
Qed.

Fixpoint marks (off : Z) (recs : list (bool * list segment)) : list (Z * bool) :=
  match recs with [] => [] | (e, r) :: t => (off, e) :: marks (off + len (enc_record r)) t end.
Lemma marks_where P recs : forall off, starts_where P (marks off recs) = offsets_where P off recs.
Proof.
  induction recs as [|[e r] t IH]; intros off; [reflexivity|]. cbn [marks offsets_where].
  unfold starts_where in *. cbn [filter snd]. destruct (P e); cbn [map fst app]; rewrite IH; reflexivity.
Qed.
Lemma marks_seen recs : forall off, existsb snd (marks off recs) = existsb fst recs.
Proof. induction recs as [|[e r] t IH]; intros off; [reflexivity|]. cbn. rewrite IH. reflexivity. Qed.
Lemma enc_records_cons e r t : enc_records ((e, r) :: t) = enc_record r ++ enc_records t.
Proof. reflexivity. Qed.
Lemma enc_records_app a b : enc_records (a ++ b) = enc_records a ++ enc_records b.
Proof. unfold enc_records. rewrite map_app, concat_app. reflexivity. Qed.

Lemma records_ok hard recs : forall seen pre post, logical_file seen recs ->
  records_at (pre ++ enc_records recs ++ post) hard seen (len pre) (len pre + len (enc_records recs)) (marks (len pre) recs).
Proof.
  induction recs as [|[e r] t IH]; intros seen pre post LF.
  - unfold enc_records. cbn. rewrite Z.add_0_r. constructor.
  - destruct LF as (W & N & LF). rewrite enc_records_cons, len_app. cbn [marks].
    econstructor.
    + rewrite <- app_assoc. apply record_ok; assumption.
    + specialize (IH _ (pre ++ enc_record r) post LF). rewrite len_app, <- !app_assoc in IH.
      rewrite <- app_assoc. rewrite Z.add_assoc. exact IH.
Qed.

Lemma logical_file_app seen a b : logical_file seen (a ++ b) <-> logical_file seen a /\ logical_file (seen || existsb fst a) b.
Proof.
  revert seen. induction a as [|[e r] t IH]; intros seen; cbn [app logical_file existsb fst].
  - rewrite orb_false_r. tauto.
  - rewrite IH, orb_assoc. tauto.
Qed.

Lemma index_complete esc hard recs tail :
  logical_file false recs ->
  (tail = [] /\ hard = false) \/
  (exists g rest, tail = enc_segment g ++ rest /\ seg_fits g /\ file_header_seg g /\ existsb fst recs = true) ->
  findoffsets esc (mk_stream (enc_records recs ++ tail) hard) =
  ([], Ok (mk_offsets (offsets_where (fun e => e) 0 recs) (offsets_where negb 0 recs) [])).
Proof.
  intros LF T. rewrite <- !marks_where.
  destruct (findoffsets_by esc (mk_stream (enc_records recs ++ tail) hard) (marks 0 recs) (len (enc_records recs))) as [H _].
  - exact (records_ok hard recs false [] tail LF).
  - apply H. cbn [s_data s_hard]. rewrite marks_seen. destruct T as [[-> ->]|(g & rest & -> & F & (P & X & Ty) & SE)].
    + left. rewrite app_nil_r. split; [reflexivity | lia].
    + right. split; [exact SE|]. exists (4 + len (g_payload g)), (b2z (g_attrs g)), (b2z (g_type g)).
      split; [|split; [pose proof (len_nonneg (g_payload g)); lia|]].
      * rewrite <- (firstn_skipn 4 (enc_segment g)), <- app_assoc. apply seg_header. exact F.
      * split; [exact P|]. split; [exact X|]. rewrite Ty. reflexivity.
Qed.

(** *** Truncation *)
Lemma header_cut data k p l a t : header_at (firstn k data) p l a t -> header_at data p l a t.
Proof.
  intros (pre & post & x0 & x1 & x2 & x3 & E & R). exists pre, (post ++ skipn k data), x0, x1, x2, x3.
  split; [|exact R]. rewrite <- (firstn_skipn k data) at 1. rewrite E, <- app_assoc. reflexivity.
Qed.

Lemma record_cut data k hard seen p q e : record_at (firstn k data) hard seen p q e -> record_at data false seen p q e.
Proof.
  intros H. induction H as [p ln at_ ty (S1 & S2 & S3 & S4) T|p ln at_ ty q e (S1 & S2 & S3 & S4) T R IH].
  - apply header_cut in S1. eapply ra_last; [|exact T]. split; [exact S1|]. split; [exact S2|]. split; [discriminate | exact S4].
  - apply header_cut in S1. eapply ra_more; [|exact T|exact IH]. split; [exact S1|]. split; [exact S2|]. split; [discriminate | exact S4].
Qed.

(** the last segment's header of a record that is read must be there *)
Lemma chain_needs_header data hard seen g segs pre post q e :
  chained (segs ++ [g]) -> Forall seg_fits (segs ++ [g]) ->
  pre ++ enc_record (segs ++ [g]) ++ post = data -> forall k,
  record_at (firstn k data) hard seen (len pre) q e ->
  len pre + len (enc_record segs) + 4 <= len (firstn k data).
Proof.
  revert pre. induction segs as [|h t IH]; intros pre C F E k R; cbn [app] in *.
  - apply record_at_lt in R. unfold enc_record. cbn. lia.
  - inversion F as [|? ? Fh Ft]; subst.
    assert (C' : has_succ h = true /\ chained (t ++ [g])) by (destruct (t ++ [g]) eqn:Q; [destruct t; discriminate | exact C]).
    destruct C' as [S C'].
    assert (H0 : header_at (pre ++ enc_record (h :: t ++ [g]) ++ post) (len pre) (4 + len (g_payload h)) (b2z (g_attrs h)) (b2z (g_type h))).
    { rewrite enc_record_cons. rewrite <- (firstn_skipn 4 (enc_segment h)), <- !app_assoc. apply seg_header. exact Fh. }
    rewrite enc_record_cons, len_app, enc_segment_len.
    inversion R as [? ln at_ ty (S1 & _) T|? ln at_ ty ? ? (S1 & _) T RR]; subst;
      apply header_cut in S1; destruct (header_inj _ _ _ _ _ _ _ _ S1 H0) as (-> & -> & ->).
    + unfold has_succ, seg_bit in S. congruence.
    + assert (X : (pre ++ enc_segment h) ++ enc_record (t ++ [g]) ++ post = pre ++ enc_record (h :: t ++ [g]) ++ post)
        by (rewrite enc_record_cons, <- !app_assoc; reflexivity).
      specialize (IH (pre ++ enc_segment h) C' Ft X k). rewrite len_app, enc_segment_len in IH. specialize (IH RR). lia.
Qed.

Lemma firstn_keep {A} (a b : list A) k : (length a <= k)%nat -> firstn k (a ++ b) = a ++ firstn (k - length a) b.
Proof. intros H. rewrite firstn_app, firstn_all2 by lia. reflexivity. Qed.

Lemma len_firstn k (xs : bytes) : 0 <= k <= len xs -> len (firstn (Z.to_nat k) xs) = k.
Proof. intros H. unfold len in *. rewrite firstn_length. lia. Qed.

Section Cut.
  Variables (esc : severity -> bool) (before after : list (bool * list segment)) (e : bool) (segs : list segment) (g : segment) (k : Z).
  Let r := segs ++ [g].
  Let file := enc_records (before ++ (e, r) :: after).
  Let start := len (enc_records before).
  Hypothesis LF : logical_file false (before ++ (e, r) :: after).
  Hypothesis K : start <= k < start + len (enc_record r).

  Lemma cut_file : file = enc_records before ++ enc_record r ++ enc_records after.
  Proof. unfold file. rewrite enc_records_app, enc_records_cons. reflexivity. Qed.
  Lemma cut_len : len (firstn (Z.to_nat k) file) = k.
  Proof.
    apply len_firstn. rewrite cut_file, !len_app. pose proof (len_nonneg (enc_records after)).
    pose proof (len_nonneg (enc_records before)). fold start in H0 |- *. lia.
  Qed.
  Lemma cut_split : exists post, firstn (Z.to_nat k) file = enc_records before ++ post.
  Proof. rewrite cut_file. eexists. apply firstn_keep. unfold start, len in K. lia. Qed.

  Lemma cut_before hard : records_at (firstn (Z.to_nat k) file) hard false 0 start (marks 0 before).
  Proof.
    destruct cut_split as [post ->]. apply logical_file_app in LF as [LB _].
    exact (records_ok hard before false [] post LB).
  Qed.

  Lemma cut_wf : wf_record e r /\ (existsb fst before = true -> ~ file_header r).
  Proof. apply logical_file_app in LF as [_ LR]. cbn [logical_file] in LR. tauto. Qed.

  Lemma cut_ends hard q b : record_at (firstn (Z.to_nat k) file) hard (existsb fst before) start q b ->
    q = start + len (enc_record r) /\ b = e.
  Proof.
    intros R. apply record_cut in R. destruct cut_wf as [W N].
    eapply record_at_fun; [exact R|]. rewrite cut_file. apply record_ok; assumption.
  Qed.

  Lemma cut_not_header hard : ~ clean_end (firstn (Z.to_nat k) file) hard (existsb fst before) start \/ (hard = false /\ k = start).
  Proof.
    destruct (Z.eq_dec k start) as [Q|Q]; [destruct hard; [|right; auto]|]; left; intros [[C L]|(SE & l & a & t & H & _ & FB)].
    - discriminate.
    - apply header_bounds in H. rewrite cut_len in H. lia.
    - rewrite cut_len in L. lia.
    - apply header_cut in H. destruct cut_wf as [W N]. destruct W as (C & F & _).
      assert (Er : exists h t', r = h :: t') by (unfold r; destruct segs; cbn [app]; eauto).
      destruct Er as (h & t' & Er). rewrite Er in F, N. assert (Fh := Forall_inv F).
      assert (H0 : header_at file start (4 + len (g_payload h)) (b2z (g_attrs h)) (b2z (g_type h))).
      { rewrite cut_file, Er, enc_record_cons. rewrite <- (firstn_skipn 4 (enc_segment h)), <- !app_assoc. apply seg_header. exact Fh. }
      destruct (header_inj _ _ _ _ _ _ _ _ H H0) as (_ & -> & ->). apply (N SE). destruct FB as (B6 & B7 & T).
      cbn. split; [exact B6|]. split; [exact B7|]. apply b2z_inj. exact T.
  Qed.

  Lemma index_cut_hard :
    findoffsets esc (mk_stream (firstn (Z.to_nat k) file) true) =
    ([CRITICAL], if esc CRITICAL then Exn
       else Ok (mk_offsets (offsets_where (fun e => e) 0 before) (offsets_where negb 0 before) [start])).
  Proof.
    rewrite <- !marks_where. destruct (findoffsets_by esc (mk_stream (firstn (Z.to_nat k) file) true) _ _ (cut_before true)) as [_ H].
    cbn [s_data s_hard] in H. rewrite marks_seen in H. apply H.
    - destruct (cut_not_header true) as [N|[N _]]; [exact N | discriminate].
    - intros q b R. apply cut_ends in R as X. destruct X as [-> _]. apply record_at_lt in R as (_ & _ & R).
      specialize (R eq_refl). rewrite cut_len in R. lia.
  Qed.

  Lemma index_cut_soft :
    findoffsets esc (mk_stream (firstn (Z.to_nat k) file) false) =
    if k =? start then ([], Ok (mk_offsets (offsets_where (fun e => e) 0 before) (offsets_where negb 0 before) []))
    else if start + len (enc_record segs) + 4 <=? k
    then ([], Ok (mk_offsets (offsets_where (fun e => e) 0 (before ++ [(e, r)])) (offsets_where negb 0 (before ++ [(e, r)])) []))
    else ([CRITICAL], if esc CRITICAL then Exn
       else Ok (mk_offsets (offsets_where (fun e => e) 0 before) (offsets_where negb 0 before) [start])).
  Proof.
    destruct (k =? start) eqn:Q.
    - rewrite <- !marks_where. destruct (findoffsets_by esc (mk_stream (firstn (Z.to_nat k) file) false) _ _ (cut_before false)) as [H _].
      apply H. cbn [s_data s_hard]. left. split; [reflexivity|]. rewrite cut_len. lia.
    - destruct (start + len (enc_record segs) + 4 <=? k) eqn:L.
      + rewrite <- !marks_where.
        assert (RS : records_at (firstn (Z.to_nat k) file) false false 0 (start + len (enc_record r)) (marks 0 (before ++ [(e, r)]))).
        { assert (G : forall seen p q l, records_at (firstn (Z.to_nat k) file) false seen p q l -> forall x b,
              record_at (firstn (Z.to_nat k) file) false (seen || existsb snd l) q x b ->
              records_at (firstn (Z.to_nat k) file) false seen p x (l ++ [(q, b)])).
          { intros seen p q l HR. induction HR as [seen p|seen p q c r0 l R RS IH]; intros x b RB; cbn [app existsb snd] in *.
            - rewrite orb_false_r in RB. econstructor; [exact RB | constructor].
            - econstructor; [exact R|]. apply IH. rewrite orb_assoc in RB. exact RB. }
          assert (M : forall off b, marks off (b ++ [(e, r)]) = marks off b ++ [(off + len (enc_records b), e)]).
          { intros off b. revert off. induction b as [|[c x] t IH]; intros off; cbn [app marks].
            - unfold enc_records. cbn. rewrite Z.add_0_r. reflexivity.
            - rewrite IH, enc_records_cons, len_app. rewrite Z.add_assoc. reflexivity. }
          rewrite M. apply G with (q := start); [apply cut_before|]. cbn [orb]. rewrite marks_seen.
          destruct cut_wf as [W N]. pose proof (wf_not_next _ _ _ W N) as NN. destruct W as (C & F & E & _).
          assert (EX : explicit_seg g = e). { unfold r in E. apply Forall_app in E as [_ E]. inversion E; auto. }
          assert (S : exists post, firstn (Z.to_nat k) file = enc_records before ++ enc_record segs ++ firstn 4 (enc_segment g) ++ post).
          { assert (E4 : file = ((enc_records before ++ enc_record segs) ++ firstn 4 (enc_segment g)) ++ skipn 4 (enc_segment g) ++ enc_records after).
            { rewrite cut_file. unfold r. rewrite enc_record_app, enc_record_one, <- !app_assoc.
              rewrite (app_assoc (firstn 4 _)), firstn_skipn. reflexivity. }
            rewrite E4. eexists. rewrite firstn_keep; [rewrite <- !app_assoc; reflexivity|].
            rewrite !app_length. rewrite firstn_length. unfold start, len in L. pose proof (enc_segment_len g). unfold len in *. lia. }
          destruct S as [post S]. rewrite S. rewrite <- EX. apply chain_last; [exact C | exact F | exact NN | discriminate]. }
        destruct (findoffsets_by esc (mk_stream (firstn (Z.to_nat k) file) false) _ _ RS) as [H _].
        apply H. left. split; [reflexivity|]. cbn [s_data]. rewrite cut_len. lia.
      + rewrite <- !marks_where. destruct (findoffsets_by esc (mk_stream (firstn (Z.to_nat k) file) false) _ _ (cut_before false)) as [_ H].
        cbn [s_data s_hard] in H. rewrite marks_seen in H. apply H.
        * destruct (cut_not_header false) as [N|[_ N]]; [exact N | lia].
        * intros q b R. destruct cut_wf as [(C & F & _) _].
          assert (X := chain_needs_header file false (existsb fst before) g segs (enc_records before) (enc_records after) q b C F (eq_sym cut_file) _ R).
          rewrite cut_len in X. fold start in X. lia.
  Qed.
End Cut.

(** ** Attributing data records *)
Lemma extract_262 esc data hard tell g t ds n : 0 <= n ->
  record_in data tell (g :: t) ds ->
  extract_n esc (mk_stream data hard) tell n =
  ([], Ok (mk_record (b2z (g_type g)) (Z.land (b2z (g_attrs g)) 0x90) true (firstn (Z.to_nat n) ds))).
Proof.
  intros Hn (pre & post & E & <- & C & F & R).
  assert (X : extract_loop (S (length data)) esc (mk_stream data hard) (len pre) (len data) [] None =
    ([], Ok (mk_record (b2z (g_type g)) (Z.land (b2z (g_attrs g)) 0x90) true ds))).
  { rewrite E at 2. rewrite (extract_chain esc hard (g :: t) _ pre post _ [] None ds 0 C F R).
    - unfold warned. destruct (esc MINOR); reflexivity.
    - pose proof (chain_fuel (g :: t)). rewrite E, !app_length. lia.
    - rewrite E, !len_app, len_nil. pose proof (len_nonneg pre). pose proof (len_nonneg post). lia. }
  apply (extract_limit_loop _ _ _ _ _ n) in X as (l1 & l2 & L & X); cbn [s_data]; [|apply len_nonneg|lia|rewrite len_nil; apply len_nonneg|rewrite len_nil; lia].
  symmetry in L. apply app_eq_nil in L as [-> ->]. exact X.
Qed.

Lemma uvari_value e v : rp66_uvari e v -> 0 <= v < 2 ^ 30 /\ (1 <= length e <= 4)%nat.
Proof.
  intros H. inversion H as [b0 B|b0 b1 B|b0 b1 b2 b3 B]; subst; cbn [length];
    pose proof (b2z_range b0); try pose proof (b2z_range b1); try pose proof (b2z_range b2); try pose proof (b2z_range b3);
    change (2 ^ 30) with 1073741824; lia.
Qed.

Lemma obname_bounds e o c i : rp66_obname e o c i -> 0 <= o < 2 ^ 30 /\ 0 <= c <= 255 /\ (length e <= 261)%nat /\ e <> [].
Proof.
  intros H. inversion H as [eo o' c' ei i' U I]; subst. destruct (uvari_value _ _ U) as [V L].
  inversion I as [l s Ls]; subst. pose proof (b2z_range c'). pose proof (b2z_range l). rewrite app_length. cbn [length].
  split; [lia|]. split; [lia|]. split; [lia|]. destruct eo; [cbn in L; lia | discriminate].
Qed.

Lemma bits_90 a : has (Z.land a 0x90) SEGATTR_ENCRYPT = Z.testbit a 4.
Proof.
  destruct (has_bits (Z.land a 0x90)) as (_ & _ & _ & -> & _). rewrite Z.land_spec. apply andb_true_r.
Qed.

Lemma index_get_push k tell m k' :
  index_get k' (index_push k tell m) = index_get k' m ++ (if bytes_eqb k' k then [tell] else []).
Proof.
  induction m as [|[k0 ts] m IH]; cbn [index_push index_get].
  - destruct (bytes_eqb k' k); reflexivity.
  - destruct (bytes_eqb k k0) eqn:E; cbn [index_get].
    + apply bytes_eqb_eq in E. subst k0. destruct (bytes_eqb k' k); [reflexivity | rewrite app_nil_r; reflexivity].
    + destruct (bytes_eqb k' k0) eqn:E2; [|exact IH]. apply bytes_eqb_eq in E2. subst k0.
      destruct (bytes_eqb k' k) eqn:E3; [|rewrite app_nil_r; reflexivity].
      apply bytes_eqb_eq in E3. subst k'. rewrite bytes_eqb_refl in E. discriminate.
Qed.

Definition owner_key (x : owner) (k : bytes) : Prop :=
  let '(t, o, c, i) := x in py_fingerprint t i o c = FpOk k.
Definition owner_type (x : owner) : bytes := let '(t, _, _, _) := x in t.

Lemma data_record_owner data tell x : data_record data tell (Some x) ->
  let '(t, o, c, i) := x in (t = text "FRAME" \/ t = text "NO-FORMAT") /\ 0 <= o < 2 ^ 30 /\ 0 <= c <= 255.
Proof.
  intros H. inversion H as [g t ds e rest o c i ty R E T D O|]; subst. apply obname_bounds in O. intuition.
Qed.

Lemma nodot t : t = text "FRAME" \/ t = text "NO-FORMAT" -> ~ In "."%byte t /\ t <> [].
Proof. intros [-> | ->]; split; try discriminate; vm_compute; intuition discriminate. Qed.

Lemma owner_key_inj x y k :
  (owner_type x = text "FRAME" \/ owner_type x = text "NO-FORMAT") -> (owner_type y = text "FRAME" \/ owner_type y = text "NO-FORMAT") ->
  (let '(_, o, _, _) := x in 0 <= o < 2 ^ 31) -> (let '(_, o, _, _) := y in 0 <= o < 2 ^ 31) ->
  owner_key x k -> owner_key y k -> x = y.
Proof.
  destruct x as [[[t o] c] i], y as [[[t' o'] c'] i']. cbn. intros T T' O O' K K'.
  destruct (nodot _ T) as [D _]. destruct (nodot _ T') as [D' _].
  destruct (py_fingerprint_inj_types _ _ _ _ _ _ _ _ _ D D' O O' K K') as (-> & -> & -> & ->). reflexivity.
Qed.

Lemma owner_eqb_eq x y : owner_eqb x y = true <-> x = y.
Proof.
  destruct x as [[[t o] c] i], y as [[[t' o'] c'] i']. cbn. rewrite !andb_true_iff, !bytes_eqb_eq, !Z.eqb_eq.
  split; [intros [[[-> ->] ->] ->]; reflexivity | intros H; injection H as -> -> -> ->; auto].
Qed.

(** one record *)
Lemma findfdata_step esc data hard tell w tells xs : data_record data tell w ->
  exists xs', findfdata esc (mk_stream data hard) (tell :: tells) xs = findfdata esc (mk_stream data hard) tells xs' /\
  match w with
  | None => xs' = xs
  | Some x => exists k, owner_key x k /\ xs' = index_push k tell xs
  end.
Proof.
  intros H. cbn [findfdata]. inversion H as [g t ds e rest o c i ty R E T D O|g t ds R S]; subst.
  - rewrite (extract_262 esc data hard tell g t _ 262 ltac:(lia) R). cbn [bind rec_attributes rec_type rec_data].
    unfold isencrypted. cbn [rec_attributes]. rewrite bits_90. unfold seg_bit in E. rewrite E.
    pose proof (obname_bounds _ _ _ _ O) as (BO & BC & BL & BN).
    assert (TY : negb (b2z (g_type g) =? 0) && negb (b2z (g_type g) =? 1) = false /\
                 (if b2z (g_type g) =? 0 then text "FRAME" else text "NO-FORMAT") = ty).
    { destruct T as [[-> ->]|[-> ->]]; split; reflexivity. }
    destruct TY as [-> TY].
    assert (FR : firstn (Z.to_nat 262) (e ++ rest) = e ++ firstn (262 - length e) rest).
    { rewrite firstn_keep by lia. reflexivity. }
    rewrite FR.
    replace (length (e ++ firstn (262 - length e) rest) =? 0)%nat with false
      by (symmetry; apply Nat.eqb_neq; rewrite app_length; destruct e; [congruence | cbn [length]; lia]).
    rewrite (proj2 (obname_read_spec _ (mk_obname o c i) (firstn (262 - length e) rest))) by (exists e; split; [reflexivity | exact O]).
    rewrite TY.
    assert (NE : ty <> []) by (destruct T as [[_ ->]|[_ ->]]; discriminate).
    assert (BO' : 0 <= o < 2 ^ 31) by (change (2^30) with 1073741824 in BO; change (2^31) with 2147483648; lia).
    destruct (fingerprint_form ty i o c NE BO' BC) as (so & sc & _ & _ & K).
    assert (K2 : obname_fingerprint ty (mk_obname o c i) = py_fingerprint ty i o c).
    { unfold py_fingerprint. replace (c >? 255) with false by lia. replace (c <? 0) with false by lia. reflexivity. }
    rewrite K2, K. eexists. split; [|exists (text "T." ++ ty ++ text "-I." ++ i ++ text "-O." ++ so ++ text "-C." ++ sc); split; [exact K | reflexivity]].
    destruct (findfdata _ _ _ _); reflexivity.
  - exists xs. split; [|reflexivity].
    rewrite (extract_262 esc data hard tell g t _ 262 ltac:(lia) R). cbn [bind rec_attributes rec_type rec_data].
    unfold isencrypted. cbn [rec_attributes]. rewrite bits_90.
    assert (A : forall r : io fdata_index, (let '(l', r') := r in ([] ++ l', r')) = r) by (intros [? ?]; reflexivity).
    destruct (Z.testbit (b2z (g_attrs g)) 4) eqn:E; [apply A|].
    destruct (negb _ && negb _) eqn:NT; [apply A|].
    destruct S as [S|[[S1 S2]| ->]].
    + unfold seg_bit in S. congruence.
    + exfalso. destruct (b2z (g_type g) =? 0) eqn:Z0; [apply S1, b2z_inj; cbn; lia|].
      destruct (b2z (g_type g) =? 1) eqn:Z1; [apply S2, b2z_inj; cbn; lia|]. discriminate.
    + cbn [firstn length Nat.eqb]. apply A.
Qed.

Lemma findfdata_spec_acc esc data hard tells ws : Forall2 (data_record data) tells ws -> forall xs,
  exists idx, findfdata esc (mk_stream data hard) tells xs = ([], Ok idx) /\
  (forall x k, (owner_type x = text "FRAME" \/ owner_type x = text "NO-FORMAT") ->
     (let '(_, o, _, _) := x in 0 <= o < 2 ^ 31) -> owner_key x k ->
     index_get k idx = index_get k xs ++ offsets_of x (combine tells ws)) /\
  (forall k, index_get k idx <> index_get k xs -> exists x, In (Some x) ws /\ owner_key x k).
Proof.
  intros H. induction H as [|tell w tells ws R HS IH]; intros xs.
  - exists xs. split; [reflexivity|]. split; [intros; rewrite app_nil_r; reflexivity|]. congruence.
  - destruct (findfdata_step esc data hard tell w tells xs R) as (xs' & -> & W).
    destruct (IH xs') as (idx & -> & G1 & G2). exists idx. split; [reflexivity|]. cbn [combine offsets_of].
    destruct w as [y|].
    + destruct W as (ky & KY & ->). apply data_record_owner in R as RO.
      assert (TY : owner_type y = text "FRAME" \/ owner_type y = text "NO-FORMAT") by (destruct y as [[[? ?] ?] ?]; tauto).
      assert (OY : let '(_, o, _, _) := y in 0 <= o < 2 ^ 31).
      { destruct y as [[[? ?] ?] ?]. destruct RO as (_ & RO & _). change (2^30) with 1073741824 in RO. change (2^31) with 2147483648. lia. }
      split.
      * intros x k T O K. rewrite (G1 x k T O K), index_get_push, <- app_assoc. f_equal. f_equal.
        destruct (owner_eqb x y) eqn:E.
        -- apply owner_eqb_eq in E. subst y. assert (k = ky).
           { destruct x as [[[? ?] ?] ?]. unfold owner_key in K, KY. rewrite K in KY. injection KY as ->. reflexivity. }
           subst ky. rewrite bytes_eqb_refl. reflexivity.
        -- destruct (bytes_eqb k ky) eqn:E2; [|reflexivity]. apply bytes_eqb_eq in E2. subst ky. exfalso.
           assert (x = y) by (eapply owner_key_inj; eauto). apply owner_eqb_eq in H. congruence.
      * intros k D. destruct (list_eq_dec Z.eq_dec (index_get k idx) (index_get k (index_push ky tell xs))) as [Q|Q].
        -- rewrite Q, index_get_push in D. destruct (bytes_eqb k ky) eqn:E2; [|rewrite app_nil_r in D; congruence].
           apply bytes_eqb_eq in E2. subst ky. exists y. split; [left; reflexivity | exact KY].
        -- destruct (G2 k Q) as (x & I & K). exists x. split; [right; exact I | exact K].
    + subst xs'. split; [exact G1|]. intros k D. destruct (G2 k D) as (x & I & K). exists x. split; [right; exact I | exact K].
Qed.

Lemma findfdata_app esc s t1 t2 xs :
  findfdata esc s (t1 ++ t2) xs = let* ys := findfdata esc s t1 xs in findfdata esc s t2 ys.
Proof.
  revert xs. induction t1 as [|t t1 IH]; intros xs; cbn [app findfdata].
  - unfold bind, ret. destruct (findfdata esc s t2 xs). reflexivity.
  - assert (A : forall {A B C} (m : io A) (f : A -> io B) (g : B -> io C), bind (bind m f) g = bind m (fun x => bind (f x) g)).
    { intros A B C [l [a| | |]] f g; cbn [bind]; try reflexivity. destruct (f a) as [l' [b| | |]]; cbn [bind]; try reflexivity.
      destruct (g b) as [l2 r]. rewrite app_assoc. reflexivity. }
    destruct (extract_n esc s t 262) as [l [r| | |]]; try reflexivity.
    + rewrite A. apply (f_equal (fun f => bind (l, Ok tt) (fun _ : unit => f))). destruct (isencrypted r); [apply IH|]. destruct (_ && _); [apply IH|].
      destruct (_ =? _)%nat; [apply IH|]. destruct (dlis_obname _) as [[nm rest]|].
      * destruct (obname_fingerprint _ _); [reflexivity|reflexivity|apply IH].
      * rewrite A. unfold log. destruct (esc CRITICAL); cbn [bind]; [reflexivity|]. rewrite IH. reflexivity.
    + rewrite A. apply (f_equal (fun f => bind (l, Ok tt) (fun _ : unit => f))). rewrite A. unfold log. destruct (esc CRITICAL); cbn [bind]; [reflexivity|]. rewrite IH. reflexivity.
Qed.

(** a record that cannot be read, or whose name runs past its data, is skipped *)
Lemma findfdata_damaged esc s t1 bad t2 l1 l2 lb xs idx :
  findfdata esc s t1 [] = (l1, Ok xs) -> findfdata esc s t2 xs = (l2, Ok idx) ->
  (extract_n esc s bad 262 = (lb, Exn) \/
   exists r, extract_n esc s bad 262 = (lb, Ok r) /\ isencrypted r = false /\ (rec_type r = 0 \/ rec_type r = 1) /\
     rec_data r <> [] /\ (forall e rest o c i, rec_data r = e ++ rest -> ~ rp66_obname e o c i)) ->
  findfdata esc s (t1 ++ t2) [] = (l1 ++ l2, Ok idx) /\
  findfdata esc s (t1 ++ bad :: t2) [] =
    if esc CRITICAL then (l1 ++ lb ++ [CRITICAL], Exn) else (l1 ++ lb ++ [CRITICAL] ++ l2, Ok idx).
Proof.
  intros E1 E2 B. rewrite !findfdata_app, E1. cbn [bind]. rewrite E2. split; [reflexivity|].
  assert (X : findfdata esc s (bad :: t2) xs =
     if esc CRITICAL then (lb ++ [CRITICAL], Exn) else (lb ++ [CRITICAL] ++ l2, Ok idx)).
  { cbn [findfdata]. destruct B as [B|(r & B & NE & T & ND & NO)]; rewrite B.
    - cbn [bind]. unfold log. destruct (esc CRITICAL); cbn [bind]; [reflexivity|]. rewrite E2. reflexivity.
    - cbn [bind]. rewrite NE.
      replace (negb (rec_type r =? 0) && negb (rec_type r =? 1)) with false by (destruct T as [-> | ->]; reflexivity).
      replace (length (rec_data r) =? 0)%nat with false by (symmetry; apply Nat.eqb_neq; destruct (rec_data r); [congruence | cbn; lia]).
      destruct (dlis_obname (rec_data r)) as [[nm rest]|] eqn:OB.
      + exfalso. apply obname_read_spec in OB as (e & E & O). exact (NO _ _ _ _ _ E O).
      + unfold log. destruct (esc CRITICAL); cbn [bind]; [reflexivity|]. rewrite E2. reflexivity. }
  rewrite X. destruct (esc CRITICAL); reflexivity.
Qed.

(** ** Out-of-bounds reads of extract *)
Lemma trim_segment_UB esc a before p l : trim_segment esc a before p = (l, UB) ->
  Z.testbit a 4 = false /\ Z.testbit a 0 = true /\ len p <= tail_size a.
Proof.
  unfold trim_segment. rewrite trim_eq.
  assert (G : forall t', match Some (if t' >? Z.of_nat (length p) then DLIS_BAD_SIZE else DLIS_OK, t') with
    | Some (DLIS_OK, trim) => ret trim
    | Some (DLIS_BAD_SIZE, trim) => if negb (trim - Z.of_nat (length p) =? 4) then fail
        else let* _ := log esc MINOR in ret (Z.of_nat (length p))
    | Some _ => fail
    | None => ([], UB) end <> (l, UB)).
  { intros t'. destruct (t' >? Z.of_nat (length p)); [|discriminate]. destruct (negb _); [discriminate|].
    unfold log. destruct (esc MINOR); discriminate. }
  destruct (Z.testbit a 4); [intros H; exfalso; discriminate|].
  destruct (Z.testbit a 0).
  - cbv zeta. intros H. split; [reflexivity|]. split; [reflexivity|]. unfold len.
    destruct (Z_le_gt_dec (Z.of_nat (length p)) (tail_size a)) as [L|L]; [exact L|]. exfalso.
    replace (_ <? 0) with false in H by lia.
    set (k := Z.to_nat _) in H.
    destruct (nth_error (before ++ p) k) eqn:N.
    + cbn [obind] in H. exact (G _ H).
    + apply nth_error_None in N. rewrite app_length in N. unfold k in N.
      assert (0 <= tail_size a) by (unfold tail_size; destruct (Z.testbit a 2), (Z.testbit a 1); lia). lia.
  - intros H. exfalso. exact (G _ H).
Qed.

Lemma extract_loop_UB fuel : forall esc s pos limit data first l, 0 <= pos ->
  extract_loop fuel esc s pos limit data first = (l, UB) ->
  exists pre g post, s_data s = pre ++ enc_segment g ++ post /\ pos <= len pre /\ seg_fits g /\ ~ trailer_inside g.
Proof.
  induction fuel as [|fuel IH]; intros esc s pos limit data first l Hp; [discriminate|].
  rewrite extract_step. destruct (read s pos 4) as [h|] eqn:R; [|discriminate].
  destruct (dlis_lrsh h) as [[[seglen attrs] type]|] eqn:LR; [|discriminate].
  destruct (header_read _ _ _ _ _ _ Hp R LR) as ((pre & post & l0 & l1 & a & t & E & Lp & -> & -> & ->) & H4 & H16). cbv zeta.
  set (ln := 256 * b2z l0 + b2z l1) in *.
  match goal with |- context [read s (pos + 4) ?e] => set (tr := e) end.
  destruct (read s (pos + 4) tr) as [chunk|] eqn:RC; [|discriminate].
  destruct (len chunk <? tr) eqn:LC; [discriminate|].
  apply read_Some in RC as (C1 & C2 & C3 & C4); [|lia].
  destruct (trim_segment esc (b2z a) data chunk) as [lt [trim| | |]] eqn:T; cbn [bind]; try discriminate.
  - destruct (Z.testbit (b2z a) 5 && _); [|discriminate].
    match goal with |- (let '(_, _) := ?e in _) = _ -> _ => destruct e as [l' r'] eqn:K end.
    intros H. injection H as _ ->. apply IH in K as (p2 & g & q2 & E2 & P2 & R2); [|lia]. exists p2, g, q2.
    split; [exact E2|]. split; [lia | exact R2].
  - intros _. apply trim_segment_UB in T as (T4 & T0 & TL).
    assert (TR : tr = ln - 4). { unfold tr, partial_ok. rewrite T0. reflexivity. }
    exists pre, (mk_seg a t chunk).
    assert (LC' : len chunk = ln - 4) by lia.
    assert (EN : enc_segment (mk_seg a t chunk) = [l0; l1; a; t] ++ chunk).
    { unfold enc_segment. cbn [g_payload g_attrs g_type]. rewrite LC'. replace (4 + (ln - 4)) with ln by lia.
      unfold ln. f_equal. pose proof (b2z_range l0). pose proof (b2z_range l1).
      f_equal; [apply b2z_inj; rewrite b2z_z2b; lia|]. f_equal. apply b2z_inj. rewrite b2z_z2b. lia. }
    assert (EX : exists rest, post = chunk ++ rest).
    { destruct (Z.eq_dec tr 0) as [Q|Q].
      - exists post. destruct chunk as [|c0 ch]; [reflexivity|]. rewrite len_cons in C1. pose proof (len_nonneg ch). lia.
      - destruct C4 as (pp & po & EE & Lpp); [lia|lia|]. exists po.
        change (pre ++ l0 :: l1 :: a :: t :: post) with (pre ++ [l0; l1; a; t] ++ post) in E.
        rewrite EE, (app_assoc pre) in E. apply app_eq_len in E as [_ E]; [symmetry; exact E|].
        rewrite app_length. cbn [length]. unfold len in *. lia. }
    destruct EX as [rest ->]. exists rest. rewrite EN.
    split; [rewrite E; cbn [app]; reflexivity|]. split; [lia|]. split.
    + unfold seg_fits. cbn [g_payload]. lia.
    + intros TI. specialize (TI T4 T0). cbn [g_payload g_attrs] in TI. lia.
Qed.
