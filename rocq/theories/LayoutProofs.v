(** Proofs about the layout of descriptions. *)
From Verif Require Import Bytes Stream DlisRecords CommonPy DlisObject DlisLayout SpecLayout.
From Verif Require DlisDescribe.
From Coq Require Import Lia.
Local Open Scope Z_scope.

Lemma ink_app a b : ink (a ++ b) = ink a ++ ink b.
Proof. apply filter_app. Qed.
Lemma ink_blank u : blank_text u = true <-> ink u = [].
Proof.
  induction u as [|c u IH]; [easy|]. cbn. destruct (is_space c) eqn:E; cbn.
  - exact IH.
  - split; intro H; discriminate H.
Qed.
Lemma ink_concat_app a b : ink (concat (a ++ b)) = ink (concat a) ++ ink (concat b).
Proof. rewrite concat_app. apply ink_app. Qed.
Lemma ink_spaces n : ink (repeat 32 n) = [].
Proof. induction n; [easy|]. exact IHn. Qed.

(** ** Texts are prepared *)

Lemma expandtabs_ink u : forall col, ink (expandtabs col u) = ink u.
Proof.
  induction u as [|c u IH]; intro col; [easy|]. cbn [expandtabs].
  destruct (c =? 9) eqn:E.
  - apply Z.eqb_eq in E. subst. rewrite ink_app, ink_spaces, IH. easy.
  - unfold ink in *. cbn [filter]. rewrite IH. easy.
Qed.
Lemma ascii_is_space c : ascii_space c = true -> is_space c = true.
Proof.
  unfold ascii_space, is_space. intro H. apply orb_true_iff in H as [H|H].
  - rewrite H. easy.
  - apply Z.eqb_eq in H. subst. easy.
Qed.
Lemma munge_blanked u : blanked u (munge u).
Proof.
  unfold munge. generalize O as col. induction u as [|c u IH]; intro col; [constructor|]. cbn [expandtabs].
  destruct (c =? 9) eqn:E.
  - apply Z.eqb_eq in E. subst. rewrite map_app.
    assert (H : exists n, (8 - col mod 8)%nat = S n).
    { pose proof (Nat.mod_upper_bound col 8 ltac:(lia)). exists (7 - col mod 8)%nat. lia. }
    destruct H as [n ->].
    replace (map _ (repeat 32 (S n))) with (repeat 32 (S n)); [|generalize (S n) as m; intro m; induction m as [|m M]; [easy|]; cbn; f_equal; exact M].
    apply blanked_space; [easy|apply IH].
  - cbn [map]. change (((9 <=? c) && (c <=? 13)) || (c =? 32)) with (ascii_space c). destruct (ascii_space c) eqn:A.
    + apply (blanked_space c 0); [exact A|apply IH].
    + apply blanked_keep; [exact A|apply IH].
Qed.
Lemma blanked_ink u v : blanked u v -> ink v = ink u.
Proof.
  intro H. induction H as [|c u v A _ IH|c n u v A _ IH]; [easy| |].
  - unfold ink in *. cbn [filter]. rewrite IH. easy.
  - rewrite ink_app, ink_spaces, IH. unfold ink. cbn [filter]. rewrite (ascii_is_space c A). easy.
Qed.
Lemma in_parts_ink u ps : in_parts u ps -> ink (concat ps) = ink u.
Proof.
  intro H. induction H as [s S|s p u ps S _ IH]; [symmetry; exact S|]. cbn. rewrite !ink_app, S, IH. easy.
Qed.
Lemma in_parts_blank s u ps : ink s = [] -> in_parts u ps -> in_parts (s ++ u) ps.
Proof.
  intros S H. inversion H as [s' S'|s' p u' ps' S' H']; subst.
  - constructor. rewrite ink_app, S, S'. easy.
  - rewrite app_assoc. constructor; [rewrite ink_app, S, S'; easy|exact H'].
Qed.

(** ** Lines *)

Definition total (l : list ustr) : Z := Z.of_nat (length (concat l)).
Definition size (l : list ustr) : nat := (length l + length (concat l))%nat.

Lemma total_cons c l : total (c :: l) = Z.of_nat (length c) + total l.
Proof. unfold total. cbn [concat]. rewrite app_length. lia. Qed.
Lemma total_nonneg l : 0 <= total l.
Proof. unfold total. lia. Qed.
Lemma size_cons c l : size (c :: l) = (S (length c) + size l)%nat.
Proof. unfold size. cbn [concat]. rewrite app_length. cbn [length]. lia. Qed.
Lemma size_app a b : size (a ++ b) = (size a + size b)%nat.
Proof. unfold size. rewrite concat_app, !app_length. lia. Qed.

Lemma fit_spec chunks : forall room l r, fit room chunks = (l, r) ->
  chunks = l ++ r /\ (l = [] \/ total l <= room) /\
  (r = [] \/ exists c r', r = c :: r' /\ room - total l < Z.of_nat (length c)).
Proof.
  induction chunks as [|c cs IH]; intros room l r H; cbn [fit] in H.
  - injection H as <- <-. auto.
  - destruct (Z.of_nat (length c) <=? room) eqn:E.
    + destruct (fit (room - Z.of_nat (length c)) cs) as [l1 r1] eqn:F.
      injection H as <- <-. destruct (IH _ _ _ F) as [A [B C]]. subst cs.
      split; [easy|]. split.
      * right. rewrite total_cons. apply Z.leb_le in E. destruct B as [B|B]; [subst l1; unfold total; cbn; lia|lia].
      * destruct C as [C|(x & r' & C & D)]; [auto|]. right. exists x, r'. split; [easy|]. rewrite total_cons. lia.
    + injection H as <- <-. apply Z.leb_gt in E. split; [easy|]. split; [auto|]. right.
      exists c, cs. split; [easy|]. unfold total. cbn. lia.
Qed.

Lemma drop_last_ink l : ink (concat (drop_last l)) = ink (concat l).
Proof.
  unfold drop_last. destruct (rev l) as [|c r] eqn:E; [easy|].
  destruct (blank_text c) eqn:B; [|easy].
  rewrite <- (rev_involutive l), E. cbn [rev]. rewrite ink_concat_app.
  cbn [concat]. rewrite app_nil_r. rewrite (proj1 (ink_blank c) B), app_nil_r. easy.
Qed.
Lemma drop_last_app (l : list ustr) : exists s, ink s = [] /\ concat l = concat (drop_last l) ++ s.
Proof.
  assert (H : (exists r c, l = r ++ [c] /\ blank_text c = true /\ drop_last l = r) \/ drop_last l = l).
  { destruct (rev l) as [|c r] eqn:E; [right; unfold drop_last; rewrite E; easy|].
    destruct (blank_text c) eqn:B; [|right; unfold drop_last; rewrite E, B; easy].
    left. exists (rev r), c. split; [rewrite <- (rev_involutive l), E; easy|]. unfold drop_last. rewrite E, B. easy. }
  destruct H as [(r & c & -> & B & ->)| ->].
  - exists c. split; [apply ink_blank; exact B|]. rewrite concat_app. cbn [concat]. rewrite app_nil_r. easy.
  - exists []. rewrite app_nil_r. easy.
Qed.
Lemma drop_last_total l : total (drop_last l) <= total l.
Proof.
  unfold drop_last. destruct (rev l) as [|c r] eqn:E; [lia|].
  destruct (blank_text c); [|lia].
  rewrite <- (rev_involutive l), E. cbn [rev]. unfold total. rewrite concat_app, app_length. lia.
Qed.

Section wrapping.
Variable break_at : ustr -> Z -> Z.
Hypothesis breaks_ok : breaks break_at.

Lemma long_word_spec w l r l2 r2 : long_word break_at w l r = (l2, r2) ->
  (l = [] \/ total l <= w) -> (r = [] \/ exists c r', r = c :: r' /\ w - total l < Z.of_nat (length c)) ->
  concat l2 ++ concat r2 = concat (l ++ r) /\ total l2 <= Z.max w 1 /\
  (size r2 <= size r)%nat /\ (~ In [] (tl r) -> ~ In [] (tl r2)) /\
  (l = [] -> forall c cs, r = c :: cs -> c <> [] -> (size r2 < size r)%nat) /\
  (w < 0 -> forall c cs, r = c :: cs -> exists n, l2 = l ++ [firstn n c] /\ r2 = skipn n c :: cs).
Proof.
  intros H Hl Hr. unfold long_word in H. destruct r as [|c cs].
  - injection H as <- <-. rewrite app_nil_r. cbn [concat]. rewrite app_nil_r.
    split; [easy|]. split; [destruct Hl as [->|Hl]; [unfold total; cbn; lia|lia]|].
    split; [lia|]. split; [easy|]. split; [easy|easy].
  - destruct (w <? Z.of_nat (length c)) eqn:E.
    + apply Z.ltb_lt in E. cbv zeta in H.
      set (left := if w <? 1 then 1 else w - Z.of_nat (length (concat l))) in H.
      set (cut := Z.to_nat (if left <? Z.of_nat (length c) then break_at c left else left)) in H.
      injection H as <- <-.
      assert (Hleft : 0 <= left /\ total l + left <= Z.max w 1 /\ (l = [] -> 0 < left)).
      { unfold left. fold (total l). destruct (w <? 1) eqn:W.
        - apply Z.ltb_lt in W. pose proof (total_nonneg l).
          destruct Hl as [->|Hl]; [unfold total; cbn; lia|]. split; [lia|]. split; [|lia].
          assert (total l = 0) by lia. lia.
        - apply Z.ltb_ge in W. pose proof (total_nonneg l).
          destruct Hl as [->|Hl]; [unfold total; cbn; lia|]. split; [lia|]. split; [lia|].
          intros ->. unfold total. cbn. lia. }
      destruct breaks_ok as [B0 B1].
      assert (Hcut : (Z.of_nat (length (firstn cut c)) <= left) /\ (0 < left -> c <> [] -> (length (skipn cut c) < length c)%nat)).
      { rewrite firstn_length, skipn_length. unfold cut.
        destruct (left <? Z.of_nat (length c)) eqn:F.
        - apply Z.ltb_lt in F. destruct (Z.eq_dec left 0) as [->|N].
          + rewrite B0. cbn. lia.
          + pose proof (B1 c left ltac:(lia)). split; [lia|]. intros _ _. lia.
        - apply Z.ltb_ge in F. split; [lia|]. intros P Q. destruct c; [easy|]. cbn [length] in *. lia. }
      split.
      { rewrite !concat_app. cbn [concat]. rewrite app_nil_r, <- !app_assoc. f_equal.
        rewrite app_assoc, firstn_skipn. easy. }
      split.
      { unfold total in *. rewrite concat_app, app_length. cbn [concat]. rewrite app_nil_r. lia. }
      split.
      { rewrite !size_cons, skipn_length. lia. }
      split; [easy|].
      split.
      { intros L d ds Q N. injection Q as <- <-. rewrite !size_cons. pose proof (proj2 Hcut ltac:(tauto) N). lia. }
      intros _ d ds Q. injection Q as <- <-. exists cut. easy.
    + injection H as <- <-. apply Z.ltb_ge in E. rewrite concat_app. split; [easy|].
      split; [destruct Hl as [->|Hl]; [unfold total; cbn; lia|lia]|]. split; [lia|]. split; [easy|].
      split.
      { intros -> d ds Q N. injection Q as <- <-. exfalso. destruct Hr as [Hr|(x & r' & Q & R)]; [easy|].
        injection Q as <- <-. unfold total in R. cbn in R. lia. }
      intros W. lia.
Qed.

(** the lines so far and the parts of the lines that follow *)
Definition together (initial subsequent : ustr) (lines parts : list ustr) : list ustr :=
  match lines with
  | [] => match parts with [] => [] | p :: ps => (initial ++ p) :: map (app subsequent) ps end
  | _ => lines ++ map (app subsequent) parts
  end.

Lemma skipn_blank n c : blank_text c = false -> blank_text (firstn n c) = true -> blank_text (skipn n c) = false.
Proof.
  intros H F. destruct (blank_text (skipn n c)) eqn:E; [|easy].
  rewrite <- (firstn_skipn n c) in H. unfold blank_text in *. rewrite forallb_app, F, E in H. easy.
Qed.

Lemma wrap_chunks_ok width initial subsequent : length initial = length subsequent ->
  forall fuel lines chunks, (size chunks < fuel)%nat -> ~ In [] (tl chunks) ->
  (lines <> [] \/ Z.of_nat (length initial) <= width \/ match chunks with [] => True | c :: _ => blank_text c = false end) ->
  exists parts, wrap_chunks break_at fuel width initial subsequent lines chunks = Ok (together initial subsequent lines parts) /\
    in_parts (concat chunks) parts /\
    Forall (fun p => Z.of_nat (length initial + length p) <= Z.max width (Z.of_nat (length initial) + 1)) parts.
Proof.
  intros Hlen. induction fuel as [|fuel IH]; intros lines chunks Hf Hne Hgo; [lia|].
  destruct chunks as [|c cs].
  { exists []. split; [|split; [constructor; easy|auto]]. cbn. destruct lines; [easy|]. cbn. rewrite app_nil_r. easy. }
  cbn [wrap_chunks]. cbv zeta.
  set (indent := match lines with [] => initial | _ => subsequent end).
  assert (Hind : length indent = length initial) by (unfold indent; destruct lines; auto).
  set (w := width - Z.of_nat (length indent)).
  set (chunks' := match lines with [] => c :: cs | _ => if blank_text c then cs else c :: cs end).
  assert (Hink' : exists s, ink s = [] /\ concat (c :: cs) = s ++ concat chunks').
  { unfold chunks'. destruct lines; [exists []; easy|]. destruct (blank_text c) eqn:B; [|exists []; easy].
    exists c. split; [apply ink_blank; exact B|easy]. }
  assert (Hsz : (size chunks' <= size (c :: cs))%nat).
  { unfold chunks'. destruct lines; [lia|]. destruct (blank_text c); [|lia]. rewrite size_cons. lia. }
  assert (Htl : ~ In [] (tl chunks')).
  { unfold chunks'. destruct lines; [easy|]. destruct (blank_text c); [|easy].
    intro Q. apply Hne. cbn. destruct cs; [easy|]. right. exact Q. }
  assert (Hhd : forall d ds, chunks' = d :: ds -> d = [] -> 0 <= w).
  { intros d ds Q ->. unfold chunks' in Q. destruct lines as [|x xs].
    - injection Q as -> ->. cbn in Hgo. unfold w. rewrite Hind. destruct Hgo as [G|[G|G]]; [easy|lia|easy].
    - destruct (blank_text c) eqn:B.
      + subst cs. exfalso. apply Hne. left. easy.
      + injection Q as -> ->. easy. }
  assert (Hneg : w < 0 -> lines = [] -> blank_text c = false).
  { intros W ->. unfold w in W. rewrite Hind in W. destruct Hgo as [G|[G|G]]; [easy|lia|easy]. }
  destruct (fit w chunks') as [l r] eqn:F. destruct (fit_spec _ _ _ _ F) as [Q [Fl Fr]].
  destruct (long_word break_at w l r) as [l2 r2] eqn:L.
  destruct (long_word_spec _ _ _ _ _ L Fl Fr) as (A & B & C & D & E & G).
  set (line := drop_last l2).
  assert (Hsmall : chunks' <> [] -> (size r2 < size chunks')%nat).
  { intro N. rewrite Q, size_app. destruct l as [|x xs].
    - cbn [app] in Q. destruct chunks' as [|d ds]; [easy|]. subst r. 
      assert (d <> []).
      { intros ->. pose proof (Hhd [] ds eq_refl eq_refl). destruct Fr as [Fr|(y & r' & Y & Fr)]; [easy|].
        injection Y as <- <-. unfold total in Fr. cbn in Fr. lia. }
      pose proof (E eq_refl d ds eq_refl H). change (size (@nil ustr)) with O. lia.
    - rewrite size_cons. lia. }
  assert (Hinkl : exists s s', ink s = [] /\ ink s' = [] /\ concat (c :: cs) = s ++ concat line ++ s' ++ concat r2).
  { destruct Hink' as (s & S & ->). destruct (drop_last_app l2) as (s' & S' & E'). fold line in E'.
    exists s, s'. split; [exact S|]. split; [exact S'|]. f_equal. rewrite Q, <- A, E', <- app_assoc. easy. }
  assert (Hbound : Z.of_nat (length initial + length (concat line)) <= Z.max width (Z.of_nat (length initial) + 1)).
  { pose proof (drop_last_total l2) as T. fold line in T. unfold total in *. unfold w in B. rewrite Hind in B. lia. }
  assert (Hr2 : (size r2 < fuel)%nat).
  { destruct chunks' as [|d ds] eqn:X.
    - cbn in F. injection F as <- <-. cbn in L. injection L as <- <-. rewrite size_cons in Hf. unfold size. cbn. lia.
    - pose proof (Hsmall ltac:(easy)). lia. }
  assert (Htl2 : ~ In [] (tl r2)).
  { apply D. rewrite Q in Htl. intro Y. apply Htl. destruct l as [|x xs]; [exact Y|].
    cbn. apply in_or_app. right. destruct r; [easy|]. right. exact Y. }
  set (lines' := match line with [] => lines | _ => lines ++ [indent ++ concat line] end).
  assert (Hgo2 : lines' <> [] \/ Z.of_nat (length initial) <= width \/ match r2 with [] => True | x :: _ => blank_text x = false end).
  { destruct (Z_lt_ge_dec w 0) as [W|W]; [|right; left; unfold w in W; rewrite Hind in W; lia].
    destruct lines as [|x xs].
    - pose proof (Hneg W eq_refl) as Bc. unfold chunks' in *.
      destruct l as [|y ys].
      + cbn in Q. destruct (G W c cs (eq_sym Q)) as (n & L2 & R2). cbn in L2.
        unfold lines', line. rewrite L2. unfold drop_last. cbn [rev app].
        destruct (blank_text (firstn n c)) eqn:Y.
        * right. right. rewrite R2. apply skipn_blank; assumption.
        * left. cbn. easy.
      + exfalso. destruct Fl as [Fl|Fl]; [easy|]. pose proof (total_nonneg (y :: ys)). lia.
    - left. unfold lines'. destruct line; [easy|]. cbn. easy. }
  destruct (IH lines' r2 Hr2 Htl2 Hgo2) as (parts & P & Pink & Pb).
  exists (match line with [] => parts | _ => concat line :: parts end).
  split; [|split].
  - transitivity (let '(line, rest) := fit w chunks' in let '(line, rest) := long_word break_at w line rest in
      wrap_chunks break_at fuel width initial subsequent (match drop_last line with [] => lines | _ => lines ++ [indent ++ concat (drop_last line)] end) rest);
      [reflexivity|].
    rewrite F, L. fold line. fold lines'. rewrite P. f_equal. unfold lines'. destruct line as [|y ys]; [easy|].
    unfold indent. destruct lines as [|x xs]; cbn [together app]; [easy|].
    cbn [map]. rewrite <- app_assoc. easy.
  - destruct Hinkl as (s & s' & S & S' & ->). destruct line as [|y ys].
    + cbn [concat app]. apply in_parts_blank; [exact S|]. apply in_parts_blank; [exact S'|exact Pink].
    + constructor; [exact S|]. apply in_parts_blank; [exact S'|exact Pink].
  - destruct line; [easy|]. constructor; [exact Hbound|exact Pb].
Qed.
End wrapping.

(** ** The amount of fuel does not matter *)

Lemma wrap_chunks_more break_at width initial subsequent : forall fuel fuel' lines chunks r, (fuel <= fuel')%nat ->
  wrap_chunks break_at fuel width initial subsequent lines chunks = Ok r ->
  wrap_chunks break_at fuel' width initial subsequent lines chunks = Ok r.
Proof.
  induction fuel as [|fuel IH]; intros fuel' lines chunks r L H; [discriminate H|].
  destruct fuel' as [|fuel']; [lia|]. cbn [wrap_chunks] in *. destruct chunks as [|c cs]; [exact H|].
  destruct (fit _ _) as [l rest]. destruct (long_word _ _ _ _) as [l2 r2]. apply IH; [lia|exact H].
Qed.

(** results do not change *)
Definition stable {A} (f : nat -> res A) : Prop := forall n m a, (n <= m)%nat -> f n = Ok a -> f m = Ok a.
Lemma stable_const {A} (r : res A) : stable (fun _ => r).
Proof. intros n m a _ H. exact H. Qed.
Lemma stable_bind {A B} (f : nat -> res A) (g : A -> nat -> res B) : stable f -> (forall a, stable (g a)) -> stable (fun n => let! x := f n in g x n).
Proof.
  intros F G n m b L H. destruct (f n) as [a| | |] eqn:E; try discriminate H. rewrite (F n m a L E). cbn in *. apply (G a n m b L H).
Qed.
Section stability.
Variable split : ustr -> list ustr.
Variable break_at : ustr -> Z -> Z.
Lemma describe_text_stable t width indent subindent units : stable (fun n => describe_text split break_at n t width indent subindent units).
Proof.
  unfold describe_text. cbv zeta. apply (stable_bind (fun n => wrap split break_at n width indent subindent _) (fun l _ => Ok (join_lines l ++ [10]))); [|intro; apply stable_const].
  unfold wrap. destruct (width <=? 0); [apply stable_const|]. intros n m a L H. eapply wrap_chunks_more; eassumption.
Qed.
Lemma describe_array_stable v width indent subindent e units : stable (fun n => describe_array split break_at n v width indent subindent e units).
Proof.
  destruct v as [t|[|a [|b l]]|g]; cbn [describe_array]; try apply describe_text_stable; try apply stable_const.
  destruct e; [apply describe_text_stable|apply stable_const].
Qed.
Lemma describe_rows_stable width indent k d : stable (fun n => describe_rows split break_at n width indent k d).
Proof.
  induction d as [|[[c v] units] d IH]; [exact (stable_const (Ok []))|]. cbn [describe_rows].
  apply (stable_bind (fun n => describe_row split break_at n width indent k (c, v, units)) (fun a n => let! b := describe_rows split break_at n width indent k d in Ok (a ++ b))).
  - unfold describe_row. cbv zeta. destruct v; [apply describe_text_stable| |]; apply describe_array_stable.
  - intro a. apply (stable_bind (fun n => describe_rows split break_at n width indent k d) (fun b _ => Ok (a ++ b))); [exact IH|intro; apply stable_const].
Qed.
Lemma describe_block_stable width indent b : stable (fun n => describe_block split break_at n width indent b).
Proof.
  destruct b as [t|t|d|t|v]; cbn [describe_block].
  - unfold describe_header1. cbv zeta. set (sep := repeat _ _).
    apply (stable_bind (fun n => describe_text split break_at n sep width indent indent [])
      (fun a n => let! b := describe_text split break_at n t width indent indent [] in let! c := describe_text split break_at n sep width indent indent [] in Ok (a ++ b ++ c))); [apply describe_text_stable|intro a].
    apply (stable_bind (fun n => describe_text split break_at n t width indent indent [])
      (fun b n => let! c := describe_text split break_at n sep width indent indent [] in Ok (a ++ b ++ c))); [apply describe_text_stable|intro b].
    apply (stable_bind (fun n => describe_text split break_at n sep width indent indent []) (fun c _ => Ok (a ++ b ++ c))); [apply describe_text_stable|intro; apply stable_const].
  - unfold describe_header2.
    apply (stable_bind (fun n => describe_text split break_at n t width indent indent [])
      (fun a n => let! b := describe_text split break_at n (chars (text "--")) width indent indent [] in Ok (a ++ b))); [apply describe_text_stable|intro a].
    apply (stable_bind (fun n => describe_text split break_at n (chars (text "--")) width indent indent []) (fun b _ => Ok (a ++ b))); [apply describe_text_stable|intro; apply stable_const].
  - destruct d; [exact (stable_const (Ok []))|]. cbn [describe_dict].
    apply (stable_bind (fun n => describe_rows split break_at n width indent _ _) (fun a _ => Ok (a ++ [10]))); [apply describe_rows_stable|intro; apply stable_const].
  - apply describe_text_stable.
  - apply describe_array_stable.
Qed.
Lemma describe_blocks_more width indent doc : stable (fun n => describe_blocks split break_at n width indent doc).
Proof.
  induction doc as [|b doc IH]; [exact (stable_const (Ok []))|]. cbn [describe_blocks].
  apply (stable_bind (fun n => describe_block split break_at n width indent b) (fun x n => let! y := describe_blocks split break_at n width indent doc in Ok (x ++ y))); [apply describe_block_stable|].
  intro x. apply (stable_bind (fun n => describe_blocks split break_at n width indent doc) (fun y _ => Ok (x ++ y))); [exact IH|intro; apply stable_const].
Qed.
End stability.

Section documents.
Variable split : ustr -> list ustr.
Variable break_at : ustr -> Z -> Z.
Hypothesis splits_ok : splits split.
Hypothesis breaks_ok : breaks break_at.

Lemma munge_cons c u : is_space c = false -> exists v, munge (c :: u) = c :: v.
Proof.
  intro H. unfold munge. cbn [expandtabs].
  destruct (c =? 9) eqn:E; [apply Z.eqb_eq in E; subst; discriminate H|]. cbn [map].
  change (((9 <=? c) && (c <=? 13)) || (c =? 32)) with (ascii_space c).
  destruct (ascii_space c) eqn:A; [rewrite (ascii_is_space c A) in H; discriminate H|]. eexists. reflexivity.
Qed.
Lemma first_chunk u c v : u = c :: v -> exists w ds, split u = (c :: w) :: ds.
Proof.
  intros ->. destruct (splits_ok (c :: v)) as (A & B & _ & _). destruct (split (c :: v)) as [|d ds]; [discriminate A|].
  destruct d as [|x w]; [exfalso; apply B; left; easy|]. cbn in A. injection A as -> _. eauto.
Qed.

Lemma wrap_ok width first rest t : 0 < width -> length first = length rest -> wrappable width first t ->
  exists lines, paragraph width first rest t lines /\
    exists enough, forall fuel, (enough <= fuel)%nat -> wrap split break_at fuel width first rest t = Ok lines.
Proof.
  intros W L H. unfold wrap. destruct (splits_ok (munge t)) as (A & B & _ & _).
  assert (Hgo : ([] : list ustr) <> [] \/ Z.of_nat (length first) <= width \/ match split (munge t) with [] => True | c :: _ => blank_text c = false end).
  { right. destruct H as [H|(c & u & -> & S)]; [auto|]. right. destruct (munge_cons c u S) as [v ->].
    destruct (first_chunk _ c v eq_refl) as (w & ds & ->). cbn. rewrite S. easy. }
  assert (Hne : ~ In [] (tl (split (munge t)))).
  { intro Q. apply B. destruct (split (munge t)); [easy|]. right. exact Q. }
  destruct (wrap_chunks_ok break_at breaks_ok width first rest L (S (size (split (munge t)))) [] (split (munge t)) (Nat.lt_succ_diag_r _) Hne Hgo) as (parts & P & I & F).
  exists (together first rest [] parts). split.
  - exists (munge t), parts. split; [apply munge_blanked|]. rewrite A in I. split; [exact I|]. split; [exact F|reflexivity].
  - exists (S (size (split (munge t)))). intros fuel G. replace (width <=? 0) with false by (symmetry; apply Z.leb_gt; lia).
    apply (wrap_chunks_more _ _ _ _ _ _ _ _ _ G P).
Qed.

Lemma page_join lines : join_lines lines ++ [10] = page lines.
Proof.
  unfold page. destruct lines as [|l ls]; [easy|]. revert l.
  induction ls as [|m ls IH]; intro l; [cbn; rewrite app_nil_r; easy|].
  change (join_lines (l :: m :: ls)) with (l ++ 10 :: join_lines (m :: ls)).
  rewrite <- app_assoc. cbn [app]. rewrite IH. cbn [map concat]. rewrite <- (app_assoc l). reflexivity.
Qed.

(** the result with enough fuel *)
Definition gives (f : nat -> res ustr) (out : ustr) : Prop := exists enough, forall fuel, (enough <= fuel)%nat -> f fuel = Ok out.
Lemma gives_const out : gives (fun _ => Ok out) out.
Proof. exists O. easy. Qed.
Lemma gives_bind f g a b : gives f a -> gives (g a) b -> gives (fun n => let! x := f n in g x n) b.
Proof.
  intros [n F] [m G]. exists (Nat.max n m). intros k K. rewrite F by lia. cbn. apply G. lia.
Qed.
Lemma gives_app f g a b : gives f a -> gives g b -> gives (fun n => let! x := f n in let! y := g n in Ok (x ++ y)) (a ++ b).
Proof.
  intros F G. apply (gives_bind f (fun x n => let! y := g n in Ok (x ++ y)) a); [exact F|].
  apply (gives_bind g (fun y n => Ok (a ++ y)) b); [exact G|]. apply gives_const.
Qed.

Lemma units_shown t units : (match t with [] => chars (text """""") | _ => t end) ++ units_text units = shown_text t units.
Proof. reflexivity. Qed.

Lemma describe_text_ok t width indent subindent units : 0 < width -> length indent = length subindent ->
  wrappable width indent (shown_text t units) ->
  exists out, written_as width indent subindent (shown_text t units) out /\
    gives (fun fuel => describe_text split break_at fuel t width indent subindent units) out.
Proof.
  intros W L H. destruct (wrap_ok width indent subindent _ W L H) as (lines & P & enough & E).
  exists (page lines). split; [exists lines; easy|]. exists enough. intros fuel F. unfold describe_text.
  cbv zeta. rewrite units_shown, (E fuel F). cbn [rbind]. rewrite page_join. reflexivity.
Qed.

Lemma longest_widest l : longest l = widest l.
Proof. unfold widest. induction l as [|u l IH]; [easy|]. change (Nat.max (length u) (longest l) = Nat.max (length u) (list_max (map (@length Z) l))). rewrite IH. reflexivity. Qed.
Lemma join_spaced l : join_spaces l = spaced l.
Proof. induction l as [|u [|v l] IH]; [easy|easy|]. change (u ++ 32 :: join_spaces (v :: l) = u ++ [32] ++ spaced (v :: l)). rewrite IH. easy. Qed.

Definition wraps_in (v : content) (writeempty : bool) : Prop := match v with Row [] => writeempty = true | _ => True end.
Lemma describe_array_ok v width indent subindent writeempty units : 0 < width -> length indent = length subindent ->
  value_wrappable width indent v units -> wraps_in v writeempty ->
  exists out, value_as width indent subindent v units out /\
    gives (fun fuel => describe_array split break_at fuel v width indent subindent writeempty units) out.
Proof.
  intros W L H E. destruct v as [t|l|g].
  - apply describe_text_ok; assumption.
  - destruct l as [|a [|b l]].
    + cbn in E. subst. cbn [describe_array]. apply (describe_text_ok (chars (text "[]"))); assumption.
    + cbn [describe_array]. apply (describe_text_ok a); assumption.
    + cbn [describe_array value_as]. rewrite longest_widest, join_spaced.
      apply (describe_text_ok (spaced (map (ljust (widest (a :: b :: l))) (a :: b :: l)))); assumption.
  - exists (indent ++ g subindent width ++ units_text units ++ [10]). split; [easy|]. apply gives_const.
Qed.

Lemma row_ok width indent n row : 0 < width ->
  (let '(caption, v, units) := row in value_wrappable width (indent ++ caption_text n caption) v units) ->
  exists out, row_as width indent n row out /\ gives (fun fuel => describe_row split break_at fuel width indent n row) out.
Proof.
  intros W H. destruct row as [[caption v] units]. unfold row_as, describe_row. cbv zeta.
  change (prefix n indent caption) with (indent ++ caption_text n caption).
  set (p := indent ++ caption_text n caption) in *.
  destruct (describe_array_ok v width p (repeat 32 (length p)) true units W ltac:(rewrite repeat_length; easy) H) as (out & A & B).
  { destruct v as [|[|]|]; easy. }
  exists out. split; [exact A|]. destruct v; exact B.
Qed.
Lemma rows_ok width indent n d : 0 < width ->
  Forall (fun row => let '(caption, v, units) := row in value_wrappable width (indent ++ caption_text n caption) v units) d ->
  exists out, in_turn (row_as width indent n) d out /\ gives (fun fuel => describe_rows split break_at fuel width indent n d) out.
Proof.
  intros W H. induction H as [|row d H _ (b & B1 & B2)]; [exists []; split; [constructor|apply gives_const]|].
  destruct (row_ok width indent n row W H) as (a & A1 & A2). exists (a ++ b). split; [constructor; assumption|].
  apply (gives_app (fun fuel => describe_row split break_at fuel width indent n row)); assumption.
Qed.

Lemma dashes_wrappable width indent n : wrappable width indent (shown_text (repeat 45 n) []).
Proof. right. destruct n; cbn; eauto. Qed.

Lemma block_ok width indent b : 0 < width -> block_wrappable width indent b ->
  exists out, block_as width indent b out /\ gives (fun fuel => describe_block split break_at fuel width indent b) out.
Proof.
  intros W H. destruct b as [t|t|d|t|v]; cbn [block_wrappable block_as describe_block] in *.
  - destruct (describe_text_ok (repeat 45 (length t)) width indent indent [] W eq_refl (dashes_wrappable _ _ _)) as (a & A1 & A2).
    destruct (describe_text_ok t width indent indent [] W eq_refl H) as (b & B1 & B2).
    exists (a ++ b ++ a). split.
    + apply turn_cons; [exact A1|]. apply turn_cons; [exact B1|].
      rewrite <- (app_nil_r a). apply turn_cons; [exact A1|]. apply turn_nil.
    + unfold describe_header1. change (b2z "-"%byte) with 45. cbv zeta.
      destruct A2 as [n A2], B2 as [m B2]. exists (Nat.max n m). intros k K.
      rewrite A2 by lia. cbn. rewrite B2 by lia. cbn. easy.
  - destruct (describe_text_ok (chars (text "--")) width indent indent [] W eq_refl (dashes_wrappable _ _ 2)) as (a & A1 & A2).
    destruct (describe_text_ok t width indent indent [] W eq_refl H) as (b & B1 & B2).
    exists (b ++ a). split.
    + apply turn_cons; [exact B1|]. rewrite <- (app_nil_r a). apply turn_cons; [exact A1|]. apply turn_nil.
    + apply (gives_app (fun fuel => describe_text split break_at fuel t width indent indent [])); assumption.
  - destruct d as [|row d]; [exists []; split; [easy|apply gives_const]|].
    destruct (rows_ok width indent _ _ W H) as (a & A1 & A2). exists (a ++ [10]). split; [exists a; easy|].
    cbn [describe_dict]. rewrite longest_widest.
    apply (gives_bind _ (fun x _ => Ok (x ++ [10])) a); [exact A2|apply gives_const].
  - apply describe_text_ok; easy.
  - destruct v as [t|[|x l]|g]; [| exists []; split; [easy|apply gives_const] | |];
      apply describe_array_ok; easy.
Qed.
Lemma document_ok width indent doc : 0 < width -> Forall (block_wrappable width indent) doc ->
  exists out, document_as width indent doc out /\ gives (fun fuel => describe_blocks split break_at fuel width indent doc) out.
Proof.
  intros W H. induction H as [|b doc H _ (y & Y1 & Y2)]; [exists []; split; [constructor|apply gives_const]|].
  destruct (block_ok width indent b W H) as (x & X1 & X2). exists (x ++ y). split; [constructor; assumption|].
  apply (gives_app (fun fuel => describe_block split break_at fuel width indent b)); assumption.
Qed.

(** ** Texts that start with white space and have no room *)

Lemma munge_space c u : ascii_space c = true -> exists v, munge (c :: u) = 32 :: v.
Proof.
  intro H. unfold munge. cbn [expandtabs]. destruct (c =? 9); [cbn; eauto|]. cbn [map].
  change (((9 <=? c) && (c <=? 13)) || (c =? 32)) with (ascii_space c). rewrite H. eauto.
Qed.
Lemma spaces_chunk u v : u = 32 :: v -> exists n ds, split u = repeat 32 (S n) :: ds.
Proof.
  intro E. destruct (first_chunk u 32 v E) as (w & ds & S). destruct (splits_ok u) as (_ & _ & C & _).
  rewrite S in *. exists (length w), ds. f_equal. cbn. f_equal.
  assert (H : forall x, In x w -> x = 32).
  { intros x X. apply (C (32 :: w) x); [left; easy|left; easy|right; exact X]. }
  clear - H. induction w as [|x w IH]; [easy|]. cbn. rewrite (H x (or_introl eq_refl)). f_equal. apply IH. intros y Y. apply H. right. exact Y.
Qed.
Lemma spaces_blank n : blank_text (repeat 32 n) = true.
Proof. induction n; easy. Qed.
Lemma firstn_spaces k n : firstn k (repeat 32 n) = repeat 32 (Nat.min k n).
Proof. revert n. induction k; intros [|n]; cbn; try easy. f_equal. apply IHk. Qed.
Lemma skipn_spaces k n : skipn k (repeat 32 n) = repeat 32 (n - k).
Proof. revert n. induction k; intros [|n]; cbn; try easy. Qed.

Lemma no_end width initial subsequent : width < Z.of_nat (length initial) -> forall fuel n ds,
  wrap_chunks break_at fuel width initial subsequent [] (repeat 32 n :: ds) = Fuel.
Proof.
  intro W. induction fuel as [|fuel IH]; intros n ds; [easy|]. cbn [wrap_chunks fit long_word].
  set (w := width - Z.of_nat (length initial)). assert (w < 0) by (unfold w; lia).
  destruct (Z.of_nat (length (repeat 32 n)) <=? w) eqn:E; [apply Z.leb_le in E; lia|].
  cbn [long_word]. destruct (w <? Z.of_nat (length (repeat 32 n))) eqn:F; [|apply Z.ltb_ge in F; lia].
  destruct (w <? 1) eqn:G; [|apply Z.ltb_ge in G; lia]. cbv zeta.
  set (cut := Z.to_nat _). unfold drop_last. cbn [app rev]. rewrite firstn_spaces, spaces_blank, skipn_spaces. apply IH.
Qed.
Lemma hangs width first rest c u : 0 < width -> width < Z.of_nat (length first) -> ascii_space c = true ->
  forall fuel, wrap split break_at fuel width first rest (c :: u) = Fuel.
Proof.
  intros W L S fuel. unfold wrap. destruct (width <=? 0) eqn:E; [apply Z.leb_le in E; lia|].
  destruct (munge_space c u S) as [v V]. destruct (spaces_chunk _ _ V) as (n & ds & ->). apply no_end. exact L.
Qed.

(** ** Texts of white space *)

Lemma munge_blank t : forallb ascii_space t = true -> t <> [] -> exists n, munge t = repeat 32 (S n).
Proof.
  intros H N. assert (G : forall x, In x (munge t) -> x = 32).
  { unfold munge. intros x X. apply in_map_iff in X as (y & Y & X). change (((9 <=? y) && (y <=? 13)) || (y =? 32)) with (ascii_space y) in Y.
    assert (ascii_space y = true); [|rewrite H0 in Y; easy].
    clear N Y. revert X. generalize O. induction t as [|c t IH]; intros col X; [easy|].
    cbn in H. apply andb_true_iff in H as [Hc H]. cbn [expandtabs] in X. destruct (c =? 9).
    - apply in_app_or in X as [X|X]; [apply repeat_spec in X; subst; easy|]. apply (IH H _ X).
    - destruct X as [<-|X]; [exact Hc|]. apply (IH H _ X). }
  destruct t as [|c t]; [easy|]. cbn in H. apply andb_true_iff in H as [Hc _].
  destruct (munge_space c t Hc) as [v V]. exists (length v). rewrite V in *. cbn. f_equal.
  clear - G. induction v as [|x v IH]; [easy|]. cbn. rewrite (G x (or_intror (or_introl eq_refl))). f_equal.
  apply IH. intros y [Y|Y]; apply G; [left; easy|right; right; exact Y].
Qed.
Lemma spaces_split n : split (repeat 32 (S n)) = [repeat 32 (S n)].
Proof.
  destruct (splits_ok (repeat 32 (S n))) as (A & B & _ & D). destruct (split (repeat 32 (S n))) as [|a [|b l]].
  - discriminate A.
  - cbn in A. rewrite app_nil_r in A. rewrite A. easy.
  - exfalso. cbn in D. destruct D as [D _]. apply D.
    assert (G : forall c, In c (a :: b :: l) -> In 32 c).
    { intros c C. destruct c as [|x c]; [exfalso; exact (B C)|].
      assert (X : In x (repeat 32 (S n))) by (rewrite <- A; apply in_concat; eexists; split; [exact C|left; easy]).
      apply repeat_spec in X. subst. left. easy. }
    split; apply G; cbn; auto.
Qed.
Lemma blank_vanishes width initial subsequent : Z.of_nat (length initial) <= width -> length initial = length subsequent -> forall fuel n, lt (size [repeat 32 n]) fuel ->
  wrap_chunks break_at fuel width initial subsequent [] [repeat 32 n] = Ok [].
Proof.
  intros W L. induction fuel as [|fuel IH]; intros n F; [lia|]. cbn [wrap_chunks fit].
  set (w := width - Z.of_nat (length initial)). assert (0 <= w) by (unfold w; lia).
  destruct (Z.of_nat (length (repeat 32 n)) <=? w) eqn:E.
  - cbn [long_word]. unfold drop_last. cbn [rev app]. rewrite spaces_blank. cbn [rev].
    destruct fuel; [rewrite size_cons in F; lia|]. easy.
  - apply Z.leb_gt in E. cbn [long_word]. destruct (w <? Z.of_nat (length (repeat 32 n))) eqn:G; [|apply Z.ltb_ge in G; lia].
    cbv zeta. set (left := if w <? 1 then 1 else w - Z.of_nat (length (concat ([] : list ustr)))).
    assert (Hl : 0 < left) by (unfold left; destruct (w <? 1) eqn:X; [lia|apply Z.ltb_ge in X; cbn; lia]).
    set (cut := Z.to_nat _). unfold drop_last. cbn [app rev]. rewrite firstn_spaces, spaces_blank, skipn_spaces. cbn [rev].
    assert (Hn : (0 < n)%nat) by (rewrite repeat_length in E; lia).
    apply IH. rewrite size_cons, repeat_length in F |- *. change (size (@nil ustr)) with O in *.
    assert (0 < cut)%nat; [|lia].
    unfold cut. destruct breaks_ok as [_ B]. rewrite repeat_length. destruct (left <? Z.of_nat n) eqn:X; [|lia].
    apply Z.ltb_lt in X. pose proof (B (repeat 32 n) left ltac:(rewrite repeat_length; lia)). lia.
Qed.
Lemma blank_row width indent n caption t : 0 < width -> Z.of_nat (length (indent ++ caption_text n caption)) <= width ->
  t <> [] -> forallb ascii_space t = true ->
  gives (fun fuel => describe_row split break_at fuel width indent n (caption, One t, [])) [10].
Proof.
  intros W L N Sp. destruct (munge_blank t Sp N) as [k K].
  exists (S (size [repeat 32 (S k)])). intros fuel F. unfold describe_row. cbv zeta.
  change (prefix n indent caption) with (indent ++ caption_text n caption). set (p := indent ++ caption_text n caption) in *.
  unfold describe_text. cbv zeta. rewrite units_shown. unfold shown_text. destruct t as [|c t]; [easy|]. rewrite app_nil_r.
  unfold wrap. destruct (width <=? 0) eqn:E; [apply Z.leb_le in E; lia|]. rewrite K, spaces_split.
  rewrite blank_vanishes; [easy|exact L|rewrite repeat_length; easy|lia].
Qed.
End documents.

(** ** What is to be seen *)

Lemma page_ink lines : ink (page lines) = ink (concat lines).
Proof.
  unfold page. destruct lines as [|l ls]; [easy|]. generalize (l :: ls) as m. clear.
  induction m as [|l m IH]; [easy|]. cbn [map concat]. rewrite !ink_app, IH. cbn. rewrite app_nil_r. easy.
Qed.
Lemma rest_ink rest ps : ink rest = [] -> ink (concat (map (app rest) ps)) = ink (concat ps).
Proof. intro H. induction ps as [|p ps IH]; [easy|]. cbn. rewrite !ink_app, H, IH. easy. Qed.
Lemma written_ink width first rest t out : ink rest = [] -> ink t <> [] \/ ink first = [] ->
  written_as width first rest t out -> ink out = ink first ++ ink t.
Proof.
  intros R H (lines & (u & parts & B & P & _ & ->) & ->). pose proof (in_parts_ink _ _ P) as I. rewrite (blanked_ink _ _ B) in I.
  rewrite page_ink, <- I. rewrite <- I in H.
  destruct parts as [|p ps].
  - cbn in *. destruct H as [H|H]; [easy|]. rewrite H. easy.
  - cbn [concat]. rewrite !ink_app, rest_ink by exact R. rewrite <- app_assoc. easy.
Qed.
Lemma padded_ink n u : ink (padded n u) = ink u.
Proof. unfold padded. rewrite ink_app, ink_spaces, app_nil_r. easy. Qed.
Lemma caption_ink n c : ink (caption_text n c) = ink c ++ chars (text ":").
Proof. unfold caption_text. rewrite ink_app, padded_ink. easy. Qed.
Lemma value_ink_ok width first rest v units out : ink rest = [] -> value_visible v units \/ (ink first = [] /\ match v with Grid _ => False | _ => True end) ->
  value_as width first rest v units out -> ink out = value_ink (ink first) v units.
Proof.
  intros R H A. destruct v as [t|l|g]; cbn in *.
  - eapply written_ink; [exact R| |exact A]. tauto.
  - eapply written_ink; [exact R| |exact A]. tauto.
  - tauto.
Qed.
Lemma turn_ink {A} (R : A -> ustr -> Prop) (f : A -> ustr) l out : (forall x o, In x l -> R x o -> ink o = f x) ->
  in_turn R l out -> ink out = concat (map f l).
Proof.
  intros H T. induction T as [|x xs a b Rx T IH]; [easy|]. cbn. rewrite ink_app. f_equal.
  - apply H; [left; easy|exact Rx].
  - apply IH. intros y o Y. apply H. right. exact Y.
Qed.
Lemma block_ink_ok width indent b out : ink indent = [] -> block_visible b -> block_as width indent b out -> ink out = block_ink b.
Proof.
  intros I V H.
  assert (L : forall t o, written_as width indent indent (shown_text t []) o -> ink o = ink (shown_text t [])).
  { intros t o W. rewrite (written_ink _ _ _ _ _ I (or_intror I) W), I. easy. }
  destruct b as [t|t|d|t|v]; cbn [block_as block_visible block_ink] in *.
  - rewrite (turn_ink _ (fun t => ink (shown_text t [])) _ _ (fun x o _ => L x o) H). cbn [map concat]. rewrite app_nil_r. easy.
  - rewrite (turn_ink _ (fun t => ink (shown_text t [])) _ _ (fun x o _ => L x o) H). cbn [map concat]. rewrite app_nil_r. easy.
  - destruct d as [|row d]; [subst; easy|]. destruct H as (rows & T & ->). rewrite ink_app. cbn [ink filter]. rewrite app_nil_r.
    revert T V. generalize (widest (map (fun r => fst (fst r)) (row :: d))) as n. generalize (row :: d) as e. clear row d.
    intros e n T V. apply (turn_ink _ _ _ _) with (2 := T). intros [[c v] units] o X R. cbn in R.
    rewrite Forall_forall in V. specialize (V _ X). cbn in V.
    rewrite (value_ink_ok _ _ _ _ _ _ (ink_spaces _) (or_introl V) R), ink_app, I, caption_ink. easy.
  - apply L. exact H.
  - destruct v as [t|[|x l]|g]; [| subst; easy | | easy];
    (erewrite value_ink_ok; [|exact I| |exact H]; [rewrite I; easy|right; split; [exact I|easy]]).
Qed.
Lemma document_ink width indent doc out : ink indent = [] -> Forall block_visible doc -> document_as width indent doc out ->
  ink out = concat (map block_ink doc).
Proof.
  intros I V H. apply (turn_ink _ _ _ _) with (2 := H). intros b o B. rewrite Forall_forall in V.
  apply block_ink_ok; auto.
Qed.

(** ** How long lines are *)

Lemma in_lines_nil width : in_lines width [].
Proof. exists []. easy. Qed.
Lemma in_lines_app width a b : in_lines width a -> in_lines width b -> in_lines width (a ++ b).
Proof.
  intros (l & -> & L) (m & -> & M). exists (l ++ m). split; [rewrite map_app, concat_app; easy|]. apply Forall_app. easy.
Qed.
Lemma written_lines width first rest t out : length first = length rest -> Z.of_nat (length first) < width -> written_as width first rest t out -> in_lines width out.
Proof.
  intros E L (lines & (u & parts & _ & _ & F & ->) & ->). unfold page. eexists. split; [reflexivity|].
  destruct parts as [|p ps]; [constructor; [cbn; lia|constructor]|]. inversion F as [|? ? Fp Fs]; subst. constructor.
  - rewrite app_length. lia.
  - clear - Fs L E. induction Fs as [|q qs Q _ IH]; [constructor|]. cbn. constructor; [|exact IH]. rewrite app_length. lia.
Qed.
Lemma turn_lines {A} width (R : A -> ustr -> Prop) l out : (forall x o, In x l -> R x o -> in_lines width o) ->
  in_turn R l out -> in_lines width out.
Proof.
  intros H T. induction T as [|x xs a b Rx T IH]; [apply in_lines_nil|]. apply in_lines_app.
  - apply (H x); [left; easy|exact Rx].
  - apply IH. intros y o Y. apply H. right. exact Y.
Qed.
Lemma value_lines width first rest v units out : length first = length rest -> Z.of_nat (length first) < width -> no_grid v ->
  value_as width first rest v units out -> in_lines width out.
Proof. intros E L N H. destruct v as [t|l|g]; [| |easy]; eapply written_lines; eassumption. Qed.
Lemma block_lines width indent b out : block_fits width indent b -> block_as width indent b out -> 0 < width -> in_lines width out.
Proof.
  intros F H W.
  assert (L : forall t o, Z.of_nat (length indent) < width -> written_as width indent indent (shown_text t []) o -> in_lines width o).
  { intros t o X. apply written_lines; easy. }
  destruct b as [t|t|d|t|v]; cbn [block_as block_fits] in *.
  - eapply turn_lines; [|exact H]. intros x o _. apply L. exact F.
  - eapply turn_lines; [|exact H]. intros x o _. apply L. exact F.
  - destruct d as [|row d]; [subst; apply in_lines_nil|]. destruct H as (rows & T & ->). apply in_lines_app.
    + eapply turn_lines; [|exact T]. intros [[c v] units] o X R. rewrite Forall_forall in F. specialize (F _ X) as [N P].
      eapply value_lines; [|exact P|exact N|exact R]. rewrite repeat_length. easy.
    + exists [[]]. split; [easy|]. constructor; [cbn; lia|constructor].
  - apply (L t); easy.
  - destruct F as [N P]. destruct v as [t|[|x l]|g]; [| subst; apply in_lines_nil | | easy]; eapply value_lines; try eassumption; easy.
Qed.
Lemma document_lines width indent doc out : Forall (block_fits width indent) doc -> document_as width indent doc out -> 0 < width -> in_lines width out.
Proof.
  intros F H W. eapply turn_lines; [|exact H]. intros b o B X. rewrite Forall_forall in F. eapply block_lines; eauto.
Qed.
Lemma written_lines_fits width first t : Z.of_nat (length first) < width -> wrappable width first t.
Proof. intro H. left. lia. Qed.
Lemma fits_wrappable width indent b : block_fits width indent b -> block_wrappable width indent b.
Proof.
  destruct b as [t|t|d|t|v]; cbn; intro H; try (left; lia).
  - eapply Forall_impl; [|exact H]. intros [[c v] units] [N P]. destruct v; [left; lia|left; lia|easy].
  - destruct H as [N P]. destruct v; [left; lia|left; lia|easy].
Qed.

Lemma document_of_ink name_text value_text ps doc : document_of name_text value_text ps doc ->
  concat (map block_ink doc) = concat (map (piece_ink name_text value_text) ps).
Proof.
  intro H. induction H as [|t ps doc _ IH|t ps doc _ IH|d ps doc _ IH|v t ps doc E _ IH|v ps doc _ IH]; [easy|..]; cbn [map concat].
  - rewrite IH. easy.
  - rewrite IH. easy.
  - rewrite map_app, concat_app, IH. f_equal. cbn [block_ink]. rewrite !map_map. f_equal. apply map_ext. intros [[c v] u]. easy.
  - rewrite IH. f_equal. cbn [piece_ink]. rewrite E. cbn. easy.
  - rewrite IH. easy.
Qed.
