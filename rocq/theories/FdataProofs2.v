(** Lemmas about the curve readers: records, the growing array, the loop. *)
From Verif Require Import Bytes BytesProofs DlisTypes SpecTypes TypesProofs TypesProofs2
  DlisCore CoreProofs CoreProofs2 Stream DlisIo SpecIo IoProofs DlisRecords SpecRecords RecordsProofs
  PyBase DlisFdata SpecFdata FdataProofs.
Local Open Scope Z_scope.
Ltac Zify.zify_post_hook ::= Z.div_mod_to_equations.

(** ** Reference semantics: lists of rows *)

Fixpoint rec_rows (fuel : nat) (pre fmt post : bytes) (p : ptr) : list (list cell) * res unit :=
  if p_left p <=? 0 then ([], Ok tt)
  else match fuel with
  | O => ([], Fuel)
  | S fuel =>
      match skip_fmt pre p with
      | Exn => ([], Exn) | UB => ([], UB) | Fuel => ([], Fuel)
      | Ok p =>
          let '(cells, r) := read_fdata_frame fmt p in
          match r with
          | Exn => ([], Exn) | UB => ([], UB) | Fuel => ([], Fuel)
          | Ok p =>
              match skip_fmt post p with
              | Exn => ([], Exn) | UB => ([], UB) | Fuel => ([], Fuel)
              | Ok p => let '(ks, r) := rec_rows fuel pre fmt post p in (cells :: ks, r)
              end
          end
      end
  end.

Definition record_rows (after pre fmt post : bytes) (rec : record) : list (list cell) * res unit :=
  let p := mk_ptr (rec_data rec ++ after) (Z.of_nat (length (rec_data rec))) in
  match dlis_obname (p_mem p) with
  | None => ([], UB)
  | Some (_, rest) => rec_rows (length (p_mem p)) pre fmt post (moved p rest)
  end.

Fixpoint loop_rows (esc : severity -> bool) (s : stream) (after : Z -> bytes)
    (pre fmt post : bytes) (indices : list Z) : io (list (list cell)) :=
  match indices with
  | [] => ret []
  | tell :: t =>
      match extract esc s tell with
      | (l, UB) => (l, UB)
      | (l, Fuel) => (l, Fuel)
      | (l, Exn) =>
          let* _ := (l, Ok tt) in
          let* _ := log esc CRITICAL in
          loop_rows esc s after pre fmt post t
      | (l, Ok rec) =>
          let* _ := (l, Ok tt) in
          if isencrypted rec then
            let* _ := log esc CRITICAL in
            loop_rows esc s after pre fmt post t
          else
            match record_rows (after tell) pre fmt post rec with
            | (ks, Ok _) => let* more := loop_rows esc s after pre fmt post t in ret (ks ++ more)
            | (ks, Exn) =>
                let* _ := log esc CRITICAL in
                let* more := loop_rows esc s after pre fmt post t in ret (ks ++ more)
            | (_, UB) => ([], UB)
            | (_, Fuel) => ([], Fuel)
            end
      end
  end.

(** ** The array *)

(** [kept n a rows]: the first rows of the array are [rows] *)
Definition kept (n : Z) (a : array) (rows : list (list cell)) : Prop :=
  (exists junk, a_cells a = concat rows ++ junk) /\
  Z.of_nat (length (a_cells a)) = a_rows a * n /\
  a_frames a = Z.of_nat (length rows) /\
  Forall (fun r => Z.of_nat (length r) = n) rows /\
  a_frames a <= a_rows a /\ 1 <= a_rows a.
Definition good (n : Z) (a : array) (rows : list (list cell)) : Prop :=
  kept n a rows /\ a_dst a = a_frames a * n.

Lemma concat_length n (rows : list (list cell)) :
  Forall (fun r => Z.of_nat (length r) = n) rows -> Z.of_nat (length (concat rows)) = Z.of_nat (length rows) * n.
Proof. induction 1 as [|r rows H _ IH]; cbn [concat length]; [lia|]. rewrite app_length. nia. Qed.

Lemma good_grow n a rows : 0 <= n -> good n a rows ->
  exists b, (if a_frames a =? a_rows a then
               let a := resize n (a_frames a * 2) a in
               mk_array (a_cells a) (a_rows a) (a_frames a) (a_dst a + a_frames a * n)
             else a) = b /\ good n b rows /\ a_frames b < a_rows b.
Proof.
  intros Hn (((junk & E) & L & F & W & B & P) & D). eexists. split; [reflexivity|].
  destruct (a_frames a =? a_rows a) eqn:Q.
  - unfold resize. cbn [a_cells a_rows a_frames a_dst]. split; [|lia].
    split; [|cbn [a_dst a_frames]; lia].
    pose proof (concat_length n rows W) as CL.
    split; [|split; [|split; [|split; [|split]]]]; cbn [a_cells a_rows a_frames]; try assumption; try lia.
    + rewrite E, <- app_assoc, firstn_app. rewrite firstn_all2 by nia. eauto.
    + rewrite firstn_length, app_length, repeat_length. nia.
  - split; [|lia]. split; [|exact D]. split; [eauto|]. auto.
Qed.

Lemma good_write n a rows cells : 0 <= n -> good n a rows -> a_frames a < a_rows a ->
  Z.of_nat (length cells) <= n ->
  exists b, write a cells = Some b /\ kept n b rows /\ a_frames b < a_rows b /\
    (Z.of_nat (length cells) = n ->
     good n (mk_array (a_cells b) (a_rows b) (a_frames b + 1) (a_dst b)) (rows ++ [cells])).
Proof.
  intros Hn (((junk & E) & L & F & W & B & P) & D) S C.
  pose proof (concat_length n rows W) as CL.
  assert (DL : Z.to_nat (a_dst a) = length (concat rows)) by nia.
  unfold write. replace ((a_dst a <? 0) || _) with false by nia.
  eexists. split; [reflexivity|]. cbn [a_cells a_rows a_frames a_dst].
  assert (FN : firstn (Z.to_nat (a_dst a)) (a_cells a) = concat rows).
  { rewrite DL, E. apply firstn_len. reflexivity. }
  rewrite FN. split; [|split; [exact S|]].
  - unfold kept. cbn [a_cells a_rows a_frames a_dst]. split; [eexists; reflexivity|]. split; [|repeat split; solve [assumption | lia]].
    rewrite !app_length, skipn_length. rewrite E, app_length in L |- *. nia.
  - intros CN. split; [|cbn [a_dst a_frames]; nia].
    split; [|split; [|split; [|split; [|split]]]]; cbn [a_cells a_rows a_frames a_dst]; try lia.
    + eexists. rewrite concat_app. cbn [concat]. rewrite (app_nil_r cells), <- app_assoc. reflexivity.
    + rewrite !app_length, skipn_length. rewrite E, app_length in L |- *. nia.
    + rewrite app_length. cbn [length]. lia.
    + apply Forall_app. auto.
Qed.

Lemma record_refines n fmt : row_width fmt n -> forall fuel pre post p a rows ks r,
  good n a rows -> rec_rows fuel pre fmt post p = (ks, r) ->
  exists b, read_fdata_record fuel pre fmt post n p a = (b, r) /\ kept n b (rows ++ ks) /\
    (r = Ok tt -> good n b (rows ++ ks)).
Proof.
  intros W. pose proof (row_width_nonneg _ _ W) as Hn.
  induction fuel as [|fuel IH]; intros pre post p a rows ks r G; cbn [rec_rows read_fdata_record].
  { destruct (p_left p <=? 0); intros [= <- <-]; exists a; rewrite app_nil_r; (split; [reflexivity|]);
      (split; [apply G|]); intros; [exact G | discriminate]. }
  destruct (p_left p <=? 0).
  { intros [= <- <-]; exists a; rewrite app_nil_r; (split; [reflexivity|]); (split; [apply G|]); intros; exact G. }
  destruct (good_grow n a rows Hn G) as (b & Eb & G' & Fb). cbv zeta in Eb. rewrite !Eb. clear G a Eb.
  destruct (skip_fmt pre p) as [q| | |].
  2-4: intros [= <- <-]; exists b; rewrite app_nil_r; (split; [reflexivity|]); (split; [apply G'|discriminate]).
  destruct (read_fdata_frame fmt q) as [cells r'] eqn:Q.
  destruct (frame_width _ _ _ _ _ W Q) as [A B].
  destruct (good_write n b rows cells Hn G' Fb A) as (d & -> & Kd & Fd & Gd).
  destruct r' as [q'| | |].
  2-4: intros [= <- <-]; exists d; rewrite app_nil_r; (split; [reflexivity|]); (split; [exact Kd|discriminate]).
  destruct (skip_fmt post q') as [q2| | |].
  2-4: intros [= <- <-]; exists d; rewrite app_nil_r; (split; [reflexivity|]); (split; [exact Kd|discriminate]).
  specialize (B q' eq_refl). specialize (Gd B).
  destruct (rec_rows fuel pre fmt post q2) as [ks' r2] eqn:R. intros [= <- <-].
  destruct (IH pre post q2 _ _ _ _ Gd R) as (x & X1 & X2 & X3). exists x.
  rewrite <- app_assoc in X2, X3. auto.
Qed.

Lemma kept_good n a rows : kept n a rows ->
  good n (mk_array (a_cells a) (a_rows a) (a_frames a) (a_frames a * n)) rows.
Proof. intros K. split; [exact K | reflexivity]. Qed.

Lemma loop_refines n fmt : row_width fmt n -> forall esc s after pre post indices a rows,
  good n a rows ->
  match loop_rows esc s after pre fmt post indices with
  | (l, Ok ks) => exists b, read_fdata_loop esc s after pre fmt post n indices a = (l, Ok b) /\ good n b (rows ++ ks)
  | (l, Exn) => read_fdata_loop esc s after pre fmt post n indices a = (l, Exn)
  | (l, UB) => read_fdata_loop esc s after pre fmt post n indices a = (l, UB)
  | (l, Fuel) => read_fdata_loop esc s after pre fmt post n indices a = (l, Fuel)
  end.
Proof.
  intros W esc s after pre post. induction indices as [|tell t IH]; intros a rows G; cbn [loop_rows read_fdata_loop].
  { exists a. rewrite app_nil_r. auto. }
  destruct (extract esc s tell) as [l [rec| | |]]; [|  |reflexivity|reflexivity].
  2: { cbn [bind]. unfold log. destruct (esc CRITICAL); [reflexivity|]. cbn [bind].
       specialize (IH a rows G). destruct (loop_rows esc s after pre fmt post t) as [l' [ks| | |]].
       - destruct IH as (b & -> & Gb). exists b. auto.
       - rewrite IH. reflexivity.
       - rewrite IH. reflexivity.
       - rewrite IH. reflexivity. }
  cbn [bind]. destruct (isencrypted rec).
  { unfold log. destruct (esc CRITICAL); [reflexivity|]. cbn [bind].
    specialize (IH a rows G). destruct (loop_rows esc s after pre fmt post t) as [l' [ks| | |]].
    - destruct IH as (b & -> & Gb). exists b. auto.
    - rewrite IH. reflexivity.
    - rewrite IH. reflexivity.
    - rewrite IH. reflexivity. }
  unfold record_rows. cbn [p_mem].
  destruct (dlis_obname (rec_data rec ++ after tell)) as [[nm rest]|]; [|reflexivity].
  destruct (rec_rows _ pre fmt post _) as [ks r] eqn:R.
  destruct (record_refines n fmt W _ _ _ _ _ _ _ _ G R) as (b & -> & Kb & Gb).
  destruct r as [[]| | |]; [| |reflexivity|reflexivity].
  - specialize (IH b _ (Gb eq_refl)).
    destruct (loop_rows esc s after pre fmt post t) as [l' [more| | |]]; cbn [bind ret].
    + destruct IH as (c & -> & Gc). exists c. rewrite app_nil_r. rewrite <- app_assoc in Gc. auto.
    + rewrite IH. reflexivity.
    + rewrite IH. reflexivity.
    + rewrite IH. reflexivity.
  - unfold log. destruct (esc CRITICAL); [reflexivity|]. cbn [bind ret].
    specialize (IH _ _ (kept_good n b _ Kb)).
    destruct (loop_rows esc s after pre fmt post t) as [l' [more| | |]]; cbn [bind ret].
    + destruct IH as (c & -> & Gc). exists c. rewrite app_nil_r. rewrite <- app_assoc in Gc. auto.
    + rewrite IH. reflexivity.
    + rewrite IH. reflexivity.
    + rewrite IH. reflexivity.
Qed.

Lemma read_fdata_rows n fmt esc s after pre post indices : row_width fmt n ->
  read_fdata esc s after pre fmt post n indices =
  (let* ks := loop_rows esc s after pre fmt post indices in ret (concat ks, Z.of_nat (length ks))).
Proof.
  intros W. pose proof (row_width_nonneg _ _ W) as Hn. unfold read_fdata.
  destruct indices as [|t ts]; [reflexivity|].
  assert (G : good n (new_array n (Z.of_nat (length (t :: ts)))) []).
  { split; [|reflexivity]. split; [|split; [|split; [|split; [|split]]]];
      unfold new_array; cbn [a_cells a_rows a_frames a_dst].
    - eexists; reflexivity.
    - rewrite repeat_length. nia.
    - reflexivity.
    - constructor.
    - lia.
    - cbn [length]. lia. }
  pose proof (loop_refines n fmt W esc s after pre post (t :: ts) _ _ G) as L.
  destruct (loop_rows esc s after pre fmt post (t :: ts)) as [l [ks| | |]]; [|rewrite L; reflexivity..].
  destruct L as (b & -> & (((junk & E) & Lb & F & Wk & B & P) & D)). cbn [bind ret app]. rewrite !app_nil_r.
  cbn [app] in E, F, Wk. pose proof (concat_length n ks Wk) as CL.
  f_equal. destruct (a_rows b >? a_frames b) eqn:Q.
  - unfold resize. cbn [a_cells a_rows]. rewrite E, <- app_assoc. f_equal. f_equal; [|lia].
    apply firstn_len. nia.
  - f_equal. f_equal; [|lia]. rewrite E in Lb |- *. rewrite app_length in Lb.
    assert (J : length junk = O) by nia. destruct junk; [apply app_nil_r | discriminate J].
Qed.

Lemma bind_assoc {A B C} (m : io A) (f : A -> io B) (g : B -> io C) :
  (let* y := (let* x := m in f x) in g y) = (let* x := m in let* y := f x in g y).
Proof.
  destruct m as [l [a| | |]]; cbn [bind]; try reflexivity. destruct (f a) as [l' [b| | |]]; cbn [bind]; try reflexivity.
  destruct (g b) as [l2 r]. rewrite app_assoc. reflexivity.
Qed.
Lemma bind_ret {A B} (a : A) (f : A -> io B) : (let* x := ret a in f x) = f a.
Proof. unfold ret. cbn [bind]. destruct (f a). reflexivity. Qed.
Lemma bind_ret_r {A} (m : io A) : (let* x := m in ret x) = m.
Proof. destruct m as [l [a| | |]]; cbn [bind ret]; rewrite ?app_nil_r; reflexivity. Qed.
Lemma bind_ext {A B} (m : io A) (f g : A -> io B) : (forall a, f a = g a) -> (let* x := m in f x) = (let* x := m in g x).
Proof. intros H. destruct m as [l [a| | |]]; cbn [bind]; [rewrite H|..]; reflexivity. Qed.

Lemma loop_rows_app esc s after pre fmt post ts1 ts2 :
  loop_rows esc s after pre fmt post (ts1 ++ ts2) =
  (let* k1 := loop_rows esc s after pre fmt post ts1 in
   let* k2 := loop_rows esc s after pre fmt post ts2 in ret (k1 ++ k2)).
Proof.
  induction ts1 as [|t ts IH]; cbn [loop_rows app].
  { rewrite bind_ret. symmetry. apply bind_ret_r. }
  destruct (extract esc s t) as [l [rec| | |]]; [| |reflexivity|reflexivity].
  - rewrite bind_assoc. apply bind_ext. intros _. destruct (isencrypted rec).
    { rewrite IH, bind_assoc. reflexivity. }
    destruct (record_rows (after t) pre fmt post rec) as [ks [[]| | |]]; [| |reflexivity|reflexivity].
    + rewrite IH, ?bind_assoc. apply bind_ext. intros k1. rewrite bind_ret, ?bind_assoc. apply bind_ext. intros k2.
      rewrite bind_ret, app_assoc. reflexivity.
    + rewrite IH, ?bind_assoc. apply bind_ext. intros _. rewrite ?bind_assoc. apply bind_ext. intros k1.
      rewrite bind_ret, ?bind_assoc. apply bind_ext. intros k2.
      rewrite bind_ret, app_assoc. reflexivity.
  - rewrite IH, ?bind_assoc. reflexivity.
Qed.

Lemma read_fdata_app n fmt esc s after pre post ts1 ts2 : row_width fmt n ->
  read_fdata esc s after pre fmt post n (ts1 ++ ts2) =
  (let* (k1, r1) := read_fdata esc s after pre fmt post n ts1 in
   let* (k2, r2) := read_fdata esc s after pre fmt post n ts2 in ret (k1 ++ k2, r1 + r2)).
Proof.
  intros W. rewrite !(read_fdata_rows n fmt _ _ _ _ _ _ W), loop_rows_app.
  destruct (loop_rows esc s after pre fmt post ts1) as [l1 [k1| | |]]; [|reflexivity..].
  destruct (loop_rows esc s after pre fmt post ts2) as [l2 [k2| | |]]; cbn [bind ret]; rewrite ?app_nil_r; [|reflexivity..].
  rewrite concat_app, app_length, Nat2Z.inj_add. reflexivity.
Qed.

(** ** One record *)

Lemma row_nonempty pre fmt post e1 e2 e3 k : skipped pre e1 -> row fmt e2 k -> skipped post e3 ->
  pre ++ fmt ++ post <> [] -> e1 ++ e2 ++ e3 <> [].
Proof.
  intros S1 R S3 N E. apply app_eq_nil in E as [-> E]. apply app_eq_nil in E as [-> ->].
  assert (X : forall f, skipped f [] -> f = []).
  { intros f H. remember [] as e eqn:Q. destruct H as [|c rc e v f e' _ V _]; [reflexivity|].
    apply app_eq_nil in Q as [Q _]. exfalso. exact (value_nonempty _ _ _ V Q). }
  apply X in S1 as ->. apply X in S3 as ->. apply N. rewrite app_nil_r. cbn [app].
  remember [] as e eqn:Q. destruct R as [|c e k f e' k' (rc & v & _ & V & _) _]; [reflexivity|].
  apply app_eq_nil in Q as [Q _]. exfalso. exact (value_nonempty _ _ _ V Q).
Qed.

Lemma rows_step pre fmt post es ks : rows pre fmt post es ks -> pre ++ fmt ++ post <> [] ->
  forall t after fuel, (length es + length t <= fuel)%nat ->
  exists fuel', (length t <= fuel')%nat /\
  rec_rows fuel pre fmt post (mk_ptr (es ++ t ++ after) (Z.of_nat (length es) + Z.of_nat (length t))) =
  (let '(ks', r) := rec_rows fuel' pre fmt post (mk_ptr (t ++ after) (Z.of_nat (length t))) in (ks ++ ks', r)).
Proof.
  intros R N. induction R as [|e1 e2 e3 k e' ks S1 Rw S3 R IH]; intros t after fuel L.
  - exists fuel. split; [lia|]. cbn [app length]. rewrite Z.add_0_l. destruct (rec_rows _ _ _ _ _). reflexivity.
  - pose proof (row_nonempty _ _ _ _ _ _ _ S1 Rw S3 N) as NE.
    assert (NL : (0 < length (e1 ++ e2 ++ e3))%nat) by (destruct (e1 ++ e2 ++ e3); [congruence | cbn [length]; lia]).
    rewrite !app_length in NL. rewrite !app_length in L.
    destruct fuel as [|fuel]; [lia|]. cbn [rec_rows p_left].
    replace (_ <=? 0) with false by (rewrite !app_length; lia).
    rewrite <- !app_assoc, (skip_read pre e1) by (assumption || (rewrite !app_length; lia)).
    rewrite (row_read fmt e2 k Rw) by (rewrite !app_length; lia).
    rewrite (skip_read post e3) by (assumption || (rewrite !app_length; lia)).
    destruct (IH t after fuel) as (fuel' & F & E); [lia|]. exists fuel'. split; [exact F|].
    replace (_ - Z.of_nat (length e3)) with (Z.of_nat (length e') + Z.of_nat (length t)) by (rewrite !app_length; lia).
    rewrite E. destruct (rec_rows fuel' _ _ _ _). reflexivity.
Qed.

Lemma obname_ptr en o c i rest : rp66_obname en o c i -> exists nm, dlis_obname (en ++ rest) = Some (nm, rest).
Proof.
  intros H. exists (mk_obname o c i). apply obname_read_spec. exists en. split; [reflexivity | exact H].
Qed.

Lemma rec_rows_end fuel pre fmt post m : rec_rows fuel pre fmt post (mk_ptr m 0) = ([], Ok tt).
Proof. destruct fuel; reflexivity. Qed.

Lemma record_rows_ok after pre fmt post rec ks : frame_record pre fmt post (rec_data rec) ks ->
  pre ++ fmt ++ post <> [] -> record_rows after pre fmt post rec = (ks, Ok tt).
Proof.
  intros (en & o & c & i & es & E & O & R) N. unfold record_rows. cbn [p_mem]. rewrite E, <- app_assoc.
  destruct (obname_ptr en o c i (es ++ after) O) as [nm ->].
  rewrite moved_app.
  destruct (rows_step _ _ _ _ _ R N [] after (length (en ++ es ++ after))) as (fuel' & F & Q).
  { rewrite !app_length. cbn [length]. lia. }
  cbn [app length] in Q. rewrite Z.add_0_r in Q.
  replace (Z.of_nat (length (en ++ es)) - Z.of_nat (length en)) with (Z.of_nat (length es)) by (rewrite app_length; lia). rewrite Q.
  change (Z.of_nat 0) with 0. rewrite rec_rows_end, app_nil_r. reflexivity.
Qed.

(** ** Damage *)

Lemma uvari_exists xs : (4 <= length xs)%nat -> exists e rest v, xs = e ++ rest /\ rp66_uvari e v.
Proof.
  intros L. destruct xs as [|b0 [|b1 [|b2 [|b3 xs]]]]; try (cbn [length] in L; lia). clear L.
  destruct (Z_lt_ge_dec (b2z b0) 128) as [H|H].
  - exists [b0], (b1 :: b2 :: b3 :: xs). eexists. split; [reflexivity|]. constructor. exact H.
  - destruct (Z_lt_ge_dec (b2z b0) 192) as [K|K].
    + exists [b0; b1], (b2 :: b3 :: xs). eexists. split; [reflexivity|]. constructor. lia.
    + exists [b0; b1; b2; b3], xs. eexists. split; [reflexivity|]. constructor. lia.
Qed.
Lemma uvari_length e v e' v' b x y : rp66_uvari e v -> rp66_uvari e' v' -> e = b :: x -> e' = b :: y -> length e = length e'.
Proof.
  intros H H' E E'. destruct H; destruct H'; injection E as -> _; injection E' as -> _; try reflexivity; lia.
Qed.
Lemma uvari_cut t ext v after : rp66_uvari (t ++ ext) v -> ext <> [] -> (16 <= length after)%nat ->
  exists e rest v', t ++ after = e ++ rest /\ rp66_uvari e v' /\ (length t < length e)%nat.
Proof.
  intros U N L. destruct (uvari_exists (t ++ after)) as (e & rest & v' & E & U'); [rewrite app_length; lia|].
  exists e, rest, v'. split; [exact E|]. split; [exact U'|].
  destruct t as [|b t].
  - destruct U'; cbn [length]; lia.
  - destruct e as [|b' e]; [inversion U'|]. injection E as <- E.
    rewrite <- (uvari_length _ _ _ _ b (t ++ ext) e U U' eq_refl eq_refl).
    cbn [length app]. rewrite app_length. destruct ext; [congruence | cbn [length]; lia].
Qed.

Lemma cut_skip rc c v t ext after : char_of rc c -> checked rc -> rp66_value rc (t ++ ext) v -> ext <> [] ->
  (16 <= length after)%nat -> skip_fmt [c] (mk_ptr (t ++ after) (Z.of_nat (length t))) = Exn.
Proof.
  intros C K V N L.
  enough (X : exists o r, unpack [c] (t ++ after) = ROk o r /\ (length r < length after)%nat).
  { destruct X as (o & r & U & Lr). rewrite (skip_unpack _ _ _ _ _ U).
    replace (_ >? _) with true by (rewrite app_length; lia). reflexivity. }
  assert (NE : (0 < length ext)%nat) by (destruct ext; [congruence | cbn [length]; lia]).
  destruct (interpret_cast rc c C) as (x & Hx & I).
  pose proof (cast_value_read rc (t ++ ext) v [] V) as R. rewrite app_nil_r in R.
  assert (FX : forall s d, fixed_fmt x = Some (s, d) -> s <= 16 ->
            exists o r, unpack [c] (t ++ after) = ROk o r /\ (length r < length after)%nat).
  { intros s d F S.
    destruct (interpret_fixed x s d (t ++ ext) F) as (P & A & B). rewrite I, R in A, B. cbn [obind] in A, B.
    destruct (Z_lt_ge_dec (Z.of_nat (length (t ++ ext))) s) as [Q|Q]; [specialize (B Q); discriminate B|].
    destruct A as (args & A & _); [lia|]. apply some_pair_inj in A as [_ A].
    apply (f_equal (@length byte)) in A. rewrite skipn_length in A. cbn [length] in A. rewrite app_length in A, Q.
    destruct (interpret_fixed x s d (t ++ after) F) as (_ & A2 & _).
    destruct A2 as (args2 & A2 & _); [rewrite app_length; lia|].
    cbn [unpack]. rewrite Hx, A2. eexists _, _. split; [reflexivity|]. rewrite skipn_length, app_length. lia. }
  assert (UV : rp66_uvari (t ++ ext) (match v with VNum z => z | _ => 0 end) -> (x = UVARI \/ x = ORIGIN) ->
            exists o r, unpack [c] (t ++ after) = ROk o r /\ (length r < length after)%nat).
  { intros U X. destruct (uvari_cut _ _ _ _ U N L) as (e & rest & v' & E & U' & Le).
    cbn [unpack]. rewrite Hx, E. apply (uvari_encode_read _ _ rest) in U'.
    assert (Q : interpret x (e ++ rest) = Some ([Scalar 4 v'], rest)).
    { destruct X as [-> | ->]; unfold interpret, dlis_origin; rewrite U'; reflexivity. }
    rewrite Q. eexists _, _. split; [reflexivity|]. apply (f_equal (@length byte)) in E. rewrite !app_length in E. lia. }
  clear I R L. unfold checked in K.
  char_cases C; vm_compute in Hx; apply Some_eq in Hx; subst x;
    try (eapply FX; [reflexivity | lia]);
    try (apply UV; [inversion V; subst; assumption | auto]);
    exfalso; cbn [In] in K; repeat (destruct K as [K|K]; [discriminate K|]); exact K.
Qed.

Lemma checked_plain rc : checked rc -> plain rc = true.
Proof. unfold checked. cbn [In]. intros H. repeat (destruct H as [<-|H]; [reflexivity|]). destruct H. Qed.

Lemma broken_read f t : broken_row f t -> forall after, (16 <= length after)%nat ->
  exists k, read_fdata_frame f (mk_ptr (t ++ after) (Z.of_nat (length t))) = (k, Exn).
Proof.
  induction 1 as [rc c v t ext f C K V N|c e s f rest C V U|c e t f rest C V U|c e k f e' S B IH];
    intros after L; cbn [read_fdata_frame].
  - rewrite (read_plain rc c _ C (checked_plain rc K)).
    rewrite (cut_skip rc c v t ext after C K V N L). eexists. reflexivity.
  - rewrite <- app_assoc. pose proof (cast_value_read 20 e _ (rest ++ after) V) as R.
    cbn [cast_value] in R. unfold str in R.
    destruct (dlis_ascii (e ++ rest ++ after)) as [[y r]|] eqn:Q; [|discriminate R]. cbn [obind] in R.
    apply some_pair_inj in R as [R _]. injection R as ->.
    destruct C as [_ C]. vm_compute in C. apply Some_eq in C as <-. unfold read_curve_sample. cbn [fmt_of_byte p_mem]. rewrite Q.
    cbn [unchecked rbind]. rewrite U. eexists. reflexivity.
  - rewrite <- app_assoc. pose proof (cast_value_read 21 e _ (rest ++ after) V) as R.
    cbn [cast_value] in R.
    destruct (dlis_dtime (e ++ rest ++ after)) as [[y r]|] eqn:Q; [|discriminate R]. cbn [obind] in R.
    apply some_pair_inj in R as [R _]. injection R as ->.
    assert (T : to_pydatetime t = None).
    { apply dtime_read_range in Q. destruct (to_pydatetime t) as [p|] eqn:T; [|reflexivity].
      exfalso. apply (U p), (date_time_iff _ Q), T. }
    destruct C as [_ C]. vm_compute in C. apply Some_eq in C as <-. unfold read_curve_sample. cbn [fmt_of_byte p_mem]. rewrite Q.
    cbn [unchecked rbind]. rewrite T. eexists. reflexivity.
  - rewrite <- app_assoc, (sample_read c e k) by (assumption || (rewrite app_length; lia)).
    replace (Z.of_nat (length (e ++ e')) - Z.of_nat (length e)) with (Z.of_nat (length e')) by (rewrite app_length; lia).
    destruct (IH after L) as [k' ->]. eexists. reflexivity.
Qed.

Lemma broken_nonempty f t : broken_row f t -> f <> [].
Proof. intros B; destruct B; discriminate. Qed.

Lemma skip_nil p : skip_fmt [] p = if p_left p <? 0 then Exn else Ok p.
Proof.
  destruct p as [m left]. rewrite (skip_unpack [] m left [] m eq_refl), Z.sub_diag, Z.sub_0_r. cbn [p_left].
  replace (0 >? left) with (left <? 0) by lia. reflexivity.
Qed.

Lemma record_rows_broken after fmt rec ks : broken_record fmt (rec_data rec) ks -> (16 <= length after)%nat ->
  record_rows after [] fmt [] rec = (ks, Exn).
Proof.
  intros (en & o & c & i & es & t & E & O & R & B & N) L. unfold record_rows. cbn [p_mem]. rewrite E, <- !app_assoc.
  destruct (obname_ptr en o c i (es ++ t ++ after) O) as [nm ->].
  rewrite moved_app.
  destruct (rows_step _ _ _ _ _ R) with (t := t) (after := after) (fuel := length (en ++ es ++ t ++ after))
    as (fuel' & F & Q).
  { cbn [app]. rewrite app_nil_r. exact (broken_nonempty _ _ B). }
  { rewrite !app_length. lia. }
  replace (Z.of_nat (length (en ++ es ++ t)) - Z.of_nat (length en))
    with (Z.of_nat (length es) + Z.of_nat (length t)) by (rewrite !app_length; lia).
  rewrite Q. clear Q.
  assert (NL : (0 < length t)%nat) by (destruct t; [congruence | cbn [length]; lia]).
  destruct fuel' as [|fuel']; [lia|]. cbn [rec_rows p_left]. replace (_ <=? 0) with false by lia.
  rewrite skip_nil. cbn [p_left]. replace (_ <? 0) with false by lia.
  destruct (broken_read fmt t B after L) as [k ->]. rewrite app_nil_r. reflexivity.
Qed.

(** ** Records of a file *)

Lemma encrypted_bit b : has (Z.land (b2z b) 0x90) SEGATTR_ENCRYPT = Z.testbit (b2z b) 4.
Proof.
  apply Bool.eqb_prop.
  apply (byte_sweep (fun b => Bool.eqb (has (Z.land (b2z b) 0x90) SEGATTR_ENCRYPT) (Z.testbit (b2z b) 4))).
  vm_compute. reflexivity.
Qed.

Lemma extract_in esc data hard tell g t ds : record_in data tell (g :: t) ds -> len (enc_record (g :: t)) < 2 ^ 63 ->
  exists rec, extract esc (mk_stream data hard) tell = ([], Ok rec) /\ rec_data rec = ds /\ isencrypted rec = Z.testbit (b2z (g_attrs g)) 4 /\ rec_type rec = b2z (g_type g).
Proof.
  intros (pre & post & -> & <- & C & F & R) L.
  destruct (extract_complete esc hard pre (g :: t) post ds 0 C F R L) as (g' & t' & E & X).
  injection E as <- <-. eexists. split; [rewrite X; unfold warned; destruct (esc MINOR); reflexivity|].
  cbn [rec_data rec_type isencrypted rec_attributes]. split; [reflexivity|].
  split; [apply encrypted_bit | reflexivity].
Qed.

Lemma enc_record_len data tell segs ds : record_in data tell segs ds -> len (enc_record segs) <= len data.
Proof. intros (pre & post & -> & _). unfold len. rewrite !app_length. lia. Qed.

Lemma plain_extract esc data hard tell ds : plain_record data tell ds -> len data < 2 ^ 63 ->
  exists rec, extract esc (mk_stream data hard) tell = ([], Ok rec) /\ rec_data rec = ds /\ isencrypted rec = false.
Proof.
  intros (g & t & R & B) L. pose proof (enc_record_len _ _ _ _ R) as Le.
  destruct (extract_in esc data hard tell g t ds R) as (rec & E & D & I & _); [lia|].
  exists rec. rewrite I. unfold seg_bit in B. auto.
Qed.

Lemma loop_rows_ok esc data hard after pre fmt post tells kss :
  pre ++ fmt ++ post <> [] -> len data < 2 ^ 63 ->
  Forall2 (frame_record_in data pre fmt post) tells kss ->
  loop_rows esc (mk_stream data hard) after pre fmt post tells = ([], Ok (concat kss)).
Proof.
  intros N L. induction 1 as [|tell ks tells kss (ds & P & F) _ IH]; [reflexivity|]. cbn [loop_rows].
  destruct (plain_extract esc data hard tell ds P L) as (rec & -> & D & ->). cbn [bind].
  rewrite (record_rows_ok (after tell) pre fmt post rec ks) by (rewrite ?D; assumption).
  rewrite IH. reflexivity.
Qed.

Lemma read_ok esc data hard after pre fmt post n tells kss :
  row_width fmt n -> pre ++ fmt ++ post <> [] -> len data < 2 ^ 63 ->
  Forall2 (frame_record_in data pre fmt post) tells kss ->
  read_fdata esc (mk_stream data hard) after pre fmt post n tells =
  ([], Ok (concat (concat kss), Z.of_nat (length (concat kss)))).
Proof.
  intros W N L F. rewrite (read_fdata_rows n fmt _ _ _ _ _ _ W), (loop_rows_ok _ _ _ _ _ _ _ _ _ N L F). reflexivity.
Qed.

Lemma read_broken esc data hard after fmt n tell ds ks :
  row_width fmt n -> len data < 2 ^ 63 -> plain_record data tell ds -> broken_record fmt ds ks ->
  (16 <= length (after tell))%nat ->
  read_fdata esc (mk_stream data hard) after [] fmt [] n [tell] =
  if esc CRITICAL then ([CRITICAL], Exn) else ([CRITICAL], Ok (concat ks, Z.of_nat (length ks))).
Proof.
  intros W L P B A. rewrite (read_fdata_rows n fmt _ _ _ _ _ _ W). cbn [loop_rows].
  destruct (plain_extract esc data hard tell ds P L) as (rec & -> & D & ->). cbn [bind].
  rewrite (record_rows_broken (after tell) fmt rec ks) by (rewrite ?D; assumption).
  unfold log. destruct (esc CRITICAL); [reflexivity|]. cbn [bind ret app]. rewrite app_nil_r. reflexivity.
Qed.

Lemma read_unreadable esc s after pre fmt post n tell lb :
  row_width fmt n -> extract esc s tell = (lb, Exn) ->
  read_fdata esc s after pre fmt post n [tell] =
  if esc CRITICAL then (lb ++ [CRITICAL], Exn) else (lb ++ [CRITICAL], Ok ([], 0)).
Proof.
  intros W E. rewrite (read_fdata_rows n fmt _ _ _ _ _ _ W). cbn [loop_rows]. rewrite E. cbn [bind].
  unfold log. destruct (esc CRITICAL); cbn [bind ret concat length app]; rewrite ?app_nil_r; reflexivity.
Qed.
Lemma read_encrypted esc s after pre fmt post n tell lb rec :
  row_width fmt n -> extract esc s tell = (lb, Ok rec) -> isencrypted rec = true ->
  read_fdata esc s after pre fmt post n [tell] =
  if esc CRITICAL then (lb ++ [CRITICAL], Exn) else (lb ++ [CRITICAL], Ok ([], 0)).
Proof.
  intros W E I. rewrite (read_fdata_rows n fmt _ _ _ _ _ _ W). cbn [loop_rows]. rewrite E, I. cbn [bind].
  unfold log. destruct (esc CRITICAL); cbn [bind ret concat length app]; rewrite ?app_nil_r; reflexivity.
Qed.

(** without escalation nothing is raised *)
Lemma loop_rows_no_exn esc s after pre fmt post : esc CRITICAL = false -> forall tells l,
  loop_rows esc s after pre fmt post tells <> (l, Exn).
Proof.
  intros C. induction tells as [|t ts IH]; intros l; cbn [loop_rows]; [discriminate|].
  unfold log. rewrite C.
  assert (X : forall l0 (k : list (list cell)),
    (let* more := loop_rows esc s after pre fmt post ts in ret (k ++ more)) <> (l0, Exn)).
  { intros l0 k. destruct (loop_rows esc s after pre fmt post ts) as [l' [m| | |]] eqn:Q; cbn [bind ret]; try discriminate.
    intros _. exact (IH _ eq_refl). }
  assert (Y : forall A (l1 l0 : list severity) (m : io A), (forall l, m <> (l, Exn)) ->
     (let* _ := (l1, Ok tt) in m) <> (l0, Exn)).
  { intros A l1 l0 m H. cbn [bind]. destruct m as [l' [a| | |]]; try discriminate. intros _. exact (H l' eq_refl). }
  destruct (extract esc s t) as [l1 [rec| | |]]; try discriminate.
  - apply Y. intros l2. destruct (isencrypted rec); [apply Y; exact IH|].
    destruct (record_rows (after t) pre fmt post rec) as [ks [[]| | |]]; try discriminate; [apply X|].
    apply Y. intros l3. apply X.
  - apply Y. intros l2. apply Y. exact IH.
Qed.
Lemma read_no_exn esc s after pre fmt post n tells l : row_width fmt n -> esc CRITICAL = false ->
  read_fdata esc s after pre fmt post n tells <> (l, Exn).
Proof.
  intros W C. rewrite (read_fdata_rows n fmt _ _ _ _ _ _ W).
  pose proof (loop_rows_no_exn esc s after pre fmt post C tells) as X.
  destruct (loop_rows esc s after pre fmt post tells) as [l' [ks| | |]]; cbn [bind ret]; try discriminate.
  intros _. exact (X l' eq_refl).
Qed.

(** ** Projection *)
Lemma row_app f g e k : row (f ++ g) e k <->
  exists e1 e2 k1 k2, e = e1 ++ e2 /\ k = k1 ++ k2 /\ row f e1 k1 /\ row g e2 k2.
Proof.
  revert e k. induction f as [|c f IH]; intros e k; cbn [app]; split.
  - intros H. exists [], e, [], k. repeat split; [constructor | exact H].
  - intros (e1 & e2 & k1 & k2 & -> & -> & H1 & H2). inversion H1; subst. exact H2.
  - intros H. inversion H; subst.
    match goal with Hr : row (f ++ g) _ _ |- _ => apply IH in Hr as (e1 & e2 & k1 & k2 & -> & -> & R1 & R2) end.
    eexists _, e2, _, k2. rewrite !app_assoc. split; [reflexivity|]. split; [reflexivity|]. split; [|exact R2].
    constructor; eassumption.
  - intros (e1 & e2 & k1 & k2 & -> & -> & H1 & H2). inversion H1; subst. rewrite <- !app_assoc.
    constructor; [assumption|]. apply IH. eauto 10.
Qed.
Lemma row_skipped f e k : row f e k -> skipped f e.
Proof. induction 1 as [|c e k f e' k' (rc & v & C & V & _) _ IH]; [constructor|]. econstructor; eassumption. Qed.
Lemma row_length f n e k : row_width f n -> row f e k -> Z.of_nat (length k) = n.
Proof.
  intros W R. pose proof (row_read f e k R [] (Z.of_nat (length e)) (Z.le_refl _)) as Q.
  destruct (frame_width _ _ _ _ _ W Q) as [_ B]. eapply B. reflexivity.
Qed.
Lemma rows_project pre fmt post a n es ks : row_width pre a -> row_width fmt n ->
  rows [] (pre ++ fmt ++ post) [] es ks -> rows pre fmt post es (map (columns a n) ks).
Proof.
  intros Wa Wn R. remember (@nil byte) as p0 eqn:E0 in R. remember (@nil byte) as q0 eqn:F0 in R.
  remember (pre ++ fmt ++ post) as f eqn:E.
  induction R as [|e1 e2 e3 k e' ks S1 Rw S3 R IH]; cbn [map]; [constructor|]. subst p0 q0 f.
  inversion S1; subst. inversion S3; subst. cbn [app]. rewrite app_nil_r.
  apply row_app in Rw as (x1 & x2 & k1 & k2 & -> & -> & R1 & R2).
  apply row_app in R2 as (x3 & x4 & k3 & k4 & -> & -> & R3 & R4).
  replace (columns a n (k1 ++ k3 ++ k4)) with k3.
  - constructor; [exact (row_skipped _ _ _ R1) | exact R3 | exact (row_skipped _ _ _ R4) | auto].
  - pose proof (row_length _ _ _ _ Wa R1). pose proof (row_length _ _ _ _ Wn R3).
    unfold columns. replace (Z.to_nat a) with (length k1) by lia. rewrite skipn_app, skipn_all, Nat.sub_diag.
    cbn [app skipn]. symmetry. apply firstn_len. lia.
Qed.

Lemma concat_map_map {A B} (f : A -> B) kss : concat (map (map f) kss) = map f (concat kss).
Proof. induction kss; cbn [map concat]; [reflexivity|]. rewrite map_app, IHkss. reflexivity. Qed.

Lemma read_project esc data hard after pre fmt post a n m tells kss :
  row_width pre a -> row_width fmt n -> row_width (pre ++ fmt ++ post) m ->
  pre ++ fmt ++ post <> [] -> len data < 2 ^ 63 ->
  Forall2 (frame_record_in data [] (pre ++ fmt ++ post) []) tells kss ->
  let rows := concat kss in
  read_fdata esc (mk_stream data hard) after [] (pre ++ fmt ++ post) [] m tells =
    ([], Ok (concat rows, Z.of_nat (length rows))) /\
  read_fdata esc (mk_stream data hard) after pre fmt post n tells =
    ([], Ok (concat (map (columns a n) rows), Z.of_nat (length rows))).
Proof.
  intros Wa Wn Wm N L F. cbv zeta. split.
  - apply read_ok; try assumption. cbn [app]. rewrite app_nil_r. exact N.
  - rewrite (read_ok esc data hard after pre fmt post n tells (map (map (columns a n)) kss)); try assumption.
    + rewrite concat_map_map, map_length. reflexivity.
    + clear N L. induction F as [|t ks ts kss (ds & P & en & o & c & i & es & -> & O & R) _ IH]; cbn [map]; constructor; [|exact IH].
      eexists. split; [exact P|]. exists en, o, c, i, es. split; [reflexivity|]. split; [exact O|].
      apply rows_project; assumption.
Qed.

(** ** No-format data *)
Lemma noform_app esc s ts1 ts2 :
  read_noform esc s (ts1 ++ ts2) =
  (let* d1 := read_noform esc s ts1 in let* d2 := read_noform esc s ts2 in ret (d1 ++ d2)).
Proof.
  induction ts1 as [|t ts IH]; cbn [read_noform app].
  { rewrite bind_ret. symmetry. apply bind_ret_r. }
  destruct (extract esc s t) as [l [rec| | |]]; [| |reflexivity|reflexivity].
  - rewrite ?bind_assoc. apply bind_ext. intros _.
    destruct (dlis_obname (rec_data rec)) as [[nm rest]|]; [|reflexivity].
    rewrite IH, ?bind_assoc. apply bind_ext. intros d1. rewrite bind_ret, ?bind_assoc. apply bind_ext. intros d2.
    rewrite bind_ret, app_assoc. reflexivity.
  - rewrite IH, ?bind_assoc. reflexivity.
Qed.
Lemma noform_ok esc data hard tells ds :
  len data < 2 ^ 63 ->
  Forall2 (fun tell d => exists segs en o c i, record_in data tell segs (en ++ d) /\ rp66_obname en o c i) tells ds ->
  read_noform esc (mk_stream data hard) tells = ([], Ok (concat ds)).
Proof.
  intros L. induction 1 as [|tell d tells ds (segs & en & o & c & i & R & O) _ IH]; [reflexivity|]. cbn [read_noform].
  destruct segs as [|g t]; [destruct R as (? & ? & _ & _ & [] & _)|].
  pose proof (enc_record_len _ _ _ _ R) as Le.
  destruct (extract_in esc data hard tell g t _ R) as (rec & -> & D & _); [lia|]. cbn [bind]. rewrite D.
  destruct (obname_ptr en o c i d O) as [nm ->]. rewrite IH. reflexivity.
Qed.
Lemma noform_unreadable esc s tell lb : extract esc s tell = (lb, Exn) ->
  read_noform esc s [tell] = if esc CRITICAL then (lb ++ [CRITICAL], Exn) else (lb ++ [CRITICAL], Ok []).
Proof.
  intros E. cbn [read_noform]. rewrite E. cbn [bind]. unfold log.
  destruct (esc CRITICAL); cbn [bind ret app]; rewrite ?app_nil_r; reflexivity.
Qed.

(** ** The loops end *)
Lemma interpret_consumes x src args r : interpret x src = Some (args, r) -> (length r < length src)%nat.
Proof.
  intros H. apply (local_interpret x) in H as (e & -> & Lc). rewrite app_length.
  destruct e as [|b e]; [|cbn [length]; lia]. specialize (Lc []). destruct x; discriminate Lc.
Qed.
Lemma unpack_consumes f src o r : unpack f src = ROk o r -> (length r <= length src)%nat /\ (f <> [] -> (length r < length src)%nat).
Proof.
  revert src o r. induction f as [|c f IH]; intros src o r; cbn [unpack].
  - intros [= _ <-]. split; [lia | congruence].
  - destruct (fmt_of_byte c); [|discriminate]. destruct (interpret f0 src) as [[args r1]|] eqn:I; [|discriminate].
    destruct (unpack f r1) as [| |o2 r2] eqn:U; try discriminate. intros [= _ <-].
    apply interpret_consumes in I. apply IH in U as [U _]. lia.
Qed.
Lemma skip_consumes f p q : skip_fmt f p = Ok q ->
  (length (p_mem q) <= length (p_mem p))%nat /\ (f <> [] -> (length (p_mem q) < length (p_mem p))%nat).
Proof.
  destruct p as [m left]. destruct (unpack f m) as [| |o r] eqn:U.
  - unfold skip_fmt. cbn [p_mem]. rewrite dlis_packflen_eq, U. discriminate.
  - unfold skip_fmt. cbn [p_mem]. rewrite dlis_packflen_eq, U. discriminate.
  - rewrite (skip_unpack _ _ _ _ _ U). destruct (_ >? left); [discriminate|]. intros [= <-]. cbn [p_mem].
    exact (unpack_consumes _ _ _ _ U).
Qed.
Lemma sample_consumes c p k q : read_curve_sample c p = Ok (k, q) -> (length (p_mem q) < length (p_mem p))%nat.
Proof.
  intros H. unfold read_curve_sample in H.
  assert (G : (let! q := skip_fmt [c] p in
      match dlis_packf [c] (p_mem p) with PackOk out => Ok (map Raw out, q) | _ => UB end) = Ok (k, q) ->
      (length (p_mem q) < length (p_mem p))%nat).
  { intros E. destruct (skip_fmt [c] p) as [q'| | |] eqn:S; try discriminate E. cbn [rbind] in E.
    destruct (dlis_packf [c] (p_mem p)); try discriminate E.
    assert (q' = q) by congruence. subst q'. apply (proj2 (skip_consumes _ _ _ S)). discriminate. }
  assert (R : forall A (rd : bytes -> option (A * bytes)) v rest, local rd -> rd [] = None ->
     rd (p_mem p) = Some (v, rest) -> (length rest < length (p_mem p))%nat).
  { intros A rd v rest Lc Z E. apply Lc in E as (e & -> & E). rewrite app_length.
    destruct e; [|cbn [length]; lia]. specialize (E []). cbn [app] in E. congruence. }
  destruct (fmt_of_byte c) as [x|]; [|exact (G H)].
  destruct x; try exact (G H);
    match type of H with context [unchecked ?x] => destruct x as [[y r]|] eqn:Q end; try discriminate H; cbn [unchecked rbind] in H;
    repeat match goal with p : (_ * _)%type |- _ => destruct p end;
    try match type of H with match ?m with _ => _ end = _ => destruct m; [|discriminate H] end;
    match type of H with Ok (_, ?a) = _ => assert (K : a = q) by congruence; rewrite <- K; clear K H end;
    unfold moved; cbn [p_mem];
    (eapply R; [| |exact Q]; [|reflexivity]).
  all: first [ apply local_dtime | apply local_obname | apply local_objref | apply local_attref | apply local_ident | apply local_ascii
             | apply (local_pair dlis_fsingl), local_read_be | apply (local_pair dlis_fdoubl), local_read_be
             | apply (local_triple dlis_fsingl), local_read_be | apply (local_triple dlis_fdoubl), local_read_be ].
Qed.
Lemma frame_consumes f p k q : read_fdata_frame f p = (k, Ok q) ->
  (length (p_mem q) <= length (p_mem p))%nat /\ (f <> [] -> (length (p_mem q) < length (p_mem p))%nat).
Proof.
  revert p k. induction f as [|c f IH]; intros p k; cbn [read_fdata_frame].
  - intros [= _ <-]. split; [lia|congruence].
  - destruct (read_curve_sample c p) as [[k1 p1]| | |] eqn:S; try discriminate.
    destruct (read_fdata_frame f p1) as [k2 r] eqn:Q. intros [= _ ->].
    apply sample_consumes in S. apply IH in Q as [Q _]. lia.
Qed.
Lemma skip_no_fuel f p : skip_fmt f p <> Fuel.
Proof. unfold skip_fmt. destruct (dlis_packflen f (p_mem p)); try discriminate. destruct (overflows _ _); discriminate. Qed.
Lemma sample_no_fuel c p : read_curve_sample c p <> Fuel.
Proof.
  unfold read_curve_sample.
  assert (G : (let! q := skip_fmt [c] p in
      match dlis_packf [c] (p_mem p) with PackOk out => Ok (map Raw out, q) | _ => UB end) <> Fuel).
  { pose proof (skip_no_fuel [c] p). destruct (skip_fmt [c] p); cbn [rbind]; try congruence.
    destruct (dlis_packf [c] (p_mem p)); discriminate. }
  destruct (fmt_of_byte c) as [x|]; [|exact G].
  destruct x; try exact G;
    match goal with |- context [unchecked ?x] => destruct x as [[y r]|] end; cbn [unchecked rbind]; try discriminate;
    repeat match goal with p : (_ * _)%type |- _ => destruct p end; try discriminate;
    match goal with |- match ?m with _ => _ end <> _ => destruct m; discriminate end.
Qed.
Lemma frame_no_fuel f p k : read_fdata_frame f p <> (k, Fuel).
Proof.
  revert p k. induction f as [|c f IH]; intros p k; cbn [read_fdata_frame]; [discriminate|].
  pose proof (sample_no_fuel c p) as S. destruct (read_curve_sample c p) as [[k1 p1]| | |]; try congruence.
  destruct (read_fdata_frame f p1) as [k2 r] eqn:Q. intros [= _ ->]. exact (IH _ _ Q).
Qed.
Lemma rec_rows_fuel pre fmt post : pre ++ fmt ++ post <> [] -> forall fuel p ks,
  (length (p_mem p) < fuel)%nat -> rec_rows fuel pre fmt post p <> (ks, Fuel).
Proof.
  intros N. induction fuel as [|fuel IH]; intros p ks L; [lia|]. cbn [rec_rows].
  destruct (p_left p <=? 0); [discriminate|].
  destruct (skip_fmt pre p) as [p1| | |] eqn:S1; try discriminate; [|exfalso; exact (skip_no_fuel _ _ S1)].
  destruct (read_fdata_frame fmt p1) as [k r] eqn:F.
  destruct r as [p2| | |]; try discriminate; [|exfalso; exact (frame_no_fuel _ _ _ F)].
  destruct (skip_fmt post p2) as [p3| | |] eqn:S3; try discriminate; [|exfalso; exact (skip_no_fuel _ _ S3)].
  apply skip_consumes in S1 as [A1 B1]. apply frame_consumes in F as [A2 B2]. apply skip_consumes in S3 as [A3 B3].
  assert (X : (length (p_mem p3) < length (p_mem p))%nat).
  { destruct pre as [|? pre]; [|specialize (B1 ltac:(discriminate)); lia].
    destruct fmt as [|? fmt]; [|specialize (B2 ltac:(discriminate)); lia].
    destruct post as [|? post]; [exfalso; apply N; reflexivity|]. specialize (B3 ltac:(discriminate)). lia. }
  destruct (rec_rows fuel pre fmt post p3) as [ks' r] eqn:Q. intros [= _ ->]. apply (IH p3 ks'); [lia | exact Q].
Qed.
Lemma record_rows_fuel after pre fmt post rec ks : pre ++ fmt ++ post <> [] ->
  record_rows after pre fmt post rec <> (ks, Fuel).
Proof.
  intros N. unfold record_rows. cbn [p_mem].
  destruct (dlis_obname (rec_data rec ++ after)) as [[nm rest]|] eqn:O; [|discriminate].
  apply rec_rows_fuel; [exact N|]. unfold moved. cbn [p_mem].
  apply local_obname in O as (e & E & Lc). rewrite E, app_length.
  destruct e as [|b e]; [specialize (Lc []); discriminate Lc | cbn [length]; lia].
Qed.
Lemma read_terminates esc s after pre fmt post n tells l :
  row_width fmt n -> pre ++ fmt ++ post <> [] -> Forall (Z.le 0) tells ->
  read_fdata esc s after pre fmt post n tells <> (l, Fuel).
Proof.
  intros W N F. rewrite (read_fdata_rows n fmt _ _ _ _ _ _ W).
  enough (X : forall l, loop_rows esc s after pre fmt post tells <> (l, Fuel)).
  { destruct (loop_rows esc s after pre fmt post tells) as [l' [ks| | |]]; cbn [bind ret]; try discriminate.
    intros _. exact (X l' eq_refl). }
  clear l. induction F as [|t ts Ht _ IH]; intros l; cbn [loop_rows]; [discriminate|].
  assert (Y : forall A B (m : io A) (k : A -> io B) l0, (forall l, m <> (l, Fuel)) -> (forall a l, k a <> (l, Fuel)) ->
     (let* x := m in k x) <> (l0, Fuel)).
  { intros A B m k l0 H1 H2. destruct m as [l1 [a| | |]]; cbn [bind]; try discriminate.
    - specialize (H2 a). destruct (k a) as [l2 r]. intros [= _ ->]. exact (H2 _ eq_refl).
    - intros _. exact (H1 _ eq_refl). }
  assert (LG : forall sv l, log esc sv <> (l, Fuel)) by (intros sv l0; unfold log; destruct (esc sv); discriminate).
  pose proof (fun l => extract_n_fuel esc s t (2 ^ 63 - 1) l Ht) as EF. fold (extract esc s t) in EF.
  destruct (extract esc s t) as [l1 [rec| | |]]; try discriminate.
  - apply Y; [discriminate|]. intros _ l2. destruct (isencrypted rec); [apply Y; auto|].
    pose proof (fun ks => record_rows_fuel (after t) pre fmt post rec ks N) as RF.
    destruct (record_rows (after t) pre fmt post rec) as [ks [[]| | |]]; try discriminate.
    + apply Y; [auto | discriminate].
    + apply Y; [auto|]. intros _ l3. apply Y; [auto | discriminate].
    + exfalso. exact (RF ks eq_refl).
  - apply Y; [discriminate|]. intros _ l2. apply Y; auto.
  - exfalso. exact (EF l1 eq_refl).
Qed.

(** ** Text *)
Lemma text_read esc data hard after c tell en o cp i e s w :
  In c [("s"%byte); ("Q"%byte)] -> len data < 2 ^ 63 ->
  plain_record data tell (en ++ e) -> rp66_obname en o cp i -> rp66_ident e s ->
  Forall (fun b => b2z b < 128) s ->
  code_units (map b2z s ++ repeat 0 (255 - length s)) w ->
  read_fdata esc (mk_stream data hard) after [] [c] [] 1020 [tell] = ([], Ok (map Raw w, 1)).
Proof.
  intros C L P O I A U.
  assert (R : row_width [c] 1020 /\ sample c e (map Raw w)).
  { assert (F : Forall2 (fun b u => u = if b2z b <? 128 then b2z b else b2z b + 0xFFFFFF00) s (map b2z s)).
    { clear -A. induction A as [|b s H _ IH]; cbn [map]; constructor; [|exact IH].
      replace (b2z b <? 128) with true by lia. reflexivity. }
    destruct C as [<-|[<-|[]]].
    - split; [apply (rw_cons _ 1020 [] 0); [exists 18%nat; split; reflexivity | constructor]|].
      exists 19, (VText s). split; [split; [lia | reflexivity]|]. split; [constructor; exact I|].
      eapply im_text; [cbn; tauto | exact F | exact U].
    - split; [apply (rw_cons _ 1020 [] 0); [exists 26%nat; split; reflexivity | constructor]|].
      exists 27, (VText s). split; [split; [lia | reflexivity]|]. split; [constructor; exact I|].
      eapply im_text; [cbn; tauto | exact F | exact U]. }
  destruct R as [W S].
  rewrite (read_ok esc data hard after [] [c] [] 1020 [tell] [[map Raw w]]).
  - cbn [concat app]. rewrite app_nil_r. reflexivity.
  - exact W.
  - discriminate.
  - exact L.
  - constructor; [|constructor]. exists (en ++ e). split; [exact P|].
    exists en, o, cp, i, e. split; [reflexivity|]. split; [exact O|].
    rewrite <- (app_nil_r e).
    replace (e ++ []) with (([] ++ (e ++ []) ++ []) ++ []) by (cbn [app]; rewrite !app_nil_r; reflexivity).
    apply rows_cons; [constructor | | constructor | constructor].
    rewrite <- (app_nil_r (map Raw w)). apply row_cons; [exact S | constructor].
Qed.
