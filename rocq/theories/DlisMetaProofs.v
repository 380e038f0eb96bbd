(** Proofs for C82. *)
From Coq Require Import Permutation.
From Verif Require Import Bytes BytesProofs Stream PyBase DlisTypes DlisCore SpecTypes SpecCore SpecIo DlisRecords SpecRecords CommonPy DlisStore SpecDlisStore DlisStoreProofs DlisStoreProofs2 DlisStoreProofs3 DlisStoreProofs5 DlisSchema DlisObject SpecDlisObject DlisObjectProofs DlisObjectProofs3
  SpecDlisLoad DlisCurvesProofs5 SpecDlisMeta.
From Verif Require DlisLoad.
From Verif Require Import PropDlisStore PropDlisObject PropDlisLoad PropDlisCurves PropDlisCut.
Import SpecDlisCut (carries).
Local Open Scope Z_scope.

Lemma forall2_nth {A B} (R : A -> B -> Prop) xs ys : Forall2 R xs ys -> forall i x y, nth_error xs i = Some x -> nth_error ys i = Some y -> R x y.
Proof. induction 1 as [|x y xs ys H F IH]; intros [|i] a b; cbn; try discriminate; [intros [= <-] [= <-]; exact H|apply IH]. Qed.

Lemma forall2_len {A B} (R : A -> B -> Prop) xs ys : Forall2 R xs ys -> length xs = length ys.
Proof. induction 1; cbn; congruence. Qed.

Lemma carries_consists esc ot tr file i f fuel l st x : carries esc file i f -> len file + 1 < Z.of_nat fuel -> DlisLoad.load esc ot tr fuel file = (l, Ok st) ->
  nth_error (DlisLoad.di_files st) i = Some x -> exists sul, SpecDlisCut.consists_of sul (wf_recs f) (wf_contents f) x.
Proof.
  intros SD FU LO NX.
  inversion SD as [lab fs i0 f0 L W B NF|fs i0 f0 EM W B NR NF|lab fs b recs cs i0 f0 L W BG B NF|lab fs f0 gs m r1 segs part ps L W B M CU NO]; subst.
  - destruct (C65_loaded esc ot tr lab fs L W B) as (st' & H & F). destruct (C62_labelled esc ot tr lab fs L W B) as (st2 & H2 & F2).
    rewrite (H fuel FU) in LO. injection LO as <- <-. specialize (H2 fuel FU). rewrite (H fuel FU) in H2. injection H2 as <-.
    destruct (forall2_nth _ _ _ F i f x NF NX) as (A & D & E & G). exists (Some lab).
    destruct (forall2_nth _ _ _ F2 i f x NF NX) as (U & _). unfold SpecDlisCut.consists_of. auto.
  - destruct (C65_unlabelled esc ot tr fs) as (st' & H & F); try assumption; [intros ->; destruct i; discriminate NF|].
    rewrite (H fuel FU) in LO. injection LO as <- <-. exists None. exact (forall2_nth _ _ _ F i f x NF NX).
  - destruct (C87_before esc ot tr lab fs b recs cs fuel l st L W BG B LO) as (xs & y & more & E & F & _). exists (Some lab).
    assert (I : (i < length xs)%nat) by (rewrite <- (forall2_len _ _ _ F); apply nth_error_Some; congruence).
    rewrite E, nth_error_app1 in NX by exact I. exact (forall2_nth _ _ _ F i f x NF NX).
  - match type of FU with len ?f + 1 < _ => assert (SM : len f < 2 ^ 63) by (unfold len in *; rewrite firstn_length; lia) end.
    destruct (C87_cut_partial esc ot tr lab fs f0 gs m r1 segs part L W M CU NO SM) as (HT & HF). destruct (esc CRITICAL).
    + rewrite (HT eq_refl fuel FU) in LO. discriminate LO.
    + destruct (HF eq_refl) as (st' & xs & y & H & E & F & C). rewrite (H fuel FU) in LO. injection LO as <- <-.
      rewrite E, (forall2_len _ _ _ F), nth_error_app2, Nat.sub_diag in NX by lia. injection NX as <-. exists (Some lab). exact C.
Qed.
Lemma opened_sets esc file i f sets : opened esc file i f sets -> Forall2 set_reads (metadata (wf_contents f)) sets /\ as_loaded sets /\ parsable sets.
Proof.
  intros (SD & ot & tr & fuel & l & st & x & FU & LO & NX & ->). destruct (carries_consists _ _ _ _ _ _ _ _ _ _ SD FU LO NX) as (sul & _ & A & B & C & _). auto.
Qed.

Lemma carries_there esc ot tr file i f fuel l st : carries esc file i f -> len file + 1 < Z.of_nat fuel -> DlisLoad.load esc ot tr fuel file = (l, Ok st) ->
  exists x, nth_error (DlisLoad.di_files st) i = Some x.
Proof.
  assert (G : forall (fs : list wfile) (xs more : list DlisLoad.logical_file) f, length fs = length xs -> nth_error fs i = Some f -> exists x, nth_error (xs ++ more) i = Some x).
  { intros fs xs more g LE NF. assert (I : (i < length fs)%nat) by (apply nth_error_Some; congruence). rewrite LE in I. rewrite nth_error_app1 by exact I.
    apply nth_error_Some in I. destruct (nth_error xs i) as [x|]; [eauto|congruence]. }
  intros SD FU LO.
  inversion SD as [lab fs i0 f0 L W B NF|fs i0 f0 EM W B NR NF|lab fs b recs cs i0 f0 L W BG B NF|lab fs f0 gs m r1 segs part ps L W B M CU NO]; subst.
  - destruct (C65_loaded esc ot tr lab fs L W B) as (st' & H & F). rewrite (H fuel FU) in LO. injection LO as <- <-.
    rewrite <- (app_nil_r (DlisLoad.di_files st')). eapply G; [exact (forall2_len _ _ _ F)|exact NF].
  - destruct (C65_unlabelled esc ot tr fs) as (st' & H & F); try assumption; [intros ->; destruct i; discriminate NF|].
    rewrite (H fuel FU) in LO. injection LO as <- <-. rewrite <- (app_nil_r (DlisLoad.di_files st')). eapply G; [exact (forall2_len _ _ _ F)|exact NF].
  - destruct (C87_before esc ot tr lab fs b recs cs fuel l st L W BG B LO) as (xs & y & more & E & F & _). rewrite E. eapply G; [exact (forall2_len _ _ _ F)|exact NF].
  - match type of FU with len ?f + 1 < _ => assert (SM : len f < 2 ^ 63) by (unfold len in *; rewrite firstn_length; lia) end.
    destruct (C87_cut_partial esc ot tr lab fs f0 gs m r1 segs part L W M CU NO SM) as (HT & HF). destruct (esc CRITICAL).
    + rewrite (HT eq_refl fuel FU) in LO. discriminate LO.
    + destruct (HF eq_refl) as (st' & xs & y & H & E & F & C). rewrite (H fuel FU) in LO. injection LO as <- <-.
      exists y. rewrite E, (forall2_len _ _ _ F), nth_error_app2, Nat.sub_diag by lia. reflexivity.
Qed.

(** ** What is read for an object is determined *)
Lemma zero_value_det c z z' : zero_value c z -> zero_value c z' -> z = z'.
Proof.
  intros H H'. destruct H as [c I|c I|c I|c I| | | |]; inversion H' as [c' I'|c' I'|c' I'|c' I'| | | |]; try reflexivity; subst;
    exfalso; cbn [In] in *; repeat match goal with K : _ \/ _ |- _ => destruct K as [K|K] end; try contradiction; lia.
Qed.
Lemma value_rule_det t c v lg v' lg' : value_rule t c v lg -> value_rule t c v' lg' -> v = v' /\ lg = lg'.
Proof.
  intros H H'. destruct H; destruct H'; try (exfalso; congruence || lia); try (split; congruence);
    try (exfalso; match goal with A : at_value t = Vec _ ?x, B : at_value t = Vec _ ?y |- _ => assert (x = y) by congruence; subst; lia end);
    try (exfalso; match goal with A : c_reprc c = Some _, B : or_else (c_reprc c) _ = _ |- _ => rewrite A in B; cbn [or_else] in B; congruence end).
  - split; [|reflexivity]. f_equal. f_equal. eapply zero_value_det; eassumption.
  - match goal with A : c_reprc c = Some ?x, B : c_reprc c = Some ?y |- _ => assert (x = y) by congruence; subst end.
    split; [|reflexivity]. f_equal. f_equal. eapply zero_value_det; eassumption.
  - split; [|reflexivity]. f_equal. f_equal. eapply zero_value_det; eassumption.
Qed.
Lemma overrides_det t c a a' : overrides t c a -> overrides t c a' -> a = a'.
Proof.
  intros (A1 & A2 & A3 & A4 & A5 & A6) (B1 & B2 & B3 & B4 & B5 & B6). destruct (value_rule_det _ _ _ _ _ _ A6 B6). destruct a, a'. cbn in *. congruence.
Qed.
Lemma object_reads_end ts r : object_reads ts [] r -> r = map template_attribute ts.
Proof.
  intros H. remember [] as cs eqn:E. revert E. induction H; intros E; try discriminate; [reflexivity|]. cbn [map]. f_equal. apply IHobject_reads, E.
Qed.
Lemma object_reads_det ts cs r : object_reads ts cs r -> forall r', object_reads ts cs r' -> r = r'.
Proof.
  induction 1 as [ts|t ts cs r I H IH|t ts cs r I H IH|t ts c cs a r I O H IH]; intros r' H'.
  - symmetry. apply object_reads_end, H'.
  - inversion H'; subst; try congruence.
    + apply object_reads_end in H. subst r. reflexivity.
    + f_equal. apply IH. assumption.
  - inversion H'; subst; try congruence. apply IH. assumption.
  - inversion H'; subst; try congruence. f_equal; [eapply overrides_det; eassumption|apply IH; assumption].
Qed.
Lemma read_from_det p x y : read_from p x -> read_from p y -> x = y.
Proof.
  intros (A1 & A2 & A3 & A4) (B1 & B2 & B3 & B4). pose proof (object_reads_det _ _ _ A3 _ B3) as E. destruct x, y. cbn in *. subst. reflexivity.
Qed.

(** ** Lists in parallel *)
Lemma forall2_filter {A B} (R : A -> B -> Prop) f g l l' : (forall x y, R x y -> f x = g y) -> Forall2 R l l' -> Forall2 R (filter f l) (filter g l').
Proof.
  intros E. induction 1 as [|x y l l' H F IH]; [constructor|]. cbn [filter]. rewrite (E x y H). destruct (g y); [constructor; assumption|exact IH].
Qed.
Lemma forall2_in_l {A B} (R : A -> B -> Prop) l l' : Forall2 R l l' -> forall x, In x l -> exists y, In y l' /\ R x y.
Proof.
  induction 1 as [|x y l l' H F IH]; intros z I; [destruct I|]. destruct I as [<-|I]; [exists y; split; [left; reflexivity|exact H]|]. destruct (IH z I) as (w & Iw & K). exists w. split; [right; exact Iw|exact K].
Qed.
Lemma forall2_in_r {A B} (R : A -> B -> Prop) l l' : Forall2 R l l' -> forall y, In y l' -> exists x, In x l /\ R x y.
Proof.
  induction 1 as [|x y l l' H F IH]; intros z I; [destruct I|]. destruct I as [<-|I]; [exists x; split; [left; reflexivity|exact H]|]. destruct (IH z I) as (w & Iw & K). exists w. split; [right; exact Iw|exact K].
Qed.
Lemma filter_cons_inv {A} (g : A -> bool) l : forall p ps, filter g l = p :: ps -> exists a b, l = a ++ p :: b /\ filter g a = [] /\ g p = true /\ filter g b = ps.
Proof.
  induction l as [|x l IH]; intros p ps H; [discriminate|]. cbn [filter] in H. destruct (g x) eqn:G.
  - injection H as <- <-. exists [], l. auto.
  - destruct (IH p ps H) as (a & b & -> & Na & Gp & Nb). exists (x :: a), b. split; [reflexivity|]. cbn [filter]. rewrite G. auto.
Qed.
Lemma filter_none {A} (g : A -> bool) l : filter g l = [] <-> forall x, In x l -> g x = false.
Proof.
  induction l as [|x l IH]; cbn [filter]; [split; [intros _ ? []|reflexivity]|]. destruct (g x) eqn:G.
  - split; [discriminate|]. intros H. rewrite (H x (or_introl eq_refl)) in G. discriminate.
  - rewrite IH. split; [intros H y [<-|I]; auto|intros H y I; apply H; right; exact I].
Qed.

Lemma filter_picked {A} (g : A -> bool) (P : A -> Prop) l : (forall x, g x = true <-> P x) -> picked P l (filter g l).
Proof.
  intros E. induction l as [|x l IH]; [constructor|]. cbn [filter]. destruct (g x) eqn:G; constructor; try exact IH; rewrite <- E; congruence.
Qed.

(** ** The objects of the sets are those written *)
Section meta.
Variable dec : bytes -> pystr.
Variable enc : pystr -> bytes.
Variable esc : severity -> bool.

Definition in_sets (ws : list wset) : list (wset * wobject) := flat_map (fun w => map (pair w) (ws_objects w)) ws.

Lemma set_objects w s : set_reads w s -> dec (os_type s) = dec (ws_type w) /\ Forall2 read_from (map (pair w) (ws_objects w)) (objects_in s).
Proof.
  intros (T & s' & P & T' & _ & F & _). split; [congruence|]. unfold objects_in. rewrite P. clear - F.
  induction F as [|o x os xs H F IH]; [constructor|]. cbn [map]. constructor; [exact H|exact IH].
Qed.
Definition matching (ft fn : pystr -> bool) (p : wset * wobject) : bool := ft (dec (ws_type (fst p))) && fn (dec (wo_id (snd p))).
Lemma filter_pairs ft fn w os : filter (matching ft fn) (map (pair w) os) = if ft (dec (ws_type w)) then filter (fun p => fn (dec (wo_id (snd p)))) (map (pair w) os) else [].
Proof.
  unfold matching. induction os as [|o os IH]; cbn [map filter fst snd]; [destruct (ft _); reflexivity|]. rewrite IH. destruct (ft _); cbn [andb]; [|reflexivity]. reflexivity.
Qed.
Lemma selected_written ft fn ws sets : Forall2 set_reads ws sets -> Forall2 read_from (filter (matching ft fn) (in_sets ws)) (selected dec ft fn sets).
Proof.
  induction 1 as [|w s ws sets H F IH]; [constructor|]. destruct (set_objects w s H) as (T & R). unfold in_sets in *. cbn [flat_map]. rewrite filter_app, filter_pairs.
  unfold selected in *. cbn [filter]. rewrite T. destruct (ft (dec (ws_type w))); [|exact IH]. cbn [flat_map]. apply Forall2_app; [|exact IH].
  eapply forall2_filter; [|exact R]. intros p x (N & _). cbn beta. rewrite N. reflexivity.
Qed.
Definition bearsb (t name : pystr) (origin copynr : option Z) (p : wset * wobject) : bool :=
  matching (pystr_eqb t) (pystr_eqb name) p && (agrees origin (wo_origin (snd p)) && agrees copynr (wo_copy (snd p))).
Lemma agrees_spec crit z : agrees crit z = true <-> forall c, crit = Some c -> z = c.
Proof.
  destruct crit as [c|]; cbn [agrees]; [|split; [intros _ ? [=]|reflexivity]]. rewrite Z.eqb_eq. split; [intros -> d [= <-]; reflexivity|intros H; apply H; reflexivity].
Qed.
Lemma bearsb_spec t name origin copynr p : bearsb t name origin copynr p = true <-> bears dec t name origin copynr p.
Proof.
  clear enc esc. unfold bearsb, bears, matching. rewrite !andb_true_iff, !pystr_eqb_spec, !agrees_spec. intuition congruence.
Qed.
Lemma bearsb_not t name origin copynr p : bearsb t name origin copynr p = false <-> ~ bears dec t name origin copynr p.
Proof. clear enc esc. rewrite <- bearsb_spec. destruct (bearsb t name origin copynr p); intuition congruence. Qed.
Lemma candidates_written t name origin copynr ws sets : Forall2 set_reads ws sets ->
  Forall2 read_from (filter (bearsb t name origin copynr) (in_sets ws)) (candidates dec t name origin copynr sets).
Proof.
  intros F. unfold candidates.
  replace (filter (bearsb t name origin copynr) (in_sets ws)) with
    (filter (fun p => agrees origin (wo_origin (snd p)) && agrees copynr (wo_copy (snd p))) (filter (matching (pystr_eqb t) (pystr_eqb name)) (in_sets ws))) by apply filter_filter.
  eapply forall2_filter; [|apply selected_written; exact F]. intros p x (N & _). cbn beta. rewrite N. reflexivity.
Qed.

Lemma matching_spec t name p : matching (pystr_eqb t) (pystr_eqb name) p = true <-> bears dec t name None None p.
Proof. clear enc esc. unfold matching, bears. rewrite andb_true_iff, !pystr_eqb_spec. intuition congruence. Qed.

Variable f : wfile.
Variable sets : list object_set.
Hypothesis reads : Forall2 set_reads (metadata (wf_contents f)) sets.

Definition chosen (l : list object) (o : object) : Prop := exists rest, l = o :: rest /\ (rest = [] \/ forall y, In y (o :: rest) -> same_object y o).
Lemma the_written_chosen t name origin copynr o :
  chosen (candidates dec t name origin copynr sets) o <-> exists p, the_written dec f t name origin copynr p /\ read_from p o.
Proof.
  pose proof (candidates_written t name origin copynr _ _ reads) as C. fold (written f) in C. change (in_sets (metadata (wf_contents f))) with (written f) in C. split.
  - intros (rest & E & S). rewrite E in C. inversion C as [|p ? ps ? H F E1 E2]; subst. symmetry in E1. destruct (filter_cons_inv _ _ _ _ E1) as (a & b & W & Na & Gp & Nb).
    exists p. split; [|exact H]. exists a, b. split; [exact W|]. split; [apply bearsb_spec, Gp|]. split.
    + intros q Iq. apply bearsb_not. rewrite filter_none in Na. exact (Na q Iq).
    + destruct S as [->|S].
      * left. inversion F; subst. intros q Iq. apply bearsb_not. match goal with K : [] = filter _ b |- _ => symmetry in K; rewrite filter_none in K; exact (K q Iq) end.
      * right. intros q x y [->|Iq] B Rx Ry.
        -- rewrite (read_from_det p x o Rx H), (read_from_det p y o Ry H). apply S. left. reflexivity.
        -- rewrite (read_from_det p y o Ry H). destruct (forall2_in_l _ _ _ F q) as (z & Iz & Rz); [rewrite <- Nb; apply filter_In; split; [exact Iq|apply bearsb_spec, B]|].
           rewrite (read_from_det q x z Rx Rz). apply S. right. exact Iz.
  - intros (p & (a & b & W & B & Na & O) & R). rewrite W, filter_app in C. cbn [filter] in C. apply bearsb_spec in B as B'. rewrite B' in C.
    replace (filter (bearsb t name origin copynr) a) with (@nil (wset * wobject)) in C by (symmetry; apply filter_none; intros q Iq; apply bearsb_not, Na, Iq). cbn [app] in C.
    inversion C as [|? o' ? rest H F E1 E2]. subst. rewrite (read_from_det p o o' R H). exists rest. split; [congruence|]. destruct O as [O|O].
    + left. replace (filter (bearsb t name origin copynr) b) with (@nil (wset * wobject)) in F by (symmetry; apply filter_none; intros q Iq; apply bearsb_not, O, Iq). inversion F. reflexivity.
    + right. intros y [<-|Iy].
      * apply (O p); [left; reflexivity|exact B|exact H|exact H].
      * destruct (forall2_in_r _ _ _ F y Iy) as (q & Iq & Rq). apply filter_In in Iq as [Iq Bq]. apply (O q); [right; exact Iq|apply bearsb_spec, Bq|exact Rq|exact H].
Qed.
Lemma the_object_written t n o :
  the_object dec sets t n o <-> exists p, the_written dec f t (dec (ob_id n)) (Some (ob_origin n)) (Some (ob_copy n)) p /\ read_from p o.
Proof. apply the_written_chosen. Qed.
Lemma the_written_read t name origin copynr p : the_written dec f t name origin copynr p -> exists s x, In s sets /\ In x (objects_in s) /\ read_from p x.
Proof.
  intros (a & b & W & _). assert (I : In p (written f)) by (rewrite W; apply in_elt). unfold written in I. apply in_flat_map in I as (w & Iw & I).
  destruct (forall2_in_l _ _ _ reads w Iw) as (s & Is & S). destruct (set_objects w s S) as (_ & R). destruct (forall2_in_l _ _ _ R p I) as (x & Ix & X). exists s, x. auto.
Qed.
Lemma written_object p x : In p (written f) -> read_from p x -> exists s, In s sets /\ In x (objects_in s).
Proof.
  intros I H. unfold written in I. apply in_flat_map in I as (w & Iw & I).
  destruct (forall2_in_l _ _ _ reads w Iw) as (s & Is & S). destruct (set_objects w s S) as (_ & R). destruct (forall2_in_l _ _ _ R p I) as (y & Iy & Y).
  rewrite (read_from_det p x y H Y). exists s. auto.
Qed.
Lemma written_read p : In p (written f) -> exists s x, In s sets /\ In x (objects_in s) /\ read_from p x.
Proof.
  intros I. unfold written in I. apply in_flat_map in I as (w & Iw & I).
  destruct (forall2_in_l _ _ _ reads w Iw) as (s & Is & S). destruct (set_objects w s S) as (_ & R). destruct (forall2_in_l _ _ _ R p I) as (x & Ix & X). exists s, x. auto.
Qed.

(** ** Nothing raises *)
Hypothesis types : typed dec enc f.
Hypothesis mild : lenient esc.
Lemma no_raise ft : selected_raises dec esc ft sets = false.
Proof.
  unfold selected_raises. apply not_true_is_false. intros H. apply existsb_exists in H as (s & Is & H). apply andb_true_iff in H as [_ H].
  destruct (forall2_in_r _ _ _ reads s Is) as (w & _ & _ & s' & P & _ & _ & _ & L). unfold raising in H. rewrite P, L, existsb_app in H.
  destruct (ws_kind w); cbn [kind_log existsb] in H; rewrite ?mild in H by discriminate; destruct (ws_objects w); cbn [existsb] in H; rewrite ?mild in H by discriminate; discriminate H.
Qed.
Lemma sets_typed : Forall (fun s => kept dec enc (dec (os_type s))) sets.
Proof.
  apply Forall_forall. intros s Is. destruct (forall2_in_r _ _ _ reads s Is) as (w & Iw & H). destruct (set_objects w s H) as (-> & _). apply types, Iw.
Qed.
Lemma object_calm p x lg : In p (written f) -> read_from p x -> tolerated esc lg -> calm dec enc esc x lg.
Proof.
  intros I (_ & T & _) O. right. split; [|exact O]. rewrite T. unfold written in I. apply in_flat_map in I as (w & Iw & I). apply in_map_iff in I as (o & <- & _). apply types, Iw.
Qed.
Lemma log_tolerated p x : read_from p x -> tolerated esc (obj_log x).
Proof. intros (_ & _ & _ & L) q I. rewrite L in I. destruct (forallb _ _); [destruct I|]. destruct I as [<-|[]]. apply mild. discriminate. Qed.
Lemma legible_readable l v : legible dec enc l v -> readable dec enc esc sets l v.
Proof.
  intros (T & R). split; [exact T|]. intros t n H. destruct (R t n H) as (K1 & K2 & N1 & N2). split; [exact K1|]. split; [exact K2|]. split; [|apply no_raise].
  destruct (dec (ob_id n)) as [[|? ?]|[|? ?]]; try reflexivity; contradiction.
Qed.
Lemma has_stored p x key c vs lg : read_from p x -> has p (enc key) c vs lg -> stored enc x key c vs lg.
Proof.
  intros (_ & _ & R & _) H. destruct H as [attrs c O N|attrs c a O I L V|attrs c vs a O I L V]; pose proof (object_reads_det _ _ _ O _ R) as E; subst attrs.
  - apply stored_absent. exact N.
  - apply stored_none with (a := a); assumption.
  - apply stored_values with (a := a); assumption.
Qed.
Lemma turns_means l c v x : turns dec sets l c v x -> means dec f l c v x.
Proof.
  intros H. destruct H as [z|zs|s u v D T|s b D|t d D|v t n o R O|v N R O|n E|n E|n E].
  - apply means_number.
  - apply means_numbers.
  - eapply means_text; eassumption.
  - apply means_bytes. exact D.
  - apply means_time. exact D.
  - apply the_object_written in O as (p & W & X). eapply means_object; eassumption.
  - apply means_none; [exact N|exact R|]. intros t n p Rf W. destruct (the_written_read _ _ _ _ p W) as (_ & o & _ & _ & X). apply (O t n o Rf). apply the_object_written. exists p. auto.
  - apply means_name. exact E.
  - apply means_ref. exact E.
  - apply means_attr. exact E.
Qed.
Lemma means_turns l c v x : means dec f l c v x -> turns dec sets l c v x.
Proof.
  intros H. destruct H as [z|zs|s u v D T|s b D|t d D|v t n p o R W X|v N R O|n E|n E|n E].
  - apply turn_number.
  - apply turn_numbers.
  - eapply turn_text; eassumption.
  - apply turn_bytes. exact D.
  - apply turn_time. exact D.
  - eapply turn_found; [exact R|]. apply the_object_written. exists p. auto.
  - apply turn_missing; [exact N|exact R|]. intros t n o Rf W. apply the_object_written in W as (p & W & _). exact (O t n p Rf W).
  - apply turn_name. exact E.
  - apply turn_ref. exact E.
  - apply turn_attr. exact E.
Qed.
End meta.
