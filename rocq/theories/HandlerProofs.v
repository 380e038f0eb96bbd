From Verif Require Import Bytes Stream SpecHandler.
From Verif Require Import DlisTypes DlisCore DlisIo DlisRecords DlisFdata Tapemark Lfp.
From Verif Require DlisLoad LisLoad.
From Verif Require Import LisProtocol LisIo.
Local Open Scope Z_scope.

Section handler.
Variable esc : severity -> bool.

(** [ok]: what is required of the handler for the run that is cut short to be known;
    [echo]: what may be reported after the first problem that raises, if it is minor *)
Definition follows (ok : Prop) (echo : list severity -> Prop) {S A} (x0 x : S * io A) : Prop :=
  (accepts esc (fst (snd x0)) /\ x = x0)
  \/ exists before p, first_raising esc (fst (snd x0)) before p
       /\ (ok -> exists more, snd x = (before ++ p :: more, Exn) /\ (more = [] \/ p = MINOR /\ echo more)).
Definition follow ok echo {A} (m0 m : io A) : Prop := follows ok echo (tt, m0) (tt, m).

Lemma accepts_app l l' : accepts esc l -> accepts esc l' -> accepts esc (l ++ l').
Proof. intros H H' p I. apply in_app_or in I. destruct I; auto. Qed.
Lemma accepts_nil : accepts esc []. Proof. intros p []. Qed.
Lemma first_app l l' before p : first_raising esc l before p -> first_raising esc (l ++ l') before p.
Proof. intros (H & E & after & ->). split; [ exact H|split; [ exact E|exists (after ++ l')]]. now rewrite <- app_assoc. Qed.
Lemma first_under l l' before p : accepts esc l -> first_raising esc l' before p -> first_raising esc (l ++ l') (l ++ before) p.
Proof.
  intros A (H & E & after & ->). split; [ now apply accepts_app|split; [ exact E|exists after]]. now rewrite <- app_assoc.
Qed.
Lemma first_not l before p : first_raising esc l before p -> ~ accepts esc l.
Proof. intros (_ & E & after & ->) A. rewrite (A p) in E; [ discriminate|]. apply in_or_app. right. now left. Qed.

Section rel.
Variable ok : Prop.
Variable echo : list severity -> Prop.
Context {T A B : Type}.

Lemma f_same (s : T) (m : io A) : accepts esc (fst m) -> follows ok echo (s, m) (s, m).
Proof. intros H. left. split; [ exact H|reflexivity]. Qed.
Lemma f_silent (s : T) (m : io A) : fst m = [] -> follows ok echo (s, m) (s, m).
Proof. intros H. apply f_same. rewrite H. exact accepts_nil. Qed.
Lemma f_log (s : T) p : follows ok echo (s, log never p) (s, log esc p).
Proof.
  destruct (esc p) eqn:E.
  - right. exists [], p. split; [ split; [ exact accepts_nil|split; [ exact E|now exists []]]|].
    intros _. exists []. split; [ unfold log; now rewrite E|now left].
  - left. split; [ intros q [<- | []]; exact E|]. unfold log. now rewrite E.
Qed.
(** sequencing, in the general form: [J0] and [J] are like [chain] *)
Definition joins {S S'} (x : S * io A) (k : S -> A -> S' * io B) (y : S' * io B) : Prop :=
  match x with
  | (s, (l, Ok a)) => y = (fst (k s a), (l ++ fst (snd (k s a)), snd (snd (k s a))))
  | (_, (l, Exn)) => snd y = (l, Exn)
  | (_, (l, UB)) => snd y = (l, UB)
  | (_, (l, Fuel)) => snd y = (l, Fuel)
  end.
End rel.

Lemma f_joins ok echo {S S' A B} (g : S -> S') (x0 x : S * io A) (k0 k : S -> A -> S' * io B) y0 y :
  follows ok echo x0 x ->
  (forall s a, follows ok echo (k0 s a) (k s a)) ->
  joins x0 k0 y0 -> joins x k y ->
  (match snd (snd x0) with Ok _ => True | _ => fst y0 = g (fst x0) end) ->
  (match snd (snd x) with Ok _ => True | _ => fst y = g (fst x) end) ->
  follows ok echo y0 y.
Proof.
  intros [(Ac & ->) | (before & p & F & E)] K J0 J G0 G.
  - destruct x0 as (s & l & [ a| | | ]); cbn in *.
    + destruct (K s a) as [(Ac' & E) | (before & p & F & E)].
      * left. subst y0 y. cbn. split; [ now apply accepts_app|now rewrite E].
      * right. exists (l ++ before), p. subst y0 y. cbn. split; [ now apply first_under|].
        intros O. destruct (E O) as (more & E' & M). exists more. rewrite E'. cbn. split; [ now rewrite <- app_assoc|exact M].
    + left. destruct y0 as (s0 & m0), y as (s1 & m1); cbn in *; subst. split; [ exact Ac|reflexivity].
    + left. destruct y0 as (s0 & m0), y as (s1 & m1); cbn in *; subst. split; [ exact Ac|reflexivity].
    + left. destruct y0 as (s0 & m0), y as (s1 & m1); cbn in *; subst. split; [ exact Ac|reflexivity].
  - right. exists before, p. split.
    + destruct x0 as (s & l & [ a| | | ]); cbn in *.
      * subst y0. cbn. now apply first_app.
      * now rewrite J0.
      * now rewrite J0.
      * now rewrite J0.
    + intros O. destruct (E O) as (more & E' & M). exists more. split; [|exact M].
      destruct x as (s & m); cbn in *. subst m. cbn in J. exact J.
Qed.
Lemma f_bind ok echo {T A B} (s : T) (m0 m : io A) (k0 k : A -> io B) :
  follows ok echo (s, m0) (s, m) -> (forall a, follows ok echo (s, k0 a) (s, k a)) ->
  follows ok echo (s, bind m0 k0) (s, bind m k).
Proof.
  intros M K.
  apply (f_joins ok echo (fun s => s) (s, m0) (s, m) (fun s a => (s, k0 a)) (fun s a => (s, k a))).
  - exact M.
  - intros s' a. destruct (K a) as [(Ac & E) | R]; [ left; split; [ exact Ac|now injection E as ->]|right; exact R].
  - destruct m0 as (l & [ a| | | ]); cbn; try reflexivity. now destruct (k0 a).
  - destruct m as (l & [ a| | | ]); cbn; try reflexivity. now destruct (k a).
  - now destruct m0 as (l & [ a| | | ]).
  - now destruct m as (l & [ a| | | ]).
Qed.
Lemma follow_iff ok echo {T A} (s : T) (m0 m : io A) : follow ok echo m0 m <-> follows ok echo (s, m0) (s, m).
Proof.
  split; (intros [(Ac & E) | R]; [ left; split; [ exact Ac|injection E as ->; reflexivity]|right; exact R]).
Qed.
(** a state that stays or is replaced *)
Lemma f_put ok echo {S S' A B} (g : S -> S') (x0 x : S * io A) (k0 k : A -> io B) :
  follows ok echo x0 x -> (forall a, follow ok echo (k0 a) (k a)) ->
  follows ok echo (g (fst x0), bind (snd x0) k0) (g (fst x), bind (snd x) k).
Proof.
  intros X K.
  apply (f_joins ok echo g x0 x (fun s a => (g s, k0 a)) (fun s a => (g s, k a))).
  - exact X.
  - intros s a. apply (proj1 (follow_iff ok echo (g s) _ _)). apply K.
  - destruct x0 as (s & l & [ a| | | ]); cbn; try reflexivity. now destruct (k0 a).
  - destruct x as (s & l & [ a| | | ]); cbn; try reflexivity. now destruct (k a).
  - now destruct x0 as (s & l & [ a| | | ]).
  - now destruct x as (s & l & [ a| | | ]).
Qed.
Lemma f_weaken (ok ok' : Prop) (echo echo' : list severity -> Prop) {S A} (x0 x : S * io A) :
  (ok' -> ok) -> (forall l, echo l -> echo' l) -> follows ok echo x0 x -> follows ok' echo' x0 x.
Proof.
  intros O E [H | (before & p & F & H)]; [ now left|right].
  exists before, p. split; [ exact F|]. intros O'. destruct (H (O O')) as (more & H' & M). exists more.
  split; [ exact H'|]. destruct M as [-> | (-> & M)]; [ now left|right]. split; [ reflexivity|now apply E].
Qed.

(** exceptions that are caught: [h] is what happens then *)
Definition attempt {A B} (m : io A) (k : A -> io B) (h : io B) : io B :=
  match m with
  | (l, Ok a) => let* _ := (l, Ok tt) in k a
  | (l, Exn) => let* _ := (l, Ok tt) in h
  | (l, UB) => (l, UB)
  | (l, Fuel) => (l, Fuel)
  end.
Definition monotone : Prop := esc MINOR = true -> esc CRITICAL = true.
Definition reported (more : list severity) : Prop := more = [CRITICAL].
Definition nothing (more : list severity) : Prop := False.
Lemma attempt_log {A B} (m : io A) (k : A -> io B) h : exists l, fst (attempt m k h) = fst m ++ l.
Proof.
  destruct m as (l & [ a| | | ]); cbn.
  - destruct (k a) as (l' & r). now exists l'.
  - destruct h as (l' & r). now exists l'.
  - exists []. now rewrite app_nil_r.
  - exists []. now rewrite app_nil_r.
Qed.
Lemma f_attempt {T A B} (s : T) (m0 m : io A) (k0 k : A -> io B) (h0 h : io B) :
  (forall p, In p (fst m0) -> p = MINOR) ->
  follow True nothing m0 m ->
  (forall a, follows monotone reported (s, k0 a) (s, k a)) ->
  follows monotone reported (s, h0) (s, h) ->
  follows monotone reported (s, attempt m0 k0 (let* _ := log never CRITICAL in h0)) (s, attempt m k (let* _ := log esc CRITICAL in h)).
Proof.
  intros Mi M K H. destruct M as [(Ac & E) | (before & p & F & E)].
  - injection E as ->. destruct m0 as (l & [ a| | | ]); cbn in *.
    + apply (f_bind _ _ s (l, Ok tt) (l, Ok tt) (fun _ => k0 a) (fun _ => k a)); [ now apply f_same|intros _; apply K].
    + apply (f_bind _ _ s (l, Ok tt) (l, Ok tt) (fun _ => bind (log never CRITICAL) (fun _ => h0)) (fun _ => bind (log esc CRITICAL) (fun _ => h)));
        [ now apply f_same|intros _; apply f_bind; [ apply f_log|intros _; exact H]].
    + now apply f_same.
    + now apply f_same.
  - assert (P : p = MINOR).
    { apply Mi. destruct F as (_ & _ & after & F). cbn [snd] in F. rewrite F. apply in_or_app. right. now left. }
    subst p. right. exists before, MINOR. split.
    { cbn [snd fst] in *. destruct (attempt_log m0 k0 (let* _ := log never CRITICAL in h0)) as (l & ->). now apply first_app. }
    intros O. destruct (E I) as (more & E' & [-> | (_ & [])]). cbn [snd] in E'. subst m. exists [CRITICAL]. split; [|now right].
    cbn [snd attempt bind]. unfold log. rewrite (O (proj1 (proj2 F))). cbn. now rewrite <- app_assoc.
Qed.

(** ** Reading records *)
Lemma findsul_follows ok echo s lfrom expected : follow ok echo (findsul never s lfrom expected) (findsul esc s lfrom expected).
Proof.
  unfold findsul. destruct (findsul_window s lfrom 15); [ now apply f_silent|]. destruct expected; cbn [negb]; [|now apply f_silent].
  destruct (findsul_window s lfrom 1700); [|now apply f_silent].
  apply f_bind; [ apply f_log|intros _; now apply f_silent].
Qed.
Lemma findvrl_follows ok echo s lfrom : follow ok echo (findvrl never s lfrom) (findvrl esc s lfrom).
Proof.
  unfold findvrl. destruct (findvrl_window s lfrom 4); [ now apply f_silent|].
  destruct (findvrl_window s lfrom 200); [|now apply f_silent].
  apply f_bind; [ apply f_log|intros _; now apply f_silent].
Qed.
Lemma trim_follows ok echo attrs before seg : follow ok echo (trim_segment never attrs before seg) (trim_segment esc attrs before seg).
Proof.
  unfold trim_segment. destruct (dlis_trim_record_segment attrs before seg) as [([] & trim)|]; try now apply f_silent.
  destruct (negb _); [ now apply f_silent|]. apply f_bind; [ apply f_log|intros _; now apply f_silent].
Qed.

Ltac quietly := apply f_silent; reflexivity.
Lemma extract_loop_follows ok echo fuel s : forall pos limit data first,
  follow ok echo (extract_loop fuel never s pos limit data first) (extract_loop fuel esc s pos limit data first).
Proof.
  induction fuel as [|fuel IH]; intros pos limit data first; cbn [extract_loop]; [ quietly|].
  destruct (read s pos 4) as [buffer|]; [|quietly]. destruct (dlis_lrsh buffer) as [((seglen & attrs) & type)|]; [|quietly].
  destruct (read s (pos + 4) _) as [chunk|]; [|quietly]. destruct (_ <? _); [ quietly|].
  apply f_bind; [ apply trim_follows|]. intros trim. destruct (_ && _); [ apply IH|quietly].
Qed.
Lemma extract_follows ok echo s tell : follow ok echo (extract never s tell) (extract esc s tell).
Proof. apply extract_loop_follows. Qed.
Lemma extract_n_follows ok echo s tell n : follow ok echo (extract_n never s tell n) (extract_n esc s tell n).
Proof. apply extract_loop_follows. Qed.

(** reading a record reports only minor problems *)
Definition minors {A} (m : io A) : Prop := forall p, In p (fst m) -> p = MINOR.
Lemma minors_bind {A B} (m : io A) (k : A -> io B) : minors m -> (forall a, minors (k a)) -> minors (bind m k).
Proof.
  intros M K. destruct m as (l & [ a| | | ]); cbn; try exact M. specialize (K a). destruct (k a) as (l' & r).
  intros p I. cbn in I. apply in_app_or in I. destruct I as [I | I]; [ now apply M|now apply K].
Qed.
Lemma minors_silent {A} (m : io A) : fst m = [] -> minors m.
Proof. intros E p I. rewrite E in I. destruct I. Qed.
Lemma minors_log h : minors (log h MINOR). Proof. intros p [<- | []]. reflexivity. Qed.
Lemma trim_minors h attrs before seg : minors (trim_segment h attrs before seg).
Proof.
  unfold trim_segment. destruct (dlis_trim_record_segment attrs before seg) as [([] & trim)|]; try now apply minors_silent.
  destruct (negb _); [ now apply minors_silent|]. apply minors_bind; [ apply minors_log|intros _; now apply minors_silent].
Qed.
Lemma extract_loop_minors h fuel s : forall pos limit data first, minors (extract_loop fuel h s pos limit data first).
Proof.
  induction fuel as [|fuel IH]; intros pos limit data first; cbn [extract_loop]; [ now apply minors_silent|].
  destruct (read s pos 4) as [buffer|]; [|now apply minors_silent].
  destruct (dlis_lrsh buffer) as [((seglen & attrs) & type)|]; [|now apply minors_silent].
  destruct (read s (pos + 4) _) as [chunk|]; [|now apply minors_silent]. destruct (_ <? _); [ now apply minors_silent|].
  apply minors_bind; [ apply trim_minors|]. intros trim. destruct (_ && _); [ apply IH|now apply minors_silent].
Qed.

(** ** Loading DLIS files *)
Lemma findoffsets_at_follows ok echo fuel s : forall lr lrs has_successor ex im,
  follow ok echo (DlisLoad.findoffsets_at_loop fuel never s lr lrs has_successor ex im)
                 (DlisLoad.findoffsets_at_loop fuel esc s lr lrs has_successor ex im).
Proof.
  induction fuel as [|fuel IH]; intros lr lrs has_successor ex im; cbn [DlisLoad.findoffsets_at_loop]; [ quietly|].
  assert (H : forall r : stream_offsets * Z * bool, follow ok echo (let* _ := log never CRITICAL in ret r) (let* _ := log esc CRITICAL in ret r))
    by (intros r; apply f_bind; [ apply f_log|intros _; quietly]).
  destruct (read s lrs 4) as [[| b0 buffer]|]; [ destruct has_successor; [ apply H|quietly]| |apply H].
  destruct (dlis_lrsh (b0 :: buffer)) as [((len & attrs) & type)|]; [|apply H].
  destruct (len <? 4); [ apply H|]. destruct (_ && _); [ destruct has_successor; [ apply H|quietly]|].
  destruct (read s (lrs + len - 1) 1); [|apply H].
  destruct (DlisCore.has attrs SEGATTR_SUCCSEG); [ apply IH|]. destruct (DlisCore.has attrs SEGATTR_EXFMTLR); apply IH.
Qed.
Lemma extract_records_eq h s tell tells :
  DlisLoad.extract_records h s (tell :: tells)
  = attempt (extract h s tell)
      (fun rec => let* rest := DlisLoad.extract_records h s tells in
         ret (if (length (rec_data rec) =? 0)%nat then rest else (isencrypted rec, rec_data rec) :: rest))
      (let* _ := log h CRITICAL in DlisLoad.extract_records h s tells).
Proof. cbn [DlisLoad.extract_records]. destruct (extract h s tell) as (l & [ rec| | | ]); reflexivity. Qed.
Lemma extract_records_follows s tells : follow monotone reported (DlisLoad.extract_records never s tells) (DlisLoad.extract_records esc s tells).
Proof.
  induction tells as [|tell tells IH]; [ quietly|]. rewrite !extract_records_eq. apply f_attempt.
  - apply extract_loop_minors.
  - apply extract_follows.
  - intros rec. apply f_bind; [ exact IH|intros rest; quietly].
  - exact IH.
Qed.
Lemma findfdata_eq h s tell tells xs :
  findfdata h s (tell :: tells) xs
  = attempt (extract_n h s tell 262)
      (fun rec =>
          if isencrypted rec then findfdata h s tells xs
          else if negb (rec_type rec =? 0) && negb (rec_type rec =? 1) then findfdata h s tells xs
          else if (length (rec_data rec) =? 0)%nat then findfdata h s tells xs
          else match dlis_obname (rec_data rec) with
               | None => let* _ := log h CRITICAL in findfdata h s tells xs
               | Some (name, _) =>
                   match obname_fingerprint
                           (if rec_type rec =? 0 then text "FRAME" else text "NO-FORMAT") name with
                   | FpInvalid => fail
                   | FpOverrun => ([], UB)
                   | FpOk k => findfdata h s tells (index_push k tell xs)
                   end
               end)
      (let* _ := log h CRITICAL in findfdata h s tells xs).
Proof. cbn [findfdata]. destruct (extract_n h s tell 262) as (l & [ rec| | | ]); reflexivity. Qed.
Lemma findfdata_follows s tells : forall xs, follow monotone reported (findfdata never s tells xs) (findfdata esc s tells xs).
Proof.
  induction tells as [|tell tells IH]; intros xs; [ quietly|]. rewrite !findfdata_eq. apply f_attempt.
  - apply extract_loop_minors.
  - apply extract_n_follows.
  - intros rec. destruct (isencrypted rec); [ apply IH|]. destruct (_ && _); [ apply IH|]. destruct (_ =? _)%nat; [ apply IH|].
    destruct (dlis_obname (rec_data rec)) as [(name & rest)|]; [|apply f_bind; [ apply f_log|intros _; apply IH]].
    destruct (obname_fingerprint _ name); first [ quietly | apply IH].
  - apply IH.
Qed.
Lemma parse_sets_follows ok echo recs : follow ok echo (parse_sets never recs) (parse_sets esc recs).
Proof.
  induction recs as [|(encrypted & data) recs IH]; [ quietly|]. cbn [parse_sets]. destruct encrypted; [ exact IH|].
  destruct (new_set data); [ |apply f_bind; [ apply f_log|intros _; exact IH]|quietly|quietly].
  apply f_bind; [ exact IH|intros r; quietly].
Qed.
Lemma f_strict {S A} (x0 x : S * io A) : follows monotone reported x0 x -> follows (esc MINOR = false) nothing x0 x.
Proof.
  intros [H | (before & p & F & H)]; [ now left|right]. exists before, p. split; [ exact F|]. intros E.
  destruct H as (more & H & M); [ intros E'; congruence|]. exists more. split; [ exact H|left].
  destruct M as [M | (-> & _)]; [ exact M|]. destruct F as (_ & E' & _). congruence.
Qed.
Notation lax := (esc MINOR = false).

Section load.
Variable is_tif : bool.
Variable open_stream : Z -> option raw.
Variable open_rp66 : raw -> Z -> option rp66.
Lemma logical_eof_follows ok echo st r pos : follow ok echo (DlisLoad.logical_eof never st r pos) (DlisLoad.logical_eof esc st r pos).
Proof.
  unfold DlisLoad.logical_eof. destruct (read (raw_stream r) pos 1) as [[| b l]|]; [ |quietly|].
  - destruct (raw_peof r); quietly.
  - apply f_bind; [ apply f_log|intros _; quietly].
Qed.
Lemma findsul_minors h s lfrom expected : minors (findsul h s lfrom expected).
Proof.
  unfold findsul. destruct (findsul_window s lfrom 15); [ now apply minors_silent|]. destruct expected; cbn [negb]; [|now apply minors_silent].
  destruct (findsul_window s lfrom 1700); [|now apply minors_silent].
  apply minors_bind; [ apply minors_log|intros _; now apply minors_silent].
Qed.
(** the exception of an action for a minor problem is caught, so nothing is known then *)
Lemma f_try {A B} (m0 m : io A) (k0 k : A -> io B) (h0 h : io B) :
  minors m0 -> follow lax nothing m0 m ->
  (forall a, follow lax nothing (k0 a) (k a)) -> follow lax nothing h0 h ->
  follow lax nothing (attempt m0 k0 h0) (attempt m k h).
Proof.
  intros Mi M K H. destruct M as [(Ac & E) | (before & p & F & E)].
  - injection E as ->. destruct m0 as (l & [ a| | | ]); cbn in *.
    + apply (f_bind _ _ tt (l, Ok tt) (l, Ok tt) (fun _ => k0 a) (fun _ => k a)); [ now apply f_same|intros _; apply K].
    + apply (f_bind _ _ tt (l, Ok tt) (l, Ok tt) (fun _ => h0) (fun _ => h)); [ now apply f_same|intros _; exact H].
    + now apply f_same.
    + now apply f_same.
  - right. exists before, p. cbn [snd fst] in *. split.
    + destruct (attempt_log m0 k0 h0) as (l & ->). now apply first_app.
    + intros O. exfalso. assert (P : p = MINOR).
      { apply Mi. destruct F as (_ & _ & after & F). rewrite F. apply in_or_app. right. now left. }
      destruct F as (_ & F & _). congruence.
Qed.
Lemma find_sul_follows st r : follow lax nothing (DlisLoad.find_sul never st r) (DlisLoad.find_sul esc st r).
Proof.
  unfold DlisLoad.find_sul.
  set (expected := _ && _).
  assert (A : forall h, DlisLoad.find_sul h st r
     = attempt (let* q := findsul h (raw_stream r) 0 expected in let* _ := (if expected then ret tt else log h MINOR) in ret q)
         (fun q => ret (true, q)) (let* _ := (if expected then log h MINOR else ret tt) in ret (false, 0))).
  { intros h. unfold DlisLoad.find_sul. fold expected.
    destruct (let* q := findsul h (raw_stream r) 0 expected in let* _ := (if expected then ret tt else log h MINOR) in ret q) as (l & [ q| | | ]); try reflexivity.
    cbn. now rewrite app_nil_r. }
  change (follow lax nothing (DlisLoad.find_sul never st r) (DlisLoad.find_sul esc st r)).
  rewrite !A. apply f_try.
  - apply minors_bind; [ apply findsul_minors|intros q]. apply minors_bind; [|intros _; now apply minors_silent].
    destruct expected; [ now apply minors_silent|apply minors_log].
  - apply f_bind; [ apply findsul_follows|intros q]. apply f_bind; [|intros _; quietly]. destruct expected; [ quietly|apply f_log].
  - intros q. quietly.
  - apply f_bind; [|intros _; quietly]. destruct expected; [ apply f_log|quietly].
Qed.
Lemma read_sul_follows ok echo st r pos : follow ok echo (DlisLoad.read_sul never st r pos) (DlisLoad.read_sul esc st r pos).
Proof.
  unfold DlisLoad.read_sul. destruct (read (raw_stream r) pos 80) as [got|]; [|quietly].
  apply f_bind; [|intros _; quietly]. destruct (_ =? _)%nat; [ quietly|apply f_log].
Qed.
Lemma protocol_follows ok echo r pos : follow ok echo (DlisLoad.apply_rp66_protocol never open_rp66 r pos) (DlisLoad.apply_rp66_protocol esc open_rp66 r pos).
Proof. unfold DlisLoad.apply_rp66_protocol. apply f_bind; [ apply findvrl_follows|intros q]. destruct (open_rp66 r q); quietly. Qed.
Lemma parse_logical_file_follows st vs :
  follow lax nothing (DlisLoad.parse_logical_file never is_tif st vs) (DlisLoad.parse_logical_file esc is_tif st vs).
Proof.
  unfold DlisLoad.parse_logical_file. apply f_bind; [ apply findoffsets_at_follows|]. intros ((ofs & stop) & eof).
  apply f_bind; [ apply f_strict, extract_records_follows|]. intros recs.
  apply f_bind; [ apply parse_sets_follows|]. intros sets.
  apply f_bind; [ apply f_strict, findfdata_follows|]. intros fdata. quietly.
Qed.
Lemma load_round_follows st :
  follow lax nothing (DlisLoad.load_round never is_tif open_stream open_rp66 st) (DlisLoad.load_round esc is_tif open_stream open_rp66 st).
Proof.
  unfold DlisLoad.load_round. destruct (open_stream (DlisLoad.di_next st)) as [r|]; [|quietly].
  apply f_bind; [ apply logical_eof_follows|]. intros ([] & st1); [ quietly|].
  apply f_bind; [ apply find_sul_follows|]. intros (found & pos).
  apply f_bind; [ destruct found; [ apply read_sul_follows|quietly]|]. intros (st2 & pos2).
  apply f_bind; [ apply logical_eof_follows|]. intros ([] & st3); [ quietly|].
  apply f_bind; [ apply protocol_follows|]. intros vs. apply parse_logical_file_follows.
Qed.
Lemma load_loop_follows fuel : forall st,
  follow lax nothing (DlisLoad.load_loop never is_tif open_stream open_rp66 fuel st) (DlisLoad.load_loop esc is_tif open_stream open_rp66 fuel st).
Proof.
  induction fuel as [|fuel IH]; intros st; cbn [DlisLoad.load_loop]; [ quietly|].
  destruct (DlisLoad.di_end st); [ quietly|]. apply f_bind; [ apply load_round_follows|exact IH].
Qed.
End load.
Lemma dlis_load_follows open_tif tif_rp66 fuel file :
  follow lax nothing (DlisLoad.load never open_tif tif_rp66 fuel file) (DlisLoad.load esc open_tif tif_rp66 fuel file).
Proof.
  unfold DlisLoad.load. destruct (read_tapemark file 0) as [tm| | | ]; try quietly. destruct (valid_tapemark tm); apply load_loop_follows.
Qed.

(** ** Loading LIS files *)
Lemma give_up_follows ok echo st : follow ok echo (LisLoad.give_up never st) (LisLoad.give_up esc st).
Proof. apply f_bind; [ apply f_log|intros _; quietly]. Qed.
Lemma check_incomplete_follows ok echo ix st : follow ok echo (LisLoad.check_incomplete never ix st) (LisLoad.check_incomplete esc ix st).
Proof. unfold LisLoad.check_incomplete. destruct (ix_incomplete ix); [ apply give_up_follows|quietly]. Qed.
Lemma index_logical_file_follows ok echo openlis stopped_at st :
  follow ok echo (LisLoad.index_logical_file never openlis stopped_at st) (LisLoad.index_logical_file esc openlis stopped_at st).
Proof.
  unfold LisLoad.index_logical_file. destruct (openlis (LisLoad.fi_offset st)) as [dv|e|]; [|destruct e; try quietly; apply give_up_follows|quietly].
  destruct (index_records dv 0) as ([ ix|e|] & pos); [|quietly|quietly].
  destruct (ix_explicits ix) as [|first rest]; [ apply check_incomplete_follows|].
  destruct (LisLoad.is_delimiter_record first); [|apply check_incomplete_follows].
  destruct (negb _); [ apply give_up_follows|].
  destruct (read_record dv first pos) as ([ data|e|] & pos'); [ apply check_incomplete_follows|apply give_up_follows|quietly].
Qed.
Lemma index_all_follows ok echo openlis stopped_at fuel : forall st,
  follow ok echo (LisLoad.index_all never openlis stopped_at fuel st) (LisLoad.index_all esc openlis stopped_at fuel st).
Proof.
  induction fuel as [|fuel IH]; intros st; cbn [LisLoad.index_all]; [ quietly|].
  destruct (LisLoad.fi_complete st); [ quietly|]. apply f_bind; [ apply index_logical_file_follows|exact IH].
Qed.
Lemma lis_load_follows ok echo open_tif stopped fuel file :
  follow ok echo (LisLoad.load never open_tif stopped fuel file) (LisLoad.load esc open_tif stopped fuel file).
Proof.
  unfold LisLoad.load. destruct (LisLoad.check_for_tapemarks file) as [([] & offset)| | | ]; try quietly; apply index_all_follows.
Qed.

(** ** Reading data *)
Lemma read_fdata_loop_eq h s after pre fmt post itemsize tell t a :
  read_fdata_loop h s after pre fmt post itemsize (tell :: t) a
  = attempt (extract h s tell)
      (fun rec =>
          if isencrypted rec then
            let* _ := log h CRITICAL in
            read_fdata_loop h s after pre fmt post itemsize t a
          else
            let p := mk_ptr (rec_data rec ++ after tell) (Z.of_nat (length (rec_data rec))) in
            match dlis_obname (p_mem p) with
            | None => ([], UB)
            | Some (_, rest) =>
                match read_fdata_record (length (p_mem p)) pre fmt post itemsize (moved p rest) a with
                | (a, Ok _) => read_fdata_loop h s after pre fmt post itemsize t a
                | (a, Exn) =>
                    let* _ := log h CRITICAL in
                    read_fdata_loop h s after pre fmt post itemsize t
                      (mk_array (a_cells a) (a_rows a) (a_frames a) (a_frames a * itemsize))
                | (_, UB) => ([], UB)
                | (_, Fuel) => ([], Fuel)
                end
            end)
      (let* _ := log h CRITICAL in read_fdata_loop h s after pre fmt post itemsize t a).
Proof. cbn [read_fdata_loop]. destruct (extract h s tell) as (l & [ rec| | | ]); reflexivity. Qed.
Lemma read_fdata_follows s after pre fmt post itemsize indices :
  follow monotone reported (read_fdata never s after pre fmt post itemsize indices) (read_fdata esc s after pre fmt post itemsize indices).
Proof.
  unfold read_fdata. apply f_bind; [|intros a; quietly]. generalize (new_array itemsize (Z.of_nat (length indices))).
  induction indices as [|tell t IH]; intros a; [ quietly|]. rewrite !read_fdata_loop_eq. apply f_attempt.
  - apply extract_loop_minors.
  - apply extract_follows.
  - intros rec. destruct (isencrypted rec); [ apply f_bind; [ apply f_log|intros _; apply IH]|]. cbv zeta.
    destruct (dlis_obname _) as [(name & rest)|]; [|quietly].
    destruct (read_fdata_record _ pre fmt post itemsize _ a) as (a' & [ x| | | ]); [ apply IH| |quietly|quietly].
    apply f_bind; [ apply f_log|intros _; apply IH].
  - apply IH.
Qed.
Lemma read_noform_eq h s tell t :
  read_noform h s (tell :: t)
  = attempt (extract h s tell)
      (fun rec => match dlis_obname (rec_data rec) with
                  | None => ([], UB)
                  | Some (_, rest) => let* more := read_noform h s t in ret (rest ++ more)
                  end)
      (let* _ := log h CRITICAL in read_noform h s t).
Proof. cbn [read_noform]. destruct (extract h s tell) as (l & [ rec| | | ]); reflexivity. Qed.
Lemma read_noform_follows s indices : follow monotone reported (read_noform never s indices) (read_noform esc s indices).
Proof.
  induction indices as [|tell t IH]; [ quietly|]. rewrite !read_noform_eq. apply f_attempt.
  - apply extract_loop_minors.
  - apply extract_follows.
  - intros rec. destruct (dlis_obname (rec_data rec)) as [(name & rest)|]; [|quietly]. apply f_bind; [ exact IH|intros more; quietly].
  - exact IH.
Qed.
End handler.
