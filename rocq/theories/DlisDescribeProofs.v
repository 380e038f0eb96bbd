(** Proofs about describe: options, texts, and how rows are written. *)
From Verif Require Import Bytes BytesProofs Stream PyBase DlisTypes DlisRecords CommonPy DlisStore SpecDlisStore DlisSchema DlisObject SpecDlisObject DlisObjectProofs2 Dimensional SpecDimensional
  DlisClasses SpecDlisClasses DlisDescribe SpecDlisDescribe.
From Coq Require Import ZifyBool ZifyNat.
Local Open Scope Z_scope.

(** ** Options *)
Lemma has_letter fmt (c : byte) : existsb (Z.eqb (b2z c)) fmt = true <-> without fmt c.
Proof.
  unfold without. rewrite existsb_exists. split; [intros (x & I & E); apply Z.eqb_eq in E; subst x; exact I|intros I; exists (b2z c); split; [exact I|apply Z.eqb_refl]].
Qed.
Lemma opt_empty fmt : x_empty (parseoptions fmt) = true <-> without fmt "e"%byte.
Proof. apply has_letter. Qed.
Lemma opt_attr fmt : x_attr (parseoptions fmt) = true <-> without fmt "a"%byte.
Proof. apply has_letter. Qed.
Lemma opt_head fmt : x_head (parseoptions fmt) = true <-> without fmt "h"%byte.
Proof. apply has_letter. Qed.
Lemma opt_inv fmt : x_inv (parseoptions fmt) = true <-> without fmt "i"%byte.
Proof. apply has_letter. Qed.
Lemma opt_stash fmt : x_stash (parseoptions fmt) = true <-> without fmt "s"%byte.
Proof. apply has_letter. Qed.
Lemma opt_units fmt : x_units (parseoptions fmt) = true <-> without fmt "u"%byte.
Proof. apply has_letter. Qed.

(** ** Texts *)
Lemma space_byte c : is_space_byte c = true <-> In c [x09; x0a; x0b; x0c; x0d; x20].
Proof. split; [destruct c; cbn; try discriminate; tauto|]. cbn [In]. intros [<-|[<-|[<-|[<-|[<-|[<-|[]]]]]]]; reflexivity. Qed.
Lemma lstrip_bytes_spec u : exists a, u = a ++ lstrip_bytes u /\ Forall (fun c => In c [x09; x0a; x0b; x0c; x0d; x20]) a /\
  (forall c t, lstrip_bytes u = c :: t -> ~ In c [x09; x0a; x0b; x0c; x0d; x20]).
Proof.
  induction u as [|c u (a & E & A & N)]; [exists []; repeat split; [constructor|discriminate]|]. cbn [lstrip_bytes]. destruct (is_space_byte c) eqn:S.
  - exists (c :: a). split; [cbn [app]; f_equal; exact E|]. split; [constructor; [apply space_byte; exact S|exact A]|exact N].
  - exists []. repeat split; [constructor|]. intros c' t [= <- <-] I. apply space_byte in I. congruence.
Qed.
Lemma strip_bare s : bare s (strip_text s).
Proof.
  destruct s as [u|u]; cbn [strip_text]; [constructor; apply strip_trimmed|].
  destruct (lstrip_bytes_spec u) as (a & E & A & N). destruct (lstrip_bytes_spec (rev (lstrip_bytes u))) as (b & E' & B & N').
  set (v := lstrip_bytes (rev (lstrip_bytes u))) in *.
  assert (EV : lstrip_bytes u = rev v ++ rev b) by (rewrite <- rev_app_distr, <- E', rev_involutive; reflexivity).
  apply (bare_bytes u (rev v) a (rev b)); [rewrite <- EV; exact E|exact A|apply Forall_rev; exact B| |].
  - intros c t EQ. rewrite EQ in EV. exact (N c (t ++ rev b) EV).
  - intros t c EQ. apply (f_equal (@rev byte)) in EQ. rewrite rev_involutive, rev_app_distr in EQ. exact (N' c (rev t) EQ).
Qed.
Lemma units_written fmt u : unit_written fmt u (written_units (parseoptions fmt) u).
Proof.
  unfold written_units. destruct u as [s|]; [|apply unit_none]. destruct (x_units (parseoptions fmt)) eqn:X; [apply opt_units in X; apply unit_excluded; exact X|].
  destruct (truthy (strip_text s)) eqn:T; [apply unit_some|apply (unit_empty fmt s (strip_text s))]; try assumption; try apply strip_bare.
  intros W. apply opt_units in W. congruence.
Qed.

(** ** Nothing *)
Lemma blank_spec v : blank v = true <-> no_value v.
Proof.
  split; [|intros []; reflexivity]. destruct v as [| |[[|c u]|[|c u]]| | | | | |]; cbn; try discriminate; constructor.
Qed.
Lemma drop_zeros_nil l : drop_zeros l = [] <-> l = repeat 0 (length l).
Proof.
  induction l as [|c l IH]; [cbn; tauto|]. destruct (Z.eq_dec c 0) as [->|N].
  - cbn [drop_zeros length repeat]. rewrite IH. split; [intros <-; reflexivity|intros [= E]; exact E].
  - split; [destruct c; [lia| |]; discriminate|]. cbn [length repeat]. intros [= E _]. lia.
Qed.
Lemma drop_nuls_nil l : drop_nuls l = [] <-> l = repeat x00 (length l).
Proof.
  induction l as [|c l IH]; [cbn; tauto|]. destruct (Byte.byte_eq_dec c x00) as [->|N].
  - cbn [drop_nuls length repeat]. rewrite IH. split; [intros <-; reflexivity|intros [= E]; exact E].
  - split; [destruct c; [congruence|..]; discriminate|]. cbn [length repeat]. intros [= E _]. congruence.
Qed.
Lemma rev_repeat {A} (x : A) n : rev (repeat x n) = repeat x n.
Proof. induction n as [|n IH]; [reflexivity|]. cbn [repeat rev]. rewrite IH, <- repeat_cons. reflexivity. Qed.
Lemma np_str_nil u : np_str u = [] <-> exists n, u = repeat 0 n.
Proof.
  unfold np_str. split.
  - intros E. apply (f_equal (@rev Z)) in E. rewrite rev_involutive in E. apply drop_zeros_nil in E. exists (length (rev u)).
    rewrite <- (rev_involutive u) at 1. rewrite E at 1. apply rev_repeat.
  - intros (n & ->). rewrite rev_repeat. assert (E : drop_zeros (repeat 0 n) = []) by (apply drop_zeros_nil; rewrite repeat_length; reflexivity). rewrite E. reflexivity.
Qed.
Lemma np_bytes_nil u : np_bytes u = [] <-> exists n, u = repeat x00 n.
Proof.
  unfold np_bytes. split.
  - intros E. apply (f_equal (@rev byte)) in E. rewrite rev_involutive in E. apply drop_nuls_nil in E. exists (length (rev u)).
    rewrite <- (rev_involutive u) at 1. rewrite E at 1. apply rev_repeat.
  - intros (n & ->). rewrite rev_repeat. assert (E : drop_nuls (repeat x00 n) = []) by (apply drop_nuls_nil; rewrite repeat_length; reflexivity). rewrite E. reflexivity.
Qed.
Lemma blank_np_spec v : blank_np v = true <-> no_element v.
Proof.
  split.
  - destruct v as [| |[u|u]| | | | | |]; cbn [blank_np]; try discriminate.
    + destruct (np_str u) eqn:E; [|discriminate]. intros _. apply np_str_nil in E as (n & ->). apply no_nuls.
    + destruct (np_bytes u) eqn:E; [|discriminate]. intros _. apply np_bytes_nil in E as (n & ->). apply no_nul_bytes.
    + intros _. apply no_such. apply no_none.
  - intros [v' [| |]|n|n]; try reflexivity; cbn [blank_np].
    + assert (E : np_str (repeat 0 n) = []) by (apply np_str_nil; eauto). rewrite E. reflexivity.
    + assert (E : np_bytes (repeat x00 n) = []) by (apply np_bytes_nil; eauto). rewrite E. reflexivity.
Qed.
Lemma blank_written_spec w : blank_written w = true <-> no_name w.
Proof.
  split.
  - destruct w as [s|[| |[u|u]| | | | | |]]; cbn [blank_written]; try discriminate; intros B; apply blank_np_spec in B; constructor; exact B.
  - intros [s N|u N]; cbn [blank_written]; apply blank_np_spec; exact N.
Qed.
Fixpoint nd_items (a : nd) : list pyval := match a with Item v => [v] | Arr l => flat_map nd_items l end.
Section nd_induction.
Variable P : nd -> Prop.
Hypothesis one : forall v, P (Item v).
Hypothesis many : forall l, Forall P l -> P (Arr l).
Fixpoint nd_all (a : nd) : P a :=
  match a with
  | Item v => one v
  | Arr l => many l ((fix go l : Forall P l := match l with [] => Forall_nil _ | x :: l => Forall_cons x (nd_all x) (go l) end) l)
  end.
End nd_induction.
Lemma nd_items_in a : items_in a (nd_items a).
Proof.
  induction a as [v|l IH] using nd_all; cbn [nd_items]; [constructor|]. rewrite flat_map_concat_map. constructor.
  induction IH as [|x l P F IH]; cbn [map]; constructor; assumption.
Qed.
Lemma items_in_eq a : forall l, items_in a l -> l = nd_items a.
Proof.
  induction a as [v|xs IH] using nd_all; intros l H; inversion H as [v' E1 E2|xs' ls F E1 E2]; subst; [reflexivity|]. cbn [nd_items]. rewrite flat_map_concat_map. f_equal. clear H.
  revert ls F. induction IH as [|x xs P Q IH']; intros ls F; inversion F; subst; cbn [map]; [reflexivity|]. f_equal; auto.
Qed.
Lemma blank_nd_spec a : blank_nd a = true <-> Forall no_value (nd_items a).
Proof.
  induction a as [v|l IH] using nd_all; cbn [blank_nd nd_items].
  - rewrite blank_spec. split; [intros N; repeat constructor; exact N|intros F; inversion F; assumption].
  - induction IH as [|x l P F IH]; cbn [forallb flat_map]; [split; [constructor|reflexivity]|]. rewrite andb_true_iff, P, IH, Forall_app. reflexivity.
Qed.
Lemma forallb_spec {A} (f : A -> bool) (P : A -> Prop) l : (forall x, f x = true <-> P x) -> forallb f l = true <-> Forall P l.
Proof. intros H. rewrite forallb_forall, Forall_forall. split; intros G x I; apply H; auto. Qed.
Lemma nothing_spec v : blank_shown v = true <-> nothing v.
Proof.
  split.
  - destruct v as [[|v|l|b]|a|l|t l|n]; cbn [blank_shown]; try discriminate; intros B.
    + constructor.
    + constructor. apply blank_spec. exact B.
    + constructor. apply (forallb_spec blank_np no_element l blank_np_spec). exact B.
    + apply (nothing_array a (nd_items a) (nd_items_in a)). apply blank_nd_spec. exact B.
    + constructor. apply (forallb_spec blank_written no_name l blank_written_spec). exact B.
  - intros [|v' N|l F|a l I F|l F]; cbn [blank_shown].
    + reflexivity.
    + apply blank_spec. exact N.
    + apply (forallb_spec blank_np no_element l blank_np_spec). exact F.
    + apply blank_nd_spec. rewrite <- (items_in_eq a l I). exact F.
    + apply (forallb_spec blank_written no_name l blank_written_spec). exact F.
Qed.

(** ** Rows *)
Definition printable (e : entry) : Prop := unprintable (fst (snd e)) = false /\ exists u, fst e = Str u.
Lemma describe_dict_ok fmt d : Forall printable d -> exists ps, describe_dict (parseoptions fmt) d = ret ps /\ rows_written fmt d ps.
Proof.
  intros F. unfold describe_dict.
  assert (U : existsb (fun e : entry => unprintable (fst (snd e))) d = false).
  { induction F as [|e d [U _] F IH]; cbn [existsb]; [reflexivity|]. rewrite U. exact IH. }
  match goal with |- context [if existsb ?f d then fail else _] => replace (existsb f d) with false by (symmetry; exact U) end. clear U. cbv zeta. set (d' := if x_empty (parseoptions fmt) then remove_empties d else d).
  assert (R : existsb (fun e : entry => match fst e with Raw _ => true | Str _ => false end) d' = false).
  { apply not_true_is_false. intros X. apply existsb_exists in X as (e & I & X).
    assert (I' : In e d) by (subst d'; destruct (x_empty (parseoptions fmt)); [apply filter_In in I as [I _]; exact I|exact I]).
    apply (proj1 (Forall_forall _ _) F) in I' as [_ (u & E)]. rewrite E in X. discriminate. }
  match goal with |- context [if existsb ?f d' then fail else _] => replace (existsb f d') with false by (symmetry; exact R) end. eexists. split; [reflexivity|]. subst d'. clear R F. destruct (x_empty (parseoptions fmt)) eqn:X.
  - apply opt_empty in X. induction d as [|[c [v u]] d IH]; [constructor|]. cbn [remove_empties filter fst snd]. destruct (blank_shown v) eqn:B; cbn [negb].
    + apply nothing_spec in B. apply row_dropped; assumption.
    + cbn [map fst snd]. apply row_kept; [|apply units_written|exact IH]. intros [_ N]. apply nothing_spec in N. congruence.
  - induction d as [|[c [v u]] d IH]; [constructor|]. cbn [map fst snd]. apply row_kept; [|apply units_written|exact IH].
    intros [W _]. apply opt_empty in W. congruence.
Qed.
