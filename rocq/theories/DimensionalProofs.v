(** Proofs about values with dimensions (Dimensional.v). *)
From Verif Require DlisFrame DlisFrameProofs2 SpecDlisFrame.
From Verif Require Import Bytes BytesProofs Stream PyBase DlisTypes DlisRecords CommonPy DlisObject Dimensional SpecDimensional.
From Coq Require Import ZifyBool ZifyNat.
Local Open Scope Z_scope.

(** ** Arrays *)
Lemma firstn_plus {A} n : forall p (l : list A), firstn (p + n) l = firstn p l ++ firstn n (skipn p l).
Proof. induction p as [|p IH]; intros l; [reflexivity|]. destruct l as [|x l]; [rewrite skipn_nil, !firstn_nil; reflexivity|]. cbn [Nat.add firstn skipn app]. f_equal. apply IH. Qed.
Lemma chunks {A} (p : nat) (buf : list A) : forall d off, concat (map (fun i => firstn p (skipn (off + i * p) buf)) (seq 0 d)) = firstn (d * p) (skipn off buf).
Proof.
  induction d as [|d IH]; intros off; [reflexivity|]. cbn [seq map concat]. rewrite <- seq_shift, map_map.
  rewrite (map_ext _ (fun i => firstn p (skipn ((off + p) + i * p) buf))) by (intros i; do 2 f_equal; lia).
  rewrite IH. change (0 * p)%nat with 0%nat. rewrite Nat.add_0_r. cbn [Nat.mul]. rewrite firstn_plus, skipn_skipn. f_equal.
Qed.
Lemma nth_firstn {A} (d : A) : forall off buf, (off < length buf)%nat -> firstn 1 (skipn off buf) = [nth off buf d].
Proof. induction off as [|o IH]; intros [|x t] H; cbn in *; try lia; [reflexivity|]. apply IH. lia. Qed.
Lemma view_ok buf : forall dims off, (off + product dims <= length buf)%nat ->
  of_shape (map Z.of_nat dims) (view buf dims off) /\ items_in (view buf dims off) (firstn (product dims) (skipn off buf)).
Proof.
  induction dims as [|d ds IH]; intros off H; cbn [view product map] in *.
  - split; [constructor|]. rewrite (nth_firstn PNone) by lia. constructor.
  - assert (forall i, In i (seq 0 d) -> (off + i * product ds + product ds <= length buf)%nat) as B.
    { intros i I. apply in_seq in I. assert ((i + 1) * product ds <= d * product ds)%nat by (apply Nat.mul_le_mono_r; lia). lia. }
    split.
    + constructor; [rewrite map_length, seq_length; reflexivity|]. apply Forall_forall. intros x I. apply in_map_iff in I as (i & <- & I). apply IH, B, I.
    + rewrite <- (chunks (product ds) buf d off). constructor.
      revert B. generalize (seq 0 d). intros l. induction l as [|i l IHl]; intros B; cbn [map]; constructor; [apply IH, B; left; reflexivity | apply IHl; intros; apply B; right; assumption].
Qed.
Lemma array_ok buf dims n : (n * product dims = length buf)%nat ->
  Forall (of_shape (map Z.of_nat dims)) (map (fun i => view buf dims (i * product dims)) (seq 0 n)) /\
  items_in (Arr (map (fun i => view buf dims (i * product dims)) (seq 0 n))) buf.
Proof.
  intros H. destruct (view_ok buf (n :: dims) 0) as [S I]; [cbn [product]; lia|]. cbn [view map product] in S, I.
  rewrite skipn_O, firstn_all2 in I by lia. inversion S as [|? ? ? _ F]; subst. split; [exact F | exact I].
Qed.

(** ** np.array *)
Lemma items_of_map {A B} (f : pyval -> option B) (g : A -> pyval) (h : A -> B) l : (forall x, f (g x) = Some (h x)) ->
  np_items_of f (map g l) = Some (map h l).
Proof. intros H. induction l as [|x l IH]; [reflexivity|]. cbn [map np_items_of]. rewrite H, IH. reflexivity. Qed.

Lemma strip_str u : keeps (PText (Str u)) (PText (Str (np_str u))).
Proof.
  assert (forall l, exists n, l = repeat 0 n ++ drop_zeros l /\ forall t, drop_zeros l <> 0 :: t) as D.
  { induction l as [|x l (n & E & N)]; [exists 0%nat; split; [reflexivity | intros t H; discriminate H]|].
    destruct (Z.eq_dec x 0) as [->|Nx].
    - exists (S n). cbn [drop_zeros repeat app]. split; [f_equal; exact E | exact N].
    - exists 0%nat. destruct x; [contradiction| |]; (split; [reflexivity | intros t H; discriminate H]). }
  destruct (D (rev u)) as (n & E & N). unfold np_str.
  assert (u = rev (drop_zeros (rev u)) ++ repeat 0 n) as E2.
  { assert (forall k, rev (repeat 0 k) = repeat 0 k) as R.
    { induction k as [|k IH]; [reflexivity|]. cbn [repeat rev]. rewrite IH. symmetry. apply repeat_cons. }
    rewrite <- (R n), <- rev_app_distr, <- E, rev_involutive. reflexivity. }
  rewrite E2 at 1. constructor. intros t H. apply (f_equal (@rev Z)) in H. rewrite rev_involutive, rev_app_distr in H. exact (N _ H).
Qed.
Lemma strip_bytes u : keeps (PText (Raw u)) (PText (Raw (np_bytes u))).
Proof.
  assert (forall l, exists n, l = repeat x00 n ++ drop_nuls l /\ forall t, drop_nuls l <> x00 :: t) as D.
  { induction l as [|x l (n & E & N)]; [exists 0%nat; split; [reflexivity | intros t H; discriminate H]|].
    destruct (Byte.byte_eq_dec x x00) as [->|Nx].
    - exists (S n). cbn [drop_nuls repeat app]. split; [f_equal; exact E | exact N].
    - exists 0%nat. destruct x; try (split; [reflexivity | intros t H; discriminate H]). contradiction. }
  destruct (D (rev u)) as (n & E & N). unfold np_bytes.
  assert (u = rev (drop_nuls (rev u)) ++ repeat x00 n) as E2.
  { assert (forall k, rev (repeat x00 k) = repeat x00 k) as R.
    { induction k as [|k IH]; [reflexivity|]. cbn [repeat rev]. rewrite IH. symmetry. apply repeat_cons. }
    rewrite <- (R n), <- rev_app_distr, <- E, rev_involutive. reflexivity. }
  rewrite E2 at 1. constructor. intros t H. apply (f_equal (@rev byte)) in H. rewrite rev_involutive, rev_app_distr in H. exact (N _ H).
Qed.

(** values that are kept as they are *)
Lemma keep_selves {A} (g : A -> pyval) l : (forall x c zs, g x = PNumbers c zs -> c = 10 \/ c = 11) -> (forall x s, g x <> PText s) ->
  Forall2 parts (map g l) (map (fun x => [g x]) l) /\ Forall2 keeps (concat (map (fun x => [g x]) l)) (map g l).
Proof.
  intros P T. induction l as [|x l [I1 I2]]; [split; constructor|]. cbn [map concat app]. split; constructor; try assumption.
  - apply part_self. exact (P x).
  - apply keeps_other. exact (T x).
Qed.
Lemma max_in {A} (f : A -> Z) l : (forall x, 0 <= f x) -> l <> [] -> exists x, In x l /\ fold_right (fun u n => Z.max (f u) n) 0 l = f x.
Proof.
  intros P. induction l as [|a l IH]; [contradiction|]. intros _. cbn [fold_right]. destruct l as [|b l].
  - exists a. split; [left; reflexivity|]. cbn [fold_right]. specialize (P a). lia.
  - destruct IH as (x & I & E); [discriminate|]. destruct (Z.max_spec (f a) (f x)) as [[_ M]|[_ M]].
    + exists x. split; [right; exact I|]. rewrite E. exact M.
    + exists a. split; [left; reflexivity|]. rewrite E. exact M.
Qed.

Lemma array_kind data : one_kind data -> data <> [] ->
  exists items w ps v e, np_array data = Some (items, w) /\ hd_error data = Some v /\ inner v e /\ elem_shape data = e /\ (length e <= 1)%nat /\
    Forall2 parts data ps /\ Forall2 keeps (concat ps) items /\ Z.of_nat (length items) = Z.of_nat (length data) * volume e /\
    Forall (fun d => 1 <= d <= 3) e /\ 0 < w /\ exists v', In v' data /\ w * volume e = memory v'.
Proof.
  intros K N. destruct K as [c zs|c zs C|c zs C|c zs C|us|us|ts|ns|rs|rs].
  - destruct zs as [|z zs]; [contradiction|]. destruct (keep_selves (PNumber c) (z :: zs)) as [P1 P2]; [discriminate | discriminate|].
    eexists (map (PNumber c) (z :: zs)), 8, _, _, []. split; [|split; [reflexivity|split; [constructor; discriminate|split; [reflexivity|split; [cbn; lia|split; [exact P1|split; [exact P2|]]]]]]].
    + unfold np_array. rewrite (items_of_map _ (PNumber c) (PNumber c)) by reflexivity. reflexivity.
    + split; [cbn [volume fold_right]; rewrite map_length; lia|]. split; [constructor|]. split; [lia|]. exists (PNumber c z). split; [left|]; reflexivity.
  - destruct zs as [|z zs]; [contradiction|]. destruct (keep_selves (fun z => PNumbers c [fst z; snd z]) (z :: zs)) as [P1 P2]; [intros x c' l E; injection E as <- _; exact C | discriminate|].
    assert (is_tuple (PNumbers c [fst z; snd z]) = false) as T by (cbn [is_tuple]; lia).
    eexists (map (fun z => PNumbers c [fst z; snd z]) (z :: zs)), 16, _, _, []. split; [|split; [reflexivity|split; [constructor; intros c' l E; injection E as <- _; exact C|split; [|split; [cbn; lia|split; [exact P1|split; [exact P2|]]]]]]].
    + unfold np_array. cbn [map]. rewrite T. rewrite <- (map_cons (fun z => PNumbers c [fst z; snd z])).
      rewrite (items_of_map _ (fun z => PNumbers c [fst z; snd z]) (fun z => PNumbers c [fst z; snd z])); [reflexivity|].
      intros x. replace (is_tuple (PNumbers c [fst x; snd x])) with false by (cbn [is_tuple]; lia). reflexivity.
    + cbn [map elem_shape]. rewrite T. reflexivity.
    + split; [cbn [volume fold_right]; rewrite map_length; lia|]. split; [constructor|]. split; [lia|]. exists (PNumbers c [fst z; snd z]). split; [left|]; reflexivity.
  - destruct zs as [|z zs]; [contradiction|].
    assert (is_tuple (PNumbers c [fst z; snd z]) = true) as T by (cbn [is_tuple]; lia).
    set (g := fun z : Z * Z => PNumbers c [fst z; snd z]). set (h := fun z : Z * Z => [PNumber c (fst z); PNumber c (snd z)]).
    exists (concat (map h (z :: zs))), 8, (map h (z :: zs)), (g z), [2]. split; [|split; [reflexivity|split; [constructor; exact C|split; [|split; [cbn; lia|split; [|split; [|]]]]]]].
    + unfold np_array. cbn [map]. unfold g at 1. rewrite T. rewrite <- (map_cons g). rewrite (items_of_map _ g h); [reflexivity|].
      intros x. unfold g. replace (is_tuple (PNumbers c [fst x; snd x])) with true by (cbn [is_tuple]; lia). reflexivity.
    + cbn [map elem_shape]. unfold g at 1. rewrite T. reflexivity.
    + clear N T. generalize (z :: zs). intros l. induction l as [|x l IH]; cbn [map]; constructor; [constructor; exact C | exact IH].
    + clear N T. generalize (z :: zs). intros l. induction l as [|x l IH]; cbn [map concat app h]; [constructor|]. constructor; [constructor; discriminate|]. constructor; [constructor; discriminate | exact IH].
    + split; [|split; [repeat constructor; lia | split; [lia|]]].
      * clear N T. generalize (z :: zs). intros l. rewrite map_length. induction l as [|x l IH]; [reflexivity|]. cbn [map concat app length h]. cbn [volume fold_right] in *. lia.
      * exists (g z). split; [left|]; reflexivity.
  - destruct zs as [|z zs]; [contradiction|].
    assert (forall z : Z * Z * Z, is_tuple (PNumbers c [fst (fst z); snd (fst z); snd z]) = true) as T by (intros; cbn [is_tuple]; lia).
    set (g := fun z : Z * Z * Z => PNumbers c [fst (fst z); snd (fst z); snd z]). set (h := fun z : Z * Z * Z => [PNumber c (fst (fst z)); PNumber c (snd (fst z)); PNumber c (snd z)]).
    exists (concat (map h (z :: zs))), 8, (map h (z :: zs)), (g z), [3]. split; [|split; [reflexivity|split; [constructor; exact C|split; [|split; [cbn; lia|split; [|split; [|]]]]]]].
    + unfold np_array. cbn [map]. unfold g at 1. rewrite T. rewrite <- (map_cons g). rewrite (items_of_map _ g h); [reflexivity|].
      intros x. unfold g. rewrite T. reflexivity.
    + cbn [map elem_shape]. unfold g at 1. rewrite T. reflexivity.
    + clear N T. generalize (z :: zs). intros l. induction l as [|x l IH]; cbn [map]; constructor; [constructor; exact C | exact IH].
    + clear N T. generalize (z :: zs). intros l. induction l as [|x l IH]; cbn [map concat app h]; [constructor|]. do 3 (constructor; [constructor; discriminate|]). exact IH.
    + split; [|split; [repeat constructor; lia | split; [lia|]]].
      * clear N T. generalize (z :: zs). intros l. rewrite map_length. induction l as [|x l IH]; [reflexivity|]. cbn [map concat app length h]. cbn [volume fold_right] in *. lia.
      * exists (g z). split; [left|]; reflexivity.
  - destruct us as [|u us]; [contradiction|]. set (g := fun u => PText (Str u)).
    exists (map (fun u => PText (Str (np_str u))) (u :: us)), (4 * Z.max 1 (fold_right (fun u n => Z.max (Z.of_nat (length u)) n) 0 (u :: us))), (map (fun u => [g u]) (u :: us)), (g u), [].
    split; [|split; [reflexivity|split; [constructor; discriminate|split; [reflexivity|split; [cbn; lia|split; [|split; [|]]]]]]].
    + unfold np_array. cbn [map g]. change (PText (Str u)) with (g u). rewrite <- (map_cons g). rewrite (items_of_map _ g (fun u => u)) by reflexivity. rewrite map_id. reflexivity.
    + generalize (u :: us). intros l. induction l as [|x l IH]; cbn [map]; constructor; [constructor; discriminate | exact IH].
    + generalize (u :: us). intros l. induction l as [|x l IH]; cbn [map concat app]; constructor; [apply strip_str | exact IH].
    + split; [cbn [volume fold_right]; rewrite !map_length; lia|]. split; [constructor|]. split; [lia|].
      destruct (max_in (fun u : list Z => Z.of_nat (length u)) (u :: us)) as (x & I & E); [intros; lia | discriminate|]. rewrite E.
      exists (g x). split; [apply in_map, I|]. cbn [g memory volume fold_right]. lia.
  - destruct us as [|u us]; [contradiction|]. set (g := fun u => PText (Raw u)).
    exists (map (fun u => PText (Raw (np_bytes u))) (u :: us)), (Z.max 1 (fold_right (fun u n => Z.max (Z.of_nat (length u)) n) 0 (u :: us))), (map (fun u => [g u]) (u :: us)), (g u), [].
    split; [|split; [reflexivity|split; [constructor; discriminate|split; [reflexivity|split; [cbn; lia|split; [|split; [|]]]]]]].
    + unfold np_array. cbn [map g]. change (PText (Raw u)) with (g u). rewrite <- (map_cons g). rewrite (items_of_map _ g (fun u => u)) by reflexivity. rewrite map_id. reflexivity.
    + generalize (u :: us). intros l. induction l as [|x l IH]; cbn [map]; constructor; [constructor; discriminate | exact IH].
    + generalize (u :: us). intros l. induction l as [|x l IH]; cbn [map concat app]; constructor; [apply strip_bytes | exact IH].
    + split; [cbn [volume fold_right]; rewrite !map_length; lia|]. split; [constructor|]. split; [lia|].
      destruct (max_in (fun u : bytes => Z.of_nat (length u)) (u :: us)) as (x & I & E); [intros; lia | discriminate|]. rewrite E.
      exists (g x). split; [apply in_map, I|]. cbn [g memory volume fold_right]. lia.
  - destruct ts as [|z zs]; [contradiction|]. destruct (keep_selves PTime (z :: zs)) as [P1 P2]; [discriminate | discriminate|].
    eexists (map PTime (z :: zs)), 8, _, _, []. split; [|split; [reflexivity|split; [constructor; discriminate|split; [reflexivity|split; [cbn; lia|split; [exact P1|split; [exact P2|]]]]]]].
    + unfold np_array. cbn [map]. rewrite <- (map_cons PTime). rewrite (items_of_map _ PTime PTime) by reflexivity. reflexivity.
    + split; [cbn [volume fold_right]; rewrite map_length; lia|]. split; [constructor|]. split; [lia|]. exists (PTime z). split; [left|]; reflexivity.
  - destruct ns as [|z zs]; [contradiction|]. destruct (keep_selves PName (z :: zs)) as [P1 P2]; [discriminate | discriminate|].
    eexists (map PName (z :: zs)), 8, _, _, []. split; [|split; [reflexivity|split; [constructor; discriminate|split; [reflexivity|split; [cbn; lia|split; [exact P1|split; [exact P2|]]]]]]].
    + unfold np_array. cbn [map]. rewrite <- (map_cons PName). rewrite (items_of_map _ PName PName) by reflexivity. reflexivity.
    + split; [cbn [volume fold_right]; rewrite map_length; lia|]. split; [constructor|]. split; [lia|]. exists (PName z). split; [left|]; reflexivity.
  - destruct rs as [|z zs]; [contradiction|]. destruct (keep_selves PRef (z :: zs)) as [P1 P2]; [discriminate | discriminate|].
    eexists (map PRef (z :: zs)), 8, _, _, []. split; [|split; [reflexivity|split; [constructor; discriminate|split; [reflexivity|split; [cbn; lia|split; [exact P1|split; [exact P2|]]]]]]].
    + unfold np_array. cbn [map]. rewrite <- (map_cons PRef). rewrite (items_of_map _ PRef PRef) by reflexivity. reflexivity.
    + split; [cbn [volume fold_right]; rewrite map_length; lia|]. split; [constructor|]. split; [lia|]. exists (PRef z). split; [left|]; reflexivity.
  - destruct rs as [|z zs]; [contradiction|]. destruct (keep_selves PAttr (z :: zs)) as [P1 P2]; [discriminate | discriminate|].
    eexists (map PAttr (z :: zs)), 8, _, _, []. split; [|split; [reflexivity|split; [constructor; discriminate|split; [reflexivity|split; [cbn; lia|split; [exact P1|split; [exact P2|]]]]]]].
    + unfold np_array. cbn [map]. rewrite <- (map_cons PAttr). rewrite (items_of_map _ PAttr PAttr) by reflexivity. reflexivity.
    + split; [cbn [volume fold_right]; rewrite map_length; lia|]. split; [constructor|]. split; [lia|]. exists (PAttr z). split; [left|]; reflexivity.
Qed.
