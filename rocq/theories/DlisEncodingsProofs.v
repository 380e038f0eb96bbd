(** Proofs about sessions: two stores that differ only in which sets have been parsed
    give the same answers. *)
From Verif Require Import Bytes BytesProofs Stream PyBase DlisTypes DlisCore DlisIo DlisRecords RecordsProofs3 DlisFdata CommonPy DlisStore SpecDlisStore DlisSchema DlisObject DlisFrame Dimensional DlisCurves
  DlisStoreProofs6 DlisEncodings SpecDlisEncodings.
Local Open Scope Z_scope.

Section similar.
Variable sets : list object_set.

Definition similar (a b : store) : Prop :=
  st_caching a = st_caching b /\ st_cache a = st_cache b /\ Forall2 same_set sets (st_pool a) /\ Forall2 same_set sets (st_pool b).
Definition rel {A} (p q : store * A) : Prop := similar (fst p) (fst q) /\ snd p = snd q.
Definition respects {A} (f : store -> store * A) : Prop := forall a b, similar a b -> rel (f a) (f b).

Lemma similar_new : as_loaded sets -> similar (new_store sets) (new_store sets).
Proof.
  intros L. assert (F : Forall2 same_set sets sets).
  { induction L as [|s l H HF IH]; constructor; [split; [exact H|left; reflexivity]|exact IH]. }
  repeat split; assumption.
Qed.
Lemma similar_self a b : similar a b -> similar a a.
Proof. intros (_ & _ & P & _). repeat split; assumption. Qed.

Lemma rel_ret {A} a b (r : A) : similar a b -> rel (a, r) (b, r).
Proof. intros S. split; [exact S|reflexivity]. Qed.
Lemma rel_bind {A B} (p q : store * A) (f g : store -> A -> store * B) :
  rel p q -> (forall a b r, similar a b -> rel (f a r) (g b r)) ->
  rel (let '(st, r) := p in f st r) (let '(st, r) := q in g st r).
Proof. intros [S E] H. destruct p as [a r], q as [b r']. cbn [fst snd] in S, E. subst r'. apply H, S. Qed.

Variable dec : bytes -> pystr.
Variable enc : pystr -> bytes.
Variable esc : severity -> bool.
Variable set_order : list pystr -> list pystr.

Lemma rel_pool m type name a b : similar a b ->
  let p := pool_get esc m type name (st_pool a) in let q := pool_get esc m type name (st_pool b) in
  snd p = snd q /\ similar (with_pool a (fst p)) (with_pool b (fst q)).
Proof.
  intros (S1 & S2 & P1 & P2). cbv zeta.
  destruct (pool_get_same esc m type name sets _ P1) as [E1 F1]. destruct (pool_get_same esc m type name sets _ P2) as [E2 F2].
  split; [congruence|]. repeat split; assumption.
Qed.
Lemma similar_types a b : similar a b -> types dec set_order a = types dec set_order b.
Proof.
  intros (_ & _ & P1 & P2). unfold types, pool_types. f_equal. f_equal.
  assert (T : forall p, Forall2 same_set sets p -> map os_type p = map os_type sets).
  { clear. induction 1 as [|s s' p p' H P IH]; cbn [map]; [reflexivity|]. rewrite IH. destruct (same_set_facts s s' H) as [-> _]. reflexivity. }
  rewrite (T _ P1), (T _ P2). reflexivity.
Qed.
Lemma similar_cache a b c : similar a b -> similar (with_cache a c) (with_cache b c).
Proof. intros (S1 & S2 & P1 & P2). repeat split; assumption. Qed.

Lemma get_item_respects t : respects (fun st => get_item dec enc esc st t).
Proof.
  intros a b S. pose proof S as (S1 & S2 & P1 & P2). unfold get_item. rewrite <- S2.
  destruct (dict_get t (st_cache a)) as [d|]; [apply rel_ret, S|].
  destruct (rel_pool (in_pool dec exact) (enc t) None a b S) as [E S'].
  destruct (pool_get esc _ _ _ (st_pool a)) as [p [l r]], (pool_get esc _ _ _ (st_pool b)) as [p' [l' r']]. cbn [fst snd] in E, S'. injection E as <- <-.
  destruct r as [objs| | |]; try (apply rel_ret, S'). cbn [with_pool st_caching st_cache]. rewrite <- S1. destruct (st_caching a) eqn:C; [|apply rel_ret, S'].
  rewrite <- S2. apply rel_ret. apply (similar_cache _ _ _ S').
Qed.
Lemma collect_respects m n ts : respects (collect dec enc esc m n ts).
Proof.
  induction ts as [|t ts IH]; intros a b S; cbn [collect]; [apply rel_ret, S|].
  destruct (get_item_respects t a b S) as [S1 E]. destruct (get_item dec enc esc a t) as [a1 [l r]], (get_item dec enc esc b t) as [b1 [l' r']].
  cbn [fst snd] in S1, E. injection E as <- <-. destruct r as [d| | |]; try (apply rel_ret, S1).
  destruct (filter_raising _ d); [|apply rel_ret, S1]. apply rel_bind; [apply IH, S1|]. intros; apply rel_ret; assumption.
Qed.
Lemma store_find_respects t n m : respects (fun st => store_find dec enc esc set_order st t n m).
Proof.
  intros a b S. pose proof S as (S1 & S2 & _). unfold store_find. set (mm := match m with Some _ => _ | None => _ end). clearbody mm. rewrite <- S1.
  destruct (st_caching a) eqn:C; cbn [negb].
  - assert (GEN : rel (match filter_raising (pm_match mm t) (types dec set_order a) with None => (a, fail) | Some ts => collect dec enc esc mm n ts a end)
                      (match filter_raising (pm_match mm t) (types dec set_order b) with None => (b, fail) | Some ts => collect dec enc esc mm n ts b end)).
    { rewrite (similar_types a b S). destruct (filter_raising _ _); [apply collect_respects, S|apply rel_ret, S]. }
    destruct (pm_exact mm); [|exact GEN]. destruct n as [n|]; [|exact GEN].
    destruct (get_item_respects t a b S) as [S' E]. destruct (get_item dec enc esc a t) as [a1 [l r]], (get_item dec enc esc b t) as [b1 [l' r']].
    cbn [fst snd] in S', E. injection E as <- <-. destruct r as [d| | |]; try (apply rel_ret, S').
    destruct (dict_get n d); [apply rel_ret, S'|]. destruct S' as (T1 & T2 & T3). rewrite T2. apply rel_ret. apply similar_cache. split; [exact T1|split; assumption].
  - set (name := match n with Some _ => _ | None => _ end). destruct (rel_pool (in_pool dec mm) (enc t) name a b S) as [E S'].
    destruct (pool_get esc _ _ _ (st_pool a)) as [p r], (pool_get esc _ _ _ (st_pool b)) as [p' r']. cbn [fst snd] in E, S'. subst r'. apply rel_ret, S'.
Qed.

Ltac resp_ lem := intros a b S; apply rel_bind; [apply lem, S|intros; apply rel_ret; assumption].
Lemma lf_object_respects t n o c : respects (fun st => lf_object dec enc esc set_order st t n o c).
Proof. resp_ (store_find_respects t (Some n) (Some exact)). Qed.
Lemma fileheader_respects : respects (fileheader dec enc esc set_order).
Proof. resp_ (store_find_respects (lit (text "FILE-HEADER")) None (Some exact)). Qed.
Lemma objects_respects t : respects (fun st => objects_of_type dec enc esc set_order st t).
Proof. exact (store_find_respects (lit t) None (Some exact)). Qed.

Lemma lookup_respects l v : respects (fun st => lookup dec enc esc set_order st l v).
Proof.
  intros a b S. unfold lookup. destruct l as [t|], v; try (apply rel_ret, S);
    (apply rel_bind; [apply lf_object_respects, S|intros; apply rel_ret; assumption]).
Qed.
Lemma lookups_respects l vs : respects (fun st => lookups dec enc esc set_order st l vs).
Proof.
  induction vs as [|v vs IH]; intros a b S; cbn [lookups]; [apply rel_ret, S|].
  destruct (lookup_respects l v a b S) as [S1 E]. destruct (lookup _ _ _ _ a l v) as [a1 [lg r]], (lookup _ _ _ _ b l v) as [b1 [lg' r']].
  cbn [fst snd] in S1, E. injection E as <- <-. destruct r as [x| | |]; try (apply rel_ret, S1).
  apply rel_bind; [apply IH, S1|intros; apply rel_ret; assumption].
Qed.
Lemma getitem_respects sc o key : respects (fun st => getitem dec enc esc set_order st sc o key).
Proof.
  intros a b S. unfold getitem. destruct (_ && _); [apply rel_ret, S|].
  destruct (report _ _ _ o (obj_log o)) as [l1 [u| | |]]; try (apply rel_ret, S).
  destruct (attic_get enc o key) as [at'|]; [|apply rel_ret, S]. destruct (attribute_value dec at') as [rp|]; [|apply rel_ret, S].
  destruct (report _ _ _ o (at_log at')) as [l2 [u2| | |]]; try (apply rel_ret, S).
  destruct rp as [[|v vs]|]; try (apply rel_ret, S). destruct (dict_get key (sc_linkage sc)) as [lk|]; [|apply rel_ret, S].
  destruct (isreference v); [|apply rel_ret, S]. apply rel_bind; [apply lookups_respects, S|intros; apply rel_ret; assumption].
Qed.
Lemma frame_channels_respects fr : respects (fun st => frame_channels dec enc esc set_order st fr).
Proof. resp_ (getitem_respects frame_schema (po_attic fr) (lit (text "CHANNELS"))). Qed.
Lemma claiming_respects self fs : forall found, respects (fun st => claiming dec enc esc set_order self st fs found).
Proof.
  induction fs as [|f fs IH]; intros found a b S; cbn [claiming]; [apply rel_ret, S|].
  destruct (frame_channels_respects f a b S) as [S1 E]. destruct (frame_channels _ _ _ _ a f) as [a1 [lg r]], (frame_channels _ _ _ _ b f) as [b1 [lg' r']].
  cbn [fst snd] in S1, E. injection E as <- <-. destruct r as [x| | |]; try (apply rel_ret, S1). destruct (claims self x); [|apply rel_ret, S1].
  apply rel_bind; [apply IH, S1|intros; apply rel_ret; assumption].
Qed.
Lemma channel_frame_respects o : respects (fun st => channel_frame dec enc esc set_order st o).
Proof.
  intros a b S. unfold channel_frame. destruct (objects_respects (text "FRAME") a b S) as [S1 E].
  destruct (objects_of_type _ _ _ _ a _) as [a1 [lg r]], (objects_of_type _ _ _ _ b _) as [b1 [lg' r']].
  cbn [fst snd] in S1, E. injection E as <- <-. destruct r as [x| | |]; try (apply rel_ret, S1).
  apply rel_bind; [apply claiming_respects, S1|intros; apply rel_ret; assumption].
Qed.

Lemma chain_respects {A B} (m m' : store * io A) (k k' : store -> A -> store * io B) :
  rel m m' -> (forall a b x, similar a b -> rel (k a x) (k' b x)) -> rel (chain m k) (chain m' k').
Proof.
  intros [S E] H. destruct m as [a [l r]], m' as [b [l' r']]. cbn [fst snd] in S, E. injection E as <- <-. unfold chain.
  destruct r as [x| | |]; try (apply rel_ret, S). destruct (H a b x S) as [S1 E1]. destruct (k a x) as [a1 [l1 r1]], (k' b x) as [b1 [l2 r2]].
  cbn [fst snd] in S1, E1. injection E1 as <- <-. apply rel_ret, S1.
Qed.
Lemma column_of_respects ch : respects (fun st => column_of dec enc esc set_order st ch).
Proof.
  intros a b S. unfold column_of. destruct ch as [? ?|? ?|?|?|?|?|?|x|]; try (apply rel_ret, S).
  apply chain_respects.
  { unfold channel_reprc. apply rel_bind; [apply getitem_respects, S|intros; apply rel_ret; assumption]. }
  intros a1 b1 rc S1. apply chain_respects.
  { unfold channel_dimension, listing. apply rel_bind; [|intros; apply rel_ret; assumption].
    apply rel_bind; [apply getitem_respects, S1|intros; apply rel_ret; assumption]. }
  intros; apply rel_ret; assumption.
Qed.
Lemma columns_of_respects chs : respects (fun st => columns_of dec enc esc set_order st chs).
Proof.
  induction chs as [|c chs IH]; intros a b S; cbn [columns_of]; [apply rel_ret, S|].
  apply chain_respects; [apply column_of_respects, S|]. intros. apply chain_respects; [apply IH; assumption|]. intros; apply rel_ret; assumption.
Qed.
End similar.

(** ** The switch *)
Section switch.
Variable dec : bytes -> pystr.
Variable enc : pystr -> bytes.
Variable esc : severity -> bool.
Variable set_order : list pystr -> list pystr.
Variable c : bool.

(** caching is [c]; without caching the cache is empty *)
Definition tidy (st : store) : Prop := st_caching st = c /\ (c = false -> st_cache st = []).
Definition stays {A} (f : store -> store * A) : Prop := forall st, tidy st -> tidy (fst (f st)).

Lemma stays_bind {A B} (f : store -> store * A) (g : store -> A -> store * B) st :
  stays f -> (forall st r, tidy st -> tidy (fst (g st r))) -> tidy st -> tidy (fst (let '(st, r) := f st in g st r)).
Proof. intros F G T. specialize (F st T). destruct (f st) as [st' r]. apply G, F. Qed.
Lemma store_find_stays t n m : stays (fun st => store_find dec enc esc set_order st t n m).
Proof.
  intros st [C E]. split; [rewrite store_find_caching; exact C|]. intros F. specialize (E F). unfold store_find. rewrite C, F. cbn [negb].
  destruct (pool_get _ _ _ _ _) as [p r]. exact E.
Qed.
Lemma lf_object_stays t n o k : stays (fun st => lf_object dec enc esc set_order st t n o k).
Proof. intros st T. apply (stays_bind (fun st => store_find dec enc esc set_order st _ _ _)); [apply store_find_stays|intros; assumption|exact T]. Qed.
Lemma fileheader_stays : stays (fileheader dec enc esc set_order).
Proof. intros st T. apply (stays_bind (fun st => store_find dec enc esc set_order st _ _ _)); [apply store_find_stays|intros; assumption|exact T]. Qed.
Lemma lookup_stays l v : stays (fun st => lookup dec enc esc set_order st l v).
Proof.
  intros st T. unfold lookup. destruct l as [t|], v; try exact T;
    (apply (stays_bind (fun st => lf_object dec enc esc set_order st _ _ _ _)); [apply lf_object_stays|intros; assumption|exact T]).
Qed.
Lemma lookups_stays l vs : stays (fun st => lookups dec enc esc set_order st l vs).
Proof.
  induction vs as [|v vs IH]; intros st T; cbn [lookups]; [exact T|].
  pose proof (lookup_stays l v st T) as T1. cbv beta in T1. destruct (lookup _ _ _ _ st l v) as [a1 [lg [x| | |]]]; try exact T1.
  apply (stays_bind (fun st => lookups dec enc esc set_order st l vs)); [exact IH|intros; assumption|exact T1].
Qed.
Lemma getitem_stays sc o key : stays (fun st => getitem dec enc esc set_order st sc o key).
Proof.
  intros st T. unfold getitem. destruct (_ && _); [exact T|].
  destruct (report _ _ _ o (obj_log o)) as [l1 [u| | |]]; try exact T.
  destruct (attic_get enc o key) as [at'|]; [|exact T]. destruct (attribute_value dec at') as [rp|]; [|exact T].
  destruct (report _ _ _ o (at_log at')) as [l2 [u2| | |]]; try exact T.
  destruct rp as [[|v vs]|]; try exact T. destruct (dict_get key (sc_linkage sc)) as [lk|]; [|exact T].
  destruct (isreference v); [|exact T].
  apply (stays_bind (fun st => lookups dec enc esc set_order st lk (v :: vs))); [apply lookups_stays|intros; assumption|exact T].
Qed.
Lemma frame_channels_stays fr : stays (fun st => frame_channels dec enc esc set_order st fr).
Proof. intros st T. apply (stays_bind (fun st => getitem dec enc esc set_order st _ _ _)); [apply getitem_stays|intros; assumption|exact T]. Qed.
Lemma claiming_stays self fs : forall found, stays (fun st => claiming dec enc esc set_order self st fs found).
Proof.
  induction fs as [|f fs IH]; intros found st T; cbn [claiming]; [exact T|].
  pose proof (frame_channels_stays f st T) as T1. cbv beta in T1. destruct (frame_channels _ _ _ _ st f) as [a1 [lg [x| | |]]]; try exact T1.
  destruct (claims self x); [|exact T1]. apply (stays_bind (fun st => claiming dec enc esc set_order self st fs _)); [apply IH|intros; assumption|exact T1].
Qed.
Lemma channel_frame_stays o : stays (fun st => channel_frame dec enc esc set_order st o).
Proof.
  intros st T. unfold channel_frame. pose proof (store_find_stays (lit (text "FRAME")) None (Some exact) st T) as T1. cbv beta in T1. fold (objects_of_type dec enc esc set_order st (text "FRAME")) in T1.
  destruct (objects_of_type _ _ _ _ st _) as [a1 [lg [x| | |]]]; try exact T1.
  apply (stays_bind (fun st => claiming dec enc esc set_order _ st x _)); [apply claiming_stays|intros; assumption|exact T1].
Qed.
End switch.

(** ** Sessions *)
Section sessions.
Variable encoding : Type.
Variable codec : encoding -> bytes -> option (list Z).
Variable enc : pystr -> bytes.
Variable esc : severity -> bool.
Variable set_order : list pystr -> list pystr.
Variable sets : list object_set.

Local Notation decoder := (decoder encoding codec).
Local Notation ask := (ask encoding codec enc esc set_order).
Local Notation happen := (happen encoding codec enc esc set_order).
Local Notation happens := (happens encoding codec enc esc set_order).
Local Notation similar := (similar sets).
Local Notation rel := (rel sets).

Lemma ask_respects encs q : respects sets (ask encs q).
Proof.
  intros a b S. destruct q; cbn [DlisEncodings.ask].
  - apply rel_bind; [apply store_find_respects, S|intros; apply rel_ret; assumption].
  - apply rel_bind; [apply lf_object_respects, S|intros; apply rel_ret; assumption].
  - apply rel_bind; [apply fileheader_respects, S|intros; apply rel_ret; assumption].
  - apply rel_bind; [apply objects_respects, S|intros; apply rel_ret; assumption].
  - apply rel_bind; [apply getitem_respects, S|intros; apply rel_ret; assumption].
  - apply rel_bind; [apply channel_frame_respects, S|intros; apply rel_ret; assumption].
  - apply rel_ret. destruct S as (_ & _ & P). split; [reflexivity|]. split; [reflexivity|exact P].
Qed.

(** sessions that only differ in which sets have been parsed, and in the index *)
Definition like (s t : session encoding) : Prop := se_encs encoding s = se_encs encoding t /\ similar (se_store encoding s) (se_store encoding t).
Lemma happen_like s t e : like s t -> like (happen s e) (happen t e).
Proof.
  intros [E S]. destruct e as [q|encs]; [|split; [reflexivity|exact S]]. split; [exact E|]. cbn [DlisEncodings.happen se_store]. rewrite <- E.
  exact (proj1 (ask_respects (se_encs encoding s) q _ _ S)).
Qed.
Lemma happens_like es : forall s t, like s t -> like (happens s es) (happens t es).
Proof. induction es as [|e es IH]; intros s t L; [exact L|]. apply IH, happen_like, L. Qed.
Lemma happens_app s a b : happens s (a ++ b) = happens (happens s a) b.
Proof. apply fold_left_app. Qed.
Lemma happens_index es : forall s, se_index encoding (happens s es) = se_index encoding s.
Proof. induction es as [|e es IH]; intros s; [reflexivity|]. cbn [DlisEncodings.happens fold_left]. change (fold_left happen es (happen s e)) with (happens (happen s e) es). rewrite IH. destruct e; reflexivity. Qed.
Lemma opened_like encs idx : as_loaded sets -> like (opened encoding codec encs sets idx) (opened encoding codec encs sets idx).
Proof. intros L. split; [reflexivity|apply similar_new, L]. Qed.
Lemma asked_like s t q : like s t -> asked encoding codec enc esc set_order s q = asked encoding codec enc esc set_order t q.
Proof. intros [E S]. unfold asked. rewrite <- E. exact (proj2 (ask_respects (se_encs encoding s) q _ _ S)). Qed.

(** caching switched *)
Lemma cleared_like s encs on idx : as_loaded sets -> like s s ->
  like (happens s [SetEncodings encoding encs; Ask encoding (CacheMetadata on)])
       (happens (opened encoding codec encs sets idx) [Ask encoding (CacheMetadata on)]).
Proof.
  intros L [_ (_ & _ & P & _)]. split; [reflexivity|]. split; [reflexivity|]. split; [reflexivity|]. split; [exact P|].
  exact (proj1 (proj2 (proj2 (similar_new sets L)))).
Qed.

(** caching off *)
Lemma ask_stays c encs q : (forall on, q <> CacheMetadata on) -> stays c (ask encs q).
Proof.
  intros N st T. destruct q; cbn [DlisEncodings.ask].
  - apply (stays_bind c (fun st => store_find _ enc esc set_order st _ _ _)); [apply store_find_stays|intros; assumption|exact T].
  - apply (stays_bind c (fun st => lf_object _ enc esc set_order st _ _ _ _)); [apply lf_object_stays|intros; assumption|exact T].
  - apply (stays_bind c (fun st => fileheader _ enc esc set_order st)); [apply fileheader_stays|intros; assumption|exact T].
  - apply (stays_bind c (fun st => objects_of_type _ enc esc set_order st _)); [apply store_find_stays|intros; assumption|exact T].
  - apply (stays_bind c (fun st => getitem _ enc esc set_order st _ _ _)); [apply getitem_stays|intros; assumption|exact T].
  - apply (stays_bind c (fun st => channel_frame _ enc esc set_order st _)); [apply channel_frame_stays|intros; assumption|exact T].
  - destruct (N on eq_refl).
Qed.
Lemma happens_tidy es : forall s c, tidy c (se_store encoding s) -> tidy (caching_after es c) (se_store encoding (happens s es)).
Proof.
  induction es as [|e es IH]; intros s c T; [exact T|]. apply (IH (happen s e)). destruct e as [q|encs]; [|exact T].
  destruct q; cbn [DlisEncodings.happen se_store]; try (apply ask_stays; [discriminate|exact T]). split; reflexivity.
Qed.
Lemma opened_tidy encs idx : tidy true (se_store encoding (opened encoding codec encs sets idx)).
Proof. split; [reflexivity|discriminate]. Qed.
Lemma uncached_like s encs idx : as_loaded sets -> like s s -> tidy false (se_store encoding s) ->
  like (happens s [SetEncodings encoding encs]) (happens (opened encoding codec encs sets idx) [Ask encoding (CacheMetadata false)]).
Proof.
  intros L [_ (_ & _ & P & _)] [C E]. split; [reflexivity|]. split; [exact C|]. split; [exact (E eq_refl)|]. split; [exact P|].
  exact (proj1 (proj2 (proj2 (similar_new sets L)))).
Qed.

(** ** Attributes without references *)
Lemma to_py_plain dec c v x : refers_to v = false -> to_py dec c v = Some x -> isreference x = false.
Proof. intros R. destruct v; cbn [refers_to] in R; try discriminate R; cbn [to_py]; try (intros [= <-]; reflexivity). destruct (to_pydatetime t); [|discriminate]. intros [= <-]. reflexivity. Qed.
Lemma attribute_plain dec o key sc a b : plain_attribute enc o key ->
  snd (getitem dec enc esc set_order a sc o key) = snd (getitem dec enc esc set_order b sc o key).
Proof.
  intros PL. unfold getitem. destruct (_ && _); [reflexivity|].
  destruct (report _ _ _ o (obj_log o)) as [l1 [u| | |]]; try reflexivity.
  destruct (attic_get enc o key) as [x|] eqn:G; [|reflexivity]. destruct (attribute_value dec x) as [rp|] eqn:V; [|reflexivity].
  destruct (report _ _ _ o (at_log x)) as [l2 [u2| | |]]; try reflexivity.
  destruct rp as [[|v vs]|]; try reflexivity. destruct (dict_get key (sc_linkage sc)) as [lk|]; [|reflexivity].
  assert (R : isreference v = false).
  { unfold attic_get, attr_at in G. apply find_some in G as [I E]. apply bytes_eqb_eq in E. unfold attribute_value in V.
    destruct (at_value x) as [|c [|w ws]] eqn:W; [discriminate|discriminate|]. cbn [map_opt] in V. destruct (to_py dec c w) as [y|] eqn:T; [|discriminate].
    cbn [obind] in V. destruct (map_opt (to_py dec c) ws); [|discriminate]. cbn [obind] in V. injection V as <- <-.
    eapply to_py_plain; [|exact T]. apply (PL x c (w :: ws) w I E W). left. reflexivity. }
  rewrite R. reflexivity.
Qed.

(** ** Data *)
Lemma decoder_utf8 a b s : is_utf8 s -> decoder a s = decoder b s.
Proof. intros U. unfold DlisEncodings.decoder, decode_str. destruct (utf8 (c_string s)) eqn:E; [reflexivity|]. destruct (U E). Qed.
Lemma dict_utf8 a b (idx : fdata_index) : Forall (fun e => is_utf8 (fst e)) idx -> fdata_dict (decoder a) idx = fdata_dict (decoder b) idx.
Proof.
  unfold fdata_dict. generalize (@nil (pystr * list Z)) as d. induction idx as [|e idx IH]; intros d F; [reflexivity|].
  apply Forall_cons_iff in F as [U F]. cbn [fold_left]. rewrite (decoder_utf8 a b _ U). apply IH, F.
Qed.
Lemma curves_like maxdims fmt file after s t fr strict : like s t -> se_index encoding s = se_index encoding t ->
  snd (session_curves encoding codec enc esc set_order maxdims fmt s file after fr strict) =
  snd (session_curves encoding codec enc esc set_order maxdims fmt t file after fr strict).
Proof.
  intros [E S] I. unfold session_curves. rewrite <- E, <- I.
  assert (R : rel (chain (frame_channels (decoder (se_encs encoding s)) enc esc set_order (se_store encoding s) fr) (fun st chs =>
      chain (columns_of (decoder (se_encs encoding s)) enc esc set_order st chs) (fun st cols =>
        (st, let* fp := fingerprint (decoder (se_encs encoding s)) enc (po_attic fr) in
             frame_curves maxdims fmt esc file after strict cols (records_of (se_index encoding s) fp)))))
    (chain (frame_channels (decoder (se_encs encoding s)) enc esc set_order (se_store encoding t) fr) (fun st chs =>
      chain (columns_of (decoder (se_encs encoding s)) enc esc set_order st chs) (fun st cols =>
        (st, let* fp := fingerprint (decoder (se_encs encoding s)) enc (po_attic fr) in
             frame_curves maxdims fmt esc file after strict cols (records_of (se_index encoding s) fp)))))).
  { apply chain_respects; [apply frame_channels_respects, S|]. intros. apply chain_respects; [apply columns_of_respects; assumption|]. intros; apply rel_ret; assumption. }
  exact (proj2 R).
Qed.
End sessions.
