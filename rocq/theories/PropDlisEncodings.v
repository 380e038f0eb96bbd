(** C78: changing the encodings while a logical file is open. *)
From Verif Require Import Bytes BytesProofs Stream PyBase DlisTypes DlisCore DlisIo DlisRecords DlisFdata CommonPy SpecCommon DlisStore SpecDlisStore DlisSchema DlisObject DlisFrame DlisCurves
  DlisEncodings SpecDlisEncodings DlisEncodingsProofs SpecIo SpecDlisLoad PropDlisObject DlisCurvesExample PropDlisCurves.
Import DlisEncodings.
Local Open Scope Z_scope.

(** Whatever was asked before and with whatever encodings: once set_encodings has been
    called and then cache_metadata, every query gives the answer, exceptions and messages
    it gives for a file that is loaded after set_encodings.  For every file that loads
    (C65_sound). *)
Theorem C78_reloaded : forall encoding codec enc esc set_order sets idx before es encs on qs q,
  as_loaded sets ->
  asked encoding codec enc esc set_order
    (happens encoding codec enc esc set_order (opened encoding codec before sets idx)
       (es ++ [SetEncodings encoding encs; Ask encoding (CacheMetadata on)] ++ map (Ask encoding) qs)) q =
  asked encoding codec enc esc set_order
    (happens encoding codec enc esc set_order (opened encoding codec encs sets idx) (map (Ask encoding) (CacheMetadata on :: qs))) q.
Proof.
  intros encoding codec enc esc set_order sets idx before es encs on qs q L.
  apply asked_like with (sets := sets). rewrite !happens_app. cbn [map]. change (Ask encoding (CacheMetadata on) :: map (Ask encoding) qs) with ([Ask encoding (CacheMetadata on)] ++ map (Ask encoding) qs).
  rewrite happens_app. apply happens_like. apply cleared_like; [exact L|]. apply happens_like, opened_like, L.
Qed.
Print Assumptions C78_reloaded.

(** With cache_metadata(True) nothing is left of the session before. *)
Theorem C78_like_new : forall encoding codec enc esc set_order sets idx before es encs qs q,
  as_loaded sets ->
  asked encoding codec enc esc set_order
    (happens encoding codec enc esc set_order (opened encoding codec before sets idx)
       (es ++ [SetEncodings encoding encs; Ask encoding (CacheMetadata true)] ++ map (Ask encoding) qs)) q =
  asked encoding codec enc esc set_order
    (happens encoding codec enc esc set_order (opened encoding codec encs sets idx) (map (Ask encoding) qs)) q.
Proof. intros. rewrite C78_reloaded by assumption. reflexivity. Qed.
Print Assumptions C78_like_new.

(** While caching is off, set_encodings is enough. *)
Theorem C78_uncached : forall encoding codec enc esc set_order sets idx before es encs qs q,
  as_loaded sets -> caching_after es true = false ->
  asked encoding codec enc esc set_order
    (happens encoding codec enc esc set_order (opened encoding codec before sets idx)
       (es ++ [SetEncodings encoding encs] ++ map (Ask encoding) qs)) q =
  asked encoding codec enc esc set_order
    (happens encoding codec enc esc set_order (opened encoding codec encs sets idx) (map (Ask encoding) (CacheMetadata false :: qs))) q.
Proof.
  intros encoding codec enc esc set_order sets idx before es encs qs q L C.
  apply asked_like with (sets := sets). rewrite !happens_app. cbn [map]. change (Ask encoding (CacheMetadata false) :: map (Ask encoding) qs) with ([Ask encoding (CacheMetadata false)] ++ map (Ask encoding) qs).
  rewrite happens_app. apply happens_like. apply uncached_like; [exact L|apply happens_like, opened_like, L|].
  rewrite <- C. apply happens_tidy. apply opened_tidy.
Qed.
Print Assumptions C78_uncached.

(** Attributes that hold no references, also those of objects the user already has, are
    read with the new encodings at once. *)
Theorem C78_attribute : forall encoding codec enc esc set_order sets idx before es encs sc o key,
  plain_attribute enc o key ->
  asked encoding codec enc esc set_order
    (happens encoding codec enc esc set_order (opened encoding codec before sets idx) (es ++ [SetEncodings encoding encs])) (Attribute sc o key) =
  asked encoding codec enc esc set_order (opened encoding codec encs sets idx) (Attribute sc o key).
Proof.
  intros encoding codec enc esc set_order sets idx before es encs sc o key PL. rewrite happens_app. set (s := happens _ _ _ _ _ _ es). clearbody s.
  unfold asked. cbn [DlisEncodings.ask happens fold_left happen se_encs se_store set_encodings opened]. set (st := se_store encoding s). clearbody st.
  pose proof (attribute_plain enc esc set_order (decoder encoding codec encs) o key sc st (new_store sets) PL) as H.
  destruct (getitem _ _ _ _ st sc o key) as [a r]. destruct (getitem _ _ _ _ (new_store sets) sc o key) as [b r']. cbn [snd] in *. congruence.
Qed.
Print Assumptions C78_attribute.

(** The curves of a frame and the data of an object without format, after the encodings
    have been changed and caching switched.  The full statement is about all files; it is
    false for those with names that are not UTF-8 (C78_curves_refuted). *)
Theorem C78_curves_partial : forall encoding codec enc esc set_order maxdims fmt file after sets idx before es encs on qs frame strict,
  as_loaded sets -> Forall (fun e => is_utf8 (fst e)) idx ->
  snd (session_curves encoding codec enc esc set_order maxdims fmt
    (happens encoding codec enc esc set_order (opened encoding codec before sets idx)
       (es ++ [SetEncodings encoding encs; Ask encoding (CacheMetadata on)] ++ map (Ask encoding) qs)) file after frame strict) =
  snd (session_curves encoding codec enc esc set_order maxdims fmt
    (happens encoding codec enc esc set_order (opened encoding codec encs sets idx) (map (Ask encoding) (CacheMetadata on :: qs))) file after frame strict).
Proof.
  intros encoding codec enc esc set_order maxdims fmt file after sets idx before es encs on qs frame strict L U.
  apply curves_like with (sets := sets).
  - rewrite !happens_app. cbn [map]. change (Ask encoding (CacheMetadata on) :: map (Ask encoding) qs) with ([Ask encoding (CacheMetadata on)] ++ map (Ask encoding) qs).
    rewrite happens_app. apply happens_like. apply cleared_like; [exact L|]. apply happens_like, opened_like, L.
  - rewrite !happens_index. apply dict_utf8, U.
Qed.
Print Assumptions C78_curves_partial.
Theorem C78_data_partial : forall encoding codec enc esc set_order file sets idx before es encs o,
  Forall (fun e => is_utf8 (fst e)) idx ->
  session_noformat encoding codec enc esc
    (happens encoding codec enc esc set_order (opened encoding codec before sets idx) (es ++ [SetEncodings encoding encs])) file o =
  session_noformat encoding codec enc esc (opened encoding codec encs sets idx) file o.
Proof.
  intros encoding codec enc esc set_order file sets idx before es encs o U. unfold session_noformat.
  rewrite happens_app. cbn [happens fold_left happen se_encs se_index set_encodings opened].
  rewrite happens_index. cbn [se_index opened]. rewrite (dict_utf8 encoding codec before encs idx U). reflexivity.
Qed.
Print Assumptions C78_data_partial.
(** A session that does not change the encodings reads what C65 and C66 are about. *)
Theorem C78_same_curves : forall encoding codec enc esc set_order maxdims fmt file after sets idx encs qs frame strict,
  let s := happens encoding codec enc esc set_order (opened encoding codec encs sets idx) (map (Ask encoding) qs) in
  session_curves encoding codec enc esc set_order maxdims fmt s file after frame strict =
    curves (decoder encoding codec encs) enc esc set_order maxdims fmt (se_store encoding s) file after idx frame strict /\
  forall o, session_noformat encoding codec enc esc s file o = noformat_data (decoder encoding codec encs) enc esc file idx o.
Proof.
  intros encoding codec enc esc set_order maxdims fmt file after sets idx encs qs frame strict s.
  assert (E : se_encs encoding s = encs /\ se_index encoding s = fdata_dict (decoder encoding codec encs) idx).
  { unfold s. split; [|rewrite happens_index; reflexivity]. generalize (opened encoding codec encs sets idx) as s0, (eq_refl : se_encs encoding (opened encoding codec encs sets idx) = encs).
    clear s. induction qs as [|q qs IH]; intros s0 E; [exact E|]. cbn [map happens fold_left]. apply IH. exact E. }
  destruct E as [E1 E2]. unfold session_curves, curves, session_noformat, noformat_data, indices_of, records_of. rewrite E1, E2. split; reflexivity.
Qed.
Print Assumptions C78_same_curves.

(** ** A file with a frame called F followed by a byte that is not UTF-8 *)
Definition degree_name : bytes := ["F"%byte; xb0].
Definition latin1 (_ : unit) (s : bytes) : option (list Z) := Some (map b2z s).
(** str to UTF-8, bytes as they are *)
Definition to_utf8 (t : pystr) : bytes := match t with Str u => flat_map enc_char u | Raw s => s end.
Definition degree_sets : list object_set := Eval vm_compute in sets_in degree_name.
Definition degree_stream : stream := Eval vm_compute in stream_of degree_name.
Definition degree_index : fdata_index := Eval vm_compute in index_of degree_name.
Definition degree_frame : object := Eval vm_compute in nth_object degree_sets 2 0.
Definition opened1 (encs : list unit) : session unit := opened unit latin1 encs degree_sets degree_index.
Definition happens1 := happens unit latin1 to_utf8 DlisStoreProofs6.quiet DlisStoreProofs6.order1.
Definition asked1 := asked unit latin1 to_utf8 DlisStoreProofs6.quiet DlisStoreProofs6.order1.
Definition rows1 (s : session unit) (frame : pyobject) : res Z :=
  match snd (snd (session_curves unit latin1 to_utf8 DlisStoreProofs6.quiet DlisStoreProofs6.order1 32 default_label s degree_stream (fun _ => []) frame true)) with
  | Ok (_, _, rows) => Ok rows
  | Exn => Exn | UB => UB | Fuel => Fuel
  end.
(** the frame by its name as bytes and as a str *)
Definition raw_query : query := Object (lit (text "FRAME")) (Raw degree_name) None None.
Definition str_query : query := Object (lit (text "FRAME")) (Str [70; 176]) None None.
Definition is_there (a : answer) : bool := match a with AObject (_, Ok (Some _)) => true | _ => false end.

Lemma degree_file : wf_file (wfile_of degree_name).
Proof. wf_ plain_. Qed.
Lemma degree_loaded : as_loaded degree_sets.
Proof.
  destruct (file_data degree_name degree_file) as (A & _); [vm_compute; reflexivity|].
  replace (sets_in degree_name) with degree_sets in A by (vm_compute; reflexivity). exact A.
Qed.

(** the hypotheses of the theorems, and what the change amounts to *)
Example C78_example :
  as_loaded degree_sets /\ Forall (fun e => is_utf8 (fst e)) F_index /\
  caching_after [Ask unit raw_query; Ask unit (CacheMetadata false)] true = false /\
  plain_attribute to_utf8 degree_frame (lit (text "INDEX-TYPE")) /\
  is_there (asked1 (opened1 []) raw_query) = true /\ is_there (asked1 (opened1 []) str_query) = false /\
  is_there (asked1 (opened1 [tt]) raw_query) = false /\ is_there (asked1 (opened1 [tt]) str_query) = true /\
  is_there (asked1 (happens1 (opened1 []) [Ask unit raw_query; SetEncodings unit [tt]; Ask unit (CacheMetadata true)]) str_query) = true /\
  is_there (asked1 (happens1 (opened1 []) [Ask unit (CacheMetadata false); Ask unit raw_query; SetEncodings unit [tt]]) str_query) = true.
Proof.
  split; [exact degree_loaded|]. split; [repeat (constructor; [vm_compute; discriminate|]); constructor|]. split; [reflexivity|]. split.
  { intros a c vs v I E V J. cbn [degree_frame obj_attrs In] in I. destruct I as [<-|[<-|[]]]; [vm_compute in E; discriminate|].
    vm_compute in V. injection V as <- <-. destruct J as [<-|[]]. reflexivity. }
  repeat split; vm_compute; reflexivity.
Qed.

(** *** Findings *)

(** Without cache_metadata, objects stay under their old names: what a freshly loaded
    file finds is not found. *)
Theorem C78_stale_refuted : exists encoding codec enc esc set_order sets idx before es encs q,
  as_loaded sets /\
  asked encoding codec enc esc set_order
    (happens encoding codec enc esc set_order (opened encoding codec before sets idx) (es ++ [SetEncodings encoding encs])) q <>
  asked encoding codec enc esc set_order (opened encoding codec encs sets idx) q.
Proof.
  exists unit, latin1, to_utf8, DlisStoreProofs6.quiet, DlisStoreProofs6.order1, degree_sets, degree_index, [], [Ask unit raw_query], [tt], str_query.
  split; [exact degree_loaded|]. intros H. apply (f_equal is_there) in H. vm_compute in H. discriminate H.
Qed.
Print Assumptions C78_stale_refuted.

(** Even with cache_metadata the records of a frame whose name is not UTF-8 are lost:
    curves() returns an array without rows where a freshly loaded file gives two. *)
Theorem C78_curves_refuted : exists encoding codec enc esc set_order sets idx before encs file frame d cells d' cells',
  as_loaded sets /\
  snd (snd (session_curves encoding codec enc esc set_order 32 default_label
    (happens encoding codec enc esc set_order (opened encoding codec before sets idx)
       [SetEncodings encoding encs; Ask encoding (CacheMetadata true)]) file (fun _ => []) (promote (decoder encoding codec encs) frame) true)) = Ok (d, cells, 0) /\
  snd (snd (session_curves encoding codec enc esc set_order 32 default_label
    (opened encoding codec encs sets idx) file (fun _ => []) (promote (decoder encoding codec encs) frame) true)) = Ok (d', cells', 2).
Proof.
  exists unit, latin1, to_utf8, DlisStoreProofs6.quiet, DlisStoreProofs6.order1, degree_sets, degree_index, [], [tt], degree_stream, degree_frame.
  do 4 eexists. split; [exact degree_loaded|]. split; vm_compute; reflexivity.
Qed.
Print Assumptions C78_curves_refuted.
