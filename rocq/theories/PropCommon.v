(** Strings and error handlers: C60, C61. *)
From Verif Require Import Bytes BytesProofs Stream PyBase CommonPy SpecCommon CommonProofs.
Local Open Scope Z_scope.

(** ** C60: strings decode by the configured encodings, in order, without loss *)

(** Strings without NUL bytes.  [codec] is any family of decoders. *)
Theorem C60_text_partial : forall encoding (codec : encoding -> bytes -> option (list Z)) strict encs s,
  no_nul s ->
  (* UTF-8 text *)
  (forall u, utf8_text u s -> decode_str encoding codec strict encs s = (false, Some (Str u))) /\
  (* otherwise the first encoding that accepts *)
  ((forall u, ~ utf8_text u s) ->
   (forall a e b u, encs = a ++ e :: b -> (forall x, In x a -> codec x s = None) -> codec e s = Some u ->
      decode_str encoding codec strict encs s = (false, Some (Str u))) /\
   (* otherwise the bytes, with a warning *)
   ((forall e, In e encs -> codec e s = None) ->
      decode_str encoding codec strict encs s = (true, if strict then None else Some (Raw s)))).
Proof.
  intros encoding codec strict encs s N. unfold decode_str. rewrite (c_string_id s N). split.
  - intros u U. apply utf8_spec in U. rewrite U. reflexivity.
  - intros U. destruct (utf8 s) as [u|] eqn:E; [destruct (U u); apply utf8_spec; exact E|]. split.
    + intros a e b u E1 E2 E3.
      rewrite (proj2 (try_spec encoding codec encs s u) (ex_intro _ a (ex_intro _ e (ex_intro _ b (conj E1 (conj E2 E3)))))). reflexivity.
    + intros H. rewrite (proj2 (try_none encoding codec encs s) H). reflexivity.
Qed.
Print Assumptions C60_text_partial.

(** Strings with a NUL byte: if what precedes it is UTF-8 text, the string is cut
    there, and the encodings are not tried.  Otherwise the encodings get the
    whole string. *)
Theorem C60_nul : forall encoding (codec : encoding -> bytes -> option (list Z)) strict encs p t,
  no_nul p ->
  let s := p ++ x00 :: t in
  (forall u, utf8_text u p -> decode_str encoding codec strict encs s = (false, Some (Str u))) /\
  ((forall u, ~ utf8_text u p) ->
   (forall a e b u, encs = a ++ e :: b -> (forall x, In x a -> codec x s = None) -> codec e s = Some u ->
      decode_str encoding codec strict encs s = (false, Some (Str u))) /\
   ((forall e, In e encs -> codec e s = None) ->
      decode_str encoding codec strict encs s = (true, if strict then None else Some (Raw s)))).
Proof.
  intros encoding codec strict encs p t N s. unfold decode_str. subst s. rewrite (c_string_nul p t N). set (s := p ++ x00 :: t). split.
  - intros u U. apply utf8_spec in U. rewrite U. reflexivity.
  - intros U. destruct (utf8 p) as [u|] eqn:E; [destruct (U u); apply utf8_spec; exact E|]. split.
    + intros a e b u E1 E2 E3.
      rewrite (proj2 (try_spec encoding codec encs s u) (ex_intro _ a (ex_intro _ e (ex_intro _ b (conj E1 (conj E2 E3)))))). reflexivity.
    + intros H. rewrite (proj2 (try_none encoding codec encs s) H). reflexivity.
Qed.
Print Assumptions C60_nul.

(** So characters are dropped: a NUL is a valid character, and so is what follows *)
Theorem C60_refuted : forall encoding (codec : encoding -> bytes -> option (list Z)) strict encs,
  exists s u v, utf8_text u s /\ decode_str encoding codec strict encs s = (false, Some (Str v)) /\ u <> v.
Proof.
  intros encoding codec strict encs. exists (text "A" ++ [x00] ++ text "B"), [65; 0; 66], [65]. split; [|split; [reflexivity | discriminate]].
  split; [repeat constructor; unfold scalar; lia | reflexivity].
Qed.
Print Assumptions C60_refuted.

(** The empty string, and text of every length of character: A, degree sign,
    euro sign, a musical symbol.  Latin-1 as the second encoding. *)
Definition latin1 (s : bytes) : option (list Z) := Some (map b2z s).
Definition ascii (s : bytes) : option (list Z) := if forallb (fun b => b2z b <? 128) s then Some (map b2z s) else None.
Definition C60_codec (e : bool) : bytes -> option (list Z) := if e then latin1 else ascii.
Example C60_example :
  utf8_text [65; 0xB0; 0x20AC; 0x1D11E] (map z2b [65; 0xC2; 0xB0; 0xE2; 0x82; 0xAC; 0xF0; 0x9D; 0x84; 0x9E]) /\
  decode_str bool C60_codec false [false; true] (map z2b [65; 0xC2; 0xB0]) = (false, Some (Str [65; 0xB0])) /\
  decode_str bool C60_codec false [false; true] (map z2b [65; 0xB0]) = (false, Some (Str [65; 0xB0])) /\
  decode_str bool C60_codec false [false] (map z2b [65; 0xB0]) = (true, Some (Raw (map z2b [65; 0xB0]))) /\
  decode_str bool C60_codec true [] (map z2b [65; 0xB0]) = (true, None) /\
  decode_str bool C60_codec false [] [] = (false, Some (Str [])).
Proof.
  split; [split; [repeat constructor; unfold scalar; lia | vm_compute; reflexivity] |]. repeat split; vm_compute; reflexivity.
Qed.

(** ** C61: error severity selects the user's action *)

(** Arbitrary actions, which may change the world, log, or raise depending on the
    message. *)
Theorem C61_dispatch : forall message world (info minor major critical : action message world) problems w w' o,
  report message world (mk_error_handler message world info minor major critical) problems w = (w', o) ->
  responds message world outcome
    (fun s m w => let '(w', o) := match s with INFO => info | MINOR => minor | MAJOR => major | CRITICAL => critical end m w in
                  (w', match o with Returns => None | _ => Some o end))
    problems w w' (match o with Returns => None | _ => Some o end).
Proof. exact report_responds. Qed.
Print Assumptions C61_dispatch.

(** By default nothing raises before the first critical problem, which does; what
    comes before is logged: info as debug, minor as info, major as warning. *)
Theorem C61_default : forall message world (logging : level -> message -> world -> world) before m after w,
  (forall m, ~ In (CRITICAL, m) before) ->
  let logged := fold_left (fun w p =>
    logging (match fst p with INFO => LDebug | MINOR => LInfo | _ => LWarning end) (snd p) w) before w in
  report message world (default_handler message world logging) before w = (logged, Returns) /\
  report message world (default_handler message world logging) (before ++ (CRITICAL, m) :: after) w = (logged, RaisesRuntime).
Proof.
  intros message world logging before m after w N. split; [apply default_quiet | apply default_raises]; exact N.
Qed.
Print Assumptions C61_default.

(** Nothing that is known about a problem is left out of the message *)
Theorem C61_message : forall sev context problem spec act debug x,
  In x [problem; context; format_severity sev; spec; act; debug] ->
  exists a b, format_error sev context problem spec act debug = a ++ x ++ b.
Proof.
  intros sev context problem spec act debug x H.
  assert (L : forall tag v, exists a, format_line tag v = a ++ v).
  { intros tag v. exists ([z2b 10] ++ tag ++ repeat " "%byte (13 - length tag) ++ [" "%byte]). unfold format_line. rewrite <- !app_assoc. reflexivity. }
  assert (G : forall tag v, exists a, if_given tag v = a ++ v).
  { intros tag [|b v]; [exists []; reflexivity | apply L]. }
  unfold format_error. cbv zeta.
  destruct (L (text "Problem:") problem) as [a1 ->]. destruct (L (text "Where:") context) as [a2 ->].
  destruct (L (text "Severity:") (format_severity sev)) as [a3 ->]. destruct (G (text "RP66V1 ref:") spec) as [a4 ->].
  destruct (G (text "Action taken:") act) as [a5 ->]. destruct (G (text "Debug info:") debug) as [a6 ->].
  set (f := format_severity sev) in *. clearbody f.
  cbn [In] in H. destruct H as [<-|[<-|[<-|[<-|[<-|[<-|[]]]]]]].
  - exists a1. eexists. rewrite <- !app_assoc. reflexivity.
  - exists (a1 ++ problem ++ a2). eexists. rewrite <- !app_assoc. reflexivity.
  - exists (a1 ++ problem ++ a2 ++ context ++ a3). eexists. rewrite <- !app_assoc. reflexivity.
  - exists (a1 ++ problem ++ a2 ++ context ++ a3 ++ f ++ a4). eexists. rewrite <- !app_assoc. reflexivity.
  - exists (a1 ++ problem ++ a2 ++ context ++ a3 ++ f ++ a4 ++ spec ++ a5). eexists. rewrite <- !app_assoc. reflexivity.
  - exists (a1 ++ problem ++ a2 ++ context ++ a3 ++ f ++ a4 ++ spec ++ a5 ++ act ++ a6), []. rewrite app_nil_r, <- !app_assoc. reflexivity.
Qed.
Print Assumptions C61_message.

(** a user's handler that counts minor problems and raises at the second *)
Definition C61_count : action bytes nat := fun m n => (S n, if (n =? 1)%nat then RaisesOther else Returns).
Definition C61_handler : error_handler bytes nat :=
  mk_error_handler bytes nat (SWALLOW bytes nat) C61_count (RAISE bytes nat) (SWALLOW bytes nat).
Example C61_example :
  report bytes nat C61_handler [(INFO, []); (MINOR, []); (CRITICAL, []); (MINOR, []); (MAJOR, [])] 0%nat = (2%nat, RaisesOther) /\
  report bytes (list (level * bytes)) (default_handler bytes _ (fun l m w => w ++ [(l, m)]))
    [(MINOR, text "a"); (MAJOR, text "b"); (CRITICAL, text "c"); (INFO, text "d")] [] =
    ([(LInfo, text "a"); (LWarning, text "b")], RaisesRuntime) /\
  format_error MINOR (text "here") (text "p") [] (text "none") [] =
    [z2b 10] ++ text "Problem:      p" ++ [z2b 10] ++ text "Where:        here" ++ [z2b 10] ++ text "Severity:     minor" ++
    [z2b 10] ++ text "Action taken: none".
Proof. repeat split; vm_compute; reflexivity. Qed.
