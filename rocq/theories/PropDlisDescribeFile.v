(** C75: describe of logical and physical files. *)
From Verif Require Import Bytes Stream PyBase DlisTypes DlisRecords CommonPy DlisStore SpecDlisStore DlisStoreProofs6 DlisSchema DlisObject SpecDlisObject
  DlisClasses SpecDlisClasses PropDlisStore PropDlisObject DlisDescribe SpecDlisDescribe DlisDescribeProofs2 DlisDescribeProofs5 PropDlisDescribe DlisDescribeProofs6.
Local Open Scope Z_scope.

(** For every logical file with a header that can be read, after any queries: describe
    shows the ID of the header, or Unknown if there is not exactly one header, the number
    of frames and of channels, and then every type in the file once with the number of
    its objects, the types of RP66 apart from the others.  It changes nothing but what
    queries change.  It raises exactly if a set of objects cannot be parsed under the error
    handler, or if a type is not text in any of the encodings. *)
Theorem C75_file : forall dec enc esc set_order sets ops,
  logical_file dec enc sets -> a_set_order set_order -> Forall (op_ok dec enc) ops ->
  Forall (fun t => kept dec enc (lit t)) [text "FILE-HEADER"; text "FRAME"; text "CHANNEL"] -> header_legible dec enc esc sets ->
  (forall s, In s sets -> raising esc s = false /\ exists u, dec (os_type s) = Str u) ->
  exists ps ops' log, Forall (op_ok dec enc) ops' /\
    describe_file dec enc esc set_order (after dec enc esc set_order sets ops) = (after dec enc esc set_order sets (ops ++ ops'), (log, Ok ps)) /\
    file_summary dec enc sets ps.
Proof. exact file_described. Qed.
Print Assumptions C75_file.

Theorem C75_file_raises : forall dec enc esc set_order sets ops s,
  logical_file dec enc sets -> a_set_order set_order -> Forall (op_ok dec enc) ops ->
  Forall (fun t => kept dec enc (lit t)) [text "FILE-HEADER"; text "FRAME"; text "CHANNEL"] -> header_legible dec enc esc sets ->
  In s sets -> raising esc s = true \/ (exists u, dec (os_type s) = Raw u) ->
  snd (snd (describe_file dec enc esc set_order (after dec enc esc set_order sets ops))) = Exn.
Proof. exact file_refused. Qed.
Print Assumptions C75_file_raises.

(** the physical file: the number of its logical files, then the rows of each in order.
    Types that are not text do no harm here. *)
Theorem C75_physical : forall dec enc esc set_order (files : list (list object_set * list operation)),
  a_set_order set_order -> Forall (fun t => kept dec enc (lit t)) [text "FILE-HEADER"; text "FRAME"; text "CHANNEL"] ->
  Forall (fun f => logical_file dec enc (fst f) /\ Forall (op_ok dec enc) (snd f) /\ header_legible dec enc esc (fst f)) files ->
  let stores := map (fun f => after dec enc esc set_order (fst f) (snd f)) in
  let calm (f : list object_set * list operation) := forall s t,
    In s (fst f) -> In t [text "FILE-HEADER"; text "FRAME"; text "CHANNEL"] -> dec (os_type s) = lit t -> raising esc s = false in
  (Forall calm files -> exists files' log rows,
     Forall2 (fun f f' => fst f' = fst f /\ exists ops, Forall (op_ok dec enc) ops /\ snd f' = snd f ++ ops) files files' /\
     describe_physical dec enc esc set_order (stores files) = (stores files', (log, Ok
       (Title (lit (text "Physical File")) :: Entry (lit (text "Number of Logical Files")) (SInt (Z.of_nat (length files))) None :: concat rows))) /\
     Forall2 (fun f ps => file_rows_show dec enc (fst f) ps) files rows) /\
  (forall f, In f files -> ~ calm f -> snd (snd (describe_physical dec enc esc set_order (stores files))) = Exn).
Proof.
  exact (fun dec enc esc set_order files O K G => conj (physical_described dec enc esc set_order O K files G)
    (fun f => physical_refused dec enc esc set_order O K files f G)).
Qed.
Print Assumptions C75_physical.

(** *** The hypotheses hold of a file with a header, two frames, channels and a type of a vendor *)
Definition header10 : bytes := [xf0; x0b] ++ text "FILE-HEADER" ++ [x34; x02] ++ text "ID" ++ [x14] ++ object1' (text "H") ([x21; x04] ++ text "WELL").
Definition sets10 : list object_set := sets_of [header10; channels7; frames7; unknown7].
Lemma sets10_file : logical_file dec1 enc1 sets10.
Proof.
  split; [|split].
  - repeat (constructor; [vm_compute; reflexivity|]). constructor.
  - repeat (constructor; [vm_compute; discriminate|]). constructor.
  - apply Forall_forall. intros s _. apply kept1.
Qed.
Definition rows10 : list piece :=
  [ Entry (lit (text "Description")) (SFormat (text "LogicalFile({})") [ROne (PText (lit (text "WELL")))]) None;
    Entry (lit (text "Frames")) (SInt 3) None; Entry (lit (text "Channels")) (SInt 2) None ].
Example C75_example :
  snd (snd (describe_file dec1 enc1 quiet order1 (after dec1 enc1 quiet order1 sets10 []))) = Ok (Title (lit (text "Logical File")) :: rows10 ++
    [ Section (lit (text "Known objects")); Entry (lit (text "FILE-HEADER")) (SInt 1) None; Entry (lit (text "CHANNEL")) (SInt 2) None;
      Entry (lit (text "FRAME")) (SInt 3) None; Section (lit (text "Unknown objects")); Entry (lit (text "ODD")) (SInt 1) None ]) /\
  snd (snd (describe_physical dec1 enc1 quiet order1 [after dec1 enc1 quiet order1 sets10 []; after dec1 enc1 quiet order1 (sets_of [unknown7]) []])) = Ok
    (Title (lit (text "Physical File")) :: Entry (lit (text "Number of Logical Files")) (SInt 2) None :: rows10 ++
    [ Entry (lit (text "Description")) (SFormat (text "LogicalFile({})") [ROne (PText (lit (text "Unknown")))]) None;
      Entry (lit (text "Frames")) (SInt 0) None; Entry (lit (text "Channels")) (SInt 0) None ]).
Proof. split; vm_compute; reflexivity. Qed.
Lemma basics1 : Forall (fun t => kept dec1 enc1 (lit t)) [text "FILE-HEADER"; text "FRAME"; text "CHANNEL"].
Proof. apply Forall_forall. intros t _. apply kept1. Qed.
Lemma sets10_sound : sound_file dec1 enc1 quiet sets10.
Proof. apply sound_checked. vm_compute. reflexivity. Qed.
Lemma sets10_header : header_legible dec1 enc1 quiet sets10.
Proof.
  intros o E. change (selected dec1 (pystr_eqb (lit (text "FILE-HEADER"))) (fun _ => true) sets10) with (objects_in (nth 0 sets10 (hd (mk_set 0 [] [] [] [] [] false) sets10)) ++ []) in E.
  rewrite app_nil_r in E. assert (I : In o (objects_in (nth 0 sets10 (hd (mk_set 0 [] [] [] [] [] false) sets10)))) by (rewrite E; left; reflexivity).
  destruct (sets10_sound (nth 0 sets10 (hd (mk_set 0 [] [] [] [] [] false) sets10)) o ltac:(left; reflexivity) I) as (L & _). apply L. left.
  assert (T : objects_in (nth 0 sets10 (hd (mk_set 0 [] [] [] [] [] false) sets10)) = [nth_object sets10 0 0]) by (vm_compute; reflexivity).
  rewrite T in E. injection E as <-. vm_compute. tauto.
Qed.
Example C75_hypotheses : forall s, In s sets10 -> raising quiet s = false /\ exists u, dec1 (os_type s) = Str u.
Proof.
  intros s I. split; [|eexists; reflexivity]. assert (A : forallb (fun s => negb (raising quiet s)) sets10 = true) by (vm_compute; reflexivity).
  rewrite forallb_forall in A. apply A in I. apply negb_true_iff in I. exact I.
Qed.
Example C75_use := C75_file dec1 enc1 quiet order1 sets10 [Fileheader] sets10_file order1_ok
  (Forall_cons _ (kept1 _ : op_ok dec1 enc1 Fileheader) (Forall_nil _)) basics1 sets10_header C75_hypotheses.

(** *** Finding: describe raises for a type that is not text *)
Definition dec2 (s : bytes) : pystr := if forallb (fun b => b2z b <? 128) s then lit s else Raw s.
Theorem C75_type_refuted : exists dec enc esc set_order sets,
  logical_file dec enc sets /\ a_set_order set_order /\ sound_file dec enc esc sets /\ (forall s, In s sets -> raising esc s = false) /\
  snd (snd (load_all dec enc esc set_order (after dec enc esc set_order sets []))) = Ok tt /\
  snd (snd (describe_file dec enc esc set_order (after dec enc esc set_order sets []))) = Exn.
Proof.
  exists dec2, enc1, quiet, order1, (sets_of [[xf0; x01; xe6] ++ [x34; x05] ++ text "WHICH" ++ [x0f] ++ object1' (text "U") [x21; x07]]).
  split; [split; [|split]|split; [exact order1_ok|split; [|split; [|split]]]].
  - constructor; [vm_compute; reflexivity|constructor].
  - constructor; [vm_compute; discriminate|constructor].
  - constructor; [vm_compute; reflexivity|constructor].
  - apply sound_checked. vm_compute. reflexivity.
  - intros s [<-|[]]. vm_compute. reflexivity.
  - vm_compute. reflexivity.
  - vm_compute. reflexivity.
Qed.
Print Assumptions C75_type_refuted.
