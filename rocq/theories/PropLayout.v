(** C85: describe lays out what it says within the width. *)
From Verif Require Import Bytes Stream DlisRecords CommonPy DlisStore DlisObject DlisLayout SpecLayout LayoutProofs.
From Verif Require DlisDescribe.
From Coq Require Import Lia.
Local Open Scope Z_scope.

Section C85.
Variable split : ustr -> list ustr.
Variable break_at : ustr -> Z -> Z.
Hypothesis splits_ok : splits split.
Hypothesis breaks_ok : breaks break_at.

(** Descriptions end, and are what they should be, for every positive width, every indent
    and every document, as long as no text that starts with white space is left without
    any room. *)
Theorem C85_layout_partial width indent doc :
  0 < width -> Forall (block_wrappable width indent) doc ->
  exists out, document_as width indent doc out /\
    exists enough, forall fuel, (enough <= fuel)%nat -> describe_blocks split break_at fuel width indent doc = Ok out.
Proof. apply (document_ok split break_at splits_ok breaks_ok). Qed.

(** No line is longer than the width if there is room behind the captions. *)
Theorem C85_width width indent doc fuel out :
  0 < width -> Forall (block_fits width indent) doc ->
  describe_blocks split break_at fuel width indent doc = Ok out -> in_lines width out.
Proof.
  intros W F H.
  destruct (C85_layout_partial width indent doc W) as (o & D & enough & E).
  { eapply Forall_impl; [|exact F]. apply fits_wrappable. }
  assert (o = out); [|subst; eapply document_lines; eassumption].
  pose proof (E (Nat.max enough fuel) ltac:(lia)) as G.
  pose proof (describe_blocks_more split break_at width indent doc fuel (Nat.max enough fuel) out ltac:(lia) H) as K.
  rewrite K in G. injection G as <-. easy.
Qed.

(** What is to be seen does not depend on the width, nor on an indent of white space, nor
    on how textwrap breaks lines; and all of it is there, in order. *)
Theorem C85_ink width indent doc fuel out :
  0 < width -> ink indent = [] -> Forall (block_wrappable width indent) doc -> Forall block_visible doc ->
  describe_blocks split break_at fuel width indent doc = Ok out -> ink out = concat (map block_ink doc).
Proof.
  intros W I F V H.
  destruct (C85_layout_partial width indent doc W F) as (o & D & enough & E).
  assert (o = out); [|subst; eapply document_ink; eassumption].
  pose proof (E (Nat.max enough fuel) ltac:(lia)) as G.
  pose proof (describe_blocks_more split break_at width indent doc fuel (Nat.max enough fuel) out ltac:(lia) H) as K.
  rewrite K in G. injection G as <-. easy.
Qed.

(** So describe shows the pieces it writes according to C74 and C75, whatever tables they
    are in. *)
Theorem C85_pieces name_text value_text pieces width indent doc fuel out :
  document_of name_text value_text pieces doc ->
  0 < width -> ink indent = [] -> Forall (block_wrappable width indent) doc -> Forall block_visible doc ->
  describe_blocks split break_at fuel width indent doc = Ok out -> ink out = concat (map (piece_ink name_text value_text) pieces).
Proof.
  intros D W I F V H. rewrite <- (document_of_ink _ _ _ _ D). eapply C85_ink; eassumption.
Qed.

(** A width that is not positive is an exception. *)
Theorem C85_invalid width indent t doc fuel : width <= 0 -> describe_blocks split break_at fuel width indent (Title t :: doc) = Exn.
Proof.
  intro W. cbn. unfold describe_header1, describe_text, wrap. replace (width <=? 0) with true by (symmetry; apply Z.leb_le; exact W). easy.
Qed.

(** Finding: describe never ends if the width is less than what a line starts with and
    the text starts with white space. *)
Theorem C85_hang_refuted width indent t u doc fuel :
  0 < width -> ascii_space t = true -> 
  width < Z.of_nat (length indent) -> describe_blocks split break_at fuel width indent (Text (t :: u) :: doc) = Fuel.
Proof.
  intros W S L. cbn. unfold describe_text. cbv zeta. cbn [app units_text].
  rewrite (hangs split break_at splits_ok width indent indent t _ W L S). easy.
Qed.
(** the same for the value behind a caption *)
Theorem C85_hang_row_refuted width indent caption t u units doc d fuel :
  0 < width -> ascii_space t = true ->
  width < Z.of_nat (length (indent ++ caption_text (widest (map (fun r => fst (fst r)) ((caption, One (t :: u), units) :: d))) caption)) ->
  describe_blocks split break_at fuel width indent (Table ((caption, One (t :: u), units) :: d) :: doc) = Fuel.
Proof.
  intros W S L. cbn [describe_blocks describe_block describe_dict describe_rows]. rewrite longest_widest.
  set (n := widest _) in *. unfold describe_row. cbv zeta. change (prefix n indent caption) with (indent ++ caption_text n caption).
  unfold describe_text. cbv zeta. cbn [app]. rewrite (hangs split break_at splits_ok width _ _ t _ W L S). easy.
Qed.

(** Finding: of a value of white space not even the caption is written, only an empty
    line, though an empty text is written as "". *)
Theorem C85_lost_refuted width indent caption t :
  0 < width -> Z.of_nat (length (indent ++ caption_text (length caption) caption)) <= width ->
  t <> [] -> forallb ascii_space t = true ->
  exists enough, forall fuel, (enough <= fuel)%nat ->
    describe_blocks split break_at fuel width indent [Table [(caption, One t, [])]] = Ok [10; 10].
Proof.
  intros W L N S. destruct (blank_row split break_at splits_ok breaks_ok width indent (length caption) caption t W L N S) as (n & E).
  exists n. intros fuel F. cbn [describe_blocks describe_block describe_dict describe_rows]. rewrite longest_widest.
  replace (widest _) with (length caption) by (cbn; lia). rewrite E by exact F. easy.
Qed.
End C85.

(** ** Examples *)

(** blanks and words *)
Fixpoint runs (u : ustr) : list ustr :=
  match u with
  | [] => []
  | c :: t =>
      match runs t with
      | (d :: w) :: ds => if Bool.eqb (c =? 32) (d =? 32) then (c :: d :: w) :: ds else [c] :: (d :: w) :: ds
      | _ => [[c]]
      end
  end.
Lemma runs_ok : splits runs.
Proof.
  intro u. assert (H : concat (runs u) = u /\ ~ In [] (runs u) /\
    Forall (fun c => (forall x, In x c -> x = 32) \/ ~ In 32 c) (runs u) /\ apart (runs u)).
  { induction u as [|c u (A & B & C & D)]; [cbn; repeat split; auto|]. cbn [runs].
    destruct (runs u) as [|[|d w] ds].
    - cbn in A. subst u. cbn. repeat split; auto; [intros [X|X]; easy|]. constructor; [|constructor].
      destruct (Z.eq_dec c 32) as [->|N]; [left; intros x [X|X]; easy|right; intros [X|X]; easy].
    - exfalso. apply B. left. easy.
    - destruct (Bool.eqb (c =? 32) (d =? 32)) eqn:E.
      + apply eqb_prop in E. split; [cbn in *; f_equal; exact A|]. split; [intros [X|X]; [easy|apply B; right; exact X]|].
        inversion C as [|? ? C1 C2]; subst. split.
        * constructor; [|exact C2]. destruct C1 as [C1|C1].
          -- left. intros x [<-|X]; [|apply C1; exact X]. rewrite (C1 d (or_introl eq_refl)) in E. cbn in E. apply Z.eqb_eq. exact E.
          -- right. intros [->|X]; [|apply C1; exact X]. cbn in E. symmetry in E. apply Z.eqb_eq in E. apply C1. left. easy.
        * destruct ds as [|e ds]; [easy|]. cbn in D |- *. destruct D as [D1 D2]. split; [|exact D2].
          intros [X Y]. apply D1. split; [|exact Y]. destruct X as [->|X]; [|exact X]. cbn in E. symmetry in E. apply Z.eqb_eq in E. left. exact E.
      + split; [cbn in *; f_equal; exact A|]. split; [intros [X|X]; [easy|apply B; exact X]|]. split.
        * constructor; [|exact C]. destruct (Z.eq_dec c 32) as [->|N]; [left; intros x [X|X]; easy|right; intros [X|X]; easy].
        * cbn [apart]. split; [|exact D]. intros [[X|X] Y]; [|easy]. subst c. cbn in E.
          inversion C as [|? ? C1 C2]; subst. destruct C1 as [C1|C1]; [|easy]. rewrite (C1 d (or_introl eq_refl)) in E. easy. }
  destruct H as (A & B & C & D). split; [exact A|]. split; [exact B|]. split; [|exact D].
  intros c x X Y Z. rewrite Forall_forall in C. destruct (C c X) as [F|F]; [apply F; exact Z|easy].
Qed.
Definition at_end (c : ustr) (left : Z) : Z := left.
Lemma at_end_ok : breaks at_end.
Proof. split; [easy|]. unfold at_end. intros. lia. Qed.

Definition example : list block :=
  [ Title (chars (text "Channel"));
    Table [ (chars (text "name"), One (chars (text "TDEP")), []); (chars (text "origin"), One (chars (text "2")), []) ];
    Table [ (chars (text "Description"), One (chars (text "depth of the tool below the rig")), []);
            (chars (text "Spacing"), Row [chars (text "0.5"); chars (text "10")], chars (text "m")) ];
    Text (chars (text "Frame has no channels")) ].
Definition lf : bytes := [x0a].
Example C85_example :
  describe_blocks runs at_end 100 30 (chars (text "  ")) example = Ok (chars (
    text "  -------" ++ lf ++ text "  Channel" ++ lf ++ text "  -------" ++ lf ++
    text "  name   : TDEP" ++ lf ++ text "  origin : 2" ++ lf ++ lf ++
    text "  Description : depth of the" ++ lf ++ text "                tool below the" ++ lf ++ text "                rig" ++ lf ++
    text "  Spacing     : 0.5 10  [m]" ++ lf ++ lf ++ text "  Frame has no channels" ++ lf)).
Proof. vm_compute. reflexivity. Qed.
Example C85_hypotheses :
  Forall (block_wrappable 30 (chars (text "  "))) example /\ Forall (block_fits 30 (chars (text "  "))) example /\
  Forall block_visible example /\ ink (chars (text "  ")) = [].
Proof.
  assert (F : Forall (block_fits 30 (chars (text "  "))) example).
  { repeat constructor; cbn; lia. }
  split; [eapply Forall_impl; [|exact F]; apply fits_wrappable|]. split; [exact F|]. split; [|reflexivity].
  repeat constructor; cbn; discriminate.
Qed.
(** what describe writes of an object without attributes, as a document *)
Definition of_name (s : pystr) : ustr := match s with Str u => u | Raw b => chars b end.
Definition of_value (v : DlisDescribe.shown) : content :=
  match v with DlisDescribe.SResult (ROne (PText s)) => One (of_name s) | DlisDescribe.SInt n => One (chars (text "2")) | _ => Row [] end.
Definition pieces_example : list DlisDescribe.piece :=
  [ DlisDescribe.Title (lit (text "Channel"));
    DlisDescribe.Entry (lit (text "name")) (DlisDescribe.SResult (ROne (PText (lit (text "TDEP"))))) None;
    DlisDescribe.Entry (lit (text "origin")) (DlisDescribe.SInt 2) None ].
Example C85_pieces_example :
  document_of of_name of_value pieces_example (firstn 2 example) /\
  concat (map (piece_ink of_name of_value) pieces_example) = chars (text "-------Channel-------name:TDEPorigin:2").
Proof.
  split; [|vm_compute; reflexivity]. apply doc_title.
  exact (doc_table of_name of_value
    [ (lit (text "name"), DlisDescribe.SResult (ROne (PText (lit (text "TDEP")))), None);
      (lit (text "origin"), DlisDescribe.SInt 2, None) ] [] [] (doc_nil _ _)).
Qed.
(** no room at all: one character for each line *)
Example C85_narrow :
  describe_blocks runs at_end 100 3 [] [Table [(chars (text "Units"), One (chars (text "0.1 in")), [])]] = Ok (chars (
    text "Units : 0" ++ lf ++ text "        ." ++ lf ++ text "        1" ++ lf ++ text "        i" ++ lf ++ text "        n" ++ lf ++ lf)).
Proof. vm_compute. reflexivity. Qed.
(** the findings: names of blanks, and lists of texts of which the first one is empty *)
Example C85_lost_example :
  describe_blocks runs at_end 100 80 [] [Table [(chars (text "Parts"), Row [[]; []], []); (chars (text "name"), One (chars (text " ")), []); (chars (text "Status"), One [], [])]]
  = Ok (chars (lf ++ lf ++ text "Status : """"" ++ lf ++ lf)).
Proof. vm_compute. reflexivity. Qed.
Example C85_hang_example : describe_blocks runs at_end 1000 8 [] [Table [(chars (text "Parts"), Row [[]; chars (text "X")], [])]] <> Fuel
  /\ describe_blocks runs at_end 1000 7 [] [Table [(chars (text "Parts"), Row [[]; chars (text "X")], [])]] = Fuel.
Proof. split; vm_compute; [discriminate|reflexivity]. Qed.

Print Assumptions C85_layout_partial.
Print Assumptions C85_width.
Print Assumptions C85_ink.
Print Assumptions C85_pieces.
Print Assumptions C85_invalid.
Print Assumptions C85_hang_refuted.
Print Assumptions C85_hang_row_refuted.
Print Assumptions C85_lost_refuted.
