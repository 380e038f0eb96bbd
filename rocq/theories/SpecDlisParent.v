(** The frame of a channel, for every list of channels that can be read: what a frame
    lists, and whether it names a channel of the file. *)
From Verif Require Import Bytes Stream PyBase DlisTypes DlisRecords CommonPy DlisStore SpecDlisStore DlisSchema DlisObject SpecDlisObject.
Local Open Scope Z_scope.

Section parent.
Variable dec : bytes -> pystr.
Variable enc : pystr -> bytes.
Variable esc : severity -> bool.
Variable sets : list object_set.

(** an entry of the list of channels of a frame, of whatever kind *)
Definition entry_of (f : object) (v : value) : Prop :=
  exists c vs lg, stored enc f (lit (text "CHANNELS")) c vs lg /\ In v vs.
(** it is the name of a channel of which the file has one, or several that are the same *)
Definition resolves (v : value) : Prop := exists n o, v = VName n /\ the_object dec sets (lit (text "CHANNEL")) n o.
(** the list of channels can be read *)
Definition frame_readable (f : object) : Prop :=
  calm dec enc esc f (obj_log f) /\
  forall c vs lg, stored enc f (lit (text "CHANNELS")) c vs lg ->
    calm dec enc esc f lg /\ Forall (readable dec enc esc sets (Some (ToName (lit (text "CHANNEL"))))) vs.
End parent.
