(** Independent specification for C76 and C77: what is right use of handles. *)
From Verif Require Import Bytes LisProtocol LisIo Handles.

(** opened, and not closed yet *)
Definition still_open (tr : list event) (h : nat) : Prop := In (Opens h) tr /\ ~ In (Closes h) tr.
(** No handle is used or closed unless it is open at that moment, so none is closed
    twice; numbers are not given twice. *)
Definition disciplined (tr : list event) : Prop :=
  forall before e after, tr = before ++ e :: after ->
  match e with
  | Opens h => ~ In (Opens h) before
  | Uses h | Closes h => still_open before h
  end.
Definition all_closed (tr : list event) : Prop := forall h, ~ still_open tr h.

(** every logical file has handles of its own, and no others are open *)
Definition own_handles (tr : list event) (files : list handle) : Prop :=
  Forall (fun s => s <> []) files /\ NoDup (concat files) /\
  forall h, still_open tr h <-> In h (concat files).

(** Calls on [n] logical files *)

(** a call that closes file [i], and one that needs it *)
Definition closes (c : call) (i : nat) : Prop := c = Close i \/ c = CloseAll.
Definition needs (n : nat) (c : call) (i : nat) : Prop := (i < n)%nat /\ (c = Read i \/ closes c i).
(** no file is needed after it was closed *)
Definition careful (n : nat) (cs : list call) : Prop :=
  forall before c after i, cs = before ++ c :: after -> needs n c i -> forall c', In c' before -> ~ closes c' i.
(** the files that were not closed *)
Definition left_open (cs : list call) (i : nat) : Prop := forall c, In c cs -> ~ closes c i.

(** LIS: data records (types 0 and 1) that end in a delimiter, which is a header or
    trailer of a reel (132, 133) or tape (130, 131) or a logical end of file (137),
    before any other record *)
Definition joined (d : device) : Prop :=
  exists ix pos first, index_records d 0%Z = (DOk ix, pos) /\ ix_explicits ix = [first] /\
    In (ri_type first) [130; 131; 132; 133; 137]%Z /\ ix_implicits ix <> [].
