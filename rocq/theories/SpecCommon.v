(** Independent specification for C60 and C61: UTF-8 text, and what it means for a
    handler to respond to problems. *)
From Verif Require Import Bytes Stream.
Local Open Scope Z_scope.

(** ** UTF-8 (RFC 3629) *)

(** Unicode scalar values *)
Definition scalar (c : Z) : Prop := 0 <= c <= 0x10FFFF /\ ~ (0xD800 <= c <= 0xDFFF).
(** the bytes of a character: the shortest form *)
Definition enc_char (c : Z) : bytes :=
  if c <? 0x80 then [z2b c]
  else if c <? 0x800 then [z2b (0xC0 + c / 64); z2b (0x80 + c mod 64)]
  else if c <? 0x10000 then
    [z2b (0xE0 + c / 4096); z2b (0x80 + c / 64 mod 64); z2b (0x80 + c mod 64)]
  else
    [z2b (0xF0 + c / 262144); z2b (0x80 + c / 4096 mod 64); z2b (0x80 + c / 64 mod 64);
     z2b (0x80 + c mod 64)].
(** [s] is the text [u] *)
Definition utf8_text (u : list Z) (s : bytes) : Prop := Forall scalar u /\ s = flat_map enc_char u.

Definition no_nul (s : bytes) : Prop := ~ In x00 s.

(** ** Responding to problems *)

Section respond.
Variables message world failure : Type.
(** what the user's four actions do, by severity: the new world, and the
    exception if they raise one *)
Variable act : severity -> message -> world -> world * option failure.

(** the problems are handed, in order, each to the action for its severity, up to
    and including the first one whose action raises *)
Inductive responds : list (severity * message) -> world -> world -> option failure -> Prop :=
| rp_done w : responds [] w w None
| rp_goes_on s m w w1 rest w2 o :
    act s m w = (w1, None) -> responds rest w1 w2 o -> responds ((s, m) :: rest) w w2 o
| rp_stops s m w w1 f rest :
    act s m w = (w1, Some f) -> responds ((s, m) :: rest) w w1 (Some f).
End respond.
