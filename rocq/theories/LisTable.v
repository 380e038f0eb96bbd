(** Model of InformationRecord.table() and table_name() with mnemonics that may not
    decode (python/dlisio/lis/information_record.py). *)
From Verif Require Import Bytes DlisTypes Stream DlisRecords LisTypes LisProtocol LisPy LisInfo CommonPy.
Local Open Scope Z_scope.

Section Decoding.
(** how the strings of the file are decoded (C60); what does not decode is bytes *)
Variable dec : bytes -> CommonPy.pystr.

Definition is_text (b : bytes) : bool := match dec b with Str _ => true | Raw _ => false end.
Definition text_of (b : bytes) : list Z := match dec b with Str u => u | Raw _ => [] end.
(** information_record.py 93-186.  [LisInfo.info_table] is the method for mnemonics that
    are text; np.dtype (172-175) refuses a column whose name is bytes. *)
Definition table_method (cs : list component_block) (simple : bool) : res table :=
  let! t := info_table text_of cs simple in
  if forallb (fun c => is_text (cb_mnemonic c)) (tl cs) then Ok t else Exn.
End Decoding.
