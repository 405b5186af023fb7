(** Which disassembler belongs to which assembler. *)
From Coq Require Import String ZArith List Bool.
From Verif Require Import M_Char M_Error M_Text M_Dis M_DisDriver M_DisI8080 M_DisCpus.
From Verif Require M_Mos6502Defs.
Import ListNotations.
Open Scope string_scope.
Local Open Scope Z_scope.

(* [disassembler name o]: [o] is the disassembler of the family [name], for any processor of it and
   with any options *)
Inductive disassembler : string -> dops -> Prop :=
| Dis_8080 ty zilog uh uc oc rel cs ih cur msg : disassembler "i8080" (dis_8080 ty zilog uh uc oc rel cs ih cur msg)
| Dis_6800 ty uh uc oc rel cs ih cur msg : disassembler "mc6800" (dis_6800 ty uh uc oc rel cs ih cur msg)
| Dis_f8 uh uc oc rel cs ih cur msg : disassembler "f3850" (dis_f8 uh uc oc rel cs ih cur msg)
| Dis_z80 uh uc oc rel cs ih cur msg : disassembler "z80" (dis_z80 uh uc oc rel cs ih cur msg)
| Dis_6502 ty opt uh uc oc rel cs ih cur msg : ty <> M_Mos6502Defs.W65C816 ->
    disassembler "mos6502" (dis_6502 ty opt uh uc oc rel cs ih cur msg)
| Dis_65816 opt uh uc oc rel cs ih cur msg :
    disassembler "w65816" (dis_6502 M_Mos6502Defs.W65C816 opt uh uc oc rel cs ih cur msg)
| Dis_1802 ty ur uh uc oc rel cs ih cur msg : disassembler "cdp1802" (dis_1802 ty ur uh uc oc rel cs ih cur msg)
| Dis_8051 uh uc oc rel cs ih cur msg : disassembler "i8051" (dis_8051 uh uc oc rel cs ih cur msg)
| Dis_8048 ty uh uc oc rel cs ih cur msg : disassembler "i8048" (dis_8048 ty uh uc oc rel cs ih cur msg)
| Dis_32010 ty uh uc oc rel cs ih cur msg : disassembler "tms32010" (dis_32010 ty uh uc oc rel cs ih cur msg).
(* a family whose syntax has an octal notation, or numbers written as in C or in Intel's syntax *)
Definition octal_notation (name : string) (o : dops) : Prop :=
  da_octal (do_dis o) = true -> In name ["i8080"; "mc6800"; "f3850"; "z80"; "i8051"; "i8048"]%list \/
    da_cstyle (do_dis o) = true \/ da_intelhex (do_dis o) = true.
