(** The processors and the names they go by, written by hand. *)
From Coq Require Import String ZArith List Bool.
From Verif Require Import M_Char M_Text S_Table.
Import ListNotations.
Open Scope string_scope.
Open Scope list_scope.
Local Open Scope Z_scope.

(* family, processor, its names: the number alone, the number with the letters of its maker *)
Definition processors : list (string * string * list string) := [
  ("mc6800", "MC6800", ["6800"; "MC6800"]);
  ("mc6800", "MB8861", ["MB8861"; "MCMB8861"]);
  ("mc6800", "MC6801", ["6801"; "MC6801"]);
  ("mc6800", "HD6301", ["6301"; "HD6301"; "MC6301"]);
  ("mc6800", "MC68HC11", ["6811"; "68HC11"; "MC6811"; "MC68HC11"]);
  ("mc6805", "MC6805", ["6805"; "MC6805"]);
  ("mc6805", "MC146805", ["146805"; "MC146805"]);
  ("mc6805", "MC68HC05", ["68HC05"; "MC68HC05"]);
  ("mc6809", "MC6809", ["6809"; "MC6809"]);
  ("mc6809", "HD6309", ["6309"; "HD6309"]);
  ("mos6502", "MOS6502", ["6502"; "MOS6502"]);
  ("mos6502", "G65SC02", ["65SC02"; "G65SC02"]);
  ("mos6502", "R65C02", ["65C02"; "R65C02"]);
  ("mos6502", "W65C02S", ["W65C02S"; "W65C02"]);
  ("mos6502", "W65C816", ["65816"; "W65816"; "W65C816"; "W65C816S"]);
  ("i8048", "I8039", ["8039"; "i8039"]);
  ("i8048", "I80C39", ["80C39"; "i80C39"]);
  ("i8048", "MSM80C39", ["MSM80C39"; "iMSM80C39"]);
  ("i8048", "I8048", ["8048"; "i8048"]);
  ("i8048", "I80C48", ["80C48"; "i80C48"]);
  ("i8048", "MSM80C48", ["MSM80C48"; "iMSM80C48"]);
  ("i8051", "I8051", ["8051"; "i8051"]);
  ("i8080", "I8080", ["8080"; "i8080"]);
  ("i8080", "I8085", ["8085"; "i8085"]);
  ("i8080", "V30EMU", ["V30EMU"]);
  ("z80", "Z80", ["Z80"]);
  ("z8", "Z8", ["Z8"]);
  ("z8", "Z86C", ["Z86C"]);
  ("z8", "SUPER8", ["Z88"; "Super8"]);
  ("tlcs90", "TLCS90", ["TLCS90"]);
  ("ins8060", "INS8060", ["SC/MP"; "INS8060"; "8060"]);
  ("ins8070", "INS8070", ["8070"; "INS8070"]);
  ("cdp1802", "CDP1802", ["1802"; "CDP1802"]);
  ("cdp1802", "CDP1804", ["1804"; "CDP1804"]);
  ("cdp1802", "CDP1804A", ["1804A"; "CDP1804A"]);
  ("scn2650", "SCN2650", ["2650"; "SCN2650"]);
  ("f3850", "F3850", ["3850"; "F3850"]);
  ("pdp8", "IM6100", ["6100"; "IM6100"]);
  ("pdp8", "HD6120", ["6120"; "HD6120"]);
  ("tms7000", "TMS7000", ["TMS7000"; "TMS70C00"]);
  ("tms32010", "TMS32010", ["32010"; "TMS32010"]);
  ("tms32010", "TMS32015", ["32015"; "TMS32015"]);
  ("i8086", "I8086", ["8086"; "i8086"]);
  ("i8086", "I80186", ["80186"; "i80186"]);
  ("i8086", "V30", ["V30"]);
  ("i8096", "I8096", ["8096"; "i8096"]);
  ("mc68000", "MC68000", ["68000"; "MC68000"]);
  ("mc68000", "MC68010", ["68010"; "MC68010"]);
  ("tms9900", "TMS9900", ["9900"; "TMS9900"]);
  ("tms9900", "TMS9980", ["9980"; "TMS9980"]);
  ("tms9900", "TMS9995", ["9995"; "TMS9995"]);
  ("tms9900", "TMS99105", ["99105"; "TMS99105"]);
  ("tms9900", "TMS99110", ["99110"; "TMS99110"]);
  ("z8000", "Z8001", ["Z8001"]);
  ("z8000", "Z8002", ["Z8002"]);
  ("ns32000", "NS32032", ["32032"; "NS32032"]);
  ("mn1610", "MN1610", ["1610"; "MN1610"]);
  ("mn1610", "MN1613", ["1613"; "MN1613"]);
  ("mn1610", "MN1613A", ["1613A"; "MN1613A"]);
  ("pdp11", "J11", ["J11"; "DCJ11"]);
  ("pdp11", "T11", ["T11"; "DCT11"])].
(* the parts of the Z8 family have many numbers: whatever begins with one of these, the longest counts *)
Definition z8_parts : list (string * string) := [("Z86C", "Z86C"); ("Z86", "Z8"); ("Z88", "SUPER8")].

(* [w] names the processor [ty] of the family [fam] *)
Definition named (w : text) (fam ty : string) : Prop :=
  (exists names n, In (fam, ty, names) processors /\ In n names /\ same_name w (s2l n)) \/
  (fam = "z8" /\ exists n rest v, w = v ++ rest /\ same_name v (s2l n) /\ In (n, ty) z8_parts /\
     forall n' ty' v' rest', In (n', ty') z8_parts -> w = v' ++ rest' -> same_name v' (s2l n') -> (length v' <= length v)%nat).
