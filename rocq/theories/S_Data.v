(** The data, space and origin directives of the assemblers, as a programmer knows them: what each
    target's directives are called, its byte order, the bytes at an address and the address bits. *)
From Coq Require Import ZArith String List Bool.
From Verif Require Import M_Directive.
Import ListNotations.
Open Scope string_scope.
Open Scope list_scope.
Local Open Scope Z_scope.

(* data of a type, starting at an even address or anywhere; space for elements of a type; strings
   between delimiters; the origin; alignment to a multiple of the operand, and to an even address *)
Inductive meaning := Data (ty : dtype) (even : bool) | Space (ty : dtype) (even : bool) | Strings | Origin | Align | Even.
Record manual := mkMan { m_big : bool; m_unit : Z; m_bits : Z; m_words : list (string * meaning) }.
Definition anywhere := [("ORG", Origin); ("ALIGN", Align)].
Definition bytes ws := map (fun w : string => (w, Data DATA_BYTE false)) ws.
Definition words ws := map (fun w : string => (w, Data DATA_WORD false)) ws.
Definition space ws := map (fun w : string => (w, Space DATA_BYTE false)) ws.
Definition intel := bytes ["DB"] ++ words ["DW"] ++ space ["DS"] ++ anywhere.
Definition zilog := intel ++ bytes ["DEFB"; "DEFM"] ++ words ["DEFW"] ++ space ["DEFS"].
Definition motorola := [("FCB", Data DATA_BYTE_NO_STRING false); ("FDB", Data DATA_WORD_NO_STRING false); ("FCC", Strings)] ++
  space ["RMB"] ++ anywhere.
Definition national := bytes [".BYTE"; ".ASCII"] ++ words [".DBYTE"] ++ anywhere.
Definition texas := bytes ["BYTE"; "TEXT"] ++ space ["BSS"] ++ [("AORG", Origin); ("EVEN", Even)] ++ anywhere.
Definition z8000 := bytes ["BYTE"; "STRING"] ++ [("WORD", Data DATA_WORD true); ("LONG", Data DATA_LONG true)] ++ anywhere.
Definition m65 := bytes [".BYTE"; "FCB"] ++ words [".WORD"] ++ [("FDB", Data DATA_WORD_NO_STRING false); ("FCC", Strings); (".ALIGN", Align)] ++
  space ["RMB"] ++ anywhere.
Definition panafacom := [("DS", Space DATA_WORD false); ("LOC", Origin)] ++ anywhere.
Definition z8 := intel ++ [("DL", Data DATA_LONG false)].
Definition big := true.
Definition little := false.

Definition manuals : list (string * manual) := [
  ("cdp1802", mkMan big 1 16 ([("DC", Data DATA_BYTE_OR_WORD false)] ++ anywhere));
  ("f3850", mkMan big 1 16 ([("DC", Data DATA_BYTE_OR_WORD false)] ++ words ["DA"] ++ space ["RS"] ++ anywhere));
  ("i8048", mkMan big 1 12 intel);
  ("i8051", mkMan big 1 16 intel);
  ("i8080", mkMan little 1 16 zilog);
  ("i8086", mkMan little 1 20 (intel ++ space ["RESB"] ++ [("RESW", Space DATA_WORD false); ("RESD", Space DATA_LONG false)]));
  ("i8096", mkMan little 1 16 (bytes ["DCB"] ++ words ["DCW"] ++ [("DCL", Data DATA_LONG false)] ++ space ["DSB"] ++
     [("DSW", Space DATA_WORD false); ("DSL", Space DATA_LONG false)] ++ anywhere));
  ("ins8060", mkMan little 1 16 national);
  ("ins8070", mkMan little 1 16 national);
  ("mc6800", mkMan big 1 16 motorola);
  ("mc68000", mkMan big 1 24 (bytes ["DC.B"] ++ [("DC", Data DATA_WORD true); ("DC.W", Data DATA_WORD true); ("DC.L", Data DATA_LONG true);
     ("DS.W", Space DATA_WORD true); ("DS.L", Space DATA_LONG true); (".ALIGN", Align)] ++ space ["DS"; "DS.B"] ++ anywhere));
  ("mc6805", mkMan big 1 13 motorola);
  ("mc6809", mkMan big 1 16 motorola);
  ("mn1610", mkMan big 2 16 panafacom);
  ("mn1613", mkMan big 2 18 panafacom);
  ("mos6502", mkMan little 1 16 m65);
  ("w65816", mkMan little 1 24 m65);
  ("ns32000", mkMan little 1 24 (bytes [".BYTE"; ".ASCII"] ++ words [".WORD"] ++ [(".DOUBLE", Data DATA_LONG false);
     (".BLKW", Space DATA_WORD false); (".BLKD", Space DATA_LONG false); (".ORG", Origin); (".ALIGN", Align)] ++ space [".BLKB"; ".SPACE"] ++ anywhere));
  ("scn2650", mkMan big 1 15 (bytes ["DATA"; "ALIT"] ++ words ["ACON"] ++ space ["RES"] ++ anywhere));
  ("tlcs90", mkMan little 1 16 (intel ++ [("DL", Data DATA_LONG false)]));
  ("tms32010", mkMan little 2 12 (words [".WORD"; ".STRING"] ++ [(".BYTE", Data DATA_BYTE_IN_WORD false); (".LONG", Data DATA_LONG false);
     (".ORG", Origin); (".ALIGN", Align); (".EVEN", Even)] ++ anywhere));
  ("tms7000", mkMan big 1 16 (words ["DATA"] ++ texas));
  ("tms9900", mkMan big 1 16 (("DATA", Data DATA_WORD true) :: texas));
  ("tms9980", mkMan big 1 14 (("DATA", Data DATA_WORD true) :: texas));
  ("z8", mkMan big 1 16 z8);
  ("super8", mkMan big 1 16 z8);
  ("z80", mkMan little 1 16 (zilog ++ [("DL", Data DATA_LONG false)]));
  ("z8001", mkMan big 1 23 z8000);
  ("z8002", mkMan big 1 16 z8000)].
