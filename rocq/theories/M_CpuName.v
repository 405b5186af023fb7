(** The names of processors: what every table accepts, what it prints, what the help lists, and the
    choice of the driver. *)
From Coq Require Import String ZArith List Bool.
From Verif Require Import M_Char M_Text M_Parsers.
Import ListNotations.
Open Scope string_scope.
Open Scope list_scope.
Local Open Scope Z_scope.

(* A processor is the enumerator of its CpuType.  [ct_cpus]: the rows of CPU_TABLE without the pages;
   [ct_list]: the text of listCpu_P; [ct_search]: searchCpuName, of which None is UNSUPPORTED_CPU. *)
Record cputab := mkCT { ct_name : string; ct_cpus : list (string * string); ct_list : string; ct_search : text -> option string }.

(* entry_table.h:99-106 Cpu::search(name, table, end) *)
Fixpoint cpu_search (name : text) (l : list (string * string)) : option string :=
  match l with
  | [] => None
  | (ty, n) :: l' => if iequals name (s2l n) then Some ty else cpu_search name l'
  end.
(* entry_table.h:91-97 Cpu::search(cpuType, table, end) and cpuName_P; None is the null pointer *)
Fixpoint cpu_name (ty : string) (l : list (string * string)) : option string :=
  match l with
  | [] => None
  | (u, n) :: l' => if String.eqb ty u then Some n else cpu_name ty l'
  end.
(* [a ? : b] *)
Definition or_else {A} (x y : option A) : option A := match x with Some _ => x | None => y end.
Definition is (name : text) (n : string) (ty : string) : option string := if iequals name (s2l n) then Some ty else None.
(* str_scanner.cpp:37-43: the text without the prefix when it is there *)
Definition past (prefix : string) (name : text) : text := match iexpectText (s2l prefix) name with Some t => t | None => name end.
Definition begins (name : text) (n ty : string) : option string := match iexpectText (s2l n) name with Some _ => Some ty | None => None end.

(* table_mc6800.cpp:598-604, 705-719 *)
Definition cpus_mc6800 := [("MC6800", "6800"); ("MB8861", "MB8861"); ("MC6801", "6801"); ("HD6301", "6301"); ("MC68HC11", "6811")].
Definition ct_mc6800 := mkCT "mc6800" cpus_mc6800 "MC6800, MB8861, MC6801, HD6301, MC68HC11" (fun name =>
  let p := past "MC" name in or_else (cpu_search p cpus_mc6800) (or_else (is p "68HC11" "MC68HC11") (is name "HD6301" "HD6301"))).
(* table_mc6805.cpp:260-264, 345-353 *)
Definition cpus_mc6805 := [("MC6805", "6805"); ("MC146805", "146805"); ("MC68HC05", "68HC05")].
Definition ct_mc6805 := mkCT "mc6805" cpus_mc6805 "MC6805, MC146805, MC68HC05" (fun name => cpu_search (past "MC" name) cpus_mc6805).
(* table_mc6809.cpp:639-642, 797-809 *)
Definition cpus_mc6809 := [("MC6809", "6809"); ("HD6309", "6309")].
Definition ct_mc6809 := mkCT "mc6809" cpus_mc6809 "MC6809, HD6309" (fun name =>
  or_else (cpu_search name cpus_mc6809) (or_else (is name "MC6809" "MC6809") (is name "HD6309" "HD6309"))).
(* table_mos6502.cpp:704-710, 778-802 *)
Definition cpus_mos6502 := [("MOS6502", "6502"); ("G65SC02", "65SC02"); ("R65C02", "65C02"); ("W65C02S", "W65C02S"); ("W65C816", "65816")].
Definition ct_mos6502 := mkCT "mos6502" cpus_mos6502 "MOS6502, R65C02, G65SC02, W65C02S, W65C816S" (fun name =>
  or_else (cpu_search name cpus_mos6502) (or_else (is name "MOS6502" "MOS6502") (or_else (is name "R65C02" "R65C02") (or_else (is name "G65SC02" "G65SC02")
    match iexpect 87 name with
    | Some name => or_else (is name "65C02" "W65C02S") (or_else (is name "65816" "W65C816") (or_else (is name "65C816" "W65C816") (is name "65C816S" "W65C816")))
    | None => None
    end)))).
(* table_i8048.cpp:275-282, 347-356 *)
Definition cpus_i8048 := [("I8039", "8039"); ("I80C39", "80C39"); ("MSM80C39", "MSM80C39"); ("I8048", "8048"); ("I80C48", "80C48"); ("MSM80C48", "MSM80C48")].
Definition ct_i8048 := mkCT "i8048" cpus_i8048 "i8039, i8048, i80C39, i80C48, MSM80C39, MSM80C48" (fun name => cpu_search (opt_ichar 105 name) cpus_i8048).
(* table_i8051.cpp:271-273, 333-340 *)
Definition ct_i8051 := mkCT "i8051" [("I8051", "8051")] "i8051" (fun name => is (opt_ichar 105 name) "8051" "I8051").
(* table_i8080.cpp:407-411, 519-534 *)
Definition cpus_i8080 := [("I8080", "8080"); ("I8085", "8085"); ("V30EMU", "V30EMU")].
Definition ct_i8080 := mkCT "i8080" cpus_i8080 "i8080, i8085, V30EMU" (fun name =>
  or_else (cpu_search name cpus_i8080) (let name := opt_ichar 105 name in or_else (is name "8080" "I8080") (is name "8085" "I8085"))).
(* table_z80.cpp:394-396, 501-508 *)
Definition ct_z80 := mkCT "z80" [("Z80", "Z80")] "Z80" (fun name => cpu_search name [("Z80", "Z80")]).
(* table_z8.cpp:488-492, 595-609 *)
Definition cpus_z8 := [("Z8", "Z8"); ("Z86C", "Z86C"); ("SUPER8", "Z88")].
Definition ct_z8 := mkCT "z8" cpus_z8 "Z8, Z86C, Z88" (fun name =>
  or_else (cpu_search name cpus_z8) (or_else (begins name "Z86C" "Z86C") (or_else (begins name "Z86" "Z8")
    (or_else (begins name "Z88" "SUPER8") (is name "Super8" "SUPER8"))))).
(* table_tlcs90.cpp:565-567, 697-703 *)
Definition ct_tlcs90 := mkCT "tlcs90" [("TLCS90", "TLCS90")] "TLCS90" (fun name => is name "TLCS90" "TLCS90").
(* table_ins8060.cpp:141-143, 194-201 *)
Definition ct_ins8060 := mkCT "ins8060" [("INS8060", "SC/MP")] "INS8060" (fun name =>
  or_else (is name "SC/MP" "INS8060") (or_else (is name "INS8060" "INS8060") (is name "8060" "INS8060"))).
(* table_ins8070.cpp:193-195, 275-281 *)
Definition ct_ins8070 := mkCT "ins8070" [("INS8070", "8070")] "INS8070" (fun name =>
  or_else (is name "INS8070" "INS8070") (is name "8070" "INS8070")).
(* table_cdp1802.cpp:317-321, 379-387 *)
Definition cpus_cdp1802 := [("CDP1802", "1802"); ("CDP1804", "1804"); ("CDP1804A", "1804A")].
Definition ct_cdp1802 := mkCT "cdp1802" cpus_cdp1802 "CDP1802, CDP1804, CDP1804A" (fun name => cpu_search (past "CDP" name) cpus_cdp1802).
(* table_scn2650.cpp:217-219, 291-297 *)
Definition ct_scn2650 := mkCT "scn2650" [("SCN2650", "2650")] "SCN2650" (fun name => or_else (is name "2650" "SCN2650") (is name "SCN2650" "SCN2650")).
(* table_f3850.cpp:201-203, 266-272 *)
Definition ct_f3850 := mkCT "f3850" [("F3850", "3850")] "F3850" (fun name => or_else (is name "3850" "F3850") (is name "F3850" "F3850")).
(* table_pdp8.cpp:388-391, 446-456 *)
Definition ct_pdp8 := mkCT "pdp8" [("IM6100", "6100"); ("HD6120", "6120")] "IM6100, HD6120" (fun name =>
  or_else (is name "6100" "IM6100") (or_else (is name "IM6100" "IM6100") (or_else (is name "6120" "HD6120") (is name "HD6120" "HD6120")))).
(* table_tms7000.cpp:472-474, 536-542 *)
Definition ct_tms7000 := mkCT "tms7000" [("TMS7000", "TMS7000")] "TMS7000" (fun name => or_else (is name "TMS7000" "TMS7000") (is name "TMS70C00" "TMS7000")).
(* table_tms32010.cpp:169-172, 265-275 *)
Definition ct_tms32010 := mkCT "tms32010" [("TMS32010", "32010"); ("TMS32015", "32015")] "TMS32010, TMS32015" (fun name =>
  let name := past "TMS" name in or_else (is name "32010" "TMS32010") (is name "32015" "TMS32015")).
(* table_i8086.cpp:1208-1212, 1418-1433 *)
Definition cpus_i8086 := [("I8086", "8086"); ("I80186", "80186"); ("V30", "V30")].
Definition ct_i8086 := mkCT "i8086" cpus_i8086 "i8086, i80186, V30" (fun name =>
  or_else (cpu_search name cpus_i8086) (let name := opt_ichar 105 name in or_else (is name "8086" "I8086") (is name "80186" "I80186"))).
(* table_i8096.cpp:265-267, 341-348 *)
Definition ct_i8096 := mkCT "i8096" [("I8096", "8096")] "i8096" (fun name => is (opt_ichar 105 name) "8096" "I8096").
(* table_mc68000.cpp:1252-1255, 1479-1487 *)
Definition cpus_mc68000 := [("MC68000", "68000"); ("MC68010", "68010")].
Definition ct_mc68000 := mkCT "mc68000" cpus_mc68000 "MC68000, MC68010" (fun name => cpu_search (past "MC" name) cpus_mc68000).
(* table_tms9900.cpp:289-295, 369-377 *)
Definition cpus_tms9900 := [("TMS9900", "9900"); ("TMS9980", "9980"); ("TMS9995", "9995"); ("TMS99105", "99105"); ("TMS99110", "99110")].
Definition ct_tms9900 := mkCT "tms9900" cpus_tms9900 "TMS9900, TMS9980, TMS9995, TMS99105, TMS99110" (fun name => cpu_search (past "TMS" name) cpus_tms9900).
(* table_z8000.cpp:521-524, 603-610 *)
Definition cpus_z8000 := [("Z8001", "Z8001"); ("Z8002", "Z8002")].
Definition ct_z8000 := mkCT "z8000" cpus_z8000 "Z8001, Z8002" (fun name => cpu_search name cpus_z8000).
(* table_ns32000.cpp:897-899, 1010-1016 *)
Definition ct_ns32000 := mkCT "ns32000" [("NS32032", "32032")] "NS32032" (fun name => or_else (is name "NS32032" "NS32032") (is name "32032" "NS32032")).
(* table_mn1610.cpp:285-289, 443-457 *)
Definition cpus_mn1610 := [("MN1610", "MN1610"); ("MN1613", "MN1613"); ("MN1613A", "MN1613A")].
Definition ct_mn1610 := mkCT "mn1610" cpus_mn1610 "MN1610, MN1613, MN1613A" (fun name =>
  or_else (cpu_search name cpus_mn1610) (or_else (is name "1610" "MN1610") (or_else (is name "1613" "MN1613") (is name "1613A" "MN1613A")))).
(* table_pdp11.cpp:368-371, 436-451 *)
Definition cpus_pdp11 := [("J11", "J11"); ("T11", "T11")].
Definition ct_pdp11 := mkCT "pdp11" cpus_pdp11 "J11, T11" (fun name =>
  or_else (cpu_search name cpus_pdp11) (or_else (is name "DCJ11" "J11") (is name "DCT11" "T11"))).

(* cli/asm.cpp:104-131, and cli/dis.cpp in the same order *)
Definition commander : list cputab := [ct_mc6800; ct_mc6805; ct_mc6809; ct_mos6502; ct_i8048; ct_i8051; ct_i8080; ct_z80; ct_z8;
  ct_tlcs90; ct_ins8060; ct_ins8070; ct_cdp1802; ct_scn2650; ct_f3850; ct_pdp8; ct_tms7000; ct_tms32010; ct_i8086; ct_i8096;
  ct_mc68000; ct_tms9900; ct_z8000; ct_ns32000; ct_mn1610; ct_pdp11].
(* asm_driver.cpp:74-84, dis_driver.cpp:67-73 setCpu: the first table to know the name, and the
   processor it chooses there *)
Fixpoint choose (l : list cputab) (name : text) : option (string * string) :=
  match l with
  | [] => None
  | t :: l' => match ct_search t name with Some ty => Some (ct_name t, ty) | None => choose l' name end
  end.
(* asm_driver.cpp:46-58 filter: the text cut at commas, the blanks after them skipped (here also at the
   start, where no list has any) *)
Fixpoint cut_list (acc : text) (l : text) : list text :=
  match l with
  | [] => match acc with [] => [] | _ => [rev acc] end
  | c :: l' => if c =? 44 then rev acc :: cut_list [] l' else if (c =? 32) && Nat.eqb (length acc) 0 then cut_list acc l' else cut_list (c :: acc) l'
  end.
(* asm_driver.cpp:41-44 appendTo, 63-72 listCpu *)
Fixpoint append_to (names : list text) (out : list text) : list text :=
  match names with
  | [] => out
  | n :: names' => append_to names' (if existsb (fun m => if list_eq_dec Z.eq_dec n m then true else false) out then out else out ++ [n])
  end.
Fixpoint list_cpu (l : list cputab) (out : list text) : list text :=
  match l with
  | [] => out
  | t :: l' => list_cpu l' (append_to (cut_list [] (s2l (ct_list t))) out)
  end.
