-Q theories Verif
theories/M_Map.v
theories/M_BinMemory.v
theories/S_ByteMap.v
theories/S_Memory.v
theories/P_BinMemory.v
theories/P_BinRange.v
theories/Prop_Memory.v
theories/M_Char.v
theories/M_HexFile.v
theories/M_Commander.v
theories/S_HexFile.v
theories/P_HexFile.v
theories/P_HexRound.v
theories/P_HexProps.v
theories/Prop_HexFile.v
theories/M_Error.v
theories/M_Value.v
theories/M_Operators.v
theories/S_Value.v
theories/P_Value.v
theories/P_Operators.v
theories/Prop_Value.v
theories/M_Text.v
theories/M_StrBuffer.v
theories/M_Format.v
theories/M_Number.v
theories/S_Number.v
theories/P_StrBuffer.v
theories/P_Number.v
theories/P_NumberRead.v
theories/S_StrBuffer.v
theories/P_StrBufferOps.v
theories/Prop_Text.v
theories/M_Insn.v
theories/M_Config.v
theories/S_Insn.v
theories/P_Insn.v
theories/P_Config.v
theories/Prop_Insn.v
theories/M_Parsers.v
theories/M_Expr.v
theories/S_Expr.v
theories/P_Suffix.v
theories/P_Expr.v
theories/P_ExprSafe.v
theories/Prop_Expr.v
theories/S_ExprTree.v
theories/P_ExprRead.v
theories/P_ExprOperand.v
theories/P_ExprTree.v
theories/P_ExprCase.v
theories/Prop_ExprTree.v
theories/S_ExprBad.v
theories/P_ExprBad.v
theories/P_ExprBadCase.v
theories/Prop_ExprBad.v
theories/M_Directive.v
theories/S_Directive.v
theories/S_DataBad.v
theories/P_Directive.v
theories/P_Data.v
theories/P_DataBad.v
theories/Prop_Directive.v
theories/M_Table.v
theories/S_Table.v
theories/T_Tables.v
theories/P_Table.v
theories/P_TableData.v
theories/P_TableProps.v
theories/Prop_Table.v
theories/E_Table.v
theories/M_Asm.v
theories/M_Dis.v
theories/M_I8080Defs.v
theories/T_I8080.v
theories/M_I8080.v
theories/S_Cpu.v
theories/S_I8080.v
theories/P_AsmText.v
theories/P_CpuShape.v
theories/P_I8080.v
theories/P_I8080Range.v
theories/Prop_I8080.v
theories/M_Symbols.v
theories/S_Symbols.v
theories/P_Symbols.v
theories/Prop_Symbols.v
theories/M_Sources.v
theories/M_AsmDriver.v
theories/M_AsmLine.v
theories/M_AsmI8080.v
theories/M_AsmMn1610.v
theories/S_Sources.v
theories/P_Sources.v
theories/S_AsmDriver.v
theories/P_AsmDriver.v
theories/P_AsmBytes.v
theories/P_AsmPass.v
theories/P_DriverProps.v
theories/Prop_Driver.v
theories/M_Listing.v
theories/M_DisDriver.v
theories/M_DisI8080.v
theories/S_DisDriver.v
theories/P_DisDriver.v
theories/Prop_DisDriver.v
theories/M_DisCpus.v
theories/S_DisCpus.v
theories/P_DisCpus.v
theories/P_DisTms.v
theories/Prop_DisCpus.v
theories/P_Room.v
theories/P_Reassemble.v
theories/P_Reassembly.v
theories/Prop_Reassemble.v
theories/S_Listing.v
theories/P_Listing.v
theories/Prop_Listing.v
theories/P_Agree.v
theories/S_Function.v
theories/P_Function.v
theories/P_FunctionCase.v
theories/Prop_Function.v
theories/M_Scanner.v
theories/S_Scanner.v
theories/P_Scanner.v
theories/Prop_Scanner.v
theories/M_Mc6800Defs.v
theories/T_Mc6800.v
theories/M_Mc6800.v
theories/M_F3850Defs.v
theories/T_F3850.v
theories/M_F3850.v
theories/M_Z80Defs.v
theories/T_Z80.v
theories/M_Z80.v
theories/M_Mos6502Defs.v
theories/T_Mos6502.v
theories/M_Mos6502.v
theories/P_CpuGood.v
theories/P_CpuFine.v
theories/P_Mc6800.v
theories/S_Mc6800.v
theories/P_Mc6800Range.v
theories/P_CpuText.v
theories/P_CpuRange.v
theories/P_CpuSigned.v
theories/S_F3850.v
theories/S_Z80.v
theories/P_F3850.v
theories/P_F3850Range.v
theories/P_Z80.v
theories/P_Z80Range.v
theories/Prop_Z80.v
theories/Prop_Mc6800.v
theories/Prop_F3850.v
theories/M_AsmMc6800.v
theories/S_CpuSwitch.v
theories/P_CpuSwitch.v
theories/Prop_CpuSwitch.v
theories/S_Mos6502.v
theories/P_Mos6502.v
theories/P_Mos6502Asm.v
theories/P_Mos6502Round.v
theories/P_Mos6502Range.v
theories/Prop_Mos6502.v
theories/M_Cdp1802Defs.v
theories/T_Cdp1802.v
theories/M_Cdp1802.v
theories/S_Cdp1802.v
theories/P_Cdp1802.v
theories/P_Cdp1802Range.v
theories/Prop_Cdp1802.v
theories/M_Tms32010Defs.v
theories/T_Tms32010.v
theories/M_Tms32010.v
theories/S_Tms32010.v
theories/P_CpuWord.v
theories/P_Tms32010.v
theories/P_Tms32010Range.v
theories/Prop_Tms32010.v
theories/P_Dot.v
theories/M_I8051Defs.v
theories/T_I8051.v
theories/M_I8051.v
theories/P_I8051.v
theories/S_I8051.v
theories/P_I8051Range.v
theories/Prop_I8051.v
theories/M_I8048Defs.v
theories/T_I8048.v
theories/M_I8048.v
theories/P_I8048.v
theories/S_I8048.v
theories/P_I8048Range.v
theories/Prop_I8048.v
theories/S_Map.v
theories/P_CpuMap.v
theories/Prop_MapI8080.v
theories/Prop_MapZ80.v
theories/Prop_MapF3850.v
theories/Prop_MapMc6800.v
theories/Prop_MapMos6502.v
theories/Prop_MapCdp1802.v
theories/Prop_MapTms32010.v
theories/Prop_MapI8051.v
theories/Prop_MapI8048.v
theories/S_Undef.v
theories/P_Undef.v
theories/Prop_UndefI8080.v
theories/Prop_UndefZ80.v
theories/Prop_UndefMc6800.v
theories/Prop_UndefMos6502.v
theories/Prop_UndefF3850.v
theories/Prop_UndefCdp1802.v
theories/Prop_UndefTms32010.v
theories/Prop_UndefI8051.v
theories/Prop_UndefI8048.v
theories/P_I8048Emit.v
theories/Prop_EmitI8048.v
theories/P_I8080Emit.v
theories/Prop_EmitI8080.v
theories/P_F3850Emit.v
theories/Prop_EmitF3850.v
theories/P_CpuFineOff.v
theories/P_I8051Emit.v
theories/Prop_EmitI8051.v
theories/P_CpuSearch.v
theories/P_Mc6800Emit.v
theories/Prop_EmitMc6800.v
theories/P_Cdp1802Emit.v
theories/Prop_EmitCdp1802.v
theories/M_AsmRows.v
theories/S_Data.v
theories/P_DataLine.v
theories/Prop_DataLine.v
theories/P_Tms32010Emit.v
theories/Prop_EmitTms32010.v
theories/P_Mos6502Emit.v
theories/Prop_EmitMos6502.v
theories/S_DisLines.v
theories/P_DisLines.v
theories/Prop_DisLines.v
theories/M_CpuName.v
theories/S_CpuName.v
theories/P_CpuName.v
theories/Prop_CpuName.v
theories/P_CpuLine.v
theories/Prop_CpuLine.v
theories/M_Ins8060Defs.v
theories/T_Ins8060.v
theories/M_Ins8060.v
theories/S_Ins8060.v
theories/P_Ins8060.v
theories/Prop_Ins8060.v
theories/M_DisIns8060.v
theories/P_DisIns8060.v
theories/Prop_DisIns8060.v
theories/P_DefIns8060.v
theories/Prop_DefIns8060.v
