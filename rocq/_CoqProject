-Q theories Verif
theories/PyBase.v
theories/M_Array.v
theories/S_Array.v
theories/P_Array.v
theories/T_Array.v
theories/M_Memvar.v
theories/S_Memvar.v
theories/P_Memvar.v
theories/T_Memvar.v
theories/M_Params.v
theories/S_Params.v
theories/P_Params.v
theories/T_Params.v
theories/M_Procs.v
theories/S_Procs.v
theories/P_Procs.v
theories/T_Procs.v
theories/M_Set.v
theories/P_Set.v
theories/T_Set.v
theories/PyStr.v
theories/M_Strings.v
theories/S_Strings.v
theories/P_Strings.v
theories/P_StrSci.v
theories/T_Strings.v
theories/M_Dates.v
theories/P_Dates.v
theories/T_Dates.v
theories/M_Db.v
theories/S_Db.v
theories/P_Db.v
theories/P_DbArea.v
theories/P_DbRec.v
theories/P_DbScan.v
theories/T_Db.v
theories/M_FxpTab.v
theories/M_Fxp.v
theories/M_FxpCode.v
theories/S_Fxp.v
theories/S_FxpExpr.v
theories/P_Fxp.v
theories/P_FxpBin.v
theories/P_FxpCode.v
theories/P_FxpLine.v
theories/T_Fxp.v
theories/P_FxpExpr.v
theories/T_FxpCode.v
theories/S_Py.v
theories/P_Py.v
theories/S_PyEval.v
theories/M_Conv.v
theories/S_Conv.v
theories/P_Conv.v
theories/P_Bool.v
theories/S_Clean.v
theories/P_Clean.v
theories/S_Inline.v
theories/P_Inline.v
theories/T_Inline.v
theories/S_For.v
theories/T_Conv.v
theories/M_Stmt.v
theories/S_Stmt.v
theories/P_Stmt.v
theories/P_Stmt2.v
theories/P_Stmt3.v
theories/T_Stmt.v
theories/M_Abbr.v
theories/T_Abbr.v
theories/M_Lit.v
theories/S_Lit.v
theories/P_Lit.v
theories/T_Lit.v
theories/M_Prep.v
theories/S_Prep.v
theories/T_Prep.v
theories/M_File.v
theories/T_File.v
theories/M_Class.v
theories/T_Class.v
theories/M_Form.v
theories/T_Form.v
theories/M_Vars.v
theories/T_Vars.v
theories/M_Path.v
theories/T_Path.v
theories/M_Do.v
theories/T_Do.v
theories/M_Text.v
theories/T_Text.v
theories/M_Decl.v
theories/T_Decl.v
theories/M_Create.v
theories/T_Create.v
theories/M_Comment.v
theories/T_Comment.v
theories/M_Scope.v
theories/T_Scope.v
theories/M_Error.v
theories/T_Error.v
theories/M_LowFile.v
theories/T_LowFile.v
theories/M_FileCmd.v
theories/T_FileCmd.v
theories/M_FxpProg.v
theories/T_FxpProg.v
theories/M_Dll.v
theories/T_Dll.v
theories/M_Sql.v
theories/T_Sql.v
theories/M_Print.v
theories/T_Print.v
theories/M_Cast.v
theories/T_Cast.v
theories/M_Gui.v
theories/T_Gui.v
theories/M_GuiList.v
theories/T_GuiList.v
theories/S_Logic.v
theories/T_Logic.v
theories/M_Program.v
theories/T_Program.v
theories/M_Call.v
theories/S_Call.v
theories/T_Call.v
theories/M_Sig.v
theories/T_Sig.v
theories/M_Menu.v
theories/T_Menu.v
theories/M_Names.v
theories/T_Names.v
theories/P_Fuel.v
theories/M_Show.v
theories/S_Lex.v
theories/P_Lex.v
theories/M_Core.v
theories/S_Core.v
theories/P_Core1.v
theories/P_Core2.v
theories/P_Core3.v
theories/T_Core.v
theories/S_Funs.v
theories/P_Funs1.v
theories/P_Funs2.v
theories/P_Funs3.v
theories/T_Funs.v
theories/M_Objects.v
theories/T_Objects.v
theories/M_Lexer.v
theories/S_Lexer.v
theories/P_Lexer.v
theories/P_Lexer2.v
theories/P_Lexer3.v
theories/P_Lexer4.v
theories/T_Lexer.v
theories/M_Parse.v
theories/S_Expr.v
theories/P_Parse.v
theories/P_Parse2.v
theories/P_Parse3.v
theories/P_Expr.v
theories/P_Expr2.v
theories/T_Parse.v
theories/M_ParseProg.v
theories/S_Prog.v
theories/P_Prog1.v
theories/P_Prog2.v
theories/P_Prog3.v
theories/P_Prog4.v
theories/T_Prog.v
theories/M_Prg.v
theories/S_Prg.v
theories/P_Prg1.v
theories/P_Prg2.v
theories/P_Prg3.v
theories/P_Prg4.v
theories/T_Prg.v
theories/T_Main.v
theories/S_Ref.v
theories/T_Ref.v
theories/M_After.v
theories/S_After.v
theories/P_After.v
theories/T_After.v
