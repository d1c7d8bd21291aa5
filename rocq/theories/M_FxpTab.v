(** Tables of fxp_read.py, copied entry by entry.  Entries whose value is a Python function are not in these tables; they are
    handled in M_Fxp.v. *)
From Verif Require Import PyBase.
Open Scope Z_scope.

(** fxp_read.py:278-280 *)
Definition t_special_names : list (Z * pystr) := [
  (0x0D, u "M")].

(** fxp_read.py:282-335 *)
Definition t_system_names : list (Z * pystr) := [
  (0x00, u "_ALIGNMENT"); (0x05, u "_PAGENO"); (0x19, u "_DBLCLICK"); (0x1A, u "_CALCVALUE"); (0x1B, u "_CALCMEM");
  (0x1C, u "_DIARYDATE"); (0x1D, u "_CLIPTEXT"); (0x1E, u "_TEXT"); (0x1F, u "_PRETEXT"); (0x20, u "_TALLY");
  (0x21, u "_CUROBJ"); (0x22, u "_MLINE"); (0x23, u "_THROTTLE"); (0x24, u "_GENMENU"); (0x2F, u "_STARTUP");
  (0x30, u "_TRANSPORT"); (0x31, u "_BEAUTIFY"); (0x32, u "_DOS"); (0x33, u "_MAC"); (0x34, u "_UNIX");
  (0x35, u "_WINDOWS"); (0x36, u "_SPELLCHK"); (0x37, u "_SHELL"); (0x39, u "_SCREEN"); (0x3A, u "_BUILDER");
  (0x3B, u "_CONVERTER"); (0x3C, u "_WIZARD"); (0x3D, u "_TRIGGERLEVEL"); (0x3E, u "_ASCIICOLS"); (0x3F, u "_ASCIIROWS");
  (0x40, u "_BROWSER"); (0x41, u "_SCCTEXT"); (0x42, u "_COVERAGE"); (0x43, u "_VFP"); (0x44, u "_GALLERY");
  (0x45, u "_GETEXPR"); (0x46, u "_INCLUDE"); (0x47, u "_GENHTML"); (0x49, u "_SAMPLES"); (0x4A, u "_TASKLIST");
  (0x4B, u "_ObjectBrowser"); (0x4D, u "_FOXCODE"); (0x4E, u "_FoxTask"); (0x4F, u "_CODESENSE"); (0x50, u "_INCSEEK");
  (0x51, u "_PAGETOTAL"); (0x52, u "_FOXREF"); (0x53, u "_TOOLBOX"); (0x54, u "_TASKPANE"); (0x55, u "_REPORTBUILDER");
  (0x56, u "_REPORTPREVIEW"); (0x57, u "_REPORTOUTPUT")].

(** fxp_read.py:337-439 *)
Definition t_menu_system_names : list (Z * pystr) := [
  (0x02, u "_MSYSMENU"); (0x03, u "_MSM_SYSTM"); (0x04, u "_MSM_FILE"); (0x05, u "_MSM_EDIT"); (0x08, u "_MSM_PROG");
  (0x09, u "_MSM_WINDO"); (0x0A, u "_MSM_VIEW"); (0x0B, u "_MSM_TOOLS"); (0x0D, u "_MSYSTEM"); (0x10, u "_MST_HPSCH");
  (0x12, u "_MST_MACRO"); (0x13, u "_MST_SP100"); (0x1B, u "_MST_SP200"); (0x1E, u "_MST_TECHS"); (0x1F, u "_MST_ABOUT");
  (0x22, u "_MST_VFPWEB"); (0x23, u "_MFILE"); (0x24, u "_MFI_NEW"); (0x25, u "_MFI_OPEN"); (0x26, u "_MFI_CLOSE");
  (0x27, u "_MFI_CLALL"); (0x28, u "_MFI_SP100"); (0x29, u "_MFI_SAVE"); (0x2A, u "_MFI_SAVAS"); (0x2B, u "_MFI_REVRT");
  (0x2C, u "_MFI_SP200"); (0x2F, u "_MFI_SYSPRINT"); (0x31, u "_MFI_SP300"); (0x32, u "_MFI_QUIT"); (0x33, u "_MFI_PREVU");
  (0x34, u "_MFI_PGSET"); (0x35, u "_MFI_IMPORT"); (0x36, u "_MFI_EXPORT"); (0x37, u "_MFI_SP400"); (0x38, u "_MFI_SEND");
  (0x39, u "_MEDIT"); (0x3A, u "_MED_UNDO"); (0x3B, u "_MED_REDO"); (0x3C, u "_MED_SP100"); (0x3D, u "_MED_CUT");
  (0x3E, u "_MED_COPY"); (0x3F, u "_MED_PASTE"); (0x40, u "_MED_PSTLK"); (0x41, u "_MED_CLEAR"); (0x42, u "_MED_SP200");
  (0x43, u "_MED_INSOB"); (0x44, u "_MED_OBJ"); (0x45, u "_MED_LINK"); (0x47, u "_MED_SP300"); (0x48, u "_MED_SLCTA");
  (0x49, u "_MED_SP400"); (0x4A, u "_MED_GOTO"); (0x4B, u "_MED_FIND"); (0x4D, u "_MED_REPL"); (0x4F, u "_MED_SP500");
  (0x50, u "_MED_BEAUT"); (0x51, u "_MED_PREF"); (0x70, u "_MPROG"); (0x71, u "_MPR_DO"); (0x72, u "_MPR_SP100");
  (0x73, u "_MPR_CANCL"); (0x74, u "_MPR_RESUM"); (0x76, u "_MPR_COMPL"); (0x7C, u "_MPR_SUSPEND"); (0x7D, u "_MWINDOW");
  (0x7E, u "_MWI_ARRAN"); (0x7F, u "_MWI_HIDE"); (0x82, u "_MWI_CLEAR"); (0x83, u "_MWI_SP100"); (0x88, u "_MWI_ROTAT");
  (0x8A, u "_MWI_SP200"); (0x8B, u "_MWI_CMD"); (0x8C, u "_MWI_VIEW"); (0x8D, u "_MVI_TOOLB"); (0x8E, u "_MVIEW");
  (0x90, u "_MTOOLS"); (0x91, u "_MTL_WZRDS"); (0x92, u "_MTL_SP100"); (0x93, u "_MTL_SP200"); (0x94, u "_MTL_SP300");
  (0x95, u "_MTL_SP400"); (0x96, u "_MTL_OPTNS"); (0x97, u "_MTL_BROWSER"); (0x98, u "_MTI_FOXCODE");
  (0x99, u "_MTL_DEBUGGER"); (0x9A, u "_MTI_TRACE"); (0x9E, u "_MTI_LOCALS"); (0x9F, u "_MTI_DBGOUT");
  (0xA0, u "_MTI_CALLSTACK"); (0xC4, u "_MSM_TEXT"); (0xE6, u "_MST_MSDNS"); (0xED, u "_MTL_GALLERY");
  (0xEE, u "_MTL_COVERAGE"); (0xEF, u "_MTI_TASKLIST"); (0xF1, u "_MTI_DOCVIEW"); (0xF2, u "_MTI_BREAKPOINT");
  (0xF4, u "_MED_LISTMEMBERS"); (0xF5, u "_MED_QUICKINFO"); (0xF6, u "_MED_BKMKS"); (0xFD, u "_MWI_CASCADE");
  (0xFE, u "_MWI_DOCKABLE")].

(** fxp_read.py:441-613; without the function entries 0x01, 0x30, 0x47, 0x54, 0x99, 0xB4, 0xFB *)
Definition t_commands : list (Z * pystr) := [
  (0x00, u "SELECT"); (0x02, u "?"); (0x03, u "??"); (0x04, u "@"); (0x05, u "ACCEPT"); (0x06, u "APPEND");
  (0x07, u "ASSIST"); (0x08, u "AVERAGE"); (0x09, u "BROWSE"); (0x0A, u "CALL"); (0x0B, u "CANCEL"); (0x0C, u "CASE");
  (0x0D, u "CHANGE"); (0x0E, u "CLEAR"); (0x0F, u "CLOSE"); (0x10, u "CONTINUE"); (0x11, u "COPY"); (0x12, u "COUNT");
  (0x13, u "CREATE"); (0x14, u "DELETE"); (0x15, u "DIMENSION"); (0x16, u "DIR"); (0x17, u "DISPLAY"); (0x18, u "DO");
  (0x19, u "EDIT"); (0x1A, u "EJECT"); (0x1B, u "ELSE"); (0x1C, u "ENDCASE"); (0x1D, u "ENDDO"); (0x1E, u "ENDIF");
  (0x1F, u "ENDTEXT"); (0x20, u "ERASE"); (0x21, u "EXIT"); (0x22, u "FIND"); (0x23, u "GO"); (0x24, u "HELP");
  (0x25, u "IF"); (0x26, u "INDEX"); (0x27, u "INPUT"); (0x28, u "INSERT"); (0x29, u "JOIN"); (0x2A, u "LABEL");
  (0x2B, u "LIST"); (0x2C, u "LOAD"); (0x2D, u "LOCATE"); (0x2E, u "LOOP"); (0x2F, u "MODIFY"); (0x31, u "ON");
  (0x32, u "OTHERWISE"); (0x33, u "PACK"); (0x34, u "PARAMETERS"); (0x35, u "PRIVATE"); (0x36, u "PROCEDURE");
  (0x37, u "PUBLIC"); (0x38, u "QUIT"); (0x39, u "READ"); (0x3A, u "RECALL"); (0x3B, u "REINDEX"); (0x3C, u "RELEASE");
  (0x3D, u "RENAME"); (0x3E, u "REPLACE"); (0x3F, u "REPORT"); (0x40, u "RESTORE"); (0x41, u "RESUME"); (0x42, u "RETURN");
  (0x43, u "RUN"); (0x44, u "SAVE"); (0x45, u "SEEK"); (0x46, u "SELECT"); (0x48, u "SKIP"); (0x49, u "SORT");
  (0x4A, u "STORE"); (0x4B, u "SUM"); (0x4C, u "SUSPEND"); (0x4D, u "TEXT"); (0x4E, u "TOTAL"); (0x4F, u "TYPE");
  (0x50, u "UPDATE"); (0x51, u "USE"); (0x52, u "WAIT"); (0x53, u "ZAP"); (0x55, u "ENDPROC
"); (0x56, u "EXPORT");
  (0x57, u "IMPORT"); (0x58, u "RETRY"); (0x5A, u "UNLOCK"); (0x5B, u "FLUSH"); (0x5C, u "KEYBOARD"); (0x5D, u "MENU");
  (0x5E, u "SCATTER"); (0x5F, u "GATHER"); (0x60, u "SCROLL"); (0x68, u "CREATE"); (0x69, u "ALTER"); (0x6A, u "DROP");
  (0x6F, u "SELECT"); (0x70, u "UPDATE"); (0x71, u "DELETE"); (0x72, u "INSERT"); (0x73, u "DEFINE"); (0x74, u "ACTIVATE");
  (0x75, u "DEACTIVATE"); (0x76, u "PRINTJOB"); (0x77, u "ENDPRINTJOB"); (0x79, u "???"); (0x7A, u "MOVE"); (0x7B, u "ON");
  (0x7C, u "DECLARE"); (0x7D, u "CALCULATE"); (0x7E, u "SCAN"); (0x7F, u "ENDSCAN"); (0x80, u "SHOW"); (0x81, u "PLAY");
  (0x82, u "GETEXPR"); (0x83, u "COMPILE"); (0x84, u "FOR"); (0x85, u "ENDFOR"); (0x86, u "="); (0x87, u "HIDE");
  (0x89, u "SIZE"); (0x8A, u "PUSH"); (0x8B, u "POP"); (0x8C, u "ZOOM"); (0x8D, u "\"); (0x8E, u "\\"); (0x8F, u "BUILD");
  (0x90, u "EXTERNAL"); (0x93, u "BLANK"); (0x95, u "OPEN"); (0x96, u "ADD"); (0x97, u "REMOVE"); (0x9B, u "BEGIN");
  (0x9C, u "ROLLBACK"); (0x9D, u "END"); (0x9E, u "add hidden method"); (0x9F, u "HIDDEN"); (0xA0, u "VALIDATE");
  (0xA1, u "PROTECTED"); (0xA2, u "add method"); (0xA3, u "add protected method"); (0xA6, u "WITH"); (0xA7, u "ENDWITH");
  (0xA8, u "ERROR"); (0xA9, u "ASSERT"); (0xAA, u "DEBUGOUT"); (0xAB, u "FREE"); (0xAC, u "NODEFAULT"); (0xAD, u "MOUSE");
  (0xAE, u "LOCAL"); (0xAF, u "LPARAMETERS"); (0xB0, u "CD"); (0xB1, u "MKDIR"); (0xB2, u "RMDIR"); (0xB3, u "DEBUG");
  (0xB5, u "FOR EACH"); (0xB6, u "ENDFOREACH"); (0xB7, u "DOEVENTS"); (0xB9, u "IMPLEMENTS"); (0xBA, u "TRY");
  (0xBB, u "CATCH"); (0xBC, u "FINALLY"); (0xBD, u "THROW"); (0xBE, u "ENDTRY")].

(** fxp_read.py:615-718 *)
Definition t_setcodes : list (Z * pystr) := [
  (0x01, u "ALTERNATE"); (0x02, u "BELL"); (0x03, u "CARRY"); (0x05, u "CENTURY"); (0x07, u "COLOR"); (0x09, u "CONFIRM");
  (0x0A, u "CONSOLE"); (0x0B, u "DATE"); (0x0C, u "DEBUG"); (0x0E, u "DEFAULT"); (0x0D, u "DECIMALS"); (0x0F, u "DELETED");
  (0x15, u "ESCAPE"); (0x16, u "EXACT"); (0x17, u "EXCLUSIVE"); (0x18, u "FIELDS"); (0x1A, u "FILTER"); (0x1B, u "FIXED");
  (0x1C, u "FORMAT"); (0x1D, u "FUNCTION"); (0x1E, u "HEADINGS"); (0x1F, u "HELP"); (0x21, u "INDEX"); (0x23, u "MARGIN");
  (0x24, u "MEMOWIDTH"); (0x26, u "MESSAGE"); (0x27, u "ODOMETER"); (0x28, u "ORDER"); (0x29, u "PATH");
  (0x2A, u "PRINTER"); (0x2B, u "PROCEDURE"); (0x2D, u "RELATION"); (0x2E, u "SAFETY"); (0x30, u "STATUS");
  (0x31, u "STEP"); (0x32, u "TALK"); (0x35, u "TYPEAHEAD"); (0x36, u "UNIQUE"); (0x37, u "VIEW"); (0x39, u "HOURS");
  (0x3A, u "MARK"); (0x3B, u "POINT"); (0x3C, u "SEPERATOR"); (0x3D, u "BORDER"); (0x3E, u "CLOCK"); (0x40, u "SPACE");
  (0x41, u "COMPATIBLE"); (0x42, u "AUTOSAVE"); (0x43, u "BLOCKSIZE"); (0x45, u "DEVELOPMENT"); (0x46, u "NEAR");
  (0x48, u "REFRESH"); (0x49, u "LOCK"); (0x4C, u "WINDOW"); (0x4D, u "REPROCESS"); (0x4E, u "SKIP"); (0x51, u "FULLPATH");
  (0x54, u "RESOURCE"); (0x55, u "TOPIC"); (0x57, u "LOGERRORS"); (0x59, u "SYSMENU"); (0x5A, u "NOTIFY");
  (0x5C, u "MACKEY"); (0x5D, u "CURSOR"); (0x5E, u "UDFPARMS"); (0x5F, u "MULTILOCKS"); (0x60, u "TEXTMERGE");
  (0x61, u "OPTIMIZE"); (0x62, u "LIBRARY"); (0x64, u "ANSI"); (0x65, u "TRBETWEEN"); (0x66, u "PDSETUP");
  (0x68, u "KEYCOMP"); (0x69, u "PALETTE"); (0x6A, u "READBORDER"); (0x6B, u "COLLATE"); (0x6D, u "NOCPTRANS");
  (0x77, u "NULL"); (0x79, u "TAG"); (0x7B, u "CPDIALOG"); (0x7C, u "CPCOMPILE"); (0x7D, u "SECONDS"); (0x7E, u "CLASSLIB");
  (0x7F, u "DATABASE"); (0x80, u "DATASESSION"); (0x81, u "FDOW"); (0x82, u "FWEEK"); (0x83, u "SYSFORMATS");
  (0x84, u "OLEOBJECT"); (0x85, u "ASSERTS"); (0x86, u "COVERAGE"); (0x87, u "EVENTTRACKING"); (0x88, u "NULLDISPLAY");
  (0x89, u "EVENTLIST"); (0x8D, u "BROWSEIME"); (0x8E, u "STRICTDATE"); (0x8F, u "AUTOINCERROR");
  (0x90, u "ENGINEBEHAVIOR"); (0x91, u "TABLEVALIDATE"); (0x92, u "SQLBUFFERING"); (0x94, u "TABLEPROMPT"); (0xFE, [10])].

(** fxp_read.py:720-796; without the function entries 0xE5, 0xF6, 0xFC *)
Definition t_clauses : list (Z * pystr) := [
  (0x01, u "ADDITIVE"); (0x02, u "ALIAS"); (0x03, u "ALL"); (0x04, u "ARRAY"); (0x05, u "AT"); (0x06, u "BAR");
  (0x07, u ","); (0x08, u "BLANK"); (0x0C, u "CLEAR"); (0x0D, u "COLOR"); (0x0E, u "DEFAULT"); (0x0F, u "DOUBLE");
  (0x11, u "FIELDS"); (0x12, u "FILE"); (0x13, u "FOR"); (0x14, u "FORM"); (0x15, u "FROM"); (0x16, u "IN");
  (0x17, u "KEY"); (0x18, u "(@ or LIKE)"); (0x1A, u "MACROS"); (0x1B, u "MEMO"); (0x1C, u "MENU"); (0x1D, u "MESSAGE");
  (0x1E, u "NEXT"); (0x1F, u "OFF"); (0x20, u "ON"); (0x21, u "PRINTER"); (0x22, u "PROMPT"); (0x23, u "RECORD");
  (0x24, u "REST"); (0x25, u "SAVE"); (0x26, u "SCREEN"); (0x27, u "TITLE"); (0x28, u "TO"); (0x29, u "TOP");
  (0x30, u "NOOPTIMIZE"); (0x2B, u "WHILE"); (0x2C, u "WINDOW"); (0x2E, u "OBJECT"); (0x31, u "TABLE"); (0x32, u "LABEL");
  (0x33, u "REPORT"); (0x36, u "BOTTOM"); (0x38, u "BY"); (0x39, u "NOCONSOLE"); (0x3A, u "NOWAIT"); (0x3B, u "PLAIN");
  (0x3C, u "DESCENDING"); (0x3D, u "NOWINDOW"); (0x40, u "FONT"); (0x41, u "STYLE"); (0x42, u "RGB"); (0x48, u "CASE");
  (0x49, u "ID"); (0x4A, u "NAME"); (0x4B, u "PROGRAM"); (0x4C, u "QUERY"); (0x4E, u "SCHEME"); (0x4F, u "CLASS");
  (0x51, u "AS"); (0x52, u "CLASSLIB"); (0x56, u "DLLS"); (0x57, u "SHORT"); (0x58, u "LEFT"); (0x59, u "RIGHT");
  (0x5B, u "RTLJUSTIFY"); (0x5C, u "LTRJUSTIFY"); (0x5F, u "PICTRES"); (0xFD, u "END EXPR"); (0xFE, [10])].

(** fxp_read.py:798-828, with the alternatives joined by " or " as line 1350 does *)
Definition t_multiclauses : list (Z * pystr) := [
  (0x10, u "= or ERROR"); (0xBB, u "XL5 or WITH BUFFERING="); (0xBC, u "INTO or ACTIVATE or COMMAND or PAD");
  (0xBD, u "CENTER or CURSOR or TRANSACTION or APP or MINIMIZE or ESCAPE");
  (0xBE, u "PROCEDURE or DELIMITED or EXE or DISTINCT or DOS or PAGE"); (0xBF, u "UNKNOWN or MIN or FLOAT");
  (0xC0, u "HAVING or FREE or LOCAL or FOOTER"); (0xC1, u "LINE or TRIGGER or GLOBAL or GET");
  (0xC2, u "SHARED or DATABASE or DROP or GETS or NOINIT"); (0xC3, u "ORDER BY or OF or REPLACE or NOCLOSE");
  (0xC4, u "SAY or VIEWS"); (0xC5, u "VALUES or DBLCLICK"); (0xC6, u "POPUP or WHERE or DLL or DRAG or EXCLUDE");
  (0xC7, u "* or STEP or XLS or MARK"); (0xC8, u "READ or MARGIN or RPD or READERROR");
  (0xCA, u "TAG or SET or FORCE or NOMINIMIZE or EXIT"); (0xCB, u "STATUS or RECOMPILE or PRIMARY or WRK");
  (0xCC, u "STRUCTURE or RELATIVE or FOREIGN or PROTECTED"); (0xCD, u "SHUTDOWN or NOFILTER");
  (0xCE, u "TIMEOUT or UPDATE"); (0xCF, u "SHADOW"); (0xD0, u "NOCLEAR or SELECTION");
  (0xD1, u "WITH or INTEGER or CONNECTION"); (0xD2, u "NOMARGIN"); (0xD3, u "UNIQUE or SIZE");
  (0xD4, u "TYPE or LONG or SYSTEM"); (0xD5, u "EVENTS or CSV or COLUMN"); (0xD6, u "STRING or SHEET or NORM");
  (0xD7, u "READWRITE")].

(** fxp_read.py:830-863; without the function entries 0xD9, 0xDE, 0xE0, 0xE1, 0xE3, 0xE6, 0xE7, 0xE9, 0xEB, 0xEC, 0xED, 0xEE, 0xF0, 0xF1, 0xF2, 0xF3, 0xF4, 0xF5, 0xF7, 0xF8, 0xF9, 0xFA, 0xFB, 0xFC, 0xFF *)
Definition t_values : list (Z * pystr) := [
  (0x2D, u ".F."); (0x61, u ".T."); (0xE4, u ".NULL."); (0xDB, u ""); (0xDF, u "::"); (0xE2, u "."); (0xE8, u "SQL SUBQUERY")].

(** fxp_read.py:865-887 *)
Definition t_operators : list (Z * (pystr * Z)) := [
  (0x00, (u "NOP", 0)); (0x01, (u "$", 2)); (0x03, (u "END PAREN", 0)); (0x04, (u "*", 2)); (0x05, (u "^", 2));
  (0x06, (u "+", 2)); (0x07, (u ",", 2)); (0x08, (u "-", 2)); (0x09, (u "AND", 2)); (0x0A, (u "NOT", 1));
  (0x0B, (u "OR", 2)); (0x0C, (u "/", 2)); (0x0D, (u "<", 2)); (0x0E, (u "<=", 2)); (0x0F, (u "!=", 2)); (0x10, (u "=", 2));
  (0x11, (u ">", 2)); (0x12, (u ">=", 2)); (0x14, (u "==", 2)); (0x18, (u "@", (-1))); (0xCC, (u "", 1))].

(** fxp_read.py:889-1063; without the function entries 0x1A, 0xE5, 0xEA, 0xF6 *)
Definition t_functions : list (Z * pystr) := [
  (0x19, u "ABS"); (0x1B, u "ALIAS"); (0x1C, u "ASC"); (0x1D, u "AT"); (0x1E, u "BOF"); (0x1F, u "CDOW"); (0x20, u "CHR");
  (0x21, u "CMONTH"); (0x22, u "COL"); (0x23, u "CTOD"); (0x24, u "DATE"); (0x25, u "DAY"); (0x26, u "DBF");
  (0x27, u "DELETED"); (0x28, u "DISKSPACE"); (0x29, u "DOW"); (0x2A, u "DTOC"); (0x2B, u "EOF"); (0x2C, u "ERROR");
  (0x2E, u "FCOUNT"); (0x2F, u "FIELD"); (0x30, u "FILE"); (0x31, u "FKLABEL"); (0x32, u "FKMAX"); (0x33, u "FLOCK");
  (0x34, u "FOUND"); (0x35, u "GETENV"); (0x36, u "IIF"); (0x37, u "INKEY"); (0x38, u "INT"); (0x39, u "ISALPHA");
  (0x3A, u "ISCOLOR"); (0x3B, u "ISLOWER"); (0x3C, u "ISUPPER"); (0x3D, u "LEFT"); (0x3E, u "LEN"); (0x3F, u "LOCK");
  (0x40, u "LOWER"); (0x41, u "LTRIM"); (0x42, u "LUPDATE"); (0x43, u "MARK PARAMETERS"); (0x44, u "MAX");
  (0x45, u "MESSAGE"); (0x46, u "MIN"); (0x47, u "MOD"); (0x48, u "MONTH"); (0x49, u "NDX"); (0x4A, u "OS");
  (0x4B, u "PCOL"); (0x4C, u "PROW"); (0x4D, u "READKEY"); (0x4E, u "RECCOUNT"); (0x4F, u "RECNO"); (0x50, u "RECSIZE");
  (0x51, u "REPLICATE"); (0x52, u "RIGHT"); (0x53, u "RLOCK"); (0x54, u "ROUND"); (0x55, u "ROWS"); (0x56, u "RTRIM");
  (0x57, u "SELECT"); (0x58, u "SPACE"); (0x59, u "SQRT"); (0x5A, u "STR"); (0x5B, u "STUFF"); (0x5C, u "SUBSTR");
  (0x5D, u "SYS"); (0x5E, u "TIME"); (0x5F, u "TRANSFORM"); (0x60, u "TRIM"); (0x62, u "TYPE"); (0x64, u "UPDATED");
  (0x66, u "UPPER"); (0x67, u "VAL"); (0x68, u "VERSION"); (0x69, u "YEAR"); (0x6A, u "DMY"); (0x6B, u "MDY");
  (0x6C, u "BAR"); (0x6D, u "KEY"); (0x6F, u "MEMORY"); (0x70, u "MENU"); (0x72, u "PAD"); (0x73, u "POPUP");
  (0x74, u "PROGRAM"); (0x75, u "PV"); (0x76, u "SET"); (0x77, u "CEILING"); (0x7A, u "FLOOR"); (0x7B, u "FV");
  (0x7C, u "LASTKEY"); (0x7D, u "LIKE"); (0x7E, u "LOOKUP"); (0x7F, u "CDX"); (0x80, u "MEMLINES"); (0x81, u "MLINE");
  (0x82, u "ORDER"); (0x83, u "PAYMENT"); (0x84, u "PRINTSTATUS"); (0x85, u "PROMPT"); (0x86, u "RAND");
  (0x87, u "VARREAD"); (0x89, u "RTOD"); (0x8A, u "SEEK"); (0x8B, u "SIGN"); (0x8C, u "TAG"); (0x8D, u "DTOR");
  (0x8E, u "DTOS"); (0x8F, u "SCHEME"); (0x90, u "FOPEN"); (0x91, u "FCLOSE"); (0x92, u "FREAD"); (0x93, u "FWRITE");
  (0x94, u "FERROR"); (0x95, u "FCREATE"); (0x96, u "FSEEK"); (0x97, u "FGETS"); (0x98, u "FFLUSH"); (0x99, u "FPUTS");
  (0x9B, u "ALLTRIM"); (0x9C, u "ATLINE"); (0x9D, u "CHRTRAN"); (0x9E, u "FILTER"); (0x9F, u "RELATION");
  (0xA0, u "TARGET"); (0xA1, u "EMPTY"); (0xA2, u "FEOF"); (0xA3, u "HEADER"); (0xA5, u "RAT"); (0xA6, u "RATC");
  (0xA7, u "SECONDS"); (0xA8, u "STRTRAN"); (0xAA, u "USED"); (0xAB, u "BETWEEN"); (0xAC, u "CHRSAW"); (0xAD, u "INLIST");
  (0xAE, u "ISDIGIT"); (0xAF, u "OCCURS"); (0xB0, u "PADC"); (0xB1, u "PADL"); (0xB2, u "PADR"); (0xB3, u "FSIZE");
  (0xB4, u "SROWS"); (0xB5, u "SCOLS"); (0xB6, u "WCOLS"); (0xB7, u "WROWS"); (0xB8, u "ATC"); (0xB9, u "ATCLINE");
  (0xBA, u "CURDIR"); (0xBC, u "PROPER"); (0xBB, u "FULLPATH"); (0xBD, u "WEXISTS"); (0xBE, u "WONTOP");
  (0xBF, u "WOUTPUT"); (0xC0, u "WVISIBLE"); (0xC1, u "GETFILE"); (0xC2, u "PUTFILE"); (0xC3, u "GOMONTH");
  (0xC4, u "PARAMETERS"); (0xC5, u "MCOL"); (0xC6, u "MDOWN"); (0xC7, u "MROW"); (0xC8, u "WLCOL"); (0xC9, u "WLROW");
  (0xCB, u "FCHSIZE"); (0xCD, u "ALEN"); (0xCE, u "EVALUATE"); (0xD1, u "ISNULL"); (0xD2, u "NVL")].

(** fxp_read.py:1065-1090 *)
Definition t_extended1 : list (Z * pystr) := [
  (0x00, u "DISPLAYPATH"); (0x01, u "CURSORTOXML"); (0x02, u "XMLTOCURSOR"); (0x03, u "GETINTERFACE");
  (0x04, u "BINDEVENT"); (0x05, u "RAISEEVENT"); (0x06, u "ADOCKSTATE"); (0x07, u "GETCURSORADAPTER");
  (0x08, u "UNBINDEVENTS"); (0x09, u "AEVENTS"); (0x0A, u "ADDPROPERTY"); (0x0E, u "ICASE"); (0x0C, u "EVL");
  (0x0F, u "CAST"); (0x10, u "ASQLHANDLES"); (0x11, u "SETRESULTSET"); (0x12, u "GETRESULTSET"); (0x13, u "CLEARRESULTSET");
  (0x14, u "SQLIDLEDISCONNECT"); (0x15, u "ISMEMOFETCHED"); (0x16, u "GETAUTOINCVALUE"); (0x17, u "MAKETRANSACTABLE");
  (0x18, u "ISTRANSACTABLE"); (0x19, u "ISPEN")].

(** fxp_read.py:1092-1328 *)
Definition t_extended2 : list (Z * pystr) := [
  (0x00, u "PRMPAD"); (0x01, u "PRMBAR"); (0x02, u "MRKPAD"); (0x03, u "MRKBAR"); (0x04, u "CNTPAD"); (0x05, u "CNTBAR");
  (0x06, u "GETPAD"); (0x07, u "GETBAR"); (0x08, u "MWINDOW"); (0x09, u "OBJNUM"); (0x0A, u "WPARENT"); (0x0B, u "WCHILD");
  (0x0C, u "RDLEVEL"); (0x0D, u "ACOPY"); (0x0E, u "AINS"); (0x0F, u "ADEL"); (0x10, u "ASORT"); (0x11, u "ASCAN");
  (0x12, u "AELEMENT"); (0x13, u "ASUBSCRIPT"); (0x14, u "AFIELDS"); (0x15, u "ADIR"); (0x16, u "LOCFILE");
  (0x17, u "WBORDER"); (0x18, u "ON"); (0x19, u ""); (0x1A, u "WLAST"); (0x1B, u "SKPBAR"); (0x1C, u "SKPPAD");
  (0x1D, u "WMAXIMUM"); (0x1E, u "WMINIMUM"); (0x1F, u "WREAD"); (0x20, u "WTITLE"); (0x21, u "GETPEM");
  (0x23, u "TXTWIDTH"); (0x24, u "FONTMETRIC"); (0x25, u "SYSMETRIC"); (0x26, u "WFONT"); (0x27, u "GETFONT");
  (0x28, u "AFONT"); (0x29, u "DDEADVISE"); (0x2A, u "DDEENABLED"); (0x2B, u "DDEEXECUTE"); (0x2C, u "DDEINITIATE");
  (0x2D, u "DDEPOKE"); (0x2E, u "DDEREQUEST"); (0x2F, u "DDESETSERVICE"); (0x30, u "DDESETTOPIC"); (0x31, u "DDETERMINATE");
  (0x32, u "DDELASTERROR"); (0x33, u "GETDIR"); (0x34, u "DDEABORTTRANS"); (0x35, u "DDESETOPTION"); (0x36, u "OEMTOANSI");
  (0x38, u "RGBSCHEME"); (0x39, u "CPCONVERT"); (0x3A, u "CPCURRENT"); (0x3B, u "CPDBF"); (0x3C, u "IDXCOLLATE");
  (0x3E, u "CAPSLOCK"); (0x3F, u "NUMLOCK"); (0x40, u "INSMODE"); (0x41, u "SOUNDEX"); (0x42, u "DIFFERENCE");
  (0x43, u "COS"); (0x44, u "SIN"); (0x45, u "TAN"); (0x46, u "ACOS"); (0x47, u "ASIN"); (0x48, u "ATAN"); (0x49, u "ATN2");
  (0x4A, u "LOG"); (0x4B, u "LOG10"); (0x4C, u "EXP"); (0x4D, u "PI"); (0x4E, u "CREATEOBJECT"); (0x4F, u "BARPROMPT");
  (0x51, u "HOME"); (0x53, u "FOR"); (0x54, u "UNIQUE"); (0x55, u "DESCENDING"); (0x56, u "TAGCOUNT"); (0x57, u "TAGNO");
  (0x58, u "FDATE"); (0x59, u "FTIME"); (0x5A, u "ISBLANK"); (0x5B, u "ISMOUSE"); (0x5C, u "GETOBJECT");
  (0x5D, u "OBJTOCLIENT"); (0x5E, u "RGB"); (0x5F, u "OLDVAL"); (0x60, u "ASELOBJ"); (0x61, u "ACLASS");
  (0x62, u "AMEMBERS"); (0x63, u "COMPOBJ"); (0x64, u "SQLCANCEL"); (0x65, u "SQLCOLUMNS"); (0x66, u "SQLCONNECT");
  (0x67, u "SQLDISCONNECT"); (0x68, u "PEMSTATUS"); (0x69, u "SQLEXEC"); (0x6A, u "SQLGETPROP"); (0x6B, u "SQLMORERESULTS");
  (0x6C, u "SQLSETPROP"); (0x6D, u "SQLTABLES"); (0x6E, u "FLDLIST"); (0x6F, u "PRTINFO"); (0x70, u "KEYMATCH");
  (0x71, u "OBJVAR"); (0x72, u "NORMALIZE"); (0x73, u "ISREADONLY"); (0x74, u "PCOUNT"); (0x78, u "MESSAGEBOX");
  (0x79, u "AUSED"); (0x7A, u "AERROR"); (0x7B, u "SQLCOMMIT"); (0x7C, u "SQLROLLBACK"); (0x7D, u "MTON"); (0x7E, u "NTOM");
  (0x7F, u "DTOT"); (0x80, u "TTOD"); (0x81, u "TTOC"); (0x82, u "CTOT"); (0x83, u "HOUR"); (0x84, u "MINUTE");
  (0x85, u "SEC"); (0x86, u "DATETIME"); (0x87, u "REQUERY"); (0x88, u "CURSORSETPROP"); (0x89, u "CURSORGETPROP");
  (0x8A, u "DBSETPROP"); (0x8B, u "DBGETPROP"); (0x8C, u "GETCOLOR"); (0x8D, u "PRIMARY"); (0x8E, u "CANDIDATE");
  (0x8F, u "CURVAL"); (0x90, u "GETFLDSTATE"); (0x91, u "SETFLDSTATE"); (0x92, u "GETNEXTMODIFIED");
  (0x93, u "TABLEUPDATE"); (0x94, u "TABLEREVERT"); (0x95, u "ADATABASES"); (0x96, u "DBC"); (0x98, u "ADBOBJECTS");
  (0x99, u "APRINTERS"); (0x9A, u "GETPRINTER"); (0x9B, u "GETPICT"); (0x9C, u "WEEK"); (0x9D, u "REFRESH");
  (0x9E, u "GETCP"); (0x9F, u "SQLSTRINGCONNECT"); (0xA0, u "CREATEBINARY"); (0xA1, u "DODEFAULT"); (0xA2, u "ISEXCLUSIVE");
  (0xA3, u "TXNLEVEL"); (0xA4, u "DBUSED"); (0xA5, u "AINSTANCE"); (0xA6, u "INDBC"); (0xA7, u "BITLSHIFT");
  (0xA8, u "BITRSHIFT"); (0xA9, u "BITAND"); (0xAA, u "BITOR"); (0xAB, u "BITNOT"); (0xAC, u "BITXOR"); (0xAD, u "BITSET");
  (0xAE, u "BITTEST"); (0xAF, u "BITCLEAR"); (0xB0, u "AT_C"); (0xB1, u "ATCC"); (0xB2, u "RATLINE"); (0xB3, u "LEFTC");
  (0xB4, u "RIGHTC"); (0xB5, u "SUBSTRC"); (0xB6, u "STUFFC"); (0xB7, u "LENC"); (0xB8, u "CHRTRANC"); (0xBA, u "LIKEC");
  (0xBC, u "IMESTATUS"); (0xBD, u "ISLEADBYTE"); (0xBE, u "STRCONV"); (0xBF, u "BINTOC"); (0xC0, u "CTOBIN");
  (0xC1, u "ISFLOCKED"); (0xC2, u "ISRLOCKED"); (0xC3, u "LOADPICTURE"); (0xC4, u "SAVEPICTURE"); (0xC5, u "SQLPREPARE");
  (0xC6, u "DIRECTORY"); (0xC7, u "CREATEOFFLINE"); (0xC8, u "DROPOFFLINE"); (0xC9, u "AGETCLASS"); (0xCA, u "AVCXCLASSES");
  (0xCB, u "STRTOFILE"); (0xCC, u "FILETOSTR"); (0xCD, u "ADDBS"); (0xCE, u "DEFAULTEXT"); (0xCF, u "DRIVETYPE");
  (0xD0, u "FORCEEXT"); (0xD1, u "FORCEPATH"); (0xD2, u "JUSTDRIVE"); (0xD3, u "JUSTEXT"); (0xD4, u "JUSTFNAME");
  (0xD5, u "JUSTPATH"); (0xD6, u "JUSTSTEM"); (0xD7, u "INDEXSEEK"); (0xD8, u "COMRETURNERROR"); (0xD9, u "VARTYPE");
  (0xDA, u "ALINES"); (0xDB, u "NEWOBJECT"); (0xDC, u "AMOUSEOBJ"); (0xDD, u "COMCLASSINFO"); (0xE0, u "ANETRESOURCES");
  (0xE1, u "AGETFILEVERSION"); (0xE2, u "CREATEOBJECTEX"); (0xE3, u "COMARRAY"); (0xE4, u "EXECSCRIPT");
  (0xE5, u "XMLUPDATEGRAM"); (0xE6, u "COMPROP"); (0xE7, u "ATAGINFO"); (0xE8, u "ASTACKINFO"); (0xE9, u "EVENTHANDLER");
  (0xEA, u "EDITSOURCE"); (0xEB, u "ADLLS"); (0xEC, u "QUARTER"); (0xED, u "GETWORDCOUNT"); (0xEE, u "GETWORDNUM");
  (0xEF, u "ALANGUAGE"); (0xF0, u "STREXTRACT"); (0xF1, u "INPUTBOX"); (0xF2, u "APROCINFO"); (0xF3, u "WDOCKABLE");
  (0xF4, u "ASESSIONS"); (0xF5, u "TEXTMERGE"); (0xFD, u "MIN")].

Definition lookup {A} (t : list (Z * A)) (k : Z) : option A := dget Z.eqb t k.
