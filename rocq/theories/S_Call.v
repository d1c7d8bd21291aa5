(** What a call f(...) means in FoxPro: a native function, a procedure of the program itself, a procedure of a procedure file, a program. *)
From Verif Require Import PyBase PyStr M_Abbr T_Abbr.
Open Scope Z_scope.

(** The native functions: those of the table of abbreviations, by any of the names the table allows, and the short ones. *)
Definition short_natives : list pystr := map u
  ["abs"; "acos"; "adel"; "adir"; "ains"; "alen"; "asc"; "asin"; "at"; "at_c"; "atan"; "atc"; "atcc"; "atcline"; "atn2"; "bar"; "bof"; "cdow"; "cdx"; "chr"; "chrtranc"; "col";
   "cos"; "ctod"; "ctot"; "date"; "day"; "dbc"; "dbf"; "dmy"; "dow"; "dtoc"; "dtor"; "dtos"; "dtot"; "eof"; "evl"; "exp"; "feof"; "file"; "for"; "fv"; "home"; "hour"; "iif"; "int"; "key"; "left";
   "leftc"; "len"; "lenc"; "like"; "likec"; "lock"; "log"; "max"; "mcol"; "mdx"; "mdy"; "menu"; "min"; "mod"; "mrow"; "mton"; "ndx"; "ntom"; "nvl"; "on"; "os"; "pad"; "padc"; "padl";
   "padr"; "pcol"; "pi"; "prow"; "pv"; "rand"; "rat"; "ratc"; "rdlevel"; "rgb"; "rightc"; "row"; "rtod"; "sec"; "seek"; "set"; "sign"; "sin"; "sqrt"; "str"; "stuffc"; "substrc"; "sys"; "tag";
   "tan"; "time"; "trim"; "ttoc"; "ttod"; "type"; "used"; "val"; "week"; "wread"; "year"]%string.
Definition native (f : pystr) : Prop := (exists row, In row function_abbreviations /\ abbreviates f row) \/ In f short_natives.
Inductive meaning := Native (f : pystr) | OwnProcedure (f : pystr) | FileProcedure (f : pystr) | Program (f : pystr) | Unknown.
(** [own], [procs], [programs]: the procedures of the program, of the open procedure files, and the program files *)
Inductive means (own procs programs : pystr -> Prop) (f : pystr) : meaning -> Prop :=
| MNative : native f -> means own procs programs f (Native f)
| MOwn : ~ native f -> own f -> means own procs programs f (OwnProcedure f)
| MFile : ~ native f -> ~ own f -> procs f -> means own procs programs f (FileProcedure f)
| MProgram : ~ native f -> ~ own f -> ~ procs f -> programs f -> means own procs programs f (Program f)
| MUnknown : ~ native f -> ~ own f -> ~ procs f -> ~ programs f -> means own procs programs f Unknown.

(** Names that are not FoxPro's, but names of the run time or of the converter *)
Definition reserved : list pystr := map u
  ["_exec"; "_getwords"; "_in_qtgui"; "_odbc_cursor_to_db"; "_parameters"; "_str"; "absolute_import"; "clear"; "clearall"; "create_object"; "ctypes"; "dateutil"; "division"; "dow_fix"; "dt";
   "error_func"; "functools"; "gather"; "glob"; "importlib"; "inspect"; "lparameters"; "module"; "print_function"; "pyodbc"; "qt_app"; "quit"; "re"; "scatter"; "traceback"; "types";
   "vfp_sys"; "vfpclass"; "wait"; "_current_record"; "_current_record_copy"; "_get_records"; "_get_table_info"; "_update_from"; "alter_table"; "append"; "append_from"; "browse"; "close_tables";
   "continue_locate"; "copy_structure"; "count"; "create_table"; "current_table"; "delete_record"; "get_workarea"; "goto"; "index_on"; "insert"; "locate"; "open_tables"; "pack"; "reindex";
   "replace"; "scanner"; "select_function"; "skip"; "sum"; "use"; "zap"; "modules"; "dlls"; "set_procedure"; "release_procedure"; "dll_declare"; "dll_clear"]%string.
Definition converter_words : list pystr := map u ["atan2"; "pythonfunctioncall"; "msgb"]%string.
(** Native functions that neither the converter nor the run time has *)
Definition missing : list pystr := map u ["aclass"; "adbobjects"; "adatabases"; "adockstate"; "aerror"; "aevents"; "afont"; "agetclass"; "agetfileversion"; "ainstance"; "alanguage"; "alines"; "amembers"; "amouseobj";
   "anetresources"; "aprinters"; "aprocinfo"; "asqlhandles"; "aselobj"; "astackinfo"; "ataginfo"; "aused"; "avcxclasses"; "addproperty"; "adlls"; "aelement"; "asessions";
   "asort"; "asubscript"; "bintoc"; "bindevent"; "ctobin"; "candidate"; "chrsaw"; "clearresultset"; "cntbar"; "cntpad"; "comarray"; "comclassinfo"; "comreturnerror"; "compobj";
   "cpconvert"; "cpcurrent"; "createbinary"; "createoffline"; "cursorgetprop"; "cursorsetprop"; "cursortoxml"; "curval"; "dbalias"; "dbgetprop"; "dbsetprop"; "dbused";
   "ddeaborttrans"; "ddeadvise"; "ddeenabled"; "ddeexecute"; "ddelasterror"; "ddepoke"; "dderequest"; "defaultext"; "descending"; "difference"; "diskspace"; "displaypath";
   "drivetype"; "dropoffline"; "editsource"; "evaluate"; "eventhandler"; "execscript"; "fchsize"; "ferror"; "fflush"; "filter"; "fklabel"; "fkmax"; "flock"; "floor";
   "fontmetric"; "forcepath"; "fsize"; "fullpath"; "getautoincvalue"; "getcolor"; "getcursoradapter"; "getfldstate"; "getfont"; "gethost"; "getinterface"; "getnextmodified";
   "getobject"; "getpem"; "getpict"; "getprinter"; "getresultset"; "getbar"; "getpad"; "header"; "icase"; "imestatus"; "idxcollate"; "indbc"; "indexseek"; "inputbox"; "insmode";
   "iscolor"; "isexclusive"; "isflocked"; "ishosted"; "isleadbyte"; "ismemofetched"; "ismouse"; "ispen"; "isrlocked"; "isreadonly"; "istransactable"; "keymatch"; "lastkey";
   "loadpicture"; "lookup"; "lupdate"; "maketransactable"; "mdown"; "memlines"; "memory"; "mline"; "mrkbar"; "mrkpad"; "mwindow"; "newobject"; "normalize"; "numlock";
   "objtoclient"; "oldval"; "order"; "payment"; "pemstatus"; "popup"; "primary"; "printstatus"; "prmbar"; "prmpad"; "prompt"; "prtinfo"; "putfile"; "raiseevent"; "refresh";
   "relation"; "removeproperty"; "requery"; "rgbscheme"; "rlock"; "sqlcancel"; "sqlcolumns"; "sqlgetprop"; "sqlidledisconnect"; "sqlmoreresults"; "sqlprepare"; "sqlsetprop";
   "savepicture"; "scheme"; "scols"; "setfldstate"; "setresultset"; "skpbar"; "skppad"; "soundex"; "srows"; "sysmetric"; "tablerevert"; "tableupdate"; "tagcount"; "tagno";
   "target"; "textmerge"; "transform"; "txnlevel"; "txtwidth"; "unbindevents"; "wdockable"; "wborder"; "wchild"; "wcols"; "wexist"; "wfont"; "wlast"; "wlcol"; "wlrow";
   "wmaximum"; "wminimum"; "wontop"; "woutput"; "wparent"; "wrows"; "wtitle"; "wvisible"; "xmltocursor"; "xmlupdategram"; "adel"; "adir"; "atn2"; "bar"; "col"; "ctot"; "dbc";
   "feof"; "for"; "fv"; "key"; "lock"; "mcol"; "mdx"; "mdy"; "menu"; "mrow"; "mton"; "ndx"; "ntom"; "on"; "pad"; "pcol"; "prow"; "pv"; "rdlevel"; "row"; "tag"; "ttoc"; "ttod";
   "type"; "week"; "wread"]%string.
