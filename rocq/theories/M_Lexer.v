(** The lexer of the grammar: every rule of VisualFoxpro9.g4:714-1623 (VisualFoxpro9Lexer.py is what ANTLR makes of it).

    A rule is a regular expression over characters.  As in ANTLR, the rules are followed together; the longest text that a rule matches becomes
    the next token, and of several rules that match it the first in the file names it.  The definitions of the rules are transcribed from the file
    one by one; none is left out. *)
From Verif Require Import PyBase PyStr.
Open Scope Z_scope.

(** ** Regular expressions, and following them one character at a time *)
Inductive rx := Void | Eps | Cls (other : bool) (l : list (Z * Z)) | Cat (a b : rx) | Alt (a b : rx) | Star (a : rx).
Definition within (c : Z) (l : list (Z * Z)) : bool := existsb (fun p => (fst p <=? c) && (c <=? snd p)) l.
Fixpoint nullable (r : rx) : bool :=
  match r with
  | Void | Cls _ _ => false
  | Eps | Star _ => true
  | Cat a b => nullable a && nullable b
  | Alt a b => nullable a || nullable b
  end.
Definition cat (a b : rx) : rx := match a with Void => Void | Eps => b | _ => match b with Void => Void | _ => Cat a b end end.
Definition alt (a b : rx) : rx := match a, b with Void, _ => b | _, Void => a | _, _ => Alt a b end.
Fixpoint step (c : Z) (r : rx) : rx :=
  match r with
  | Void | Eps => Void
  | Cls other l => if xorb other (within c l) then Eps else Void
  | Cat a b => if nullable a then alt (cat (step c a) b) (step c b) else cat (step c a) b
  | Alt a b => alt (step c a) (step c b)
  | Star a => cat (step c a) (Star a)
  end.
Definition opt (r : rx) : rx := Alt r Eps.
Definition plus (r : rx) : rx := Cat r (Star r).
(* the text of a literal; the letters of a keyword, each in either case (fragments A to Z, g4:1059-1084) *)
Fixpoint Lit (l : list Z) : rx := match l with [] => Eps | [c] => Cls false [(c, c)] | c :: l => Cat (Cls false [(c, c)]) (Lit l) end.
Definition either (c : Z) : rx := Cls false [(c, c); (c + 32, c + 32)].
Fixpoint letters (l : list Z) : rx := match l with [] => Eps | [c] => either c | c :: l => Cat (either c) (letters l) end.
Definition W (s : string) : rx := letters (u s).
Declare Scope rx_scope.
Infix "&" := Cat (at level 58, right associativity) : rx_scope.
Infix "\/" := Alt (at level 85, right associativity) : rx_scope.
Local Open Scope rx_scope.

(** ** The rules *)
Definition R_DIGIT : rx := Cls false [(48, 57)]. (* g4:1085 *)
Definition R_HEXDIGIT : rx := Cls false [(48, 57); (65, 70); (97, 102)]. (* g4:1086 *)
(* g4:1089-1417 *)
Definition id_start : list (Z * Z) := [
    (95, 95); (65, 90); (97, 122); (170, 170); (181, 181); (186, 186); (192, 214); (216, 246); (248, 442); (443, 443); (444, 447); (448, 451);
    (452, 577); (592, 687); (688, 705); (710, 721); (736, 740); (750, 750); (890, 890); (902, 902); (904, 906); (908, 908); (910, 929); (931, 974);
    (976, 1013); (1015, 1153); (1162, 1230); (1232, 1273); (1280, 1295); (1329, 1366); (1369, 1369); (1377, 1415); (1488, 1514); (1520, 1522);
    (1569, 1594); (1600, 1600); (1601, 1610); (1646, 1647); (1649, 1747); (1749, 1749); (1765, 1766); (1774, 1775); (1786, 1788); (1791, 1791);
    (1808, 1808); (1810, 1839); (1869, 1901); (1920, 1957); (1969, 1969); (2308, 2361); (2365, 2365); (2384, 2384); (2392, 2401); (2429, 2429);
    (2437, 2444); (2447, 2448); (2451, 2472); (2474, 2480); (2482, 2482); (2486, 2489); (2493, 2493); (2510, 2510); (2524, 2525); (2527, 2529);
    (2544, 2545); (2565, 2570); (2575, 2576); (2579, 2600); (2602, 2608); (2610, 2611); (2613, 2614); (2616, 2617); (2649, 2652); (2654, 2654);
    (2674, 2676); (2693, 2701); (2703, 2705); (2707, 2728); (2730, 2736); (2738, 2739); (2741, 2745); (2749, 2749); (2768, 2768); (2784, 2785);
    (2821, 2828); (2831, 2832); (2835, 2856); (2858, 2864); (2866, 2867); (2869, 2873); (2877, 2877); (2908, 2909); (2911, 2913); (2929, 2929);
    (2947, 2947); (2949, 2954); (2958, 2960); (2962, 2965); (2969, 2970); (2972, 2972); (2974, 2975); (2979, 2980); (2984, 2986); (2990, 3001);
    (3077, 3084); (3086, 3088); (3090, 3112); (3114, 3123); (3125, 3129); (3168, 3169); (3205, 3212); (3214, 3216); (3218, 3240); (3242, 3251);
    (3253, 3257); (3261, 3261); (3294, 3294); (3296, 3297); (3333, 3340); (3342, 3344); (3346, 3368); (3370, 3385); (3424, 3425); (3461, 3478);
    (3482, 3505); (3507, 3515); (3517, 3517); (3520, 3526); (3585, 3632); (3634, 3635); (3648, 3653); (3654, 3654); (3713, 3714); (3716, 3716);
    (3719, 3720); (3722, 3722); (3725, 3725); (3732, 3735); (3737, 3743); (3745, 3747); (3749, 3749); (3751, 3751); (3754, 3755); (3757, 3760);
    (3762, 3763); (3773, 3773); (3776, 3780); (3782, 3782); (3804, 3805); (3840, 3840); (3904, 3911); (3913, 3946); (3976, 3979); (4096, 4129);
    (4131, 4135); (4137, 4138); (4176, 4181); (4256, 4293); (4304, 4346); (4348, 4348); (4352, 4441); (4447, 4514); (4520, 4601); (4608, 4680);
    (4682, 4685); (4688, 4694); (4696, 4696); (4698, 4701); (4704, 4744); (4746, 4749); (4752, 4784); (4786, 4789); (4792, 4798); (4800, 4800);
    (4802, 4805); (4808, 4822); (4824, 4880); (4882, 4885); (4888, 4954); (4992, 5007); (5024, 5108); (5121, 5740); (5743, 5750); (5761, 5786);
    (5792, 5866); (5870, 5872); (5888, 5900); (5902, 5905); (5920, 5937); (5952, 5969); (5984, 5996); (5998, 6000); (6016, 6067); (6103, 6103);
    (6108, 6108); (6176, 6210); (6211, 6211); (6212, 6263); (6272, 6312); (6400, 6428); (6480, 6509); (6512, 6516); (6528, 6569); (6593, 6599);
    (6656, 6678); (7424, 7467); (7468, 7521); (7522, 7543); (7544, 7544); (7545, 7578); (7579, 7615); (7680, 7835); (7840, 7929); (7936, 7957);
    (7960, 7965); (7968, 8005); (8008, 8013); (8016, 8023); (8025, 8025); (8027, 8027); (8029, 8029); (8031, 8061); (8064, 8116); (8118, 8124);
    (8126, 8126); (8130, 8132); (8134, 8140); (8144, 8147); (8150, 8155); (8160, 8172); (8178, 8180); (8182, 8188); (8305, 8305); (8319, 8319);
    (8336, 8340); (8450, 8450); (8455, 8455); (8458, 8467); (8469, 8469); (8472, 8472); (8473, 8477); (8484, 8484); (8486, 8486); (8488, 8488);
    (8490, 8493); (8494, 8494); (8495, 8497); (8499, 8500); (8501, 8504); (8505, 8505); (8508, 8511); (8517, 8521); (8544, 8579); (11264, 11310);
    (11312, 11358); (11392, 11492); (11520, 11557); (11568, 11621); (11631, 11631); (11648, 11670); (11680, 11686); (11688, 11694); (11696, 11702);
    (11704, 11710); (11712, 11718); (11720, 11726); (11728, 11734); (11736, 11742); (12293, 12293); (12294, 12294); (12295, 12295); (12321, 12329);
    (12337, 12341); (12344, 12346); (12347, 12347); (12348, 12348); (12353, 12438); (12443, 12444); (12445, 12446); (12447, 12447); (12449, 12538);
    (12540, 12542); (12543, 12543); (12549, 12588); (12593, 12686); (12704, 12727); (12784, 12799); (13312, 19893); (19968, 40891); (40960, 40980);
    (40981, 40981); (40982, 42124); (43008, 43009); (43011, 43013); (43015, 43018); (43020, 43042); (44032, 55203); (63744, 64045); (64048, 64106);
    (64112, 64217); (64256, 64262); (64275, 64279); (64285, 64285); (64287, 64296); (64298, 64310); (64312, 64316); (64318, 64318); (64320, 64321);
    (64323, 64324); (64326, 64433); (64467, 64829); (64848, 64911); (64914, 64967); (65008, 65019); (65136, 65140); (65142, 65276); (65313, 65338);
    (65345, 65370); (65382, 65391); (65392, 65392); (65393, 65437); (65438, 65439); (65440, 65470); (65474, 65479); (65482, 65487); (65490, 65495);
    (65498, 65500) ].
(* g4:1420-1623 *)
Definition id_continue : list (Z * Z) := id_start ++ [
    (48, 57); (768, 879); (1155, 1158); (1425, 1465); (1467, 1469); (1471, 1471); (1473, 1474); (1476, 1477); (1479, 1479); (1552, 1557); (1611, 1630);
    (1632, 1641); (1648, 1648); (1750, 1756); (1759, 1764); (1767, 1768); (1770, 1773); (1776, 1785); (1809, 1809); (1840, 1866); (1958, 1968);
    (2305, 2306); (2307, 2307); (2364, 2364); (2366, 2368); (2369, 2376); (2377, 2380); (2381, 2381); (2385, 2388); (2402, 2403); (2406, 2415);
    (2433, 2433); (2434, 2435); (2492, 2492); (2494, 2496); (2497, 2500); (2503, 2504); (2507, 2508); (2509, 2509); (2519, 2519); (2530, 2531);
    (2534, 2543); (2561, 2562); (2563, 2563); (2620, 2620); (2622, 2624); (2625, 2626); (2631, 2632); (2635, 2637); (2662, 2671); (2672, 2673);
    (2689, 2690); (2691, 2691); (2748, 2748); (2750, 2752); (2753, 2757); (2759, 2760); (2761, 2761); (2763, 2764); (2765, 2765); (2786, 2787);
    (2790, 2799); (2817, 2817); (2818, 2819); (2876, 2876); (2878, 2878); (2879, 2879); (2880, 2880); (2881, 2883); (2887, 2888); (2891, 2892);
    (2893, 2893); (2902, 2902); (2903, 2903); (2918, 2927); (2946, 2946); (3006, 3007); (3008, 3008); (3009, 3010); (3014, 3016); (3018, 3020);
    (3021, 3021); (3031, 3031); (3046, 3055); (3073, 3075); (3134, 3136); (3137, 3140); (3142, 3144); (3146, 3149); (3157, 3158); (3174, 3183);
    (3202, 3203); (3260, 3260); (3262, 3262); (3263, 3263); (3264, 3268); (3270, 3270); (3271, 3272); (3274, 3275); (3276, 3277); (3285, 3286);
    (3302, 3311); (3330, 3331); (3390, 3392); (3393, 3395); (3398, 3400); (3402, 3404); (3405, 3405); (3415, 3415); (3430, 3439); (3458, 3459);
    (3530, 3530); (3535, 3537); (3538, 3540); (3542, 3542); (3544, 3551); (3570, 3571); (3633, 3633); (3636, 3642); (3655, 3662); (3664, 3673);
    (3761, 3761); (3764, 3769); (3771, 3772); (3784, 3789); (3792, 3801); (3864, 3865); (3872, 3881); (3893, 3893); (3895, 3895); (3897, 3897);
    (3902, 3903); (3953, 3966); (3967, 3967); (3968, 3972); (3974, 3975); (3984, 3991); (3993, 4028); (4038, 4038); (4140, 4140); (4141, 4144);
    (4145, 4145); (4146, 4146); (4150, 4151); (4152, 4152); (4153, 4153); (4160, 4169); (4182, 4183); (4184, 4185); (4959, 4959); (4969, 4977);
    (5906, 5908); (5938, 5940); (5970, 5971); (6002, 6003); (6070, 6070); (6071, 6077); (6078, 6085); (6086, 6086); (6087, 6088); (6089, 6099);
    (6109, 6109); (6112, 6121); (6155, 6157); (6160, 6169); (6313, 6313); (6432, 6434); (6435, 6438); (6439, 6440); (6441, 6443); (6448, 6449);
    (6450, 6450); (6451, 6456); (6457, 6459); (6470, 6479); (6576, 6592); (6600, 6601); (6608, 6617); (6679, 6680); (6681, 6683); (7616, 7619);
    (8255, 8256); (8276, 8276); (8400, 8412); (8417, 8417); (8421, 8427); (12330, 12335); (12441, 12442); (43010, 43010); (43014, 43014);
    (43019, 43019); (43043, 43044); (43045, 43046); (43047, 43047); (64286, 64286); (65024, 65039); (65056, 65059); (65075, 65076); (65101, 65103);
    (65296, 65305); (65343, 65343) ].
Definition R_T__0 : rx := Lit [95]. (* the literal of pathElement, g4:403, made a token before all others: VisualFoxpro9Lexer.py:1461 *)
Definition R_NUMBER_LITERAL : rx := (opt (Star R_DIGIT & Lit [46]) & plus R_DIGIT & opt (W "E" & opt (Cls false [(43, 43); (45, 45)]) & Star R_DIGIT)) \/ (plus R_DIGIT & Lit [46]) \/ (Lit [48] & W "X" & Star R_HEXDIGIT). (* g4:714-717 *)
Definition R_BLOB_LITERAL : rx := Lit [48] & W "H" & Star R_HEXDIGIT. (* g4:719 *)
Definition R_SEMICOLON : rx := Lit [59]. (* g4:721 *)
Definition R_AMPERSAND : rx := Lit [38]. (* g4:722 *)
Definition R_COMMERCIALAT : rx := Lit [64]. (* g4:723 *)
Definition R_ASTERISK : rx := Lit [42]. (* g4:724 *)
Definition R_PLUS_SIGN : rx := Lit [43]. (* g4:725 *)
Definition R_MINUS_SIGN : rx := Lit [45]. (* g4:726 *)
Definition R_FORWARDSLASH : rx := Lit [47]. (* g4:727 *)
Definition R_PERIOD : rx := Lit [46]. (* g4:728 *)
Definition R_LEFTBRACKET : rx := Lit [91]. (* g4:729 *)
Definition R_RIGHTBRACKET : rx := Lit [93]. (* g4:730 *)
Definition R_LEFTBRACE : rx := Lit [123]. (* g4:731 *)
Definition R_RIGHTBRACE : rx := Lit [125]. (* g4:732 *)
Definition R_LEFTPAREN : rx := Lit [40]. (* g4:733 *)
Definition R_RIGHTPAREN : rx := Lit [41]. (* g4:734 *)
Definition R_BACKSLASH : rx := Lit [92]. (* g4:735 *)
Definition R_LESSTHAN : rx := Lit [60]. (* g4:736 *)
Definition R_GREATERTHAN : rx := Lit [62]. (* g4:737 *)
Definition R_EXCLAMATION : rx := Lit [33]. (* g4:738 *)
Definition R_HASH : rx := Lit [35]. (* g4:739 *)
Definition R_DOUBLEEQUALS : rx := Lit [61; 61]. (* g4:740 *)
Definition R_NOTEQUALS : rx := Lit [33; 61] \/ Lit [60; 62]. (* g4:741 *)
Definition R_GTEQ : rx := Lit [62; 61] \/ Lit [61; 62]. (* g4:742 *)
Definition R_LTEQ : rx := Lit [60; 61] \/ Lit [61; 60]. (* g4:743 *)
Definition R_MODULO : rx := Lit [37]. (* g4:744 *)
Definition R_EQUALS : rx := Lit [61]. (* g4:745 *)
Definition R_CARAT : rx := Lit [94]. (* g4:746 *)
Definition R_COMMA : rx := Lit [44]. (* g4:747 *)
Definition R_DOLLAR : rx := Lit [36]. (* g4:748 *)
Definition R_COLON : rx := Lit [58]. (* g4:749 *)
Definition R_QUESTION : rx := Lit [63]. (* g4:750 *)
Definition R_DOUBLEQUOTE : rx := Lit [34]. (* g4:751 *)
Definition R_SINGLEQUOTE : rx := Lit [39]. (* g4:752 *)
Definition R_ACTIVATE : rx := W "ACTI" & opt (W "V" & opt (W "A" & opt (W "T" & opt (W "E")))). (* g4:760 *)
Definition R_ADD : rx := W "ADD". (* g4:761 *)
Definition R_ADDITIVE : rx := W "ADDITIVE". (* g4:762 *)
Definition R_AFTER : rx := W "AFTER". (* g4:763 *)
Definition R_ALIAS : rx := W "ALIAS". (* g4:764 *)
Definition R_ALL : rx := W "ALL". (* g4:765 *)
Definition R_ALTER : rx := W "ALTER". (* g4:766 *)
Definition R_ALTERNATE : rx := W "ALTERNATE". (* g4:767 *)
Definition R_AND : rx := W "AND". (* g4:768 *)
Definition R_APPEND : rx := W "APPE" & opt (W "N" & opt (W "D")). (* g4:769 *)
Definition R_ARRAY : rx := W "ARRA" & opt (W "Y"). (* g4:770 *)
Definition R_AS : rx := W "AS". (* g4:771 *)
Definition R_ASCENDING : rx := W "ASCENDING". (* g4:772 *)
Definition R_ASSERT : rx := W "ASSE" & opt (W "R" & opt (W "T")). (* g4:773 *)
Definition R_ASSERTS : rx := W "ASSERTS". (* g4:774 *)
Definition R_AT : rx := W "AT". (* g4:775 *)
Definition R_BAR : rx := W "BAR". (* g4:777 *)
Definition R_BEFORE : rx := W "BEFORE". (* g4:778 *)
Definition R_BELL : rx := W "BELL". (* g4:779 *)
Definition R_BLANK : rx := W "BLAN" & opt (W "K"). (* g4:780 *)
Definition R_BOOLEANCHAR : rx := W "F" \/ W "N" \/ W "T" \/ W "Y". (* g4:781 *)
Definition R_BOTTOM : rx := (W "BOTTOM") \/ (W "BOTT"). (* g4:782 *)
Definition R_BROWSE : rx := W "BROW" & opt (W "S" & opt (W "E")). (* g4:784 *)
Definition R_BY : rx := W "BY". (* g4:786 *)
Definition R_CANDIDATE : rx := W "CANDIDATE". (* g4:788 *)
Definition R_CASE : rx := W "CASE". (* g4:789 *)
Definition R_CAST : rx := W "CAST". (* g4:790 *)
Definition R_CATCH : rx := W "CATC" & opt (W "H"). (* g4:791 *)
Definition R_CENTURY : rx := W "CENT" & opt (W "U" & opt (W "R" & opt (W "Y"))). (* g4:792 *)
Definition R_CHDIR : rx := (W "CD") \/ (W "CHDI" & opt (W "R")). (* g4:794 *)
Definition R_CLASS : rx := W "CLASS". (* g4:795 *)
Definition R_CLASSLIB : rx := W "CLASSLIB". (* g4:796 *)
Definition R_CLEAR : rx := W "CLEA" & opt (W "R"). (* g4:797 *)
Definition R_CLOCK : rx := W "CLOCK". (* g4:798 *)
Definition R_CLOSE : rx := W "CLOS" & opt (W "E"). (* g4:799 *)
Definition R_COLLECTION : rx := W "COLLECTION". (* g4:800 *)
Definition R_COLOR : rx := W "COLOR". (* g4:801 *)
Definition R_COLUMN : rx := W "COLUMN". (* g4:802 *)
Definition R_COMMAND : rx := W "COMMAND". (* g4:803 *)
Definition R_COMPACT : rx := W "COMPACT". (* g4:804 *)
Definition R_COMPATIBLE : rx := W "COMPATIBLE". (* g4:805 *)
Definition R_COMPILE : rx := W "COMP" & opt (W "I" & opt (W "L" & opt (W "E"))). (* g4:806 *)
Definition R_CONSOLE : rx := W "CONSOLE". (* g4:807 *)
Definition R_CONTINUE : rx := W "CONT" & opt (W "I" & opt (W "N" & opt (W "U" & opt (W "E")))). (* g4:808 *)
Definition R_COPY : rx := W "COPY". (* g4:809 *)
Definition R_COUNT : rx := W "COUN" & opt (W "T"). (* g4:810 *)
Definition R_CREATE : rx := W "CREA" & opt (W "T" & opt (W "E")). (* g4:811 *)
Definition R_CURSOR : rx := W "CURS" & opt (W "O" & opt (W "R")). (* g4:812 *)
Definition R_DATABASE : rx := W "DATA" & opt (W "BASE" & opt (W "S")). (* g4:813 *)
Definition R_DATASESSION : rx := W "DATASESSION". (* g4:814 *)
Definition R_DATE : rx := W "DATE". (* g4:815 *)
Definition R_DB4 : rx := W "DB" & Lit [52]. (* g4:816 *)
Definition R_DBF : rx := W "DBF". (* g4:817 *)
Definition R_DEACTIVATE : rx := W "DEAC" & opt (W "T" & opt (W "I" & opt (W "V" & opt (W "A" & opt (W "T" & opt (W "E")))))). (* g4:818 *)
Definition R_DEBUG : rx := W "DEBU" & opt (W "G"). (* g4:819 *)
Definition R_DEBUGOUT : rx := W "DEBUGO" & opt (W "U" & opt (W "T")). (* g4:820 *)
Definition R_DECLARE : rx := W "DECL" & opt (W "A" & opt (W "R" & opt (W "E"))). (* g4:821 *)
Definition R_DEFAULT : rx := W "DEFAULT". (* g4:822 *)
Definition R_DEFINE : rx := W "DEFI" & opt (W "N" & opt (W "E")). (* g4:823 *)
Definition R_DELETE : rx := W "DELE" & opt (W "T" & opt (W "E")). (* g4:824 *)
Definition R_DELETED : rx := W "DELETED". (* g4:825 *)
Definition R_DESCENDING : rx := W "DESCENDING". (* g4:826 *)
Definition R_DIMENSION : rx := W "DIME" & opt (W "N" & opt (W "S" & opt (W "I" & opt (W "O" & opt (W "N"))))). (* g4:828 *)
Definition R_DISTINCT : rx := W "DISTINCT". (* g4:830 *)
Definition R_DLLS : rx := W "DLLS". (* g4:831 *)
Definition R_DO : rx := W "DO". (* g4:832 *)
Definition R_DOEVENTS : rx := W "DOEV" & opt (W "E" & opt (W "N" & opt (W "T" & opt (W "S")))). (* g4:833 *)
Definition R_DROP : rx := W "DROP". (* g4:834 *)
Definition R_EACH : rx := W "EACH". (* g4:835 *)
Definition R_ELIF : rx := W "ELIF". (* g4:837 *)
Definition R_ELSE : rx := W "ELSE". (* g4:838 *)
Definition R_ENCRYPT : rx := W "ENCRYPT". (* g4:839 *)
Definition R_ENDCASE : rx := W "ENDC" & opt (W "A" & opt (W "S" & opt (W "E"))). (* g4:840 *)
Definition R_ENDDEFINE : rx := W "ENDDE" & opt (W "F" & opt (W "I" & opt (W "N" & opt (W "E")))). (* g4:841 *)
Definition R_ENDDO : rx := W "ENDDO". (* g4:842 *)
Definition R_ENDFOR : rx := W "ENDFO" & opt (W "R"). (* g4:843 *)
Definition R_ENDIF : rx := W "ENDI" & opt (W "F"). (* g4:844 *)
Definition R_ENDPROC : rx := (W "ENDP" & opt (W "R" & opt (W "O" & opt (W "C")))) \/ (W "END" & opt (W "F" & opt (W "U" & opt (W "N" & opt (W "C"))))). (* g4:845 *)
Definition R_ENDSCAN : rx := W "ENDS" & opt (W "C" & opt (W "A" & opt (W "N"))). (* g4:847 *)
Definition R_ENDTEXT : rx := W "ENDT" & opt (W "E" & opt (W "X" & opt (W "T"))). (* g4:848 *)
Definition R_ENDTRY : rx := W "ENDTR" & opt (W "Y"). (* g4:849 *)
Definition R_ENDWITH : rx := W "ENDW" & opt (W "I" & opt (W "T" & opt (W "H"))). (* g4:850 *)
Definition R_ERASE : rx := W "ERAS" & opt (W "E"). (* g4:851 *)
Definition R_ERROR : rx := W "ERRO" & opt (W "R"). (* g4:852 *)
Definition R_ESCAPE : rx := W "ESCAPE". (* g4:853 *)
Definition R_EVENTS : rx := W "EVENTS". (* g4:854 *)
Definition R_EXACT : rx := W "EXAC" & opt (W "T"). (* g4:855 *)
Definition R_EXCEPT : rx := W "EXCEPT". (* g4:856 *)
Definition R_EXCLUSIVE : rx := W "EXCL" & opt (W "USIVE"). (* g4:857 *)
Definition R_EXTENDED : rx := W "EXTENDED". (* g4:859 *)
Definition R_EXTERNAL : rx := W "EXTE" & opt (W "R" & opt (W "N" & opt (W "A" & opt (W "L")))). (* g4:860 *)
Definition R_FIELDS : rx := W "FIELDS". (* g4:861 *)
Definition R_FILE : rx := W "FILE" & opt (W "S"). (* g4:862 *)
Definition R_FILL : rx := W "FILL". (* g4:863 *)
Definition R_FILTER : rx := W "FILT" & opt (W "E" & opt (W "R")). (* g4:864 *)
Definition R_FINALLY : rx := W "FINA" & opt (W "L" & opt (W "L" & opt (W "Y"))). (* g4:865 *)
Definition R_FLAGS : rx := W "FLAGS". (* g4:866 *)
Definition R_FONT : rx := W "FONT". (* g4:868 *)
Definition R_FOR : rx := W "FOR". (* g4:869 *)
Definition R_FORCE : rx := W "FORCE". (* g4:870 *)
Definition R_FORM : rx := W "FORM". (* g4:871 *)
Definition R_FOXOBJECT : rx := W "FOXOBJECT". (* g4:872 *)
Definition R_FOXPLUS : rx := W "FOXPLUS". (* g4:873 *)
Definition R_FREE : rx := W "FREE". (* g4:874 *)
Definition R_FROM : rx := W "FROM". (* g4:875 *)
Definition R_GATHER : rx := W "GATH" & opt (W "E" & opt (W "R")). (* g4:876 *)
Definition R_GETS : rx := W "GETS". (* g4:878 *)
Definition R_GOTO : rx := W "GO" & opt (W "TO"). (* g4:879 *)
Definition R_HELP : rx := W "HELP". (* g4:880 *)
Definition R_HIDE : rx := W "HIDE". (* g4:881 *)
Definition R_ICON : rx := W "ICON". (* g4:882 *)
Definition R_IF : rx := W "IF". (* g4:883 *)
Definition R_IFDEF : rx := W "IFDEF". (* g4:884 *)
Definition R_IN : rx := W "IN". (* g4:886 *)
Definition R_INCLUDE : rx := W "INCLUDE". (* g4:887 *)
Definition R_INDEX : rx := W "INDEX". (* g4:888 *)
Definition R_INDEXES : rx := W "INDEXES". (* g4:889 *)
Definition R_INSERT : rx := W "INSE" & opt (W "R" & opt (W "T")). (* g4:890 *)
Definition R_INTO : rx := W "INTO". (* g4:891 *)
Definition R_JOIN : rx := W "JOIN". (* g4:892 *)
Definition R_KEY : rx := W "KEY". (* g4:893 *)
Definition R_KEYBOARD : rx := W "KEYB" & opt (W "O" & opt (W "A" & opt (W "R" & opt (W "D")))). (* g4:894 *)
Definition R_LABEL : rx := W "LABEL". (* g4:895 *)
Definition R_LIBRARY : rx := W "LIBRARY". (* g4:896 *)
Definition R_LIKE : rx := W "LIKE". (* g4:897 *)
Definition R_LINE : rx := W "LINE". (* g4:898 *)
Definition R_LINKED : rx := W "LINKED". (* g4:899 *)
Definition R_LIST : rx := W "LIST". (* g4:900 *)
Definition R_LOCATE : rx := W "LOCA" & opt (W "T" & opt (W "E")). (* g4:901 *)
Definition R_MACROS : rx := W "MACROS". (* g4:902 *)
Definition R_MARGIN : rx := W "MARGIN". (* g4:903 *)
Definition R_MARK : rx := W "MARK". (* g4:904 *)
Definition R_MASTER : rx := W "MASTER". (* g4:905 *)
Definition R_MAX : rx := W "MAX". (* g4:906 *)
Definition R_MEMO : rx := W "MEMO". (* g4:907 *)
Definition R_MEMORY : rx := W "MEMORY". (* g4:908 *)
Definition R_MEMOWIDTH : rx := W "MEMOWIDTH". (* g4:909 *)
Definition R_MEMVAR : rx := W "MEMVAR". (* g4:910 *)
Definition R_MENU : rx := W "MENU". (* g4:911 *)
Definition R_MENUS : rx := W "MENUS". (* g4:912 *)
Definition R_MESSAGE : rx := W "MESS" & opt (W "A" & opt (W "G" & opt (W "E"))). (* g4:913 *)
Definition R_MIN : rx := W "MIN". (* g4:914 *)
Definition R_MKDIR : rx := (W "MKDI" & opt (W "R")) \/ (W "MD"). (* g4:915 *)
Definition R_MODIFY : rx := W "MODI" & opt (W "F" & opt (W "Y")). (* g4:916 *)
Definition R_MULTILOCKS : rx := W "MULTILOCKS". (* g4:918 *)
Definition R_NAME : rx := W "NAME". (* g4:919 *)
Definition R_NEAR : rx := W "NEAR". (* g4:920 *)
Definition R_NEGOTIATE : rx := W "NEGOTIATE". (* g4:921 *)
Definition R_NEXT : rx := W "NEXT". (* g4:922 *)
Definition R_NOCLEAR : rx := W "NOCLEAR". (* g4:923 *)
Definition R_NOCONSOLE : rx := W "NOCONSOLE". (* g4:924 *)
Definition R_NODEBUG : rx := W "NO" & R_DEBUG. (* g4:925 *)
Definition R_NOEJECT : rx := W "NOEJECT". (* g4:926 *)
Definition R_NOMARGIN : rx := W "NOMARGIN". (* g4:927 *)
Definition R_NOMENU : rx := W "NOMENU". (* g4:928 *)
Definition R_NOOPTIMIZE : rx := W "NOOPTIMIZE". (* g4:929 *)
Definition R_NOPROMPT : rx := W "NOPROMPT". (* g4:930 *)
Definition R_NORM : rx := W "NORM". (* g4:931 *)
Definition R_NOSAVE : rx := W "NOSAVE". (* g4:932 *)
Definition R_NOSHOW : rx := W "NOSHOW". (* g4:933 *)
Definition R_NOT : rx := W "NOT". (* g4:934 *)
Definition R_NOTE : rx := W "NOTE". (* g4:935 *)
Definition R_NOTIFY : rx := W "NOTIFY". (* g4:936 *)
Definition R_NOUPDATE : rx := W "NOUPDATE". (* g4:937 *)
Definition R_NOWAIT : rx := W "NOWAIT". (* g4:938 *)
Definition R_NULL : rx := W "NULL". (* g4:939 *)
Definition R_NUMBER : rx := W "NUMBER". (* g4:940 *)
Definition R_OBJECT : rx := W "OBJECT". (* g4:941 *)
Definition R_OF : rx := W "OF". (* g4:942 *)
Definition R_OFF : rx := W "OFF". (* g4:943 *)
Definition R_ON : rx := W "ON". (* g4:944 *)
Definition R_OR : rx := W "OR". (* g4:945 *)
Definition R_ORDER : rx := W "ORDER". (* g4:946 *)
Definition R_OTHERAND : rx := Lit [46] & R_AND & Lit [46]. (* g4:947 *)
Definition R_OTHERNOT : rx := Lit [46] & R_NOT & Lit [46]. (* g4:948 *)
Definition R_OTHEROR : rx := Lit [46] & R_OR & Lit [46]. (* g4:949 *)
Definition R_OTHERWISE : rx := W "OTHE" & opt (W "R" & opt (W "W" & opt (W "I" & opt (W "S" & opt (W "E"))))). (* g4:950 *)
Definition R_PACK : rx := W "PACK". (* g4:951 *)
Definition R_PAD : rx := W "PAD". (* g4:952 *)
Definition R_PARAMETER : rx := (W "LPAR" & opt (W "A" & opt (W "M" & opt (W "E" & opt (W "T" & opt (W "E" & opt (W "R" & opt (W "S")))))))) \/ (W "PARA" & opt (W "M" & opt (W "E" & opt (W "T" & opt (W "E" & opt (W "R" & opt (W "S"))))))). (* g4:953 *)
Definition R_PLAIN : rx := W "PLAIN". (* g4:955 *)
Definition R_POP : rx := W "POP". (* g4:956 *)
Definition R_POPUP : rx := W "POPUP" & opt (W "S"). (* g4:957 *)
Definition R_PRINTER : rx := W "PRIN" & opt (W "T" & opt (W "E" & opt (W "R"))). (* g4:959 *)
Definition R_PROCEDURE : rx := (W "PROC" & opt (W "E" & opt (W "D" & opt (W "U" & opt (W "R" & opt (W "E")))))) \/ (W "FUNC" & opt (W "T" & opt (W "I" & opt (W "O" & opt (W "N"))))). (* g4:961 *)
Definition R_PROGRAM : rx := W "PROGRAM". (* g4:962 *)
Definition R_PROGRAMCONTROL : rx := (W "CANC" & opt (W "E" & opt (W "L"))) \/ (W "SUSP" & opt (W "E" & opt (W "N" & opt (W "D")))) \/ (W "RESU" & opt (W "M" & opt (W "E"))) \/ (W "QUIT") \/ (W "EXIT") \/ (W "LOOP") \/ (W "NODE" & opt (W "F" & opt (W "A" & opt (W "U" & opt (W "L" & opt (W "T")))))). (* g4:963 *)
Definition R_PROMPT : rx := W "PROMPT". (* g4:964 *)
Definition R_PUSH : rx := W "PUSH". (* g4:965 *)
Definition R_READ : rx := W "READ". (* g4:966 *)
Definition R_RECALL : rx := W "RECA" & opt (W "L" & opt (W "L")). (* g4:967 *)
Definition R_RECORD : rx := W "RECORD". (* g4:968 *)
Definition R_RECYCLE : rx := W "RECYCLE". (* g4:969 *)
Definition R_REFERENCE : rx := W "REFERENCE". (* g4:970 *)
Definition R_REFRESH : rx := W "REFRESH". (* g4:971 *)
Definition R_REINDEX : rx := W "REIN" & opt (W "D" & opt (W "E" & opt (W "X"))). (* g4:972 *)
Definition R_RELATION : rx := W "RELATION". (* g4:973 *)
Definition R_RELATIVE : rx := W "RELATIVE". (* g4:974 *)
Definition R_RELEASE : rx := W "RELE" & opt (W "A" & opt (W "S" & opt (W "E"))). (* g4:975 *)
Definition R_RENAME : rx := W "RENA" & opt (W "M" & opt (W "E")). (* g4:977 *)
Definition R_REPLACE : rx := W "REPL" & opt (W "A" & opt (W "C" & opt (W "E"))). (* g4:978 *)
Definition R_REPORT : rx := W "REPORT". (* g4:979 *)
Definition R_RESOURCES : rx := W "RESOURCES". (* g4:980 *)
Definition R_REST : rx := W "REST". (* g4:981 *)
Definition R_RESTORE : rx := W "REST" & opt (W "O" & opt (W "R" & opt (W "E"))). (* g4:982 *)
Definition R_RETRY : rx := W "RETR" & opt (W "Y"). (* g4:983 *)
Definition R_RETURN : rx := W "RETU" & opt (W "R" & opt (W "N")). (* g4:984 *)
Definition R_RMDIR : rx := (W "RMDI" & opt (W "R")) \/ (W "RD"). (* g4:985 *)
Definition R_ROLLOVER : rx := W "ROLLOVER". (* g4:987 *)
Definition R_RUN : rx := W "RUN". (* g4:988 *)
Definition R_SAFETY : rx := W "SAFE" & opt (W "T" & opt (W "Y")). (* g4:989 *)
Definition R_SAME : rx := W "SAME". (* g4:990 *)
Definition R_SAVE : rx := W "SAVE". (* g4:991 *)
Definition R_SAY : rx := W "SAY". (* g4:992 *)
Definition R_SCAN : rx := W "SCAN". (* g4:993 *)
Definition R_SCATTER : rx := W "SCAT" & opt (W "T" & opt (W "E" & opt (W "R"))). (* g4:994 *)
Definition R_SCHEME : rx := W "SCHEME". (* g4:995 *)
Definition R_SCOPE : rx := (W "PROT" & opt (W "E" & opt (W "C" & opt (W "T" & opt (W "E" & opt (W "D")))))) \/ (W "HIDD" & opt (W "E" & opt (W "N"))) \/ (W "PUBL" & opt (W "I" & opt (W "C"))) \/ (W "PRIV" & opt (W "A" & opt (W "T" & opt (W "E")))) \/ (W "LOCAL"). (* g4:996 *)
Definition R_SCREEN : rx := W "SCRE" & opt (W "E" & opt (W "N")). (* g4:997 *)
Definition R_SEEK : rx := W "SEEK". (* g4:998 *)
Definition R_SELECT : rx := W "SELE" & opt (W "C" & opt (W "T")). (* g4:999 *)
Definition R_SELECTION : rx := W "SELECTION". (* g4:1000 *)
Definition R_SET : rx := W "SET". (* g4:1001 *)
Definition R_SHADOW : rx := W "SHADOW". (* g4:1002 *)
Definition R_SHARED : rx := W "SHARE" & opt (W "D"). (* g4:1003 *)
Definition R_SHOW : rx := W "SHOW". (* g4:1004 *)
Definition R_SHUTDOWN : rx := W "SHUTDOWN". (* g4:1005 *)
Definition R_SIZE : rx := W "SIZE". (* g4:1006 *)
Definition R_SKIPKW : rx := W "SKIP". (* g4:1007 *)
Definition R_SORT : rx := W "SORT". (* g4:1008 *)
Definition R_STATUS : rx := W "STATUS". (* g4:1009 *)
Definition R_STEP : rx := W "STEP". (* g4:1010 *)
Definition R_STORE : rx := W "STOR" & opt (W "E"). (* g4:1011 *)
Definition R_STRUCTURE : rx := W "STRU" & opt (W "C" & opt (W "T" & opt (W "U" & opt (W "R" & opt (W "E"))))). (* g4:1012 *)
Definition R_STYLE : rx := W "STYLE". (* g4:1013 *)
Definition R_SUM : rx := W "SUM". (* g4:1014 *)
Definition R_SYSMENU : rx := W "SYSMENU". (* g4:1015 *)
Definition R_SYSTEM : rx := W "SYSTEM". (* g4:1016 *)
Definition R_TABLE : rx := W "TABL" & opt (W "E" & opt (W "S")). (* g4:1017 *)
Definition R_TABLEPROMPT : rx := W "TABLEPROMPT". (* g4:1018 *)
Definition R_TAG : rx := W "TAG". (* g4:1019 *)
Definition R_TALK : rx := W "TALK". (* g4:1020 *)
Definition R_TEXT : rx := W "TEXT". (* g4:1021 *)
Definition R_TEXTMERGE : rx := R_TEXT & W "MERGE". (* g4:1022 *)
Definition R_THEN : rx := W "THEN". (* g4:1023 *)
Definition R_THROW : rx := W "THRO" & opt (W "W"). (* g4:1024 *)
Definition R_TIMEOUT : rx := W "TIME" & opt (W "O" & opt (W "U" & opt (W "T"))). (* g4:1025 *)
Definition R_TITLE : rx := W "TITLE". (* g4:1026 *)
Definition R_TO : rx := W "TO". (* g4:1027 *)
Definition R_TOP : rx := W "TOP". (* g4:1028 *)
Definition R_TRY : rx := W "TRY". (* g4:1030 *)
Definition R_TYPE : rx := W "TYPE". (* g4:1031 *)
Definition R_TYPEAHEAD : rx := W "TYPEAHEAD". (* g4:1032 *)
Definition R_UDFPARMS : rx := W "UDFPARMS". (* g4:1033 *)
Definition R_UNDEFINE : rx := W "UNDEF" & opt (W "INE"). (* g4:1034 *)
Definition R_UNIQUE : rx := W "UNIQUE". (* g4:1035 *)
Definition R_UNLOCK : rx := W "UNLO" & opt (W "C" & opt (W "K")). (* g4:1036 *)
Definition R_UPDATE : rx := W "UPDA" & opt (W "T" & opt (W "E")). (* g4:1037 *)
Definition R_USE : rx := W "USE". (* g4:1038 *)
Definition R_VALUE : rx := W "VALUE". (* g4:1039 *)
Definition R_VALUES : rx := W "VALUES". (* g4:1040 *)
Definition R_WAIT : rx := W "WAIT". (* g4:1041 *)
Definition R_WHEN : rx := W "WHEN". (* g4:1042 *)
Definition R_WHERE : rx := W "WHERE". (* g4:1043 *)
Definition R_WHILE : rx := W "WHILE". (* g4:1044 *)
Definition R_WINDOW : rx := W "WIND" & opt (W "O" & opt (W "W" & opt (W "S"))). (* g4:1045 *)
Definition R_WITH : rx := W "WITH". (* g4:1046 *)
Definition R_ZAP : rx := W "ZAP". (* g4:1047 *)
Definition R_ZOOM : rx := W "ZOOM". (* g4:1048 *)
Definition R_ID : rx := Cls false id_start & Star (Cls false id_continue). (* g4:1051 *)
Definition R_NL : rx := Lit [10]. (* g4:1053 *)
Definition R_WS : rx := Cls false [(32, 32); (9, 9); (13, 13)]. (* g4:1055 *)
Definition R_UNMATCHED : rx := Cls true []. (* g4:1057 *)
Definition R_COMMENT : rx := (Lit [38; 38] & Star (Cls true [(10, 10)])) \/ (Lit [59] & Star R_WS & Lit [38; 38] & Star (Cls true [(10, 10)]) & R_NL). (* g4:754 *)
Definition R_LINECONT : rx := Lit [59] & Star R_WS & R_NL. (* g4:756 *)
Definition R_MACROLINE : rx := Star (Cls true [(10, 10); (38, 38)]) & Lit [38] & R_ID & Star (Cls true [(10, 10)]). (* g4:758 *)
Definition R_PRETEXT : rx := W "PRE" & R_TEXT. (* g4:958 *)
(** The rules in the order of the file *)
Definition rules : list (string * rx) := [
  ("T__0", R_T__0); ("NUMBER_LITERAL", R_NUMBER_LITERAL); ("BLOB_LITERAL", R_BLOB_LITERAL); ("SEMICOLON", R_SEMICOLON); ("AMPERSAND", R_AMPERSAND); 
  ("COMMERCIALAT", R_COMMERCIALAT); ("ASTERISK", R_ASTERISK); ("PLUS_SIGN", R_PLUS_SIGN); ("MINUS_SIGN", R_MINUS_SIGN); 
  ("FORWARDSLASH", R_FORWARDSLASH); ("PERIOD", R_PERIOD); ("LEFTBRACKET", R_LEFTBRACKET); ("RIGHTBRACKET", R_RIGHTBRACKET); 
  ("LEFTBRACE", R_LEFTBRACE); ("RIGHTBRACE", R_RIGHTBRACE); ("LEFTPAREN", R_LEFTPAREN); ("RIGHTPAREN", R_RIGHTPAREN); ("BACKSLASH", R_BACKSLASH); 
  ("LESSTHAN", R_LESSTHAN); ("GREATERTHAN", R_GREATERTHAN); ("EXCLAMATION", R_EXCLAMATION); ("HASH", R_HASH); ("DOUBLEEQUALS", R_DOUBLEEQUALS); 
  ("NOTEQUALS", R_NOTEQUALS); ("GTEQ", R_GTEQ); ("LTEQ", R_LTEQ); ("MODULO", R_MODULO); ("EQUALS", R_EQUALS); ("CARAT", R_CARAT); ("COMMA", R_COMMA); 
  ("DOLLAR", R_DOLLAR); ("COLON", R_COLON); ("QUESTION", R_QUESTION); ("DOUBLEQUOTE", R_DOUBLEQUOTE); ("SINGLEQUOTE", R_SINGLEQUOTE); 
  ("COMMENT", R_COMMENT); ("LINECONT", R_LINECONT); ("MACROLINE", R_MACROLINE); ("ACTIVATE", R_ACTIVATE); ("ADD", R_ADD); ("ADDITIVE", R_ADDITIVE); 
  ("AFTER", R_AFTER); ("ALIAS", R_ALIAS); ("ALL", R_ALL); ("ALTER", R_ALTER); ("ALTERNATE", R_ALTERNATE); ("AND", R_AND); ("APPEND", R_APPEND); 
  ("ARRAY", R_ARRAY); ("AS", R_AS); ("ASCENDING", R_ASCENDING); ("ASSERT", R_ASSERT); ("ASSERTS", R_ASSERTS); ("AT", R_AT); ("BAR", R_BAR); 
  ("BEFORE", R_BEFORE); ("BELL", R_BELL); ("BLANK", R_BLANK); ("BOOLEANCHAR", R_BOOLEANCHAR); ("BOTTOM", R_BOTTOM); ("BROWSE", R_BROWSE); 
  ("BY", R_BY); ("CANDIDATE", R_CANDIDATE); ("CASE", R_CASE); ("CAST", R_CAST); ("CATCH", R_CATCH); ("CENTURY", R_CENTURY); ("CHDIR", R_CHDIR); 
  ("CLASS", R_CLASS); ("CLASSLIB", R_CLASSLIB); ("CLEAR", R_CLEAR); ("CLOCK", R_CLOCK); ("CLOSE", R_CLOSE); ("COLLECTION", R_COLLECTION); 
  ("COLOR", R_COLOR); ("COLUMN", R_COLUMN); ("COMMAND", R_COMMAND); ("COMPACT", R_COMPACT); ("COMPATIBLE", R_COMPATIBLE); ("COMPILE", R_COMPILE); 
  ("CONSOLE", R_CONSOLE); ("CONTINUE", R_CONTINUE); ("COPY", R_COPY); ("COUNT", R_COUNT); ("CREATE", R_CREATE); ("CURSOR", R_CURSOR); 
  ("DATABASE", R_DATABASE); ("DATASESSION", R_DATASESSION); ("DATE", R_DATE); ("DB4", R_DB4); ("DBF", R_DBF); ("DEACTIVATE", R_DEACTIVATE); 
  ("DEBUG", R_DEBUG); ("DEBUGOUT", R_DEBUGOUT); ("DECLARE", R_DECLARE); ("DEFAULT", R_DEFAULT); ("DEFINE", R_DEFINE); ("DELETE", R_DELETE); 
  ("DELETED", R_DELETED); ("DESCENDING", R_DESCENDING); ("DIMENSION", R_DIMENSION); ("DISTINCT", R_DISTINCT); ("DLLS", R_DLLS); ("DO", R_DO); 
  ("DOEVENTS", R_DOEVENTS); ("DROP", R_DROP); ("EACH", R_EACH); ("ELIF", R_ELIF); ("ELSE", R_ELSE); ("ENCRYPT", R_ENCRYPT); ("ENDCASE", R_ENDCASE); 
  ("ENDDEFINE", R_ENDDEFINE); ("ENDDO", R_ENDDO); ("ENDFOR", R_ENDFOR); ("ENDIF", R_ENDIF); ("ENDPROC", R_ENDPROC); ("ENDSCAN", R_ENDSCAN); 
  ("ENDTEXT", R_ENDTEXT); ("ENDTRY", R_ENDTRY); ("ENDWITH", R_ENDWITH); ("ERASE", R_ERASE); ("ERROR", R_ERROR); ("ESCAPE", R_ESCAPE); 
  ("EVENTS", R_EVENTS); ("EXACT", R_EXACT); ("EXCEPT", R_EXCEPT); ("EXCLUSIVE", R_EXCLUSIVE); ("EXTENDED", R_EXTENDED); ("EXTERNAL", R_EXTERNAL); 
  ("FIELDS", R_FIELDS); ("FILE", R_FILE); ("FILL", R_FILL); ("FILTER", R_FILTER); ("FINALLY", R_FINALLY); ("FLAGS", R_FLAGS); ("FONT", R_FONT); 
  ("FOR", R_FOR); ("FORCE", R_FORCE); ("FORM", R_FORM); ("FOXOBJECT", R_FOXOBJECT); ("FOXPLUS", R_FOXPLUS); ("FREE", R_FREE); ("FROM", R_FROM); 
  ("GATHER", R_GATHER); ("GETS", R_GETS); ("GOTO", R_GOTO); ("HELP", R_HELP); ("HIDE", R_HIDE); ("ICON", R_ICON); ("IF", R_IF); ("IFDEF", R_IFDEF); 
  ("IN", R_IN); ("INCLUDE", R_INCLUDE); ("INDEX", R_INDEX); ("INDEXES", R_INDEXES); ("INSERT", R_INSERT); ("INTO", R_INTO); ("JOIN", R_JOIN); 
  ("KEY", R_KEY); ("KEYBOARD", R_KEYBOARD); ("LABEL", R_LABEL); ("LIBRARY", R_LIBRARY); ("LIKE", R_LIKE); ("LINE", R_LINE); ("LINKED", R_LINKED); 
  ("LIST", R_LIST); ("LOCATE", R_LOCATE); ("MACROS", R_MACROS); ("MARGIN", R_MARGIN); ("MARK", R_MARK); ("MASTER", R_MASTER); ("MAX", R_MAX); 
  ("MEMO", R_MEMO); ("MEMORY", R_MEMORY); ("MEMOWIDTH", R_MEMOWIDTH); ("MEMVAR", R_MEMVAR); ("MENU", R_MENU); ("MENUS", R_MENUS); 
  ("MESSAGE", R_MESSAGE); ("MIN", R_MIN); ("MKDIR", R_MKDIR); ("MODIFY", R_MODIFY); ("MULTILOCKS", R_MULTILOCKS); ("NAME", R_NAME); ("NEAR", R_NEAR); 
  ("NEGOTIATE", R_NEGOTIATE); ("NEXT", R_NEXT); ("NOCLEAR", R_NOCLEAR); ("NOCONSOLE", R_NOCONSOLE); ("NODEBUG", R_NODEBUG); ("NOEJECT", R_NOEJECT); 
  ("NOMARGIN", R_NOMARGIN); ("NOMENU", R_NOMENU); ("NOOPTIMIZE", R_NOOPTIMIZE); ("NOPROMPT", R_NOPROMPT); ("NORM", R_NORM); ("NOSAVE", R_NOSAVE); 
  ("NOSHOW", R_NOSHOW); ("NOT", R_NOT); ("NOTE", R_NOTE); ("NOTIFY", R_NOTIFY); ("NOUPDATE", R_NOUPDATE); ("NOWAIT", R_NOWAIT); ("NULL", R_NULL); 
  ("NUMBER", R_NUMBER); ("OBJECT", R_OBJECT); ("OF", R_OF); ("OFF", R_OFF); ("ON", R_ON); ("OR", R_OR); ("ORDER", R_ORDER); ("OTHERAND", R_OTHERAND); 
  ("OTHERNOT", R_OTHERNOT); ("OTHEROR", R_OTHEROR); ("OTHERWISE", R_OTHERWISE); ("PACK", R_PACK); ("PAD", R_PAD); ("PARAMETER", R_PARAMETER); 
  ("PLAIN", R_PLAIN); ("POP", R_POP); ("POPUP", R_POPUP); ("PRETEXT", R_PRETEXT); ("PRINTER", R_PRINTER); ("PROCEDURE", R_PROCEDURE); 
  ("PROGRAM", R_PROGRAM); ("PROGRAMCONTROL", R_PROGRAMCONTROL); ("PROMPT", R_PROMPT); ("PUSH", R_PUSH); ("READ", R_READ); ("RECALL", R_RECALL); 
  ("RECORD", R_RECORD); ("RECYCLE", R_RECYCLE); ("REFERENCE", R_REFERENCE); ("REFRESH", R_REFRESH); ("REINDEX", R_REINDEX); ("RELATION", R_RELATION); 
  ("RELATIVE", R_RELATIVE); ("RELEASE", R_RELEASE); ("RENAME", R_RENAME); ("REPLACE", R_REPLACE); ("REPORT", R_REPORT); ("RESOURCES", R_RESOURCES); 
  ("REST", R_REST); ("RESTORE", R_RESTORE); ("RETRY", R_RETRY); ("RETURN", R_RETURN); ("RMDIR", R_RMDIR); ("ROLLOVER", R_ROLLOVER); ("RUN", R_RUN); 
  ("SAFETY", R_SAFETY); ("SAME", R_SAME); ("SAVE", R_SAVE); ("SAY", R_SAY); ("SCAN", R_SCAN); ("SCATTER", R_SCATTER); ("SCHEME", R_SCHEME); 
  ("SCOPE", R_SCOPE); ("SCREEN", R_SCREEN); ("SEEK", R_SEEK); ("SELECT", R_SELECT); ("SELECTION", R_SELECTION); ("SET", R_SET); ("SHADOW", R_SHADOW); 
  ("SHARED", R_SHARED); ("SHOW", R_SHOW); ("SHUTDOWN", R_SHUTDOWN); ("SIZE", R_SIZE); ("SKIPKW", R_SKIPKW); ("SORT", R_SORT); ("STATUS", R_STATUS); 
  ("STEP", R_STEP); ("STORE", R_STORE); ("STRUCTURE", R_STRUCTURE); ("STYLE", R_STYLE); ("SUM", R_SUM); ("SYSMENU", R_SYSMENU); ("SYSTEM", R_SYSTEM); 
  ("TABLE", R_TABLE); ("TABLEPROMPT", R_TABLEPROMPT); ("TAG", R_TAG); ("TALK", R_TALK); ("TEXT", R_TEXT); ("TEXTMERGE", R_TEXTMERGE); 
  ("THEN", R_THEN); ("THROW", R_THROW); ("TIMEOUT", R_TIMEOUT); ("TITLE", R_TITLE); ("TO", R_TO); ("TOP", R_TOP); ("TRY", R_TRY); ("TYPE", R_TYPE); 
  ("TYPEAHEAD", R_TYPEAHEAD); ("UDFPARMS", R_UDFPARMS); ("UNDEFINE", R_UNDEFINE); ("UNIQUE", R_UNIQUE); ("UNLOCK", R_UNLOCK); ("UPDATE", R_UPDATE); 
  ("USE", R_USE); ("VALUE", R_VALUE); ("VALUES", R_VALUES); ("WAIT", R_WAIT); ("WHEN", R_WHEN); ("WHERE", R_WHERE); ("WHILE", R_WHILE); 
  ("WINDOW", R_WINDOW); ("WITH", R_WITH); ("ZAP", R_ZAP); ("ZOOM", R_ZOOM); ("ID", R_ID); ("NL", R_NL); ("WS", R_WS); ("UNMATCHED", R_UNMATCHED) ]%string.
(* -> channel(1), -> channel(2): g4:754-756, 1055.  The parser sees none of these. *)
Definition hidden (k : string) : bool := existsb (String.eqb k) ["COMMENT"; "LINECONT"; "WS"]%string.

(** ** The tokens of a text *)
Definition state := list (string * rx).
Definition live (r : rx) : bool := match r with Void => false | _ => true end.
Definition follow (c : Z) (st : state) : state := filter (fun p => live (snd p)) (map (fun p => (fst p, step c (snd p))) st).
Definition accepted (st : state) : option string := match filter (fun p => nullable (snd p)) st with p :: _ => Some (fst p) | [] => None end.
(* [n] characters are read; [best] is the longest match so far *)
Fixpoint munch (st : state) (n : nat) (best : option (string * nat)) (s : pystr) : option (string * nat) :=
  match s with
  | [] => best
  | c :: s =>
      match follow c st with
      | [] => best
      | st => munch st (S n) (match accepted st with Some k => Some (k, S n) | None => best end) s
      end
  end.
(* the kind and the text of the tokens; [fuel] bounds their number, and the length of the text is enough *)
Fixpoint scan (fuel : nat) (s : pystr) : list (string * pystr) :=
  match fuel, s with
  | S fuel, _ :: _ =>
      match munch rules 0%nat None s with
      | Some (k, n) => (k, firstn n s) :: scan fuel (skipn n s)
      | None => []
      end
  | _, _ => []
  end.
Definition tokens (s : pystr) : list (string * pystr) := scan (length s) s.
(* what the parser sees (CommonTokenStream) *)
Definition visible (ts : list (string * pystr)) : list (string * pystr) := filter (fun t => negb (hidden (fst t))) ts.
