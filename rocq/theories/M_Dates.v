(** Model of the date functions and of MESSAGEBOX's argument handling (vfp2py/vfpfunc.py). *)
From Verif Require Import PyBase PyStr.
Open Scope res_scope.

(** datetime.date, proleptic Gregorian calendar *)
Record date := mkDate { year : Z; month : Z; day : Z }.
Definition is_leap (y : Z) : bool := (y mod 4 =? 0) && (negb (y mod 100 =? 0) || (y mod 400 =? 0)).
(** calendar.monthrange(y, m)[1] *)
Definition days_in_month (y m : Z) : Z :=
  if m =? 2 then (if is_leap y then 29 else 28)
  else if (m =? 4) || (m =? 6) || (m =? 9) || (m =? 11) then 30 else 31.
Definition valid_date (d : date) : bool :=
  (1 <=? year d) && (year d <=? 9999) && (1 <=? month d) && (month d <=? 12)
  && (1 <=? day d) && (day d <=? days_in_month (year d) (month d)).
(** date.replace(year, month, day): ValueError for an impossible date *)
Definition make_date (y m d : Z) : res date :=
  let x := mkDate y m d in if valid_date x then Ok x else Err ValueError.

(** strftime: %m and %d (also %H, %M, %S) have two digits; %Y is not padded on glibc *)
Definition pad2 (n : Z) : pystr := let d := dec n in py_repeat 48 (2 - zlen d) ++ d.
Definition strftime_Ymd (d : date) : pystr := dec (year d) ++ pad2 (month d) ++ pad2 (day d).

(** vfpfunc.py:1177-1181 dtos on a date *)
Definition dtos (d : date) : pystr := strftime_Ymd d.

(** clock time *)
Record time := mkTime { hour : Z; minute : Z; second : Z }.
Definition valid_time (t : time) : bool :=
  (0 <=? hour t) && (hour t <=? 23) && (0 <=? minute t) && (minute t <=? 59) && (0 <=? second t) && (second t <=? 59).
(** vfpfunc.py:1177-1181 dtos on a datetime *)
Definition dtos_dt (d : date) (t : time) : pystr :=
  strftime_Ymd d ++ pad2 (hour t) ++ pad2 (minute t) ++ pad2 (second t).

(** vfpfunc.py:1183-1187 dtoc; '%m/%d/%Y' and for a datetime '%m/%d/%Y%H:%M:%S' *)
Definition dtoc (d : date) : pystr := pad2 (month d) ++ [47] ++ pad2 (day d) ++ [47] ++ dec (year d).
Definition dtoc_dt (d : date) (t : time) : pystr :=
  dtoc d ++ pad2 (hour t) ++ [58] ++ pad2 (minute t) ++ [58] ++ pad2 (second t).

(** vfpfunc.py:1174-1175 dow_fix; weekday counts from Monday = 0 *)
Definition dow_fix (weekday firstday : Z) : Z :=
  (weekday + 2 - (if firstday =? 0 then 1 else firstday)) mod 7 + 1.

(** vfpfunc.py:1412-1416 quarter; None is the empty date *)
Definition quarter (d : option date) (start_month : Z) : Z :=
  match d with
  | None => 0
  | Some d => let month := (month d - start_month) mod 12 in
              (month - month mod 3) / 3 + 1
  end.

(** dateutil relativedelta(months=delta): the constructor carries months over into years ... *)
Definition relativedelta_months (delta : Z) : Z * Z :=
  if 11 <? Z.abs delta then
    let s := Z.sgn delta in (delta * s / 12 * s, (delta * s) mod 12 * s)
  else (0, delta).
(** ... and adding it moves year and month and cuts the day at the end of the month. *)
Definition add_relativedelta (d : date) (years months : Z) : res date :=
  let y := year d + years in
  let m := month d + months in
  let '(y, m) := if 12 <? m then (y + 1, m - 12) else if m <? 1 then (y - 1, m + 12) else (y, m) in
  make_date y m (Z.min (days_in_month y m) (day d)).
(** vfpfunc.py:1238-1239 gomonth *)
Definition gomonth (d : date) (delta : Z) : res date :=
  let '(ys, ms) := relativedelta_months delta in add_relativedelta d ys ms.

(** ** MESSAGEBOX, vfpfunc.py:1281-1391 *)
Inductive button := BOk | BCancel | BAbort | BRetry | BIgnore | BYes | BNo.
Inductive icon := NoIcon | Critical | Question | Warning | Information.
Inductive mbarg := ANone | AStr (s : pystr) | AInt (n : Z).
(** lines 1319-1330: which argument is the title *)
Definition mb_args (arg1 arg2 : mbarg) : res (mbarg * mbarg) :=   (* (flags, title) *)
  let flags := AInt 0 in let title := AStr (u "vfp2py") in
  Ok (match arg1 with
      | ANone => (flags, title)
      | AStr s => ((match arg2 with ANone => flags | _ => arg2 end), arg1)
      | AInt _ => (arg1, match arg2 with ANone => title | _ => arg2 end)
      end).
(** lines 1333-1340 *)
Definition mb_buttons (group : Z) : res (list button * button) :=
  if group =? 0 then Ok ([BOk], BOk)
  else if group =? 1 then Ok ([BOk; BCancel], BCancel)
  else if group =? 2 then Ok ([BAbort; BRetry; BIgnore], BIgnore)
  else if group =? 3 then Ok ([BYes; BNo; BCancel], BCancel)
  else if group =? 4 then Ok ([BYes; BNo], BNo)
  else if group =? 5 then Ok ([BRetry; BCancel], BCancel)
  else Err KeyError.
(** lines 1346-1352 *)
Definition mb_icon (i : Z) : res icon :=
  if i =? 0 then Ok NoIcon else if i =? 16 then Ok Critical else if i =? 32 then Ok Question
  else if i =? 48 then Ok Warning else if i =? 64 then Ok Information else Err KeyError.
Record mbox := mkBox { mb_shown : list button; mb_icn : icon; mb_default : button; mb_escape : button; mb_title : pystr }.
(** lines 1331-1358, for an integer flags value and a string title: the box that is shown.  A string for flags goes through
    int(), an integer for title into the Qt call; neither is modelled. *)
Definition mb_box (flags : Z) (title : pystr) : res mbox :=
  let flags := Z.land flags 1023 in
  do bs <- mb_buttons (Z.land flags 15);
  do ic <- mb_icon (Z.land flags (Z.shiftl 15 4));
  do db <- py_nth (fst bs) (Z.min (zlen (fst bs) - 1) (Z.shiftr flags 8));
  Ok (mkBox (fst bs) ic db (snd bs) title).
Definition messagebox (arg1 arg2 : mbarg) : res mbox :=
  do ft <- mb_args arg1 arg2;
  match ft with
  | (AInt f, AStr t) => mb_box f t
  | _ => Err TypeError
  end.
(** lines 1382-1390: the value returned for the pressed button, -1 when the timer closed the box *)
Definition mb_return (timed_out : bool) (b : button) : Z :=
  if timed_out then -1 else
  match b with BOk => 1 | BCancel => 2 | BAbort => 3 | BRetry => 4 | BIgnore => 5 | BYes => 6 | BNo => 7 end.
