(** Model of the calendar code of daemon/util/Util.cpp:582-645 ([Util::Timegm]).
    C [int] division truncates towards zero: [Z.quot], [Z.rem]. Overflow of [int]
    is not modelled. *)
From Verif Require Import Base.

(** daemon/util/Util.cpp:584-593. *)
Definition c_is_leap (year : Z) : Z :=
  if Z.rem year 400 =? 0 then 1
  else if Z.rem year 100 =? 0 then 0
  else if Z.rem year 4 =? 0 then 1
  else 0.

(** daemon/util/Util.cpp:594-598. *)
Definition days_from_0 (year : Z) : Z :=
  let y := year - 1 in 365 * y + Z.quot y 400 - Z.quot y 100 + Z.quot y 4.

(** daemon/util/Util.cpp:599-603. *)
Definition days_from_1970 (year : Z) : Z := days_from_0 year - 719162.

(** daemon/util/Util.cpp:604-612. *)
Definition month_start_tab (leap : Z) : list Z :=
  if leap =? 0 then [0;31;59;90;120;151;181;212;243;273;304;334]
  else [0;31;60;91;121;152;182;213;244;274;305;335].
Definition days_from_1jan (year month day : Z) : Z :=
  nth (Z.to_nat (month - 1)) (month_start_tab (c_is_leap year)) 0 + day - 1.

(** [struct tm] fields used: tm_year (minus 1900), tm_mon (from 0), tm_mday, tm_hour, tm_min, tm_sec. *)
Record tm := mkTm { tm_year : Z; tm_mon : Z; tm_mday : Z; tm_hour : Z; tm_min : Z; tm_sec : Z }.

(** daemon/util/Util.cpp:614-639, [internal_timegm]. *)
Definition timegm (t : tm) : Z :=
  let year := tm_year t + 1900 in
  let month := tm_mon t in
  let '(year, month) :=
    if 11 <? month then (year + Z.quot month 12, Z.rem month 12)
    else if month <? 0 then
      let years_diff := Z.quot (- month + 11) 12 in
      (year - years_diff, month + 12 * years_diff)
    else (year, month) in
  let month := month + 1 in
  let day_of_year := days_from_1jan year month (tm_mday t) in
  let days_since_epoch := days_from_1970 year + day_of_year in
  86400 * days_since_epoch + 3600 * tm_hour t + 60 * tm_min t + tm_sec t.

(** daemon/util/Util.cpp:1398-1402 ([ParseRfc822DateTime]): zone correction. *)
Definition rfc822_time (t : tm) (zonehours zoneminutes : Z) : Z :=
  timegm t - (zonehours * 60 + (if 0 <? zonehours then zoneminutes else - zoneminutes)) * 60.
