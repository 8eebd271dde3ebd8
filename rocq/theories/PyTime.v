(** Python's calendar: datetime.now(timezone.utc), time.gmtime and strftime, as far as they are used (tremolo/utils.py:48-50, tremolo/lib/http_response.py:88-92, 333-334).

    A time is a number of seconds since 1970-01-01 00:00:00 UTC, without fractions: strftime drops those of datetime.now(), and time.gmtime rounds a
    float down. Leap seconds do not exist for Python. *)
From Verif Require Import PyBytes PyInt.
Local Open Scope Z_scope.

(** _DAYS_BEFORE_MONTH of Lib/datetime.py, from the month 0. *)
Definition days_before_month : list Z := [-1; 0; 31; 59; 90; 120; 151; 181; 212; 243; 273; 304; 334].
(** _DAYS_IN_MONTH *)
Definition days_in_month : list Z := [-1; 31; 28; 31; 30; 31; 30; 31; 31; 30; 31; 30; 31].
(** The end of _ord2ymd of Lib/datetime.py: month and day of the day [n] of a year, from 0. *)
Definition month_day (leap : bool) (n : Z) : Z * Z :=
  let month := Z.shiftr (n + 50) 5 in
  let preceding := nth (Z.to_nat month) days_before_month 0 + (if (2 <? month) && leap then 1 else 0) in
  let '(month, preceding) :=
    if n <? preceding
    then (month - 1, preceding - (nth (Z.to_nat (month - 1)) days_in_month 0 + (if (month - 1 =? 2) && leap then 1 else 0)))
    else (month, preceding) in
  (month, n - preceding + 1).
(** _ord2ymd of Lib/datetime.py: year, month and day of an ordinal, 1 is 0001-01-01. *)
Definition ord2ymd (ordinal : Z) : Z * Z * Z :=
  let n := ordinal - 1 in
  let n400 := n / 146097 in let n := n mod 146097 in
  let year := n400 * 400 + 1 in
  let n100 := n / 36524 in let n := n mod 36524 in
  let n4 := n / 1461 in let n := n mod 1461 in
  let n1 := n / 365 in let n := n mod 365 in
  let year := year + n100 * 100 + n4 * 4 + n1 in
  if (n1 =? 4) || (n100 =? 4) then (year - 1, 12, 31)
  else
    let leap := (n1 =? 3) && (negb (n4 =? 24) || (n100 =? 3)) in
    (year, fst (month_day leap n), snd (month_day leap n)).
(** The ordinal of 1970-01-01. *)
Definition epoch : Z := 719163.
(** A date and a time of day; the weekday counts from Monday, 0. *)
Record moment := mkMoment { t_year : Z; t_month : Z; t_day : Z; t_hour : Z; t_minute : Z; t_second : Z; t_weekday : Z }.
Definition gmtime (t : Z) : moment :=
  let ordinal := t / 86400 + epoch in
  let rest := t mod 86400 in
  let '(y, m, d) := ord2ymd ordinal in
  mkMoment y m d (rest / 3600) (rest mod 3600 / 60) (rest mod 60) ((ordinal + 6) mod 7).

(** The names of the current locale (LC_TIME); names of days from Monday, of months from January. *)
Record locale := mkLocale { l_days : list bytes; l_months : list bytes }.
(** The one that Python starts with. *)
Definition c_locale : locale :=
  mkLocale [bs "Mon"; bs "Tue"; bs "Wed"; bs "Thu"; bs "Fri"; bs "Sat"; bs "Sun"]
    [bs "Jan"; bs "Feb"; bs "Mar"; bs "Apr"; bs "May"; bs "Jun"; bs "Jul"; bs "Aug"; bs "Sep"; bs "Oct"; bs "Nov"; bs "Dec"].
(** %02d *)
Definition fmt_02 (z : Z) : bytes := if z <? 10 then bs "0" ++ fmt_d z else fmt_d z.
(** strftime, for the directives that are used; %Y does not pad. *)
Fixpoint strftime (loc : locale) (format : bytes) (t : moment) : bytes :=
  match format with
  | [] => []
  | "%"%char :: c :: rest =>
      (if Ascii.eqb c "a" then nth (Z.to_nat (t_weekday t)) (l_days loc) []
       else if Ascii.eqb c "b" then nth (Z.to_nat (t_month t - 1)) (l_months loc) []
       else if Ascii.eqb c "d" then fmt_02 (t_day t)
       else if Ascii.eqb c "Y" then fmt_d (t_year t)
       else if Ascii.eqb c "H" then fmt_02 (t_hour t)
       else if Ascii.eqb c "M" then fmt_02 (t_minute t)
       else if Ascii.eqb c "S" then fmt_02 (t_second t)
       else ["%"%char; c]) ++ strftime loc rest t
  | c :: rest => c :: strftime loc rest t
  end.
