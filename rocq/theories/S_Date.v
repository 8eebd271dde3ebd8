(** The words of C82: HTTP dates (RFC 9110, 5.6.7) and the calendar, independent of the model. *)
From Verif Require Import PyBytes PyInt M_Response M_Sendfile M_Date S_Num S_Cookie S_AsgiSite PyTime.
Local Open Scope Z_scope.

(** ** The calendar *)
Definition leap (y : Z) : bool := (y mod 4 =? 0) && negb (y mod 100 =? 0) || (y mod 400 =? 0).
Definition year_length (y : Z) : Z := if leap y then 366 else 365.
Definition month_length (y : Z) (m : nat) : Z := nth m [31; if leap y then 29 else 28; 31; 30; 31; 30; 31; 31; 30; 31; 30; 31] 0.
(** The days of the [n] years from 1970 on, and of the first [m] months of a year. *)
Fixpoint years_from_1970 (n : nat) : Z := match n with O => 0 | S n' => years_from_1970 n' + year_length (1970 + Z.of_nat n') end.
Fixpoint months_of (y : Z) (m : nat) : Z := match m with O => 0 | S m' => months_of y m' + month_length y m' end.
(** The day of a date, 0 is 1970-01-01; months and days count from 0 here. It was a Thursday. *)
Definition day_number (y : Z) (m : nat) (d : Z) : Z := years_from_1970 (Z.to_nat (y - 1970)) + months_of y m + d.

(** ** Reading an HTTP date *)
Definition day_names : list bytes := [bs "Thu"; bs "Fri"; bs "Sat"; bs "Sun"; bs "Mon"; bs "Tue"; bs "Wed"].
Definition month_names : list bytes := [bs "Jan"; bs "Feb"; bs "Mar"; bs "Apr"; bs "May"; bs "Jun"; bs "Jul"; bs "Aug"; bs "Sep"; bs "Oct"; bs "Nov"; bs "Dec"].
Fixpoint position (x : bytes) (l : list bytes) : option nat :=
  match l with [] => None | y :: l' => if beqb x y then Some O else match position x l' with Some i => Some (S i) | None => None end end.
(** An IMF-fixdate, as in Sun, 06 Nov 1994 08:49:37 GMT; the seconds since 1970 that it stands for, if there is such a date and the name of the day is right. *)
Definition read_date (w : bytes) : option Z :=
  let at_ i n := firstn n (skipn i w) in
  let num i n := match number (at_ i n) with Some k => Some (Z.of_nat k) | None => None end in
  if (List.length w =? 29)%nat && beqb (at_ 3 2)%nat (bs ", ") && beqb (at_ 7 1)%nat (bs " ") && beqb (at_ 11 1)%nat (bs " ") && beqb (at_ 16 1)%nat (bs " ") &&
     beqb (at_ 19 1)%nat (bs ":") && beqb (at_ 22 1)%nat (bs ":") && beqb (at_ 25 4)%nat (bs " GMT")
  then
    match num 5%nat 2%nat, position (at_ 8 3)%nat month_names, num 12%nat 4%nat, num 17%nat 2%nat, num 20%nat 2%nat, num 23%nat 2%nat with
    | Some d, Some m, Some y, Some h, Some mi, Some s =>
        let day := day_number y m (d - 1) in
        if (1970 <=? y) && (1 <=? d) && (d <=? month_length y m) && (h <? 24) && (mi <? 60) && (s <? 60) &&
           match position (at_ 0 3)%nat day_names with Some i => Z.of_nat i =? day mod 7 | None => false end
        then Some (86400 * day + 3600 * h + 60 * mi + s)
        else None
    | _, _, _, _, _, _ => None
    end
  else None.
(** The times from 1970 to the end of 9999. *)
Definition in_ages (t : Z) : Prop := 0 <= t < 253402300800.

(** ** Cookies *)
(** When a cookie expires: by max-age, otherwise by expires (RFC 6265, 5.3); None: at the end of the session. *)
Definition attr (n : bytes) (c : cookie) : option bytes := match List.find (fun a => beqb (fst a) n) (ck_attrs c) with Some a => Some (snd a) | None => None end.

(** ** Another locale *)
Definition german : locale :=
  mkLocale [bs "Mo"; bs "Di"; bs "Mi"; bs "Do"; bs "Fr"; bs "Sa"; bs "So"]
    [bs "Jan"; bs "Feb"; ["M"; "228"; "r"]%char; bs "Apr"; bs "Mai"; bs "Jun"; bs "Jul"; bs "Aug"; bs "Sep"; bs "Okt"; bs "Nov"; bs "Dez"].
