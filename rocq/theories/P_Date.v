(** Proofs about dates (C82). *)
From Verif Require Import PyBytes PyBytesFacts PyInt PyIntFacts PyTime M_Response M_Sendfile M_Date S_Num S_Cookie S_AsgiSite S_Date P_Framing P_AsgiSite.
Local Open Scope Z_scope.

(** ** The calendar *)
Definition days_before (y : Z) : Z := 365 * (y - 1) + (y - 1) / 4 - (y - 1) / 100 + (y - 1) / 400.
Lemma days_next y : days_before (y + 1) = days_before y + year_length y.
Proof.
  unfold days_before, year_length, leap. replace (y + 1 - 1) with y by lia.
  destruct (Z.eqb_spec (y mod 4) 0) as [A|A]; destruct (Z.eqb_spec (y mod 100) 0) as [B|B]; destruct (Z.eqb_spec (y mod 400) 0) as [C|C]; cbn [andb orb negb]; Z.div_mod_to_equations; lia.
Qed.
Lemma years_closed n : years_from_1970 n = days_before (1970 + Z.of_nat n) - 719162.
Proof.
  induction n as [|n IH]; [reflexivity|]. cbn [years_from_1970]. rewrite IH, Nat2Z.inj_succ. replace (1970 + Z.succ (Z.of_nat n)) with (1970 + Z.of_nat n + 1) by lia. rewrite days_next. lia.
Qed.
Definition len_b (b : bool) (m : nat) : Z := nth m [31; if b then 29 else 28; 31; 30; 31; 30; 31; 31; 30; 31; 30; 31] 0.
Fixpoint sum_b (b : bool) (m : nat) : Z := match m with O => 0 | S m' => sum_b b m' + len_b b m' end.
Lemma months_sum y m : months_of y m = sum_b (leap y) m.
Proof. induction m as [|m IH]; [reflexivity|]. cbn [months_of sum_b]. now rewrite IH. Qed.
Definition day_ok (b : bool) (n : Z) : bool :=
  let '(m, d) := month_day b n in
  let k := Z.to_nat (m - 1) in (1 <=? m) && (m <=? 12) && (1 <=? d) && (d <=? len_b b k) && (sum_b b k + d =? n + 1).
Lemma month_day_ok b n : 0 <= n < 365 -> day_ok b n = true.
Proof.
  intros H. assert (forallb (fun k => day_ok b (Z.of_nat k)) (List.seq 0 365) = true) as F by (destruct b; vm_compute; reflexivity).
  rewrite forallb_forall in F. specialize (F (Z.to_nat n)). rewrite Z2Nat.id in F by lia. apply F, in_seq. lia.
Qed.
Lemma ord_ok o : 1 <= o -> let '(y, m, d) := ord2ymd o in 1 <= m <= 12 /\ 1 <= d <= month_length y (Z.to_nat (m - 1)) /\ days_before y + months_of y (Z.to_nat (m - 1)) + d = o.
Proof.
  intros Ho. unfold ord2ymd. cbv zeta. set (n := o - 1). assert (0 <= n) as Hn by lia.
  set (q := n / 146097). set (r := n mod 146097). assert (n = 146097 * q + r /\ 0 <= r < 146097 /\ 0 <= q) as (En & Hr & Hq) by (unfold q, r; Z.div_mod_to_equations; lia).
  set (a := r / 36524). set (r1 := r mod 36524). assert (r = 36524 * a + r1 /\ 0 <= r1 < 36524 /\ 0 <= a <= 4) as (Er & Hr1 & Ha) by (unfold a, r1; Z.div_mod_to_equations; lia).
  set (b := r1 / 1461). set (r2 := r1 mod 1461). assert (r1 = 1461 * b + r2 /\ 0 <= r2 < 1461 /\ 0 <= b <= 24) as (Er1 & Hr2 & Hb) by (unfold b, r2; Z.div_mod_to_equations; lia).
  set (c := r2 / 365). set (r3 := r2 mod 365). assert (r2 = 365 * c + r3 /\ 0 <= r3 < 365 /\ 0 <= c <= 4) as (Er2 & Hr3 & Hc) by (unfold c, r3; Z.div_mod_to_equations; lia).
  clearbody q r a r1 b r2 c r3.
  assert (forall k, 0 <= k <= 3 -> forall j, 0 <= j <= 24 -> forall i, 0 <= i <= 3 -> let y := q * 400 + 1 + k * 100 + j * 4 + i in
    days_before y = 146097 * q + 36524 * k + 1461 * j + 365 * i /\ leap y = ((i =? 3) && (negb (j =? 24) || (k =? 3)))) as K.
  { intros k Hk j Hj i Hi. cbv zeta. split.
    - unfold days_before. replace (q * 400 + 1 + k * 100 + j * 4 + i - 1) with (400 * q + 100 * k + 4 * j + i) by lia.
      assert ((400 * q + 100 * k + 4 * j + i) / 4 = 100 * q + 25 * k + j) as -> by (Z.div_mod_to_equations; lia).
      assert ((400 * q + 100 * k + 4 * j + i) / 100 = 4 * q + k) as -> by (Z.div_mod_to_equations; lia).
      assert ((400 * q + 100 * k + 4 * j + i) / 400 = q) as -> by (Z.div_mod_to_equations; lia). lia.
    - set (y := q * 400 + 1 + k * 100 + j * 4 + i). unfold leap.
      destruct (Z.eqb_spec (y mod 4) 0) as [A|A]; destruct (Z.eqb_spec (y mod 100) 0) as [B|B]; destruct (Z.eqb_spec (y mod 400) 0) as [C|C]; destruct (Z.eqb_spec i 3) as [I|I]; destruct (Z.eqb_spec j 24) as [J|J]; destruct (Z.eqb_spec k 3) as [G|G];
        cbn [andb orb negb]; try reflexivity; exfalso; unfold y in *; Z.div_mod_to_equations; lia. }
  destruct (Z.eqb_spec c 4) as [C|C]; [|destruct (Z.eqb_spec a 4) as [A|A]]; cbn [orb].
  - (* the last day of a leap year *)
    assert (r3 = 0 /\ a <= 3 /\ (b <> 24 \/ a = 3)) as (R & A & B) by lia. replace (q * 400 + 1 + a * 100 + b * 4 + c - 1) with (q * 400 + 1 + a * 100 + b * 4 + 3) by lia.
    destruct (K a ltac:(lia) b ltac:(lia) 3 ltac:(lia)) as [E L]. cbv zeta in *. assert (leap (q * 400 + 1 + a * 100 + b * 4 + 3) = true) as L'.
    { rewrite L. destruct (Z.eqb_spec b 24); destruct (Z.eqb_spec a 3); cbn [andb negb orb]; try reflexivity. lia. }
    rewrite months_sum. unfold month_length. rewrite L', E. split; [lia|]. split; [vm_compute; split; discriminate|]. change (sum_b true (Z.to_nat (12 - 1))) with 335. lia.
  - assert (b = 0 /\ c = 0 /\ r3 = 0) as (B & C' & R) by lia. replace (q * 400 + 1 + a * 100 + b * 4 + c - 1) with (q * 400 + 1 + 3 * 100 + 24 * 4 + 3) by lia.
    destruct (K 3 ltac:(lia) 24 ltac:(lia) 3 ltac:(lia)) as [E L]. cbv zeta in *. change ((3 =? 3) && (negb (24 =? 24) || (3 =? 3))) with true in L.
    rewrite months_sum. unfold month_length. rewrite L, E. split; [lia|]. split; [vm_compute; split; discriminate|]. change (sum_b true (Z.to_nat (12 - 1))) with 335. lia.
  - destruct (K a ltac:(lia) b ltac:(lia) c ltac:(lia)) as [E L]. cbv zeta in *. rewrite <- L. set (y := q * 400 + 1 + a * 100 + b * 4 + c) in *.
    pose proof (month_day_ok (leap y) r3 ltac:(lia)) as M. unfold day_ok in M. destruct (month_day (leap y) r3) as [m d]. cbn [fst snd].
    rewrite !andb_true_iff, !Z.leb_le, Z.eqb_eq in M. destruct M as ((((M1 & M2) & M3) & M4) & M5). rewrite months_sum. split; [lia|]. split; [split; [exact M3|exact M4]|]. lia.
Qed.
Lemma days_mono y y' : y <= y' -> days_before y <= days_before y'.
Proof. intros H. unfold days_before. Z.div_mod_to_equations. lia. Qed.
Lemma within_year y m d : 1 <= m <= 12 -> 1 <= d <= month_length y (Z.to_nat (m - 1)) -> 0 < months_of y (Z.to_nat (m - 1)) + d <= year_length y.
Proof.
  intros Hm Hd. rewrite months_sum. unfold year_length. unfold month_length in Hd. change (nth (Z.to_nat (m - 1)) [31; if leap y then 29 else 28; 31; 30; 31; 30; 31; 31; 30; 31; 30; 31] 0) with (len_b (leap y) (Z.to_nat (m - 1))) in Hd.
  assert (Z.to_nat (m - 1) < 12)%nat as L by lia. revert Hd L. generalize (Z.to_nat (m - 1)) as k. clear. intros k Hd L.
  destruct (leap y); (do 12 (destruct k as [|k]; [cbn [sum_b len_b nth] in *; lia|])); lia.
Qed.
Lemma year_range o y m d : 719163 <= o <= 3652059 -> 1 <= m <= 12 -> 1 <= d <= month_length y (Z.to_nat (m - 1)) -> days_before y + months_of y (Z.to_nat (m - 1)) + d = o -> 1970 <= y <= 9999.
Proof.
  intros Ho Hm Hd E. pose proof (within_year y m d Hm Hd) as W. pose proof (days_next y) as N. split.
  - destruct (Z.le_gt_cases 1970 y) as [L|L]; [exact L|]. pose proof (days_mono (y + 1) 1970 ltac:(lia)) as M. change (days_before 1970) with 719162 in M. lia.
  - destruct (Z.le_gt_cases y 9999) as [L|L]; [exact L|]. pose proof (days_mono 10000 y ltac:(lia)) as M. change (days_before 10000) with 3652059 in M. lia.
Qed.

(** ** Digits *)
Fixpoint all_z (f : Z -> bool) (n : nat) (z : Z) : bool := match n with O => true | S n' => f z && all_z f n' (z + 1) end.
Lemma all_z_ok f n : forall z, all_z f n z = true -> forall x, z <= x < z + Z.of_nat n -> f x = true.
Proof.
  induction n as [|n IH]; intros z H x Hx; [lia|]. cbn [all_z] in H. apply andb_prop in H as [H1 H2]. destruct (Z.eq_dec x z) as [->|N]; [exact H1|]. apply (IH _ H2). lia.
Qed.
Lemma two_digits z : 0 <= z < 100 -> List.length (fmt_02 z) = 2%nat /\ number (fmt_02 z) = Some (Z.to_nat z).
Proof.
  intros H. assert (all_z (fun z => (List.length (fmt_02 z) =? 2)%nat && match number (fmt_02 z) with Some k => (k =? Z.to_nat z)%nat | None => false end) 100 0 = true) as F by (vm_compute; reflexivity).
  pose proof (all_z_ok _ _ _ F z ltac:(lia)) as G. cbv beta in G. apply andb_prop in G as [G1 G2]. apply Nat.eqb_eq in G1. split; [exact G1|]. destruct (number _); [|discriminate]. apply Nat.eqb_eq in G2. now rewrite G2.
Qed.
Lemma four_digits z : 1970 <= z <= 9999 -> List.length (fmt_d z) = 4%nat /\ number (fmt_d z) = Some (Z.to_nat z).
Proof.
  intros H. split.
  - assert (all_z (fun z => (List.length (fmt_d z) =? 4)%nat) (Z.to_nat 8030) 1970 = true) as F by (vm_compute; reflexivity). apply Nat.eqb_eq. apply (all_z_ok _ _ _ F). lia.
  - rewrite <- (Z2Nat.id z) at 1 by lia. apply number_of.
Qed.
Lemma names_ok : Forall (fun n => List.length n = 3%nat) (l_days c_locale) /\ Forall (fun n => List.length n = 3%nat) (l_months c_locale) /\
  (forall w, 0 <= w < 7 -> position (nth (Z.to_nat w) (l_days c_locale) []) day_names = Some (Z.to_nat ((w + 4) mod 7))) /\
  (forall m, 1 <= m <= 12 -> position (nth (Z.to_nat (m - 1)) (l_months c_locale) []) month_names = Some (Z.to_nat (m - 1))).
Proof.
  split; [repeat constructor|]. split; [repeat constructor|]. split.
  - intros w H. assert (w = 0 \/ w = 1 \/ w = 2 \/ w = 3 \/ w = 4 \/ w = 5 \/ w = 6) as C by lia. repeat destruct C as [->|C]; try reflexivity. now subst w.
  - intros m H. assert (m = 1 \/ m = 2 \/ m = 3 \/ m = 4 \/ m = 5 \/ m = 6 \/ m = 7 \/ m = 8 \/ m = 9 \/ m = 10 \/ m = 11 \/ m = 12) as C by lia. repeat destruct C as [->|C]; try reflexivity. now subst m.
Qed.

(** ** Reading *)
Lemma len2 (l : bytes) : List.length l = 2%nat -> exists a b, l = [a; b].
Proof. destruct l as [|a [|b [|? ?]]]; try discriminate. now exists a, b. Qed.
Lemma len3 (l : bytes) : List.length l = 3%nat -> exists a b c, l = [a; b; c].
Proof. destruct l as [|a [|b [|c [|? ?]]]]; try discriminate. now exists a, b, c. Qed.
Lemma len4 (l : bytes) : List.length l = 4%nat -> exists a b c d, l = [a; b; c; d].
Proof. destruct l as [|a [|b [|c [|d [|? ?]]]]]; try discriminate. now exists a, b, c, d. Qed.
Lemma read_of wd d mo y h mi s i D M Y H MI SE : List.length wd = 3%nat -> List.length d = 2%nat -> List.length mo = 3%nat -> List.length y = 4%nat -> List.length h = 2%nat -> List.length mi = 2%nat -> List.length s = 2%nat ->
  position wd day_names = Some i -> number d = Some D -> position mo month_names = Some M -> number y = Some Y -> number h = Some H -> number mi = Some MI -> number s = Some SE ->
  let day := day_number (Z.of_nat Y) M (Z.of_nat D - 1) in
  1970 <= Z.of_nat Y -> 1 <= Z.of_nat D <= month_length (Z.of_nat Y) M -> Z.of_nat H < 24 -> Z.of_nat MI < 60 -> Z.of_nat SE < 60 -> Z.of_nat i = day mod 7 ->
  read_date (wd ++ bs ", " ++ d ++ bs " " ++ mo ++ bs " " ++ y ++ bs " " ++ h ++ bs ":" ++ mi ++ bs ":" ++ s ++ bs " GMT") = Some (86400 * day + 3600 * Z.of_nat H + 60 * Z.of_nat MI + Z.of_nat SE).
Proof.
  intros L1 L2 L3 L4 L5 L6 L7 Pw Nd Pm Ny Nh Nm Ns day B1 B2 B3 B4 B5 B6.
  destruct (len3 _ L1) as (a1 & a2 & a3 & ->). destruct (len2 _ L2) as (b1 & b2 & ->). destruct (len3 _ L3) as (c1 & c2 & c3 & ->). destruct (len4 _ L4) as (d1 & d2 & d3 & d4 & ->).
  destruct (len2 _ L5) as (e1 & e2 & ->). destruct (len2 _ L6) as (f1 & f2 & ->). destruct (len2 _ L7) as (g1 & g2 & ->).
  unfold read_date. cbn [bs list_ascii_of_string app List.length skipn firstn Nat.eqb andb]. rewrite Nd, Pm, Ny, Nh, Nm, Ns. fold day.
  assert (forall x y : bytes, x = y -> beqb x y = true) as Eb by (intros x ? <-; apply beqb_refl). rewrite !Eb by reflexivity. cbn [andb].
  rewrite (proj2 (Z.leb_le _ _) B1), (proj2 (Z.leb_le _ _) (proj1 B2)), (proj2 (Z.leb_le _ _) (proj2 B2)), (proj2 (Z.ltb_lt _ _) B3), (proj2 (Z.ltb_lt _ _) B4), (proj2 (Z.ltb_lt _ _) B5). cbn [andb]. rewrite Pw, (proj2 (Z.eqb_eq _ _) B6). reflexivity.
Qed.
Lemma http_date_parts t : http_date c_locale t = let g := gmtime t in
  nth (Z.to_nat (t_weekday g)) (l_days c_locale) [] ++ bs ", " ++ fmt_02 (t_day g) ++ bs " " ++ nth (Z.to_nat (t_month g - 1)) (l_months c_locale) [] ++ bs " " ++ fmt_d (t_year g) ++ bs " " ++
  fmt_02 (t_hour g) ++ bs ":" ++ fmt_02 (t_minute g) ++ bs ":" ++ fmt_02 (t_second g) ++ bs " GMT".
Proof. reflexivity. Qed.
Lemma reads_date t : in_ages t -> read_date (http_date c_locale t) = Some t.
Proof.
  intros Ht. unfold in_ages in Ht. rewrite http_date_parts. cbv zeta. unfold gmtime. set (o := t / 86400 + epoch). assert (719163 <= o <= 3652059) as Ho by (unfold o, epoch; Z.div_mod_to_equations; lia).
  pose proof (ord_ok o ltac:(lia)) as K. destruct (ord2ymd o) as [[y m] d]. destruct K as (Hm & Hd & E). cbn [t_year t_month t_day t_hour t_minute t_second t_weekday].
  pose proof (year_range o y m d Ho Hm Hd E) as Hy. destruct names_ok as (N1 & N2 & N3 & N4).
  assert (d <= 31) as D31. { unfold month_length in Hd. assert (Z.to_nat (m - 1) < 12)%nat as L by lia. revert Hd L. generalize (Z.to_nat (m - 1)) as k. clear. intros k Hd L.
    destruct (leap y); (do 12 (destruct k as [|k]; [cbn [nth] in Hd; lia|])); lia. }
  set (r := t mod 86400). assert (0 <= r < 86400) as Hr by (unfold r; Z.div_mod_to_equations; lia).
  set (w := (o + 6) mod 7). assert (0 <= w < 7) as Hw by (unfold w; Z.div_mod_to_equations; lia).
  assert (0 <= r / 3600 < 24 /\ 0 <= r mod 3600 / 60 < 60 /\ 0 <= r mod 60 < 60) as (B3 & B4 & B5) by (Z.div_mod_to_equations; lia).
  assert (day_number y (Z.to_nat (m - 1)) (d - 1) = t / 86400) as Dn.
  { unfold day_number. rewrite years_closed, Z2Nat.id by lia. replace (1970 + (y - 1970)) with y by lia. unfold o, epoch in E. lia. }
  rewrite (read_of _ _ _ _ _ _ _ (Z.to_nat ((w + 4) mod 7)) (Z.to_nat d) (Z.to_nat (m - 1)) (Z.to_nat y) (Z.to_nat (r / 3600)) (Z.to_nat (r mod 3600 / 60)) (Z.to_nat (r mod 60))); rewrite ?Z2Nat.id by lia.
  - f_equal. rewrite Dn. unfold r. Z.div_mod_to_equations. lia.
  - rewrite Forall_forall in N1. apply N1, nth_In. change (List.length (l_days c_locale)) with 7%nat. lia.
  - apply two_digits. lia.
  - rewrite Forall_forall in N2. apply N2, nth_In. change (List.length (l_months c_locale)) with 12%nat. lia.
  - apply four_digits. exact Hy.
  - apply two_digits. lia.
  - apply two_digits. lia.
  - apply two_digits. lia.
  - now apply N3.
  - apply two_digits. lia.
  - now apply N4.
  - apply four_digits. exact Hy.
  - apply two_digits. lia.
  - apply two_digits. lia.
  - apply two_digits. lia.
  - lia.
  - exact Hd.
  - lia.
  - lia.
  - lia.
  - rewrite Dn. unfold w, o, epoch. Z.div_mod_to_equations. lia.
Qed.
Lemma date_inj t t' : in_ages t -> in_ages t' -> http_date c_locale t = http_date c_locale t' <-> t = t'.
Proof. intros H H'. split; [|now intros ->]. intros E. pose proof (reads_date t H) as A. pose proof (reads_date t' H') as B. rewrite E in A. congruence. Qed.

(** ** What dates are made of *)
Definition date_char (c : byte) : bool := existsb (Ascii.eqb c) (bs "0123456789 ,:abcdefghijklmnopqrstuvwxyzABCDEFGHIJKLMNOPQRSTUVWXYZ").
Lemma fields t : in_ages t -> let g := gmtime t in
  1970 <= t_year g <= 9999 /\ 1 <= t_month g <= 12 /\ 1 <= t_day g <= 31 /\ 0 <= t_hour g < 24 /\ 0 <= t_minute g < 60 /\ 0 <= t_second g < 60 /\ 0 <= t_weekday g < 7.
Proof.
  intros Ht. unfold in_ages in Ht. cbv zeta. unfold gmtime. set (o := t / 86400 + epoch). assert (719163 <= o <= 3652059) as Ho by (unfold o, epoch; Z.div_mod_to_equations; lia).
  pose proof (ord_ok o ltac:(lia)) as K. destruct (ord2ymd o) as [[y m] d]. destruct K as (Hm & Hd & E). cbn [t_year t_month t_day t_hour t_minute t_second t_weekday].
  pose proof (year_range o y m d Ho Hm Hd E) as Hy. split; [exact Hy|]. split; [exact Hm|]. split.
  { split; [tauto|]. unfold month_length in Hd. assert (Z.to_nat (m - 1) < 12)%nat as L by lia. revert Hd L. generalize (Z.to_nat (m - 1)) as k. clear. intros k Hd L.
    destruct (leap y); (do 12 (destruct k as [|k]; [cbn [nth] in Hd; lia|])); lia. }
  Z.div_mod_to_equations. lia.
Qed.
Lemma chars_02 z : 0 <= z < 100 -> forallb date_char (fmt_02 z) = true.
Proof. intros H. assert (all_z (fun z => forallb date_char (fmt_02 z)) 100 0 = true) as F by (vm_compute; reflexivity). apply (all_z_ok _ _ _ F). lia. Qed.
Lemma chars_4 z : 1970 <= z <= 9999 -> forallb date_char (fmt_d z) = true.
Proof. intros H. assert (all_z (fun z => forallb date_char (fmt_d z)) (Z.to_nat 8030) 1970 = true) as F by (vm_compute; reflexivity). apply (all_z_ok _ _ _ F). lia. Qed.
Lemma names_chars l i : forallb (forallb date_char) l = true -> forallb date_char (nth i l []) = true.
Proof. intros H. destruct (nth_in_or_default i l []) as [I|E]; [|now rewrite E]. rewrite forallb_forall in H. now apply H. Qed.
Lemma date_chars t : in_ages t -> forallb date_char (http_date c_locale t) = true.
Proof.
  intros H. destruct (fields t H) as (A1 & A2 & A3 & A4 & A5 & A6 & A7). rewrite http_date_parts. cbv zeta. rewrite !forallb_app.
  rewrite !chars_02, chars_4 by lia. rewrite !names_chars by reflexivity. reflexivity.
Qed.
Lemma date_plain t c : in_ages t -> date_char c = false -> ~ In c (http_date c_locale t).
Proof. intros H N I. pose proof (date_chars t H) as F. rewrite forallb_forall in F. specialize (F _ I). congruence. Qed.
Lemma trim_keeps a l z : wsp a = false -> wsp z = false -> trim (a :: l ++ [z]) = a :: l ++ [z].
Proof.
  intros A Z. unfold trim. cbn [trim_left]. rewrite A. change (a :: l ++ [z]) with ((a :: l) ++ [z]). rewrite rev_app_distr. cbn [rev app trim_left]. rewrite Z. cbn [rev]. now rewrite rev_app_distr, rev_involutive.
Qed.
Lemma date_trim t : in_ages t -> trim (http_date c_locale t) = http_date c_locale t.
Proof.
  intros H. destruct (fields t H) as (_ & _ & _ & _ & _ & _ & W). rewrite http_date_parts. cbv zeta. set (g := gmtime t) in *.
  assert (exists a l, nth (Z.to_nat (t_weekday g)) (l_days c_locale) [] = a :: l /\ wsp a = false) as (a & l & E & N).
  { assert (Z.to_nat (t_weekday g) < 7)%nat as L by lia. revert L. generalize (Z.to_nat (t_weekday g)) as k. intros k L.
    do 7 (destruct k as [|k]; [eexists; eexists; split; [reflexivity|reflexivity]|]). lia. }
  rewrite E. change (bs " GMT") with (bs " GM" ++ ["T"%char]). rewrite !app_assoc. rewrite <- !app_assoc. cbn [app].
  set (x := bs ", " ++ _). assert (exists r, x = r ++ ["T"%char]) as (r & Er).
  { unfold x. rewrite !app_assoc. eexists. reflexivity. }
  rewrite Er, app_assoc. now apply trim_keeps.
Qed.
Lemma german_parts days months t : http_date (mkLocale days months) t = nth (Z.to_nat (t_weekday (gmtime t))) days [] ++ bs ", " ++ strftime (mkLocale days months) (bs "%d %b %Y %H:%M:%S GMT") (gmtime t).
Proof. reflexivity. Qed.
Lemma german_unread t : read_date (http_date german t) = None.
Proof.
  unfold german. rewrite german_parts. set (rest := strftime _ _ _). assert (0 <= t_weekday (gmtime t) < 7) as W.
  { unfold gmtime. destruct (ord2ymd _) as [[y m] d]. cbn [t_weekday]. Z.div_mod_to_equations. lia. }
  assert (Z.to_nat (t_weekday (gmtime t)) < 7)%nat as L by lia. revert L. generalize (Z.to_nat (t_weekday (gmtime t))) as k. clearbody rest. clear. intros k L. unfold read_date.
  do 7 (destruct k as [|k]; [cbn [nth bs list_ascii_of_string app skipn firstn]; destruct rest; cbn [beqb]; now rewrite !andb_false_r|]). lia.
Qed.
