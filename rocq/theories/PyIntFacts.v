(** Facts about integer formatting and parsing. *)
From Verif Require Import PyBytes PyBytesFacts PyInt.
From Coq Require Import ZifyBool ZifyN ZifyNat.
Ltac Zify.zify_post_hook ::= Z.div_mod_to_equations.
Local Open Scope N_scope.

(** Value of a digit list, most significant first. *)
Fixpoint dval (base : N) (acc : N) (ds : list N) : N :=
  match ds with [] => acc | d :: ds' => dval base (acc * base + d) ds' end.

Lemma dval_app base acc a b : dval base acc (a ++ b) = dval base (dval base acc a) b.
Proof. revert acc; induction a as [|d a IH]; intros acc; cbn; [reflexivity|apply IH]. Qed.

Lemma digits_acc_app fuel base n acc : digits_acc fuel base n acc = digits_acc fuel base n [] ++ acc.
Proof.
  revert n acc; induction fuel as [|f IH]; intros n acc; cbn [digits_acc]; [reflexivity|].
  destruct (n <? base); [reflexivity|].
  rewrite IH. rewrite (IH _ [_]). rewrite <- app_assoc. reflexivity.
Qed.

Lemma size_nat_div base n : 2 <= base -> base <= n ->
  (S (N.size_nat (n / base)) <= N.size_nat n)%nat.
Proof.
  intros Hb Hn.
  assert (forall m, N.size_nat m = N.to_nat (N.size m)) as SN.
  { intros [|p]; [reflexivity|]. cbn. induction p as [p IH|p IH|]; cbn; rewrite ?IH, ?Pos2Nat.inj_succ; reflexivity. }
  rewrite !SN.
  assert (n / base <= n / 2) as H1 by (apply N.div_le_compat_l; lia).
  assert (N.size (n / base) <= N.size (n / 2)) as H2.
  { destruct (N.eq_dec (n / base) 0) as [->|E]; [cbn; lia|].
    rewrite !N.size_log2 by lia. apply -> N.succ_le_mono. now apply N.log2_le_mono. }
  assert (N.size n = N.succ (N.size (n / 2))) as H3.
  { rewrite <- N.div2_div. destruct n as [|[p|p|]]; cbn; try reflexivity; lia. }
  lia.
Qed.

(** Enough fuel: the digit list denotes the number, every digit is in range,
    and the first digit is zero only for zero. *)
Lemma digits_acc_spec fuel base n : 2 <= base -> (N.size_nat n < fuel)%nat ->
  dval base 0 (digits_acc fuel base n []) = n /\
  Forall (fun d => d < base) (digits_acc fuel base n []) /\
  exists d ds, digits_acc fuel base n [] = d :: ds /\ (d = 0 -> n = 0 /\ ds = []).
Proof.
  intros Hb. revert n; induction fuel as [|f IH]; intros n Hf; [lia|]. cbn [digits_acc].
  destruct (N.ltb_spec n base) as [L|L].
  - cbn. split; [lia|]. split; [repeat constructor; lia|].
    exists n, []. split; [reflexivity|]. intros ->. split; reflexivity.
  - pose proof (size_nat_div base n Hb L) as Hs.
    destruct (IH (n / base) ltac:(lia)) as (H1 & H2 & d & ds & H3 & H4).
    rewrite digits_acc_app. rewrite dval_app, H1. cbn [dval].
    split; [|split].
    + pose proof (N.div_mod n base ltac:(lia)). lia.
    + apply Forall_app. split; [exact H2|]. repeat constructor. apply N.mod_lt. lia.
    + exists d, (ds ++ [n mod base]). rewrite H3. split; [reflexivity|].
      intros Hd. destruct (H4 Hd) as [H5 _].
      pose proof (N.div_str_pos n base ltac:(lia)). lia.
Qed.

Lemma digits_value base n : 2 <= base -> dval base 0 (digits base n) = n.
Proof. intros H. apply digits_acc_spec; [exact H|lia]. Qed.
Lemma digits_range base n : 2 <= base -> Forall (fun d => d < base) (digits base n).
Proof. intros H. apply digits_acc_spec; [exact H|lia]. Qed.
Lemma digits_lead base n : 2 <= base ->
  exists d ds, digits base n = d :: ds /\ (d = 0 -> n = 0 /\ ds = []).
Proof. intros H. apply digits_acc_spec; [exact H|lia]. Qed.

Lemma dval_bound base ds : forall acc, 2 <= base ->
  dval base acc ds >= acc * base ^ N.of_nat (List.length ds).
Proof.
  induction ds as [|d ds IH]; intros acc Hb.
  - cbn. lia.
  - cbn [dval List.length]. specialize (IH (acc * base + d) Hb).
    rewrite Nat2N.inj_succ, N.pow_succ_r'. nia.
Qed.

(** Uniqueness of the canonical digit list. *)
Lemma dval_inj base (Hb : 2 <= base) : forall a b x y,
  List.length a = List.length b ->
  Forall (fun d => d < base) a -> Forall (fun d => d < base) b ->
  dval base x a = dval base y b -> x = y /\ a = b.
Proof.
  induction a as [|d a IH] using rev_ind; intros b x y L Fa Fb E.
  - destruct b; [|easy]. cbn in E. now split.
  - destruct b as [|e b _] using rev_ind; [rewrite app_length in L; cbn in L; lia|].
    rewrite !app_length in L. cbn in L. apply Forall_app in Fa as [Fa Fd]. apply Forall_app in Fb as [Fb Fe].
    rewrite !dval_app in E. cbn [dval] in E. inversion Fd; inversion Fe; subst.
    assert (dval base x a = dval base y b /\ d = e) as [E1 E2].
    { assert (base * dval base x a + d = base * dval base y b + e) as E' by lia.
      apply (N.div_mod_unique base); [lia|lia|exact E']. }
    destruct (IH b x y ltac:(lia) Fa Fb E1) as [-> ->]. now subst.
Qed.

Lemma dval_upper base (Hb : 2 <= base) ds : forall acc,
  Forall (fun d => d < base) ds -> dval base acc ds < (acc + 1) * base ^ N.of_nat (List.length ds).
Proof.
  induction ds as [|d ds IH]; intros acc F.
  - cbn. lia.
  - inversion F; subst. cbn [dval List.length]. specialize (IH (acc * base + d) H2).
    rewrite Nat2N.inj_succ, N.pow_succ_r'.
    assert (0 < base ^ N.of_nat (List.length ds)) by (apply N.neq_0_lt_0, N.pow_nonzero; lia). nia.
Qed.

Lemma dval_cons base d ds acc : dval base acc (d :: ds) = dval base (acc * base + d) ds.
Proof. reflexivity. Qed.

Lemma digits_unique base (Hb : 2 <= base) ds n :
  Forall (fun d => d < base) ds -> ds <> [] -> (forall d ds', ds = d :: ds' -> d = 0 -> ds' = []) ->
  dval base 0 ds = n -> ds = digits base n.
Proof.
  intros F Hne Hz E.
  pose proof (digits_value base n Hb) as V. pose proof (digits_range base n Hb) as R.
  destruct (digits_lead base n Hb) as (d & es & D & Dz).
  assert (List.length ds = List.length (digits base n)) as L.
  { destruct ds as [|c cs]; [easy|]. rewrite D in *.
    assert (forall a xs b ys, Forall (fun d => d < base) (a :: xs) -> Forall (fun d => d < base) (b :: ys) ->
              (a = 0 -> xs = []) -> (b = 0 -> ys = []) ->
              dval base 0 (a :: xs) = dval base 0 (b :: ys) -> (List.length xs <= List.length ys)%nat) as G.
    { clear -Hb. intros a xs b ys F1 F2 Za Zb E.
      destruct (Nat.le_gt_cases (List.length xs) (List.length ys)) as [?|C]; [assumption|exfalso].
      assert (a <> 0) as Ha by (intros ->; rewrite Za in C by reflexivity; cbn in C; lia).
      rewrite !dval_cons in E.
      pose proof (dval_bound base xs (0 * base + a) Hb) as B1.
      inversion F2; subst.
      pose proof (dval_upper base Hb ys (0 * base + b) H2) as B2.
      assert (base ^ N.of_nat (S (List.length ys)) <= base ^ N.of_nat (List.length xs)) as P
        by (apply N.pow_le_mono_r; lia).
      rewrite Nat2N.inj_succ, N.pow_succ_r' in P.
      assert (0 < base ^ N.of_nat (List.length ys)) by (apply N.neq_0_lt_0, N.pow_nonzero; lia).
      nia. }
    cbn [List.length]. f_equal. apply Nat.le_antisymm.
    - apply (G c cs d es); try assumption; [intros ->; now apply (Hz 0 cs)|intros ->; now apply Dz|congruence].
    - apply (G d es c cs); try assumption; [intros ->; now apply Dz|intros ->; now apply (Hz 0 cs)|congruence]. }
  apply (dval_inj base Hb ds (digits base n) 0 0 L F R). congruence.
Qed.

(** ** Characters *)
Lemma digit_val_char d : d < 36 -> digit_val (digit_char d) = Some d.
Proof.
  intros H. unfold digit_val, digit_char. destruct (N.ltb_spec d 10).
  - rewrite N_ascii_embedding by lia.
    replace ((48 <=? 48 + d) && (48 + d <=? 57)) with true by lia. f_equal. lia.
  - rewrite N_ascii_embedding by lia.
    replace ((48 <=? 55 + d) && (55 + d <=? 57)) with false by lia.
    replace ((97 <=? 55 + d) && (55 + d <=? 122)) with false by lia.
    replace ((65 <=? 55 + d) && (55 + d <=? 90)) with true by lia. f_equal. lia.
Qed.

Lemma digit_char_N d : d < 36 ->
  N_of_ascii (digit_char d) = if d <? 10 then 48 + d else 55 + d.
Proof.
  intros H. unfold digit_char. destruct (N.ltb_spec d 10); apply N_ascii_embedding; lia.
Qed.

Lemma ascii_N_neq x y : N_of_ascii x <> N_of_ascii y -> Ascii.eqb x y = false.
Proof. intros H. apply Ascii.eqb_neq. congruence. Qed.

Lemma digit_char_not_us d : d < 36 -> Ascii.eqb (digit_char d) "_" = false.
Proof.
  intros H. apply ascii_N_neq. rewrite digit_char_N by exact H.
  change (N_of_ascii "_") with 95. destruct (d <? 10) eqn:E; lia.
Qed.

Lemma int_digits_fmt base ds : base <= 36 -> forall prev acc cnt,
  Forall (fun d => d < base) ds -> (ds = [] -> prev = true) ->
  int_digits base prev (map digit_char ds) acc cnt
  = Some (dval base acc ds, (cnt + Z.of_nat (List.length ds))%Z).
Proof.
  intros Hb. induction ds as [|d ds IH]; intros prev acc cnt F P; cbn [map int_digits].
  - rewrite P by reflexivity. cbn. now rewrite Z.add_0_r.
  - inversion F; subst. rewrite digit_char_not_us, digit_val_char by lia.
    replace (d <? base) with true by lia. rewrite IH; [|assumption|reflexivity].
    cbn [dval List.length]. do 2 f_equal. lia.
Qed.

Lemma digit_char_not_space d : d < 36 -> is_space (digit_char d) = false.
Proof.
  intros H. unfold is_space. rewrite digit_char_N by exact H. destruct (d <? 10) eqn:E; lia.
Qed.

Lemma lstrip_by_id p l : (match l with [] => true | x :: _ => negb (p x) end) = true -> lstrip_by p l = l.
Proof. destruct l as [|x l]; cbn; [reflexivity|]. destruct (p x); easy. Qed.

Lemma strip_by_id p l : Forall (fun x => p x = false) l -> strip_by p l = l.
Proof.
  intros F. unfold strip_by, rstrip_by.
  rewrite (lstrip_by_id p l) by (destruct F as [|x l Hx F]; [reflexivity|now rewrite Hx]).
  rewrite lstrip_by_id; [apply rev_involutive|].
  apply Forall_rev in F. destruct F as [|x l' Hx F]; [reflexivity|now rewrite Hx].
Qed.

Lemma fmt_nat_forall base n (P : byte -> Prop) : 2 <= base <= 36 ->
  (forall d, d < base -> P (digit_char d)) -> Forall P (fmt_nat base n).
Proof.
  intros Hb H. unfold fmt_nat. apply Forall_map. eapply Forall_impl; [|apply digits_range; lia].
  cbn. intros d Hd. now apply H.
Qed.

Lemma fmt_nat_cons base n : 2 <= base <= 36 ->
  exists d ds, fmt_nat base n = digit_char d :: ds /\ d < base /\ digits base n = d :: tl (digits base n).
Proof.
  intros Hb. destruct (digits_lead base n ltac:(lia)) as (d & ds & E & _).
  pose proof (digits_range base n ltac:(lia)) as R. unfold fmt_nat. rewrite E in *. inversion R; subst.
  exists d, (map digit_char ds). split; [reflexivity|]. split; [assumption|]. reflexivity.
Qed.

Lemma int_sign_fmt base n : 2 <= base <= 36 -> int_sign (fmt_nat base n) = (1%Z, fmt_nat base n).
Proof.
  intros Hb. destruct (fmt_nat_cons base n Hb) as (d & ds & E & Hd & _). rewrite E. unfold int_sign.
  assert (forall c, N_of_ascii c < 48 -> Ascii.eqb (digit_char d) c = false) as G.
  { intros c Hc. apply ascii_N_neq. rewrite digit_char_N by lia. destruct (d <? 10) eqn:?; lia. }
  rewrite !G by reflexivity. reflexivity.
Qed.

Lemma strip_fmt base n : 2 <= base <= 36 -> strip_ws (fmt_nat base n) = fmt_nat base n.
Proof.
  intros Hb. apply strip_by_id. apply fmt_nat_forall; [exact Hb|].
  intros d Hd. apply digit_char_not_space. lia.
Qed.

Lemma hex_prefix_fmt n : hex_prefix (fmt_nat 16 n) = fmt_nat 16 n.
Proof.
  unfold fmt_nat. destruct (digits_lead 16 n ltac:(lia)) as (d & ds & E & _).
  pose proof (digits_range 16 n ltac:(lia)) as R. rewrite E in *. cbn [map].
  destruct ds as [|e ds]; [reflexivity|]. cbn [map hex_prefix].
  inversion R as [|? ? ? R2]; subst. inversion R2; subst.
  rewrite (ascii_N_neq (digit_char e) "x"), (ascii_N_neq (digit_char e) "X").
  - now rewrite andb_false_r.
  - rewrite digit_char_N by lia. change (N_of_ascii "X") with 88. destruct (e <? 10) eqn:?; lia.
  - rewrite digit_char_N by lia. change (N_of_ascii "x") with 120. destruct (e <? 10) eqn:?; lia.
Qed.

Lemma fmt_d_nonneg z : (0 <= z)%Z -> fmt_d z = fmt_nat 10 (Z.to_N z).
Proof. destruct z; [reflexivity|reflexivity|lia]. Qed.
Lemma fmt_X_nonneg z : (0 <= z)%Z -> fmt_X z = fmt_nat 16 (Z.to_N z).
Proof. destruct z; [reflexivity|reflexivity|lia]. Qed.

(** [int(b'%d' % n) == n] up to CPython's digit limit. *)
Lemma py_int_fmt_d z : (0 <= z)%Z -> (blen (fmt_d z) <= int_max_str_digits)%Z -> py_int (fmt_d z) = Some z.
Proof.
  intros Hz Hl. rewrite fmt_d_nonneg in * by exact Hz. unfold py_int.
  rewrite strip_fmt, int_sign_fmt by lia. unfold fmt_nat.
  rewrite int_digits_fmt; [|lia|apply digits_range; lia|].
  - rewrite digits_value by lia. unfold blen, fmt_nat in Hl. rewrite map_length in Hl.
    replace (0 + Z.of_nat (List.length (digits 10 (Z.to_N z))) <=? int_max_str_digits)%Z with true by lia.
    f_equal. lia.
  - destruct (digits_lead 10 (Z.to_N z) ltac:(lia)) as (d & ds & E & _). rewrite E. easy.
Qed.

(** [int(b'%X' % n, 16) == n]. *)
Lemma py_int16_fmt_X z : (0 <= z)%Z -> py_int16 (fmt_X z) = Some z.
Proof.
  intros Hz. rewrite fmt_X_nonneg by exact Hz. unfold py_int16.
  rewrite strip_fmt, int_sign_fmt, hex_prefix_fmt by lia. unfold fmt_nat.
  rewrite int_digits_fmt; [|lia|apply digits_range; lia|].
  - rewrite digits_value by lia. f_equal. lia.
  - destruct (digits_lead 16 (Z.to_N z) ltac:(lia)) as (d & ds & E & _). rewrite E. easy.
Qed.

Lemma fmt_nat_length_pos base n : 2 <= base <= 36 -> (0 < List.length (fmt_nat base n))%nat.
Proof. intros H. destruct (fmt_nat_cons base n H) as (d & ds & E & _). rewrite E. cbn. lia. Qed.
