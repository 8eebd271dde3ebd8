(** Python integers written as text: [b'%d' % n], [b'%X' % n], and [int(text, base)].
    These model CPython's built-ins (Python 3.11), not tremolo code. *)
From Verif Require Import PyBytes.
Local Open Scope N_scope.

(** Value of an alphanumeric digit. *)
Definition digit_val (x : byte) : option N :=
  let n := N_of_ascii x in
  if (48 <=? n) && (n <=? 57) then Some (n - 48)
  else if (97 <=? n) && (n <=? 122) then Some (n - 87)
  else if (65 <=? n) && (n <=? 90) then Some (n - 55)
  else None.

(** Upper-case digit character of a value below 36. *)
Definition digit_char (d : N) : byte :=
  if d <? 10 then ascii_of_N (48 + d) else ascii_of_N (55 + d).

(** Digits of [n] in [base], most significant first, in front of [acc];
    [fuel] bounds the number of digits. *)
Fixpoint digits_acc (fuel : nat) (base n : N) (acc : list N) : list N :=
  match fuel with
  | O => acc
  | S f => if n <? base then n :: acc
           else digits_acc f base (n / base) (n mod base :: acc)
  end.
Definition digits (base n : N) : list N := digits_acc (S (N.size_nat n)) base n [].

(** [b'%d' % n] for n >= 0 and for any int; [b'%X' % n] for n >= 0. *)
Definition fmt_nat (base n : N) : bytes := map digit_char (digits base n).
Definition fmt_d (z : Z) : bytes :=
  match z with
  | Zneg p => "-"%char :: fmt_nat 10 (Npos p)
  | _ => fmt_nat 10 (Z.to_N z)
  end.
Definition fmt_X (z : Z) : bytes :=
  match z with
  | Zneg p => "-"%char :: fmt_nat 16 (Npos p)
  | _ => fmt_nat 16 (Z.to_N z)
  end.

(** The digit part of an [int()] literal: digits separated by single underscores.
    [prev] says that the previous character was a digit. Returns the value and
    the number of digits. *)
Fixpoint int_digits (base : N) (prev : bool) (l : bytes) (acc : N) (cnt : Z) : option (N * Z) :=
  match l with
  | [] => if prev then Some (acc, cnt) else None
  | c :: l' =>
      if Ascii.eqb c "_" then
        if prev then int_digits base false l' acc cnt else None
      else
        match digit_val c with
        | Some d => if d <? base then int_digits base true l' (acc * base + d) (cnt + 1)%Z else None
        | None => None
        end
  end.

(** sys.get_int_max_str_digits(): CPython refuses longer decimal literals. *)
Definition int_max_str_digits : Z := 4300.

Definition int_sign (l : bytes) : Z * bytes :=
  match l with
  | c :: l' => if Ascii.eqb c "-" then ((-1)%Z, l')
               else if Ascii.eqb c "+" then (1%Z, l') else (1%Z, l)
  | [] => (1%Z, l)
  end.

(** In base 16 the literal may start with 0x or 0X, after which one underscore is allowed. *)
Definition hex_prefix (l : bytes) : bytes :=
  match l with
  | c0 :: c1 :: l' =>
      if Ascii.eqb c0 "0" && (Ascii.eqb c1 "x" || Ascii.eqb c1 "X") then
        match l' with
        | c2 :: l'' => if Ascii.eqb c2 "_" then l'' else l'
        | [] => []
        end
      else l
  | _ => l
  end.

(** [int(l)]; [None] is ValueError. *)
Definition py_int (l : bytes) : option Z :=
  let (sgn, body) := int_sign (strip_ws l) in
  match int_digits 10 false body 0 0 with
  | Some (n, c) => if (c <=? int_max_str_digits)%Z then Some (sgn * Z.of_N n)%Z else None
  | None => None
  end.

(** [int(l, 16)]; [None] is ValueError. *)
Definition py_int16 (l : bytes) : option Z :=
  let (sgn, body) := int_sign (strip_ws l) in
  match int_digits 16 false (hex_prefix body) 0 0 with
  | Some (n, _) => Some (sgn * Z.of_N n)%Z
  | None => None
  end.
