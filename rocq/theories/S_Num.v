(** Canonical decimal numerals, independent of the model. *)
From Verif Require Import PyBytes.
Local Open Scope Z_scope.

Definition dec_digit (c : byte) : Prop := (48 <= N_of_ascii c <= 57)%N.

(** Value of a string of decimal digits read left to right. *)
Fixpoint dec_value (acc : Z) (s : bytes) : Z :=
  match s with
  | [] => acc
  | c :: s' => dec_value (10 * acc + (Z.of_N (N_of_ascii c) - 48)) s'
  end.

(** No sign, no space, no underscore, no leading zero (except "0" itself). *)
Definition canonical_decimal (s : bytes) : Prop :=
  s <> [] /\ Forall dec_digit s /\ (s = bs "0" \/ hd "0"%char s <> "0"%char).
