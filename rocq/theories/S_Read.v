(** Sequences of body reads, independent of the model. *)
From Verif Require Import PyBytes.

(** Consecutive slices of a byte string. *)
Fixpoint slices (B : bytes) (sizes : list nat) : list bytes :=
  match sizes with
  | [] => []
  | n :: l => firstn n B :: slices (skipn n B) l
  end.

(** What one call returned: some bytes, or that the body has ended. *)
Inductive answer := Got (d : bytes) | Ended.

(** [calls]: [Some n] is read(n), [None] is read(). The answers give the body [B] in order:
    every answer continues where the previous one stopped, sized reads are as long as
    possible, and the end is reported only at the end. *)
Fixpoint in_order (B : bytes) (calls : list (option nat)) (answers : list answer) : Prop :=
  match calls, answers with
  | [], [] => True
  | c :: calls', Got d :: answers' =>
      exists rest, B = d ++ rest /\
        (forall n, c = Some n -> List.length d = Nat.min n (List.length B)) /\
        in_order rest calls' answers'
  | c :: calls', Ended :: answers' => c = None /\ B = [] /\ in_order B calls' answers'
  | _, _ => False
  end.

Definition given (answers : list answer) : nat :=
  list_sum (map (fun a => match a with Got d => List.length d | Ended => 0 end) answers).

(** Every read() is made when the bytes given so far end where a piece of the stream ends. *)
Definition aligned (pieces : list bytes) (calls : list (option nat)) (answers : list answer) : Prop :=
  forall i, nth_error calls i = Some None ->
    exists k, given (firstn i answers) = List.length (concat (firstn k pieces)).
