(** The words of C43. *)
From Verif Require Import PyBytes Trans M_Lock.

(** Task [t] is inside. *)
Definition inside (s : lockst) (t : nat) : Prop := nth_error (l_tasks s) t = Some TIn.
(** In the schedule [ops] from [s], acquire succeeds in every `async with`. *)
Definition with_succeeds (s : lockst) (ops : list lop) : Prop :=
  forall a t b s1, ops = a ++ Resume t :: b -> run l_step s a = Some s1 -> nth_error (l_tasks s1) t <> Some (TReady MWith false).
(** Nobody uses `async with`. *)
Definition calls_only (ops : list lop) : Prop := forall t, ~ In (Enter t MWith) ops.
(** No timeouts and no cancelled tasks. *)
Definition calm (ops : list lop) : Prop := Forall (fun o => match o with Expire _ | Timer _ | Kill _ => False | _ => True end) ops.
(** Some task is in acquire. *)
Definition wants (s : lockst) (t : nat) : Prop := exists p, nth_error (l_tasks s) t = Some p /\ p <> TOut /\ p <> TIn.
