(** The words of C41. *)
From Verif Require Import PyBytes M_Queue.

Section Queue.
Context {A : Type}.
Definition put_items (ops : list (qop A)) : list A := flat_map (fun o => match o with Put x => [x] | _ => [] end) ops.
(** Items that left the queue, in that order: returned by a get, or lost in a get that was
    cancelled after the item had been handed to it. *)
Definition gone (evs : list (qev A)) : list A := flat_map (fun e => match e with Returned _ x => [x] | Lost _ x => [x] | Raised _ => [] end) evs.
Definition returned (evs : list (qev A)) : list A := flat_map (fun e => match e with Returned _ x => [x] | _ => [] end) evs.
Definition is_lost (e : qev A) : Prop := match e with Lost _ _ => True | _ => False end.
(** Items handed to a get that has not been run since. *)
Definition on_the_way (s : queue A) : list A :=
  flat_map (fun p => match p with GOwn f false => match nth f (q_futs s) FPending with FResult x => [x] | _ => [] end | _ => [] end) (q_cons s).
Definition no_clear (ops : list (qop A)) : Prop := ~ In Clear ops.
(** Consumer [c] got an item. *)
Definition got (c : nat) (e : qev A) : Prop := match e with Returned c' _ | Lost c' _ => c' = c | Raised _ => False end.
(** Consumer [c] waits in a get and nothing has been handed to it. *)
Definition waits (s : queue A) (c : nat) : Prop := exists f l, (nth_error (q_cons s) c = Some (GPrev f l) \/ nth_error (q_cons s) c = Some (GOwn f l)) /\ fut s f = FPending.
End Queue.
