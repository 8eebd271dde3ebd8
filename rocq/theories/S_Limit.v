(** The words of C87. *)
From Verif Require Import PyBytes M_Limit.
Local Open Scope Z_scope.

(** It does not wait, write or upgrade any more, only returns or raises. *)
Definition idle (p : prog) : Prop := match p with Return _ | Throw _ => True | _ => False end.
(** A handler that, once a wait was ended by an exception, does not wait again; it may clean up, and give a response or raise what it likes. *)
Fixpoint obedient (p : prog) : Prop :=
  match p with
  | Return _ | Throw _ => True
  | Await k => obedient (k Woken) /\ idle (k (Stopped XCancelled))
  | Recv k => (forall d, obedient (k (Got d))) /\ obedient (k Over) /\ idle (k (Broken XTimeout))
  | Write _ k => obedient k
  | Upgrade _ => False
  end.
(** A handler that lets the exceptions of its waits through, and raises none itself. *)
Fixpoint plain (p : prog) : Prop :=
  match p with
  | Return _ => True
  | Throw _ => False
  | Await k => plain (k Woken) /\ k (Stopped XCancelled) = Throw XCancelled
  | Recv k => (forall d, plain (k (Got d))) /\ plain (k Over) /\ k (Broken XTimeout) = Throw XTimeout
  | Write _ k | Upgrade k => plain k
  end.
(** A handler that lets cancellation through, wherever it is told of it. *)
Fixpoint lets_cancel (p : prog) : Prop :=
  match p with
  | Return _ | Throw _ => True
  | Await k => lets_cancel (k Woken) /\ k (Stopped XCancelled) = Throw XCancelled
  | Recv k => (forall d, lets_cancel (k (Got d))) /\ lets_cancel (k Over) /\ lets_cancel (k (Broken XTimeout))
  | Write _ k | Upgrade k => lets_cancel k
  end.
(** A handler that returns its response, and does not stream it. *)
Fixpoint returning (p : prog) : Prop :=
  match p with
  | Return _ | Throw _ => True
  | Await k => forall x, returning (k x)
  | Recv k => forall x, returning (k x)
  | Write _ _ | Upgrade _ => False
  end.
(** When it is over. *)
Definition over_at (f : fate) (t : Z) : Prop := match f with Answered t' _ | Refused t' _ _ | Cut t' => t' = t | Endless => False end.
(** Before [t] the client has sent nothing for the time [k]. *)
Definition silence (feed : list (Z * option bytes)) (k t : Z) : Prop := forall a d, In (a, d) feed -> a <= t - k \/ t <= a.
(** The parts of a body come one after another. *)
Fixpoint in_order (feed : list (Z * option bytes)) : Prop := match feed with [] => True | (a, _) :: rest => (forall b d, In (b, d) rest -> a <= b) /\ in_order rest end.
