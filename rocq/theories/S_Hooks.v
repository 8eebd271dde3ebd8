(** Calling hooks one after the other until one ends the walk; independent of the model, whose observations it names. *)
From Verif Require Import PyBytes M_Hooks.

(** The observations when the hooks [order] are called in this order: [es] are the endings so far, and [more] tells whether the next one is being called. *)
Fixpoint walk (call : nat -> mark) (ended : nat -> ending -> mark) (order : list nat) (es : list ending) (more : bool) : list mark :=
  match order, es with
  | i :: order', e :: es' => call i :: ended i e :: walk call ended order' es' more
  | i :: _, [] => if more then [call i] else []
  | [], _ => []
  end.
(** So far all hooks ended with false values. *)
Definition all_falsy (es : list ending) : Prop := Forall (fun e => e = Falsy) es.
(** A walk that is finished: all hooks ended with false values, or the last called with a true value or an exception. *)
Definition finished (n : nat) (es : list ending) (ok : bool) : Prop :=
  (all_falsy es /\ List.length es = n /\ ok = true) \/
  (exists es' e, es = es' ++ [e] /\ all_falsy es' /\ List.length es <= n /\ ((e = Truthy /\ ok = true) \/ (e = Fails /\ ok = false))).

Definition is_connect (m : mark) : bool := match m with ConnectCalled _ | ConnectEnded _ _ => true | _ => false end.
Definition is_close (m : mark) : bool := match m with CloseCalled _ | CloseEnded _ _ => true | _ => false end.
Definition connect_marks (l : list mark) : list mark := filter is_connect l.
Definition close_marks (l : list mark) : list mark := filter is_close l.
(** The walks of a connection with [nc] connect and [nl] close middlewares: the close middlewares in reverse order. *)
Definition connect_walk (nc : nat) := walk ConnectCalled ConnectEnded (seq 0 nc).
Definition close_walk (nl : nat) := walk CloseCalled CloseEnded (rev (seq 0 nl)).
(** Events of the task that runs the close middlewares. *)
Definition close_event (e : event) : bool := match e with CloseRuns | CloseReturns _ => true | _ => false end.
