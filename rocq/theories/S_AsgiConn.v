(** Words for the statements about the ASGI applications of a connection. *)
From Verif Require Import PyBytes M_AsgiConn.

(** Application i was called and is not over, after what was seen in [l]. *)
Definition running (l : list obs) (i : nat) : Prop := (exists t, In (Began i t) l) /\ ~ exists t, In (Ended i t) l.
(** Applications are over when the next request begins. *)
Definition one_by_one (l : list obs) : Prop := forall a k t b, l = a ++ Began k t :: b -> forall i, ~ running a i.
(** Things that need a client. *)
Definition with_client (x : obs) : Prop := match x with Began _ _ | Given _ _ _ | Sent _ _ _ | LostAt _ | Cancel _ _ => True | _ => False end.
