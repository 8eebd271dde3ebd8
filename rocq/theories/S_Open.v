(** The words of C77. *)
From Verif Require Import PyBytes PyInt PyExn M_Parser M_Framing M_Conn S_Conn.

(** A request within the limits that asks to keep the connection: of the head, all but the last byte fits client_max_header_size; the body fits
    client_max_body_size; a chunked body, with its framing, is smaller than that. *)
Definition in_limits (o : copts) (m : msg) : Prop :=
  (blen (m_head m) - 1 <= o_head o)%Z /\ (if counted m then blen (m_body m) <= o_body o else blen (m_body m) < o_body o)%Z /\ forall r, parsed m = Some r -> rq_keepalive r = true.
(** Nobody wants to end the connection: the client does not close, the network and the time-outs do not break it, it is not put out for others, and the handlers
    do not ask to close it. *)
Definition wanted (tr : list cev) : Prop :=
  Forall (fun e => match e with Eof | Abort | Lost | RunSend true | HClose _ false => False | _ => True end) tr.
(** The handlers read fast enough: there are never more than max_queue_size pieces of a body in the queue. *)
Definition keeps_up (o : copts) (tr : list cev) : Prop :=
  forall pre post s b, tr = pre ++ post -> conn_run o conn_new pre = Some (s, b) -> (Z.of_nat (List.length (c_q0 s)) <= o_queue o)%Z.
