(** The words of C83. *)
From Verif Require Import PyBytes PyInt PyExn M_Parser M_Framing M_Conn S_Conn.

(** A request within the limits: of the head, all but the last byte fits client_max_header_size; the body fits client_max_body_size, a chunked body, with its
    framing, is smaller than that. As in_limits, but it may ask to close the connection. *)
Definition sized (o : copts) (m : msg) : Prop :=
  (blen (m_head m) - 1 <= o_head o)%Z /\ (if counted m then blen (m_body m) <= o_body o else blen (m_body m) < o_body o)%Z.
(** Neither the client nor the network nor a time-out ends the connection; the server may put it out for others. *)
Definition uncut (tr : list cev) : Prop := Forall (fun e => match e with Eof | Abort | Lost => False | _ => True end) tr.
