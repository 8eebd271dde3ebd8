(** The words of C85. *)
From Verif Require Import PyBytes PyInt M_Framing M_Conn M_Response M_Fault S_Conn S_Site.

(** What a handler has given to the connection is, as far as it got, what [fault_serve] says for its request and the body of that. It may have stopped anywhere:
    it may be waiting, or have been cancelled, or an async generator may have failed after its first yield. *)
Definition begins_faulty (fa : faulty) (date : nat -> bytes) (reqs : list call) (tr : list cev) (b : list obs) : Prop :=
  forall i c r, nth_error reqs i = Some c -> In (Started i (m_head (msg_of c))) b -> frame_head (m_head (msg_of c)) (blen (m_head (msg_of c)) - 2) = Framed r ->
  is_prefix (did i tr) (r_out (snd (fault_serve (date i) fa r (body_of c)))).
