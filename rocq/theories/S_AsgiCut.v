(** The words of C85 for ASGI applications. *)
From Verif Require Import PyBytes PyInt M_Framing M_Conn M_Response M_Asgi M_AsgiSite S_Conn S_Site.

(** An application that has not ended its response has given to the connection a beginning of what [asgi_serve] says for its request, the body of that, and the mode
    that the one before it left behind. It may have stopped anywhere: it may be waiting, or have been cancelled, or have failed after its first http.response.body. *)
Definition begins_asgi (y : asite) (date : nat -> bytes) (ch : nat -> option bool) (reqs : list call) (tr : list cev) (b : list obs) : Prop :=
  forall i c r, nth_error reqs i = Some c -> In (Started i (m_head (msg_of c))) b -> ~ In i (closers tr) -> frame_head (m_head (msg_of c)) (blen (m_head (msg_of c)) - 2) = Framed r ->
  is_prefix (did i tr) (r_out (a_rsp (asgi_serve (date i) y (m_head (msg_of c)) r (body_of c) (ch i)))).
