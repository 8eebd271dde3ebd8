(** The words of C80. *)
From Verif Require Import PyBytes PyExn M_Parser M_Framing M_Conn M_Response M_Asgi M_AsgiSite M_Stack S_Asgi S_Conn S_Site.

(** Neither the client nor the network nor a time-out ends the connection, and it is not put out for others. *)
Definition unbroken (tr : list cev) : Prop := Forall (fun e => match e with Eof | Abort | Lost | RunSend true => False | _ => True end) tr.
(** Requests within the limits: of the head, all but the last byte fits client_max_header_size; the body fits client_max_body_size. *)
Definition small (o : copts) (c : call) : Prop := (blen (m_head (msg_of c)) - 1 <= o_head o /\ blen (body_of c) <= o_body o)%Z.
(** The handlers close their responses with the keep-alive that [app_serve] has come to for the head they were started with, and the body they have read. *)
Definition closes_app (ap : stack) (date : nat -> bytes) (tr : list cev) (b : list obs) : Prop :=
  forall i h r keep, In (Started i h) b -> In (HClose i keep) tr -> frame_head h (blen h - 2) = Framed r ->
  keep = r_keep (snd (app_serve (date i) ap r (got i b))).
(** An ASGI application that does not ask to close the connection, and gives a Content-Length with all of its responses or with none. *)
Definition keeps_asgi (y : asite) : Prop :=
  (forall sc x, wants_close (y_headers (y_app y sc x)) = false) /\
  exists length, forall sc x, wants (bs "content-length") (y_headers (y_app y sc x)) = length.
