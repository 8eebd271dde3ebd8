(** The words of C83 and C86 for ASGI applications. *)
From Verif Require Import PyBytes M_AsgiSite S_Asgi S_Site S_AsgiSite S_Told.

(** All responses of the application have a Content-Length, or none has. *)
Definition steady (y : asite) : Prop := exists length, forall sc x, wants (bs "content-length") (y_headers (y_app y sc x)) = length.
(** With its response to this request, the application asks to close the connection. *)
Definition leaves (y : asite) (c : call) : Prop := exists sc, told y c sc /\ wants_close (y_headers (y_app y sc (body_of c))) = true.
(** The Connection line that the response should have (C86): close if the application asked for that, else that the connection goes on. *)
Definition right_word_asgi (y : asite) (c : call) (x : answer) : Prop := (leaves y c -> says_close x) /\ (~ leaves y c -> says_open x).
