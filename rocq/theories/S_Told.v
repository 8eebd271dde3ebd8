(** The words of C86: what the Connection line of a response says. *)
From Verif Require Import PyBytes M_Response M_Stack S_Response S_Calls S_Site S_AsgiSite S_Stack.

(** There is a Connection line, and no other than this one. *)
Definition says_close (y : answer) : Prop := only_line (bs "connection") (bs "Connection: close") (r_lines y).
Definition says_open (y : answer) : Prop := only_line (bs "connection") (bs "Connection: keep-alive") (r_lines y) \/ only_line (bs "connection") (bs "Connection: upgrade") (r_lines y).
(** No response middleware sets a Connection header. (Handlers and request middlewares may: the server replaces it.) *)
Definition leaves_connection (ap : stack) : Prop := Forall (fun g => forall m u v, Forall (fun h => ~ In (bs "connection") (names h)) (g m u v)) (p_after ap).
