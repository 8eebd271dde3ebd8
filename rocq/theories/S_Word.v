(** The words of C86: the Connection line that the response to a request should have. *)
From Verif Require Import PyBytes M_Stack M_Fault S_Site S_AsgiSite S_Stack S_Fault S_Told.

(** If the client asked to close the connection, or the handler or a middleware fails, the response says that it is closed; else that it goes on. *)
Definition right_word (fa : faulty) (paths : list bytes) (c : call) (y : answer) : Prop :=
  (bids_close c \/ fails fa paths c -> says_close y) /\ (~ bids_close c -> ~ fails fa paths c -> says_open y).
