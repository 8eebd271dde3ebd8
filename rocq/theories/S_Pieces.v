(** The words of C89: handlers that write their response piece by piece, and return nothing. *)
From Verif Require Import PyBytes PyInt PyExn M_Response M_Server.

(** It makes header calls, calls response.write(d) for one piece after the other, and returns; an exception of write is not caught. *)
Fixpoint write_each (e : renv) (k : kw) (ds : list bytes) : M_Response.call unit :=
  match ds with [] => done tt | d :: ds' => M_Response.seq (write e (Some d) None k) (fun _ => write_each e k ds') end.
Definition writes_out {A} (e : renv) (pre : list hop) (ds : list bytes) (k : kw) : func A :=
  fun a s _ => let '(r, s') := write_each e k ds (do_hops e pre s) in (a, s', match r with Ok _ => ONone | Raise x => OExc (of_exn x) end).
