(** What C48 says. *)
From Verif Require Import PyBytes M_Send.
Local Open Scope Z_scope.

(** The data put into the queue, and the data handed to the transport. *)
Definition datas (l : list (option bytes)) : list bytes := flat_map (fun x => match x with Some d => [d] | None => [] end) l.
Definition puts (evs : list sev) : list bytes := flat_map (fun ev => match ev with Put (Some d) => [d] | _ => [] end) evs.
Definition handed (l : list sobs) : list bytes := flat_map (fun o => match o with Handed d _ => [d] | _ => [] end) l.
(** What the task has taken and not yet handed on. *)
Definition holds (p : pc) : list bytes := match p with Waiting d | Woken d => [d] | _ => [] end.
Definition is_prefix {A} (l m : list A) : Prop := exists r, m = l ++ r.

(** No high watermark above H is ever set, and no item is longer than M. *)
Definition limits (H M : Z) (evs : list sev) : Prop := 65536 <= H /\ 0 <= M /\ (forall h l, In (Limits h l) evs -> h <= H) /\ (forall d, In d (puts evs) -> blen d <= M).
(** Neither is the client reading, nor has the timer run out, nor is the connection given up. *)
Definition no_relief (evs : list sev) : Prop := forall ev, In ev evs -> match ev with Drain _ | Timeout | Abort | Lost => False | _ => True end.
