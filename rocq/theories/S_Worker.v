(** What C44 and C57 say, in terms of what happens in a worker. *)
From Coq Require Import Permutation.
From Verif Require Import PyBytes M_Worker.

(** What was queued for connection p: to be sent, and to be read. *)
Definition puts (p : nat) (evs : list wev) : list bytes := flat_map (fun ev => match ev with Put q x => if (p =? q)%nat then [x] else [] | _ => [] end) evs.
Definition feeds (p : nat) (evs : list wev) : list bytes := flat_map (fun ev => match ev with Feed q x => if (p =? q)%nat then [x] else [] | _ => [] end) evs.
(** What was written on connection p, and what its handlers got. *)
Definition sent (p : nat) (l : list wobs) : list bytes := flat_map (fun o => match o with Sent q x => if (p =? q)%nat then [x] else [] | _ => [] end) l.
Definition took (p : nat) (l : list wobs) : list bytes := flat_map (fun o => match o with Took q x => if (p =? q)%nat then [x] else [] | _ => [] end) l.
Definition prefix {A} (l m : list A) : Prop := exists r, m = l ++ r.

(** Every connection is sent what was queued for it, from the first item on and in order, and its handlers get what it received. *)
Definition isolated (evs : list wev) (l : list wobs) : Prop := forall p, prefix (sent p l) (puts p evs) /\ prefix (took p l) (feeds p evs).

(** No task of the application's own keeps putting into the queue of a lost connection. *)
Definition no_stray (evs : list wev) : Prop := forall p x, ~ In (Stray p x) evs.
(** No callable raises anything that is not an Exception that can be printed. *)
Definition tame (beh : behaviour) : Prop := forall n, snd (beh n) <> Escapes.
(** No callable registers anything. *)
Definition quiet (beh : behaviour) : Prop := forall n, fst (beh n) = [].

(** What the cleanup did to the elements of self.tasks: cancelled the tasks, called the callables. *)
Definition handled (l : list act) : list entry := flat_map (fun a => match a with Cancel n => [ETask n] | Call n => [ECall n] | Print _ => [] end) l.

(** What is left of a connection after the cleanup. *)
Record cleaned (w : worker) (p : nat) (h : option nat) : Prop := {
  cl_conn : exists c, nth_error (w_conns w) p = Some c /\ p_queue c = None /\ p_transport c = false /\ p_request c = false /\ p_kept c = false /\ p_tasks c = [];
  cl_queues : forall i, h = Some i -> heap_get w i = mkQs [] []
}.
(** The events that queue something for p by way of the connection. *)
Definition queues_for (p : nat) (ev : wev) : bool := match ev with Put q _ | Feed q _ => (p =? q)%nat | _ => false end.
