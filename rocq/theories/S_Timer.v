(** What C47 says, of the things that can be seen of a connection, in their order. *)
From Verif Require Import PyBytes M_Timer.
Local Open Scope Z_scope.

Definition no_waits (l : list tobs) : Prop := forall t d, ~ In (Waits t d) l.
(** After [l] the connection has been waiting for a head since t, until d, and [b] is what was seen meanwhile. *)
Definition waiting_since (l : list tobs) (t d : Z) (b : list tobs) : Prop := exists a, l = a ++ Waits t d :: b /\ no_waits b.

(** The connection is aborted only if the time is over and no head had arrived before it was. *)
Definition aborts_justly (l : list tobs) : Prop := forall l1 t l2, l = l1 ++ TimedOut t :: l2 ->
  exists t0 d b, waiting_since l1 t0 d b /\ d <= t /\ forall th, In (HeadAt th) b -> d <= th.
(** The same of the start of the handler, which may be later than the end of the head. *)
Definition aborts_before_start (l : list tobs) : Prop := forall l1 t l2, l = l1 ++ TimedOut t :: l2 ->
  exists t0 d b, waiting_since l1 t0 d b /\ d <= t /\ forall i tb, In (Began i tb) b -> d <= tb.
(** The waits are as long as the options say: the first for request_timeout, the others for keepalive_timeout. *)
Definition waits_right (o : topts) (l : list tobs) : Prop := forall a t d b, l = a ++ Waits t d :: b -> d = t + (if match a with [] => true | _ => false end then o_request o else o_keepalive o).

(** A handler is cancelled by the timer only while it runs, and if it has been running for app_handler_timeout. *)
Definition stops_justly (o : topts) (l : list tobs) : Prop := forall l1 i t l2, l = l1 ++ Stopped i t :: l2 ->
  exists t0, In (Began i t0) l1 /\ t0 + o_handler o <= t /\ forall t1, ~ In (Ended i t1) l1.
(** A handler starts when those of the earlier requests have ended. *)
Definition sequential (l : list tobs) : Prop := forall l1 i t l2, l = l1 ++ Began i t :: l2 -> forall j t', In (Began j t') l1 -> exists t'', In (Ended j t'') l1.

(** Every head comes alone: no byte of a body, or of the next request, in the same segment. *)
Definition heads_alone (evs : list tev) : Prop := ~ In (Head true) evs.
(** No timer that is due, and no task that one of them woke, is left to run. *)
Definition settled (o : topts) (s : tst) : Prop := timer_step o s FireWait = None /\ timer_step o s RunWait = None /\ forall i, timer_step o s (FireHandler i) = None.
