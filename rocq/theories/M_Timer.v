(** Model of the timers of one connection: set_timeout for the request and keep-alive waiters (tremolo/lib/http_protocol.py:91-98, 123-137, 492-498), _handle_request as far as it deals with the
    waiters and the handler (265-353), handler_timeout (188-196), and when a connection is ready for the next head (486-498). Times are integers, in any unit.
    Left out: what is in the requests (M_Conn), invalid heads (after which no handler is started), the timer of _send_data (M_Send), of the body (M_Recv), of ASGI applications after a disconnect. *)
From Verif Require Import PyBytes.
Local Open Scope Z_scope.

(** request_timeout, keepalive_timeout, app_handler_timeout; [o_asgi]: options['_app'] is not None. *)
(** http_protocol.py:96-97, 344, 496 *)
Record topts := mkTO { o_request : Z; o_keepalive : Z; o_handler : Z; o_asgi : bool }.
(** The future of self._waiters that set_timeout waits for. *)
(** http_protocol.py:91, 492 *)
Inductive waiter := Pending | Resolved | Cancelled.
(** [Idle]: _header_buf is not None. [Sleeping]: _handle_request is at 328. [Busy]: it is past 334. *)
Inductive phase := Idle | Sleeping | Busy.
(** A handler task: when it was created, whether it is running, whether the timer of 344 can still call handler_timeout. *)
Record handler := mkH { h_start : Z; h_run : bool; h_timer : bool }.
(** [t_cur]: self.handler, as the place in [t_hs]; [t_up]: self.request.upgraded; [t_open]: the connection is open. *)
(** http_protocol.py:91-98, 335-346, 492 *)
Record tst := mkT { t_now : Z; t_wait : waiter; t_due : Z; t_ph : phase; t_hs : list handler; t_cur : option nat; t_up : bool; t_open : bool }.
(** What can be seen: [Waits t d]: at t a wait for a head begins, until d. [HeadAt t]: the head is complete. [Began i t], [Ended i t]: handler i starts, ends. [TimedOut t]: set_timeout aborts the connection.
    [Stopped i t]: handler i is cancelled by handler_timeout. *)
(** http_protocol.py:91-98, 128-134, 193, 341, 492 *)
Inductive tobs := Waits (t d : Z) | HeadAt (t : Z) | Began (i : nat) (t : Z) | Ended (i : nat) (t : Z) | TimedOut (t : Z) | Stopped (i : nat) (t : Z).
(** connection_made, 91-98, at time t *)
Definition timer_new (o : topts) (t : Z) : tst * list tobs := (mkT t Pending (t + o_request o) Idle [] None false true, [Waits t (t + o_request o)]).

(** [Advance d]: time passes. [Head more]: data_received finds the end of a head; [more]: there are bytes after it, so that put_to_queue sleeps (325-333). [Begin]: it is done with sleeping.
    [End i]: handler i returns or raises. [Next]: _handle_keepalive makes the connection ready for the next head. [Upgrade]: the response is a 101. [FireWait]: the timer of 124. [RunWait]: set_timeout goes on
    with a CancelledError. [FireHandler i]: the timer of 344. [Shut]: the connection is closed or lost. *)
Inductive tev := Advance (d : Z) | Head (more : bool) | Begin | End (i : nat) | Next | Upgrade | FireWait | RunWait | FireHandler (i : nat) | Shut.

(** 335-346. A task that was just created runs before the timers that fall due meanwhile. *)
Definition begin (s : tst) : tst * list tobs :=
  let w := match t_wait s with Pending => Resolved | w => w end in
  (mkT (t_now s) w (t_due s) Busy (t_hs s ++ [mkH (t_now s) true true]) (Some (List.length (t_hs s))) (t_up s) (t_open s), [Began (List.length (t_hs s)) (t_now s)]).
(** No code: a list with its i-th element replaced (the handlers of http_protocol.py:343). *)
Fixpoint set_h (i : nat) (h : handler) (l : list handler) {struct l} : list handler :=
  match l, i with
  | [], _ => []
  | _ :: l', O => h :: l'
  | x :: l', S i' => x :: set_h i' h l'
  end.
(** handler_timeout, 188-196 *)
Definition handler_timeout (s : tst) : list tobs :=
  if t_up s then [] else
  match t_cur s with
  | None => []
  | Some j => match nth_error (t_hs s) j with Some h => if h_run h then [Stopped j (t_now s)] else [] | None => [] end
  end.
(** http_protocol.py:341-352 *)
Definition with_hs (s : tst) (l : list handler) : tst := mkT (t_now s) (t_wait s) (t_due s) (t_ph s) l (t_cur s) (t_up s) (t_open s).
(** http_protocol.py:123-137, 188-196, 265-353, 480-498 *)
Definition timer_step (o : topts) (s : tst) (ev : tev) : option (tst * list tobs) :=
  match ev with
  | Advance d => if 0 <=? d then Some (mkT (t_now s + d) (t_wait s) (t_due s) (t_ph s) (t_hs s) (t_cur s) (t_up s) (t_open s), []) else None
  | Head more =>
      match t_open s, t_ph s with
      | true, Idle => let s1 := mkT (t_now s) (t_wait s) (t_due s) Sleeping (t_hs s) (t_cur s) false true in
                      if more then Some (s1, [HeadAt (t_now s)]) else let '(s2, b) := begin s1 in Some (s2, HeadAt (t_now s) :: b)
      | _, _ => None
      end
  | Begin => match t_open s, t_ph s with true, Sleeping => Some (begin s) | _, _ => None end
  | End i =>
      match nth_error (t_hs s) i with
      | Some h => if h_run h then Some (with_hs s (set_h i (mkH (h_start h) false (h_timer h && o_asgi o)) (t_hs s)), [Ended i (t_now s)]) else None     (* 350-352 *)
      | None => None
      end
  | Next =>
      match t_open s && negb (t_up s) && match t_wait s with Cancelled => false | _ => true end, t_ph s with     (* 480; a set_timeout that was woken runs first *)
      | true, Busy => Some (mkT (t_now s) Pending (t_now s + o_keepalive o) Idle (t_hs s) (t_cur s) (t_up s) true, [Waits (t_now s) (t_now s + o_keepalive o)])
      | _, _ => None
      end
  | Upgrade => match t_ph s with Busy => Some (mkT (t_now s) (t_wait s) (t_due s) (t_ph s) (t_hs s) (t_cur s) true (t_open s), []) | _ => None end
  | FireWait => match t_open s, t_wait s with
                | true, Pending => if t_due s <=? t_now s then Some (mkT (t_now s) Cancelled (t_due s) (t_ph s) (t_hs s) (t_cur s) (t_up s) true, []) else None
                | _, _ => None
                end
  | RunWait => match t_open s, t_wait s with
               | true, Cancelled => Some (mkT (t_now s) Cancelled (t_due s) (t_ph s) (t_hs s) (t_cur s) (t_up s) false, [TimedOut (t_now s)])
               | _, _ => None
               end
  | FireHandler i =>
      match nth_error (t_hs s) i with
      | Some h => if h_timer h && (h_start h + o_handler o <=? t_now s) && t_open s
                  then Some (with_hs s (set_h i (mkH (h_start h) (h_run h) false) (t_hs s)), handler_timeout s) else None
      | None => None
      end
  | Shut => if t_open s then Some (mkT (t_now s) (t_wait s) (t_due s) (t_ph s) (t_hs s) None (t_up s) false, []) else None
  end.
(** http_protocol.py:91-353, one step after another. *)
Fixpoint timer_run (o : topts) (s : tst) (evs : list tev) : option (tst * list tobs) :=
  match evs with
  | [] => Some (s, [])
  | ev :: evs' => match timer_step o s ev with
                  | Some (s1, b1) => match timer_run o s1 evs' with Some (s2, b2) => Some (s2, b1 ++ b2) | None => None end
                  | None => None
                  end
  end.
