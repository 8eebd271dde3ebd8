(** Model of the timers of an idle WebSocket session: WebSocket.receive with its ping timer (lib/websocket.py:108-128, 175-179) over Request.recv with the time-out of
    one wait for data (lib/request.py:30-52).

    Times are integers in any unit in which half of keepalive_timeout is a whole number, [h]; [2 * h] is keepalive_timeout. A segment arrives when it is put into the
    queue; which frames it completes is the reading of C23 and C25 to C27: here a segment comes with the frames it completes. Only sessions without close frames and
    without frames that are refused: these end the session (C24, C25). A timer that is due when a segment arrives runs first: the segment is put into the queue by a
    task (http_protocol.py:361-369, 403-405), the timer is a callback of the loop. The pings are sent at once (C48 is the flow control). *)
From Verif Require Import PyBytes.
Local Open Scope Z_scope.

(** What recv() returns for a frame: b'' for pings, pongs and empty binary messages, which receive() does not return, or a message. lib/websocket.py:74-89, 111 *)
Inductive frame := Control | Message.
(** What happens from outside: a segment arrives that completes these frames; the application calls receive(); time passes. [Seg]: lib/request.py:32-34; [Call]:
    lib/websocket.py:108 *)
Inductive event := Seg (t : Z) (fs : list frame) | Call (t : Z) | Tick (t : Z).
(** Its time. loop.time(), lib/websocket.py:115, lib/request.py:36 *)
Definition time (e : event) : Z := match e with Seg t _ => t | Call t => t | Tick t => t end.
(** What is seen of the session: receive() called, returned; a ping sent; receive() raises WebSocketServerClosed with code 1000. lib/websocket.py:108, 121-124, 128, 179 *)
Inductive seen := Called | Returned | Pinged | Closed.
(** The application is not in receive(), with the frames that arrived meanwhile; or it is: since [s] in this turn of the loop of 111, since [g] in this wait for data
    (request.py:32), [p]: the ping timer has run; or it is over. lib/websocket.py:108-128 *)
Inductive state := Busy (q : list frame) | Waiting (s g : Z) (p : bool) | Over.
(** The timers that are due at [t]: the ping timer once in a turn of the loop, 114-118, if the connection is listed, 175-179; the time-out of the wait,
    request.py:35-44. lib/websocket.py:114-128, 175-179, lib/request.py:35-44 *)
Definition timers (h : Z) (listed : Z -> bool) (st : state) (t : Z) : state * list (Z * seen) :=
  match st with
  | Waiting s g p =>
      let out := if negb p && (s + h <=? t) && (s + h <=? g + 2 * h) && listed (s + h) then [(s + h, Pinged)] else [] in
      if g + 2 * h <=? t then (Over, out ++ [(g + 2 * h, Closed)]) else (Waiting s g (p || (s + h <=? t)), out)
  | _ => (st, [])
  end.
(** The loop of 111 over frames that are there: it goes on with a new turn, and so a new timer, after every frame that is not a message. lib/websocket.py:111-128 *)
Fixpoint eat (t : Z) (fs : list frame) : state * list (Z * seen) :=
  match fs with
  | [] => (Waiting t t false, [])
  | Control :: fs' => eat t fs'
  | Message :: fs' => (Busy fs', [(t, Returned)])
  end.
(** An event, after the timers. A segment that completes no frame ends the wait for data but not the turn. A call while one is running is left out.
    lib/websocket.py:108-128, lib/request.py:32-52 *)
Definition act (st : state) (e : event) : state * list (Z * seen) :=
  match st, e with
  | Waiting s _ p, Seg t [] => (Waiting s t p, [])
  | Waiting _ _ _, Seg t fs => eat t fs
  | Busy q, Seg _ fs => (Busy (q ++ fs), [])
  | Busy q, Call t => let '(st', o) := eat t q in (st', (t, Called) :: o)
  | _, _ => (st, [])
  end.
(** lib/websocket.py:108-128, lib/request.py:32-52 *)
Definition step (h : Z) (listed : Z -> bool) (st : state) (e : event) : state * list (Z * seen) :=
  let '(st1, o1) := timers h listed st (time e) in let '(st2, o2) := act st1 e in (st2, o1 ++ o2).
(** A session from the beginning; the application is not in receive() yet. lib/websocket.py:108-128 *)
Fixpoint run (h : Z) (listed : Z -> bool) (st : state) (l : list event) : state * list (Z * seen) :=
  match l with [] => (st, []) | e :: l' => let '(st1, o1) := step h listed st e in let '(st2, o2) := run h listed st1 l' in (st2, o1 ++ o2) end.
(** lib/websocket.py:108-128 *)
Definition session (h : Z) (listed : Z -> bool) (l : list event) : list (Z * seen) := snd (run h listed (Busy []) l).
