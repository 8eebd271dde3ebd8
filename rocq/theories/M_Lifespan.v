(** Model of ASGILifespan (tremolo/asgi_lifespan.py) and of its use at startup (tremolo/tremolo.py:314-321) and shutdown (470-474). The application is any task
    that calls send() and ends; receive(), which hands over what startup() and shutdown() queue, is left out. One step is what runs
    between two awaits. *)
From Verif Require Import PyBytes.

(** self._waiter, a future *)
(** asgi_lifespan.py:14 *)
Inductive waiter := Pending | Resolved | Cancelled.
(** Exceptions: LifespanError, LifespanProtocolUnsupported, InvalidStateError, others. asyncio.CancelledError is apart. *)
(** asgi_lifespan.py:54-56, 71-82 *)
Inductive aexc := ELifespan | EUnsupported | EInvalidState | EOther.
(** asgi_lifespan.py:24-26, 68 *)
Inductive ending := Returned | RaisedExc (x : aexc) | CancelledTask.
(** asgi_lifespan.py:43-56 *)
Inductive msg := StartupComplete | ShutdownComplete | StartupFailed | ShutdownFailed | OtherMsg.
(** The coroutine exception(): not running, at its await (63), returned, or ended by CancelledError. *)
Inductive phase := Idle | Awaiting | Answer (x : option aexc) | Escaped.
(** asgi_lifespan.py:10-15, 59 *)
Record ls := mkLs { l_waiter : waiter; l_task : option ending; l_timer : bool; l_phase : phase }.
(** __init__, 9-15 *)
Definition ls_new : ls := mkLs Pending None false Idle.

(** Future.cancel *)
(** asgi_lifespan.py:26, 60 *)
Definition cancel (w : waiter) : waiter := match w with Pending => Cancelled | _ => w end.
(** send, 42-56: what the application's call raises, and the state. *)
Definition ls_send (m : msg) (s : ls) : option aexc * ls :=
  match m with
  | StartupComplete | ShutdownComplete =>
      match l_waiter s with
      | Pending => (None, mkLs Resolved (l_task s) (l_timer s) (l_phase s))
      | _ => (Some EInvalidState, s)                    (* Future.set_result *)
      end
  | StartupFailed | ShutdownFailed => (Some ELifespan, s)
  | OtherMsg => (Some EUnsupported, s)
  end.
(** main, 17-26: the application ended, and the waiter is cancelled before the task is done. *)
Definition ls_end (x : ending) (s : ls) : ls := mkLs (cancel (l_waiter s)) (Some x) (l_timer s) (l_phase s).
(** exception, 58-60: called *)
Definition ls_call (s : ls) : ls := mkLs (l_waiter s) (l_task s) true Awaiting.
(** 59-60: the timer *)
Definition ls_timeout (s : ls) : ls := mkLs (cancel (l_waiter s)) (l_task s) false (l_phase s).
(** 63-85: the await is over. Task.exception raises InvalidStateError while the task runs, and CancelledError if it was cancelled. *)
Definition ls_resume (s : ls) : ls :=
  match l_waiter s with
  | Resolved => mkLs Pending (l_task s) false (Answer None)
  | _ => mkLs (l_waiter s) (l_task s) false
           (match l_task s with
            | None => Answer None
            | Some Returned => Answer None
            | Some (RaisedExc ELifespan) => Answer (Some ELifespan)
            | Some (RaisedExc _) => Answer None
            | Some CancelledTask => Escaped
            end)
  end.

(** asgi_lifespan.py:17-85 *)
Inductive lev := Send (m : msg) | End (x : ending) | Call | Timeout | Resume.
(** None: the step is not possible. *)
(** asgi_lifespan.py:17-85 *)
Definition ls_step (s : ls) (ev : lev) : option ls :=
  match ev with
  | Send m => Some (snd (ls_send m s))
  | End x => match l_task s with None => Some (ls_end x s) | Some _ => None end
  | Call => match l_phase s with Awaiting => None | _ => Some (ls_call s) end
  | Timeout => if l_timer s then Some (ls_timeout s) else None
  | Resume => match l_phase s, l_waiter s with
              | Awaiting, Pending => None
              | Awaiting, _ => Some (ls_resume s)
              | _, _ => None
              end
  end.
(** asgi_lifespan.py:17-85, one step after another. *)
Fixpoint ls_run (tr : list lev) (s : ls) : option ls :=
  match tr with
  | [] => Some s
  | ev :: tr' => match ls_step s ev with Some s' => ls_run tr' s' | None => None end
  end.
