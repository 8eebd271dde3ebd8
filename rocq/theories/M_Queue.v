(** Model of Queue (tremolo/lib/queue.py:8-47) as asyncio runs it.

    Each consumer is a task that calls get() or get_nowait() again and again
    (request.py:32-34 makes one task for each get). Between two awaits a task runs without
    interruption, so one step is what runs up to the next await. What is taken from asyncio:
    awaiting a future that is done does not suspend; cancelling a task that waits for a
    future cancels this future if it is not done, and otherwise the task gets CancelledError
    when it next runs. Any order of running the tasks that can run is allowed. *)
From Verif Require Import PyBytes.

(** asyncio.Future (queue.py:34): pending, set_result(x) or cancelled. *)
Inductive future (A : Type) := FPending | FResult (x : A) | FCancelled.
Arguments FPending {A}. Arguments FResult {A} x. Arguments FCancelled {A}.

(** Where a consumer is in get(): not in it; at line 29, at line 37. [late]: cancel() came
    after the future was done. *)
Inductive getpc := GIdle | GPrev (f : nat) (late : bool) | GOwn (f : nat) (late : bool).

(** queue.py:9-12, the futures made at 34, and the consumers. *)
Record queue (A : Type) := mkQ { q_items : list A; q_getters : list nat; q_futs : list (future A); q_cons : list getpc }.
Arguments mkQ {A}. Arguments q_items {A} q. Arguments q_getters {A} q. Arguments q_futs {A} q. Arguments q_cons {A} q.

(** What can be seen of queue.py:27-40: a get that returned, a get or get_nowait that raised (CancelledError or
    IndexError). [Lost] is no event of the program: it marks that cancel() hit a get whose
    future had a result already. *)
Inductive qev (A : Type) := Returned (c : nat) (x : A) | Raised (c : nat) | Lost (c : nat) (x : A).
Arguments Returned {A} c x. Arguments Raised {A} c. Arguments Lost {A} c x.

(** A call of put_nowait (17-25), get (27-37), get_nowait (39-40) or clear (43-47), or a turn or cancel() of a consumer. *)
Inductive qop (A : Type) := Put (x : A) | Get (c : nat) | GetNow (c : nat) | Wake (c : nat) | Cancel (c : nat) | Clear.
Arguments Put {A} x. Arguments Get {A} c. Arguments GetNow {A} c. Arguments Wake {A} c. Arguments Cancel {A} c. Arguments Clear {A}.

Section Queue.
Context {A : Type}.
(** No code: a list with its i-th element replaced; for the futures of queue.py:34 and the consumers. *)
Definition upd {B} (i : nat) (x : B) (l : list B) : list B :=
  match skipn i l with [] => l | _ :: r => firstn i l ++ x :: r end.
(** A future, queue.py:34 *)
Definition fut (s : queue A) (f : nat) : future A := nth f (q_futs s) FPending.
(** queue.py:22 *)
Definition set_fut (f : nat) (v : future A) (s : queue A) : queue A := mkQ (q_items s) (q_getters s) (upd f v (q_futs s)) (q_cons s).
(** queue.py:29, 37 *)
Definition set_pc (c : nat) (p : getpc) (s : queue A) : queue A := mkQ (q_items s) (q_getters s) (q_futs s) (upd c p (q_cons s)).

(** put_nowait, queue.py:17-25: the loop over the getters. *)
Fixpoint put_loop (x : A) (futs : list (future A)) (getters : list nat) : option (list nat * nat) :=
  match getters with
  | [] => None
  | f :: g => match nth f futs FPending with FPending => Some (g, f) | _ => put_loop x futs g end
  end.
(** queue.py:17-25 *)
Definition put_nowait (x : A) (s : queue A) : queue A :=
  match put_loop x (q_futs s) (q_getters s) with
  | Some (g, f) => mkQ (q_items s) g (upd f (FResult x) (q_futs s)) (q_cons s)
  | None => mkQ (q_items s ++ [x]) [] (q_futs s) (q_cons s)
  end.
(** get, queue.py:31-37 *)
Definition get_tail (c : nat) (s : queue A) : queue A * list (qev A) :=
  match q_items s with
  | x :: r => (mkQ r (q_getters s) (q_futs s) (upd c GIdle (q_cons s)), [Returned c x])
  | [] => let f := List.length (q_futs s) in
          (mkQ [] (q_getters s ++ [f]) (q_futs s ++ [FPending]) (upd c (GOwn f false) (q_cons s)), [])
  end.
(** get, queue.py:27-37, up to its first suspension. *)
Definition get_start (c : nat) (s : queue A) : queue A * list (qev A) :=
  match rev (q_getters s) with
  | [] => get_tail c s
  | f :: _ => match fut s f with
              | FPending => (set_pc c (GPrev f false) s, [])
              | FResult _ => get_tail c s
              | FCancelled => (s, [Raised c])
              end
  end.
(** A consumer whose future is done goes on. *)
(** queue.py:29-37 *)
Definition wake (c : nat) (s : queue A) : option (queue A * list (qev A)) :=
  match nth_error (q_cons s) c with
  | Some (GPrev f late) =>
      match fut s f with
      | FPending => None
      | FResult _ => if late then Some (set_pc c GIdle s, [Raised c]) else Some (get_tail c s)
      | FCancelled => Some (set_pc c GIdle s, [Raised c])
      end
  | Some (GOwn f late) =>
      match fut s f with
      | FPending => None
      | FResult x => if late then Some (set_pc c GIdle s, [Raised c]) else Some (set_pc c GIdle s, [Returned c x])
      | FCancelled => Some (set_pc c GIdle s, [Raised c])
      end
  | _ => None
  end.
(** task.cancel() of a consumer that waits. *)
(** queue.py:29, 37 *)
Definition cancel (c : nat) (s : queue A) : option (queue A * list (qev A)) :=
  match nth_error (q_cons s) c with
  | Some (GPrev f late) =>
      match fut s f with
      | FPending => Some (set_fut f FCancelled s, [])
      | _ => Some (set_pc c (GPrev f true) s, [])
      end
  | Some (GOwn f late) =>
      match fut s f with
      | FPending => Some (set_fut f FCancelled s, [])
      | FResult x => Some (set_pc c (GOwn f true) s, if late then [] else [Lost c x])
      | FCancelled => Some (set_pc c (GOwn f true) s, [])
      end
  | _ => None
  end.
(** queue.py:17-47 *)
Definition q_step (s : queue A) (o : qop A) : option (queue A * list (qev A)) :=
  match o with
  | Put x => Some (put_nowait x s, [])
  | Get c => match nth_error (q_cons s) c with Some GIdle => Some (get_start c s) | _ => None end
  | GetNow c => match nth_error (q_cons s) c with                                     (* 39-40 *)
                | Some GIdle => match q_items s with
                                | x :: r => Some (mkQ r (q_getters s) (q_futs s) (q_cons s), [Returned c x])
                                | [] => Some (s, [Raised c])
                                end
                | _ => None
                end
  | Wake c => wake c s
  | Cancel c => cancel c s
  | Clear => Some (mkQ [] [] (q_futs s) (q_cons s), [])                               (* 43-45 *)
  end.
(** queue.py:17-47, one step after another. *)
Fixpoint q_run (s : queue A) (ops : list (qop A)) : option (queue A * list (qev A)) :=
  match ops with
  | [] => Some (s, [])
  | o :: ops' => match q_step s o with
                 | Some (s1, e1) => match q_run s1 ops' with Some (s2, e2) => Some (s2, e1 ++ e2) | None => None end
                 | None => None
                 end
  end.
(** __init__, queue.py:9-12, with [n] consumers. *)
Definition q_init (n : nat) : queue A := mkQ [] [] [] (repeat GIdle n).
End Queue.
