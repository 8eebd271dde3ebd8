(** Model of ServerLock (tremolo/lib/locks.py:8-71): one lock (multiprocessing.Lock, made in
    tremolo.py:630) and any number of tasks, in any number of workers, that use it.

    A task uses the lock by `async with lock:` ([MWith]), or by `await lock.acquire()` and,
    after this returned, `lock.release()` ([MCall]). acquire has a thread of the executor wait
    for the lock (50-52); such a job is queued, then runs, then is done, and then its result
    is passed to the future that the task awaits. What is taken from asyncio and
    concurrent.futures: cancelling the future drops a job that is queued but not one that
    runs. Simplified: any number of jobs may run at the same time (the executor has one
    thread in each worker), and there is no clock: any timer may fire at any time. The result
    is a superset of the real schedules. ServerLock with an empty list of locks is left out. *)
From Verif Require Import PyBytes M_Queue.

(** locks.py:37-45 or 46-71 *)
Inductive lmode := MWith | MCall.
(** Where a task is: outside; at line 58; about to go on from there, with the lock or with
    TimeoutError; inside. *)
Inductive ltask := TOut | TWait (m : lmode) | TReady (m : lmode) (ok : bool) | TIn.
(** locks.py:50-52 *)
Inductive jstate := JQueued | JRunning | JDone (ok : bool).
(** A call of locks[name].acquire(True, timeout) for the executor, and the task whose future
    gets the result (None once this is cancelled). *)
(** locks.py:50-52 *)
Record job := mkJob { j_task : option nat; j_state : jstate }.
(** locks.py:9-25 *)
Record lockst := mkL { l_held : bool; l_tasks : list ltask; l_jobs : list job }.

(** locks.py:37-71 *)
Inductive lop :=
| Enter (t : nat) (m : lmode)   (* a task calls acquire *)
| Start (i : nat)               (* a thread takes the job *)
| Acquire (i : nat)             (* the thread gets the lock *)
| Expire (i : nat)              (* the thread waited for [timeout] *)
| Deliver (i : nat)             (* the result reaches the future *)
| Timer (t : nat)               (* line 54: fut.cancel *)
| Kill (t : nat)                (* task.cancel() of a task that is in acquire *)
| Resume (t : nat)              (* the task goes on *)
| Leave (t : nat).              (* the end of the with block, or release() *)

(** locks.py:46-65 *)
Definition set_task (t : nat) (p : ltask) (s : lockst) : lockst := mkL (l_held s) (upd t p (l_tasks s)) (l_jobs s).
(** locks.py:50-52 *)
Definition drop_job (i : nat) (l : list job) : list job := firstn i l ++ skipn (S i) l.
(** release, locks.py:67-71; the ValueError of releasing a free lock is swallowed. *)
Definition unlock (s : lockst) : lockst := mkL false (l_tasks s) (l_jobs s).
(** The future of task [t] is cancelled: its job is dropped or goes on for nobody. *)
(** locks.py:54, 59-60 *)
Definition detach (t : nat) (l : list job) : list job :=
  flat_map (fun j => match j_task j with
                     | Some t' => if Nat.eqb t' t
                                  then match j_state j with JQueued => [] | st => [mkJob None st] end
                                  else [j]
                     | None => [j]
                     end) l.
(** locks.py:37-71 *)
Definition l_step (s : lockst) (o : lop) : option lockst :=
  match o with
  | Enter t m => match nth_error (l_tasks s) t with                                        (* 50-52 *)
                 | Some TOut => Some (mkL (l_held s) (upd t (TWait m) (l_tasks s)) (l_jobs s ++ [mkJob (Some t) JQueued]))
                 | _ => None
                 end
  | Start i => match nth_error (l_jobs s) i with
               | Some (mkJob t JQueued) => Some (mkL (l_held s) (l_tasks s) (upd i (mkJob t JRunning) (l_jobs s)))
               | _ => None
               end
  | Acquire i => match nth_error (l_jobs s) i, l_held s with
                 | Some (mkJob t JRunning), false => Some (mkL true (l_tasks s) (upd i (mkJob t (JDone true)) (l_jobs s)))
                 | _, _ => None
                 end
  | Expire i => match nth_error (l_jobs s) i with
                | Some (mkJob t JRunning) => Some (mkL (l_held s) (l_tasks s) (upd i (mkJob t (JDone false)) (l_jobs s)))
                | _ => None
                end
  | Deliver i => match nth_error (l_jobs s) i with
                 | Some (mkJob (Some t) (JDone ok)) =>
                     match nth_error (l_tasks s) t with
                     | Some (TWait m) => Some (mkL (l_held s) (upd t (TReady m ok) (l_tasks s)) (drop_job i (l_jobs s)))
                     | _ => None
                     end
                 | Some (mkJob None (JDone ok)) => Some (mkL (l_held s) (l_tasks s) (drop_job i (l_jobs s)))
                 | _ => None
                 end
  | Timer t => match nth_error (l_tasks s) t with                                          (* 54, 59-60 *)
               | Some (TWait m) => Some (mkL (l_held s) (upd t (TReady m false) (l_tasks s)) (detach t (l_jobs s)))
               | _ => None
               end
  | Kill t => match nth_error (l_tasks s) t with                                           (* 59-60 *)
              | Some (TWait m) => Some (mkL (l_held s) (upd t (TReady m false) (l_tasks s)) (detach t (l_jobs s)))
              | Some (TReady m _) => Some (set_task t (TReady m false) s)
              | _ => None
              end
  | Resume t => match nth_error (l_tasks s) t with
                | Some (TReady _ true) => Some (set_task t TIn s)
                | Some (TReady MWith false) => Some (set_task t TIn (unlock s))            (* 64-65, 41-42 *)
                | Some (TReady MCall false) => Some (set_task t TOut s)                    (* 64-65 *)
                | _ => None
                end
  | Leave t => match nth_error (l_tasks s) t with                                          (* 44-45 *)
               | Some TIn => Some (set_task t TOut (unlock s))
               | _ => None
               end
  end.
(** locks.py:9-25; tremolo.py:630 *)
Definition l_init (n : nat) : lockst := mkL false (repeat TOut n) [].
