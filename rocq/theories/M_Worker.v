(** Model of the connections of one worker: connection_made and connection_lost (tremolo/lib/http_protocol.py:75-98, 506-537, tremolo/http_server.py:30-57), the queues
    that they share by socket number (worker.queues), and what puts into and takes from them. The queues are lists: C41 is about the queue itself.
    Left out: the watermarks (M_Send), what is in the items, the timers, connect middlewares; connection_lost of ASGIServer (asgi_server.py:97-102), which only sets a timer
    before it calls this one. *)
From Verif Require Import PyBytes.

(** ** The tasks of a connection *)
(** An element of self.tasks: a task, or a callable object. *)
(** http_protocol.py:55-64, 514-521 *)
Inductive entry := ETask (n : nat) | ECall (n : nat).
(** What a call of a callable does: it may add to self.tasks, and it returns, or raises an Exception that can be printed; [Escapes]: any other exception, such as
    asyncio.CancelledError, or one whose str() raises. *)
(** http_protocol.py:513-523 *)
Inductive result := Returns | Raises | Escapes.
(** http_protocol.py:518 *)
Definition behaviour := nat -> list entry * result.
(** set membership, http_protocol.py:61 *)
Definition entry_eqb (a b : entry) : bool := match a, b with ETask n, ETask m => (n =? m)%nat | ECall n, ECall m => (n =? m)%nat | _, _ => false end.
(** set.add *)
(** http_protocol.py:61 *)
Definition add_entry (l : list entry) (x : entry) : list entry := if existsb (entry_eqb x) l then l else l ++ [x].
(** set.pop takes any element: [pick] says which. *)
(** http_protocol.py:511 *)
Fixpoint take_nth (n : nat) (l : list entry) {struct l} : option (entry * list entry) :=
  match l with
  | [] => None
  | x :: l' => match n with
               | O => Some (x, l')
               | S n' => match take_nth n' l' with Some (y, r) => Some (y, x :: r) | None => Some (x, l') end
               end
  end.
(** What the loop does: task.cancel(), a call, print_exception. *)
(** http_protocol.py:518-523 *)
Inductive act := Cancel (n : nat) | Call (n : nat) | Print (n : nat).
(** http_protocol.py:510-523 *)
Inductive loop_end := Done | Escaped | Running.
(** connection_lost, 510-523: the loop; [fuel] rounds of it. *)
Fixpoint lost_loop (beh : behaviour) (pick : nat -> nat) (fuel : nat) (tasks : list entry) : list act * list entry * loop_end :=
  match fuel with
  | O => ([], tasks, match tasks with [] => Done | _ => Running end)
  | S fuel' =>
      match take_nth (pick fuel') tasks with
      | None => ([], tasks, Done)
      | Some (ETask n, rest) => let '(l, rem, e) := lost_loop beh pick fuel' rest in (Cancel n :: l, rem, e)
      | Some (ECall n, rest) =>
          let '(more, r) := beh n in
          let rest' := fold_left add_entry more rest in
          match r with
          | Returns => let '(l, rem, e) := lost_loop beh pick fuel' rest' in (Call n :: l, rem, e)
          | Raises => let '(l, rem, e) := lost_loop beh pick fuel' rest' in (Call n :: Print n :: l, rem, e)
          | Escapes => ([Call n], rest', Escaped)
          end
      end
  end.

(** ** Connections *)
(** A pair of queues; [q_in] is queue[0], [q_out] queue[1]. *)
Record queues := mkQs { q_in : list bytes; q_out : list bytes }.
(** [p_queue]: self.queue, both None or both there: the place of the pair in [w_heap]. [p_had]: the pair that connection_made gave to it. [p_sock]: the socket number is
    still in use. [p_lost]: asyncio has called connection_lost. [p_transport], [p_request]: self.transport, request, response and handler are not None (set, 533-537). [p_sending]: _send_data was started.
    [p_kept]: self is in options['_connections']. *)
Record proto := mkP { p_fd : nat; p_queue : option nat; p_had : nat; p_sock : bool; p_lost : bool; p_transport : bool; p_request : bool; p_sending : bool; p_kept : bool; p_tasks : list entry }.
(** worker.queues (http_protocol.py:79-89), the queues and the connections. *)
Record worker := mkW { w_heap : list queues; w_queues : list (nat * nat); w_conns : list proto }.
(** worker.queues is empty at first (contexts.py:28). *)
Definition worker_new : worker := mkW [] [] [].

(** No code: a list with its i-th element replaced (the connections of http_protocol.py:38-52). *)
Fixpoint upd {A} (i : nat) (x : A) (l : list A) {struct l} : list A :=
  match l, i with
  | [], _ => []
  | _ :: l', O => x :: l'
  | y :: l', S i' => y :: upd i' x l'
  end.
(** self.queue, http_protocol.py:80 *)
Definition heap_get (w : worker) (h : nat) : queues := nth h (w_heap w) (mkQs [] []).
(** The state of a Queue changes (queue.py:17-47). *)
Definition heap_set (w : worker) (h : nat) (q : queues) : worker := mkW (upd h q (w_heap w)) (w_queues w) (w_conns w).
(** The attributes of a connection (http_protocol.py:38-52) change. *)
Definition conn_set (w : worker) (p : nat) (c : proto) : worker := mkW (w_heap w) (w_queues w) (upd p c (w_conns w)).
(** http_protocol.py:79-80 *)
Fixpoint assoc (k : nat) (l : list (nat * nat)) : option nat :=
  match l with [] => None | (k', v) :: l' => if (k =? k')%nat then Some v else assoc k l' end.

(** connection_made, 75-98 *)
Definition connection_made (fd : nat) (w : worker) : worker :=
  match assoc fd (w_queues w) with
  | Some h =>
      let dirty := match q_in (heap_get w h) with [] => false | _ => true end in                            (* 82: queue[0] twice *)
      mkW (w_heap w) (w_queues w) (w_conns w ++ [mkP fd (Some h) h true false true false (negb dirty) false []])
  | None =>
      let h := List.length (w_heap w) in
      mkW (w_heap w ++ [mkQs [] []]) ((fd, h) :: w_queues w) (w_conns w ++ [mkP fd (Some h) h true false true false true false []])
  end.
(** connection_lost, 506-508 and 525-537, after the loop ended as [e] and left [tasks]. *)
Definition lost_end (e : loop_end) (tasks : list entry) (p : nat) (c : proto) (w : worker) : worker :=
  match e with
  | Done =>
      let w1 := match p_queue c with Some h => heap_set w h (mkQs [] []) | None => w end in
      conn_set w1 p (mkP (p_fd c) None (p_had c) (p_sock c) (p_lost c) false false (p_sending c) false tasks)
  | _ => conn_set w p (mkP (p_fd c) (p_queue c) (p_had c) (p_sock c) (p_lost c) (p_transport c) (p_request c) (p_sending c) false tasks)
  end.
(** connection_lost, 506-537, of connection p. None: the loop has not ended after [fuel] rounds; nothing else runs meanwhile. *)
Definition connection_lost (beh : behaviour) (pick : nat -> nat) (fuel p : nat) (w : worker) : option (list act * worker) :=
  match nth_error (w_conns w) p with
  | Some c => match lost_loop beh pick fuel (p_tasks c) with
              | (_, _, Running) => None
              | (l, rem, e) => Some (l, lost_end e rem p c w)
              end
  | None => None
  end.

(** ** What happens in a worker *)
(** [Connect fd]: a client connects, its socket number is fd. [Feed p x], [Put p x]: x is put into self.queue[0] or [1] of connection p, by its own tasks (139-180) or by send() and
    close() (response.py); a None of the queue is an x too. [Read p]: its handler takes an item (request.py:30-52); [Write p]: _send_data takes one (420-464).
    [Stray p x]: a task that the application made itself, and that was at line 153 when the connection was lost, puts x: put_to_queue keeps the queue that it was
    called with. [Keep p]: _handle_keepalive stores it (469). [Register p x]: request.context.tasks.add(x), or create_task. [Gone p]: asyncio calls connection_lost, and closes the socket.
    [CloseDone p]: the close middlewares are done or cancelled (37-40). *)
Inductive wev := Connect (fd : nat) | Feed (p : nat) (x : bytes) | Put (p : nat) (x : bytes) | Stray (p : nat) (x : bytes) | Read (p : nat) | Write (p : nat)
  | Keep (p : nat) | Start (p : nat) | Register (p : nat) (x : entry) | Gone (p : nat) | CloseDone (p : nat).
(** What can be seen: x was handed to the transport of p; p's handler got x. *)
(** http_protocol.py:460, request.py:33 *)
Inductive wobs := Sent (p : nat) (x : bytes) | Took (p : nat) (x : bytes).
(** A number that is in use is not given to another socket (by the system; http_protocol.py:77). *)
Definition free (fd : nat) (w : worker) : bool := forallb (fun c => negb (p_sock c && (p_fd c =? fd)%nat)) (w_conns w).
(** asyncio closes the socket after connection_lost (506). *)
Definition closed_sock (c : proto) : proto := mkP (p_fd c) (p_queue c) (p_had c) false true (p_transport c) (p_request c) (p_sending c) (p_kept c) (p_tasks c).
(** [close]: there are close middlewares (http_server.py:51). None: the step is not possible. *)
Definition worker_step (close : bool) (beh : behaviour) (pick : nat -> nat) (fuel : nat) (w : worker) (ev : wev) : option (worker * list wobs) :=
  match ev with
  | Connect fd => if free fd w then Some (connection_made fd w, []) else None
  | Feed p x =>
      match nth_error (w_conns w) p with
      | Some c => match p_queue c with
                  | Some h => Some (heap_set w h (mkQs (q_in (heap_get w h) ++ [x]) (q_out (heap_get w h))), [])
                  | None => Some (w, [])                                                                    (* 148 *)
                  end
      | None => None
      end
  | Put p x =>
      match nth_error (w_conns w) p with
      | Some c => match p_queue c with
                  | Some h => Some (heap_set w h (mkQs (q_in (heap_get w h)) (q_out (heap_get w h) ++ [x])), [])
                  | None => Some (w, [])                                                                    (* response.py: send_nowait; 148 *)
                  end
      | None => None
      end
  | Stray p x =>
      match nth_error (w_conns w) p with
      | Some c => if p_lost c then Some (heap_set w (p_had c) (mkQs (q_in (heap_get w (p_had c))) (q_out (heap_get w (p_had c)) ++ [x])), []) else None
      | None => None
      end
  | Read p =>
      match nth_error (w_conns w) p with
      | Some c => match p_queue c with
                  | Some h => match q_in (heap_get w h) with x :: l => Some (heap_set w h (mkQs l (q_out (heap_get w h))), [Took p x]) | [] => None end
                  | None => None
                  end
      | None => None
      end
  | Write p =>
      match nth_error (w_conns w) p with
      | Some c => match p_queue c, p_sending c with
                  | Some h, true => match q_out (heap_get w h) with x :: l => Some (heap_set w h (mkQs (q_in (heap_get w h)) l), if p_lost c then [] else [Sent p x]) | [] => None end
                  | _, _ => None
                  end
      | None => None
      end
  | Keep p =>
      match nth_error (w_conns w) p with
      | Some c => if p_transport c then Some (conn_set w p (mkP (p_fd c) (p_queue c) (p_had c) (p_sock c) (p_lost c) (p_transport c) (p_request c) (p_sending c) true (p_tasks c)), []) else None
      | None => None
      end
  | Start p =>
      match nth_error (w_conns w) p with
      | Some c => if p_transport c then Some (conn_set w p (mkP (p_fd c) (p_queue c) (p_had c) (p_sock c) (p_lost c) (p_transport c) true (p_sending c) (p_kept c) (p_tasks c)), []) else None
      | None => None
      end
  | Register p x =>
      match nth_error (w_conns w) p with
      | Some c => Some (conn_set w p (mkP (p_fd c) (p_queue c) (p_had c) (p_sock c) (p_lost c) (p_transport c) (p_request c) (p_sending c) (p_kept c) (add_entry (p_tasks c) x)), [])
      | None => None
      end
  | Gone p =>
      match nth_error (w_conns w) p with
      | Some c => if p_lost c then None
                  else let w1 := conn_set w p (closed_sock c) in
                       if close then Some (w1, []) else option_map (fun r => (snd r, [])) (connection_lost beh pick fuel p w1)
      | None => None
      end
  | CloseDone p =>
      match nth_error (w_conns w) p with
      | Some c => if close && p_lost c && p_transport c then option_map (fun r => (snd r, [])) (connection_lost beh pick fuel p w) else None
      | None => None
      end
  end.
(** http_protocol.py:75-537, one step after another. *)
Fixpoint worker_run (close : bool) (beh : behaviour) (pick : nat -> nat) (fuel : nat) (w : worker) (evs : list wev) : option (worker * list wobs) :=
  match evs with
  | [] => Some (w, [])
  | ev :: evs' =>
      match worker_step close beh pick fuel w ev with
      | Some (w1, b1) => match worker_run close beh pick fuel w1 evs' with Some (w2, b2) => Some (w2, b1 ++ b2) | None => None end
      | None => None
      end
  end.
