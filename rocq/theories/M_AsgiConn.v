(** Model of the ASGI applications of one connection (tremolo/asgi_server.py:30-37, 55-109, 111-112, 148-172, 174-176, 235-250, 262-266; tremolo/lib/http_protocol.py:341-353, 504-534): which request and
    response their calls go to, what they are told when the client goes, and when they are cancelled. Each request of the connection has its own application, a task that calls receive and send one at a
    time. Events come in any order that the conditions below allow; times are integers, in any unit.
    Left out: WebSocket scopes (M_AsgiWs), what is in bodies and responses (M_Asgi), handler_timeout (M_Timer), a transport that is full (M_Send). *)
From Verif Require Import PyBytes.
Local Open Scope Z_scope.

(** Where an application is: in code of its own; in receive, waiting for the stream of request [g] (156); in send (237, 245); over. *)
(** asgi_server.py:81, 156, 237, 245 *)
Inductive place := Own | InReceive (g : nat) | InSend | Over.
(** [p_cancel]: cancel() was called on the task, and it has not run since. http_protocol.py:514, asgi_server.py:107 *)
Record app := mkApp { p_at : place; p_cancel : bool }.
(** [k_up]: connection_lost was not called yet. [k_handler]: self.handler. [k_read]: self._read. [k_scope]: self._scope is not None. [k_timer]: self._timer: the task that it cancels, when, and whether it
    still can. [k_done]: the current response was closed. asgi_server.py:30-37, http_protocol.py:341, 529-534 *)
Record conn := mkConn { k_now : Z; k_up : bool; k_apps : list app; k_handler : option nat; k_read : option nat; k_scope : bool; k_timer : option (nat * Z * bool); k_done : bool }.
(** connection_made *)
(** asgi_server.py:30-37 *)
Definition conn0 (t : Z) : conn := mkConn t true [] None None false None true.
(** What can be seen: [Began i t]: application i is called. [Given i g t]: its receive returns a part of the body of request g; [Told i t]: http.disconnect; [Fault i t]: it raises another error.
    [Sent i k t]: an event that it sends goes to the response of request k. [Ended i t]: it is over. [LostAt t]: the connection is lost. [Cancel i t]: its task is cancelled for that; [Timer i t]: by the
    timer. [Broken i t]: code of its own is interrupted. asgi_server.py:81, 97-109, 156-172, 174-266 *)
Inductive obs := Began (i : nat) (t : Z) | Given (i g : nat) (t : Z) | Told (i : nat) (t : Z) | Fault (i : nat) (t : Z) | Sent (i k : nat) (t : Z) | Ended (i : nat) (t : Z) | LostAt (t : Z)
  | Cancel (i : nat) (t : Z) | Timer (i : nat) (t : Z) | Broken (i : nat) (t : Z).
(** [Request]: a head is complete. [CallReceive i], [CallSend i]: the calls. [Gives i], [Stops i]: the stream that it waits for yields, or ends or raises. [Sends i last]: the call of send comes to its end;
    [last]: an http.response.body without more_body. [Returns i], [Raises i]: how it ends. [Lost]: connection_lost. [Fire]: the timer. [Runs i]: a task that was cancelled runs.
    asgi_server.py:55-266, http_protocol.py:341, 504 *)
Inductive cev := Advance (d : Z) | Request | CallReceive (i : nat) | Gives (i : nat) | Stops (i : nat) | CallSend (i : nat) | Sends (i : nat) (last : bool) | Returns (i : nat) | Raises (i : nat) | Lost | Fire
  | Runs (i : nat).

(** No code: a list with its i-th element replaced (the tasks of http_protocol.py:341). *)
Fixpoint put (i : nat) (a : app) (l : list app) {struct l} : list app :=
  match l, i with
  | [], _ => []
  | _ :: l', O => a :: l'
  | x :: l', S i' => x :: put i' a l'
  end.
(** No code: a state with its application i elsewhere (asgi_server.py:81). *)
Definition at_ (s : conn) (i : nat) (a : app) : conn := mkConn (k_now s) (k_up s) (put i a (k_apps s)) (k_handler s) (k_read s) (k_scope s) (k_timer s) (k_done s).
(** No code: a state with another timer (asgi_server.py:105-109). *)
Definition with_timer (s : conn) (x : option (nat * Z * bool)) : conn := mkConn (k_now s) (k_up s) (k_apps s) (k_handler s) (k_read s) (k_scope s) x (k_done s).
(** _set_app_close_timeout, 104-109; false: self.handler is None, which is an AttributeError. [T]: options['_app_close_timeout'] *)
Definition set_timer (T : Z) (s : conn) : conn * bool :=
  match k_timer s, k_handler s with
  | Some _, _ => (s, true)
  | None, Some h => (with_timer s (Some (h, k_now s + T, true)), true)
  | None, None => (s, false)
  end.
(** 166-172: the stream of receive has ended, or was None, or the task was cancelled *)
Definition told (T : Z) (s : conn) (i : nat) : conn * list obs :=
  let '(s1, ok) := set_timer T (at_ s i (mkApp Own false)) in (s1, [if ok then Told i (k_now s) else Fault i (k_now s)]).
(** Whether a task is over. http_protocol.py:341, asgi_server.py:98 *)
Definition over (a : app) : bool := match p_at a with Over => true | _ => false end.
(** 514: the _handle_request of each request whose application is not over waits for it (http_protocol.py:347), and cancelling it cancels that. *)
Definition cancel_app (a : app) : app := if over a then a else mkApp (p_at a) true.
(** No code: what is seen of http_protocol.py:504-518. *)
Fixpoint cancels (t : Z) (i : nat) (l : list app) : list obs :=
  match l with
  | [] => []
  | a :: l' => (if over a then [] else [Cancel i t]) ++ cancels t (S i) l'
  end.
(** No code: whether application i of http_protocol.py:341 is there and not over. *)
Definition runs (s : conn) (i : nat) : bool := match nth_error (k_apps s) i with Some a => negb (over a) | None => false end.
(** connection_lost, asgi_server.py:97-102 and http_protocol.py:504-534 *)
Definition lose (T : Z) (s : conn) : conn :=
  let s1 := match k_handler s with Some h => if runs s h then fst (set_timer T s) else s | None => s end in
  mkConn (k_now s) false (map cancel_app (k_apps s)) None (k_read s) false (k_timer s1) (k_done s).

(** asgi_server.py:55-266, http_protocol.py:341-353, 504-534 *)
Definition conn_step (T : Z) (s : conn) (ev : cev) : option (conn * list obs) :=
  let n := List.length (k_apps s) in
  match ev with
  | Advance d => if 0 <=? d then Some (mkConn (k_now s + d) (k_up s) (k_apps s) (k_handler s) (k_read s) (k_scope s) (k_timer s) (k_done s), []) else None
  | Request =>                                                                            (* http_protocol.py:273-274, 341; 60-81 *)
      if k_up s && k_done s then Some (mkConn (k_now s) true (k_apps s ++ [mkApp Own false]) (Some n) (Some n) true (k_timer s) false, [Began n (k_now s)]) else None
  | CallReceive i =>
      match nth_error (k_apps s) i with
      | Some (mkApp Own false) =>
          if negb (k_scope s) then Some (s, [Fault i (k_now s)])                          (* 112: TypeError *)
          else match k_read s with
               | None => Some (told T s i)                                                (* 156: AttributeError *)
               | Some g => Some (at_ s i (mkApp (InReceive g) false), [])
               end
      | _ => None
      end
  | Gives i => match nth_error (k_apps s) i with Some (mkApp (InReceive g) false) => Some (at_ s i (mkApp Own false), [Given i g (k_now s)]) | _ => None end
  | Stops i => match nth_error (k_apps s) i with Some (mkApp (InReceive _) false) => Some (told T s i) | _ => None end
  | CallSend i => match nth_error (k_apps s) i with Some (mkApp Own false) => Some (at_ s i (mkApp InSend false), []) | _ => None end
  | Sends i last =>
      match nth_error (k_apps s) i with
      | Some (mkApp InSend false) =>
          let s1 := at_ s i (mkApp Own false) in
          if k_up s then Some (mkConn (k_now s1) (k_up s1) (k_apps s1) (k_handler s1) (if last then None else k_read s1) (k_scope s1) (k_timer s1) (k_done s1 || last), [Sent i (n - 1) (k_now s)])
          else Some (s1, [])                                                              (* self.response is None: 264-266 *)
      | _ => None
      end
  | Returns i =>                                                                          (* 83-84 *)
      match nth_error (k_apps s) i with
      | Some (mkApp Own false) =>
          Some (with_timer (at_ s i (mkApp Over false)) (match k_timer s with Some (h, d, _) => Some (h, d, false) | None => None end), [Ended i (k_now s)])
      | _ => None
      end
  | Raises i => match nth_error (k_apps s) i with Some (mkApp Own false) => Some (at_ s i (mkApp Over false), [Ended i (k_now s)]) | _ => None end
  | Lost => if k_up s then Some (lose T s, LostAt (k_now s) :: cancels (k_now s) 0 (k_apps s)) else None
  | Fire =>
      match k_timer s with
      | Some (h, d, true) =>
          if d <=? k_now s then
            let s1 := with_timer s (Some (h, d, false)) in
            match nth_error (k_apps s) h with
            | Some a => Some (at_ s1 h (cancel_app a), if over a then [] else [Timer h (k_now s)])
            | None => Some (s1, [])
            end
          else None
      | _ => None
      end
  | Runs i =>
      match nth_error (k_apps s) i with
      | Some (mkApp Own true) => Some (at_ s i (mkApp Own false), [Broken i (k_now s)])
      | Some (mkApp (InReceive _) true) => Some (told T s i)                              (* 166: CancelledError *)
      | Some (mkApp InSend true) => Some (at_ s i (mkApp Own false), [])                  (* 262-263 *)
      | _ => None
      end
  end.
(** asgi_server.py:55-266, one step after another. *)
Fixpoint conn_run (T : Z) (s : conn) (evs : list cev) : option (conn * list obs) :=
  match evs with
  | [] => Some (s, [])
  | ev :: evs' => match conn_step T s ev with
                  | Some (s1, b1) => match conn_run T s1 evs' with Some (s2, b2) => Some (s2, b1 ++ b2) | None => None end
                  | None => None
                  end
  end.
