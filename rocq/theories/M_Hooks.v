(** Model of the hooks of connections and workers: connect and close middlewares (tremolo/http_server.py:25-57, 263-264) and worker_start / worker_stop
    functions (tremolo/tremolo.py:268-276, 456-468).

    What a hook does is left open: it ends whenever and however it likes; being cancelled (by the timer of http_server.py:53-55, by connection_lost, by
    app_handler_timeout of a request that waits for the hooks) only makes it end earlier, so that it has no event of its own here, except for a task that was not started.
    A step is what runs between two awaits. *)
From Verif Require Import PyBytes.

(** How a hook ends: with a false value, with a true value, or with an exception (CancelledError included). http_server.py:27, 37, tremolo.py:272, 463 *)
Inductive ending := Falsy | Truthy | Fails.
(** A task: not created; created; inside the hook with this number; over, normally or not. http_server.py:25-41, 46-48, 52 *)
Inductive task := NoTask | Ready | Inside (i : nat) | Over (ok : bool).
(** What can be observed. [Handles]: headers_received of this request goes on (http_server.py:266), [Refuses]: it raises; [Cleaned]: HTTPProtocol.connection_lost.
    http_server.py:25-57, 263-266 *)
Inductive mark := ConnectCalled (i : nat) | ConnectEnded (i : nat) (e : ending) | CloseCalled (i : nat) | CloseEnded (i : nat) (e : ending)
  | Handles (k : nat) | Refuses (k : nat) | LostMark | Cleaned.
(** One connection: whether connection_made was called, the task ON_CONNECT, the task of _connection_lost, whether the connection is lost, whether it is cleaned
    up, and the requests that wait. http_server.py:43-57, 263-264 *)
Record hooks := mkHooks { k_made : bool; k_connect : task; k_close : task; k_lost : bool; k_clean : bool; k_wait : list nat }.
(** A new protocol object, http_server.py:12-23 *)
Definition hooks_new : hooks := mkHooks false NoTask NoTask false false [].

(** What can happen. http_server.py:25-57, 263-264 *)
Inductive event := Made | ConnectRuns | ConnectReturns (e : ending) | ConnectCancelled | Request (k : nat) | Resumes (k : nat) | Lost | CloseRuns | CloseReturns (e : ending).

(** The loop of _connection_made after hook [i] of [n] ended, http_server.py:26-28 *)
Definition connect_next (n i : nat) (e : ending) : task :=
  match e with Falsy => if S i <? n then Inside (S i) else Over true | Truthy => Over true | Fails => Over false end.
(** The loop of _connection_lost, http_server.py:32-39, counts down. *)
Definition close_next (i : nat) (e : ending) : task :=
  match e with Falsy => match i with O => Over true | S i' => Inside i' end | Truthy => Over true | Fails => Over false end.
(** The call that comes with being inside a hook, http_server.py:27, 37 *)
Definition called (f : nat -> mark) (t : task) : list mark := match t with Inside i => [f i] | _ => [] end.
(** finally: super().connection_lost(exc), http_server.py:40-41 *)
Definition cleaned (t : task) : list mark := match t with Over _ => [Cleaned] | _ => [] end.
(** http_server.py:40-41 *)
Definition is_over (t : task) : bool := match t with Over _ => true | _ => false end.

(** A step with [nc] connect and [nl] close middlewares. http_server.py:25-57, 263-264 *)
Definition hook_step (nc nl : nat) (s : hooks) (ev : event) : option (hooks * list mark) :=
  match ev with
  | Made =>                                                                     (* 43-49 *)
      if k_made s then None
      else Some (mkHooks true (if nc =? 0 then NoTask else Ready) (k_close s) (k_lost s) (k_clean s) (k_wait s), [])
  | ConnectRuns =>                                                              (* 26-27 *)
      match k_connect s with
      | Ready => Some (mkHooks (k_made s) (Inside 0) (k_close s) (k_lost s) (k_clean s) (k_wait s), [ConnectCalled 0])
      | _ => None
      end
  | ConnectReturns e =>                                                         (* 26-28 *)
      match k_connect s with
      | Inside i =>
          let t := connect_next nc i e in
          Some (mkHooks (k_made s) t (k_close s) (k_lost s) (k_clean s) (k_wait s), ConnectEnded i e :: called ConnectCalled t)
      | _ => None
      end
  | ConnectCancelled =>                                                         (* http_protocol.py:521: before its first step *)
      match k_connect s with
      | Ready => if k_clean s then Some (mkHooks (k_made s) (Over false) (k_close s) (k_lost s) (k_clean s) (k_wait s), []) else None
      | _ => None
      end
  | Request k =>                                                                (* 262-266 *)
      if k_made s && negb (k_lost s) then
        if nc =? 0 then Some (s, [Handles k])
        else Some (mkHooks (k_made s) (k_connect s) (k_close s) (k_lost s) (k_clean s) (k_wait s ++ [k]), [])
      else None
  | Resumes k =>                                                                (* 264 *)
      if existsb (Nat.eqb k) (k_wait s) then
        match k_connect s with
        | Over ok => Some (mkHooks (k_made s) (k_connect s) (k_close s) (k_lost s) (k_clean s) (filter (fun x => negb (x =? k)) (k_wait s)), [if ok then Handles k else Refuses k])
        | _ => None
        end
      else None
  | Lost =>                                                                     (* 50-57 *)
      if k_made s && negb (k_lost s) then
        if nl =? 0 then Some (mkHooks (k_made s) (k_connect s) (k_close s) true true (k_wait s), [LostMark; Cleaned])
        else Some (mkHooks (k_made s) (k_connect s) Ready true (k_clean s) (k_wait s), [LostMark])
      else None
  | CloseRuns =>                                                                (* 32-37 *)
      match k_close s with
      | Ready => Some (mkHooks (k_made s) (k_connect s) (Inside (nl - 1)) (k_lost s) (k_clean s) (k_wait s), [CloseCalled (nl - 1)])
      | _ => None
      end
  | CloseReturns e =>                                                           (* 34-41 *)
      match k_close s with
      | Inside i =>
          let t := close_next i e in
          Some (mkHooks (k_made s) (k_connect s) t (k_lost s) (k_clean s || is_over t) (k_wait s), CloseEnded i e :: called CloseCalled t ++ cleaned t)
      | _ => None
      end
  end.
(** Any number of steps, and all that was observed. http_server.py:25-57, 263-264 *)
Fixpoint hook_run (nc nl : nat) (s : hooks) (evs : list event) : option (hooks * list mark) :=
  match evs with
  | [] => Some (s, [])
  | ev :: evs' =>
      match hook_step nc nl s ev with
      | Some (s1, l1) => match hook_run nc nl s1 evs' with Some (s2, l2) => Some (s2, l1 ++ l2) | None => None end
      | None => None
      end
  end.

(** ** Workers *)
(** The loop over worker_start, tremolo.py:271-276: the numbers of the functions that were called, and whether the worker goes on. [f i]: how function [i] ends. *)
Fixpoint start_loop (f : nat -> ending) (l : list nat) : list nat * bool :=
  match l with
  | [] => ([], true)
  | i :: l' => match f i with Falsy => let '(c, ok) := start_loop f l' in (i :: c, ok) | Truthy => ([i], true) | Fails => ([i], false) end
  end.
(** tremolo.py:271 *)
Definition worker_start (f : nat -> ending) (n : nat) : list nat * bool := start_loop f (seq 0 n).
(** The loop over worker_stop, tremolo.py:458-468; [i] functions are left. *)
Fixpoint worker_stop (f : nat -> ending) (i : nat) : list nat * bool :=
  match i with
  | O => ([], true)
  | S i' => match f i' with Falsy => let '(c, ok) := worker_stop f i' in (i' :: c, ok) | Truthy => ([i'], true) | Fails => ([i'], false) end
  end.
