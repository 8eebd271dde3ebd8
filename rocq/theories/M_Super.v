(** Model of the supervision loop of Tremolo.run (tremolo/tremolo.py:726-805) and of the loop of a worker (Tremolo._serve, 383-454). Left out: sharing the socket on Windows
    (233, 718-719, 776-777), the reload of changed modules and the memory limit as reasons for a worker to exit. Simplified: the new worker
    takes its place in the list when it is started (764-773), not when its pid has come (779); only an interrupt in between could tell. *)
From Verif Require Import PyBytes.

(** ** Supervisor *)
(** A worker, as far as the supervisor can tell: [w_booted]: it sent its pid (228); [w_open]: its end of the pipe is open; [w_alive]: is_alive(); [w_pings]: pings in the pipe;
    [w_held]: the supervisor still holds the other end itself, in its variable child_conn: then the pipe has no end of file. [w_replies]: what was sent to it. *)
Record worker := mkW { w_pid : nat; w_booted : bool; w_open : bool; w_alive : bool; w_pings : nat; w_held : bool; w_replies : list nat }.
(** Where the supervisor is in its loop: before is_alive() of worker i (729), waiting for the pid of a new worker (774), at the pings (782-790), asleep (792),
    stopping worker i (796-800), done; or an exception that nothing catches. *)
Inductive pc := Check (i : nat) | Boot (i : nat) | Ping (i : nat) | Sleep (i : nat) | Stop (i : nat) | Join (i : nat) | Over | Crashed.
(** tremolo.py:676, 721-792 *)
Record sup := mkSup { s_workers : list worker; s_next : nat; s_pc : pc }.

(** No code: a list with its i-th element replaced (779). *)
Fixpoint upd {A} (i : nat) (x : A) (l : list A) : list A :=
  match l, i with
  | [], _ => []
  | _ :: l', O => x :: l'
  | y :: l', S i' => y :: upd i' x l'
  end.
(** child_conn is bound anew *)
(** tremolo.py:703, 762 *)
Definition drop_held (w : worker) : worker := mkW (w_pid w) (w_booted w) (w_open w) (w_alive w) (w_pings w) false (w_replies w).
(** tremolo.py:762-773 *)
Definition new_worker (pid : nat) : worker := mkW pid false true true 0 true [].

(** What workers do, and what the supervisor does. [PCheck ok]: if the worker is replaced, [ok] says that nothing before p.start() raises (reload of
    modules, create_sock). *)
(** tremolo.py:726-800, 389-450 *)
Inductive sev := WBoot (k : nat) | WPing (k : nat) | WClose (k : nat) | WExit (k : nat) | PCheck (ok : bool) | PBoot | PPing | PSleep | Interrupt | PStop | PJoin.
(** tremolo.py:705-721: one process goes on. *)
Definition on_worker (s : sup) (k : nat) (f : worker -> option worker) : option sup :=
  match nth_error (s_workers s) k with
  | Some w => match f w with Some w' => Some (mkSup (upd k w' (s_workers s)) (s_next s) (s_pc s)) | None => None end
  | None => None
  end.
(** No code: the next place in 726-800. *)
Definition goto (s : sup) (p : pc) : option sup := Some (mkSup (s_workers s) (s_next s) p).
(** tremolo.py:726-805, 228, 392, 448 *)
Definition sup_step (s : sup) (ev : sev) : option sup :=
  match ev with
  | WBoot k => on_worker s k (fun w => if w_open w then Some (mkW (w_pid w) true true (w_alive w) (w_pings w) (w_held w) (w_replies w)) else None)
  | WPing k => on_worker s k (fun w => if w_open w && w_booted w then Some (mkW (w_pid w) true true (w_alive w) (S (w_pings w)) (w_held w) (w_replies w)) else None)
  | WClose k => on_worker s k (fun w => Some (mkW (w_pid w) (w_booted w) false (w_alive w) (w_pings w) (w_held w) (w_replies w)))
  | WExit k => on_worker s k (fun w => Some (mkW (w_pid w) (w_booted w) false false (w_pings w) (w_held w) (w_replies w)))
  | PCheck ok =>                                                                     (* 729-779 *)
      match s_pc s with
      | Check i =>
          match nth_error (s_workers s) i with
          | Some w => if w_alive w then goto s (Ping i)
                      else if ok then Some (mkSup (upd i (new_worker (s_next s)) (map drop_held (s_workers s))) (S (s_next s)) (Boot i))
                      else goto s Crashed
          | None => None
          end
      | _ => None
      end
  | PBoot =>                                                                         (* 774 *)
      match s_pc s with
      | Boot i => match nth_error (s_workers s) i with Some w => if w_booted w then goto s (Ping i) else None | None => None end
      | _ => None
      end
  | PPing =>                                                                         (* 782-790 *)
      match s_pc s with
      | Ping i =>
          match nth_error (s_workers s) i with
          | Some w =>
              match w_pings w with
              | S n =>
                  if w_open w || w_held w
                  then Some (mkSup (upd i (mkW (w_pid w) (w_booted w) (w_open w) (w_alive w) n (w_held w) (w_replies w ++ [List.length (s_workers s)])) (s_workers s)) (s_next s) (Ping i))
                  else goto s (Sleep i)                                              (* BrokenPipeError *)
              | O => if w_open w || w_held w then goto s (Sleep i) else goto s Crashed   (* poll() is true, recv() raises EOFError *)
              end
          | None => None
          end
      | _ => None
      end
  | PSleep =>                                                                        (* 792, 728 *)
      match s_pc s with
      | Sleep i => goto s (Check (if S i <? List.length (s_workers s) then S i else 0)%nat)
      | _ => None
      end
  | Interrupt =>                                                                     (* 793-794 *)
      match s_pc s with Check _ | Boot _ | Ping _ | Sleep _ => goto s (Stop 0) | _ => None end
  | PStop =>                                                                         (* 796-799 *)
      match s_pc s with
      | Stop i =>
          match nth_error (s_workers s) i with
          | Some w => if w_open w || w_held w
                      then Some (mkSup (upd i (mkW (w_pid w) (w_booted w) (w_open w) (w_alive w) (w_pings w) (w_held w) (w_replies w ++ [0])) (s_workers s)) (s_next s) (Join i))
                      else goto s Crashed                                            (* BrokenPipeError *)
          | None => goto s Over
          end
      | _ => None
      end
  | PJoin =>                                                                         (* 800 *)
      match s_pc s with
      | Join i => match nth_error (s_workers s) i with Some w => if w_alive w then None else goto s (Stop (S i)) | None => None end
      | _ => None
      end
  end.

(** ** Worker: _serve, tremolo.py:383-454 *)
(** [Sending]: about to ping (392); [Waiting k]: k more seconds (394-446); [Receiving]: at recv() (448); [Stopped]: the loop is left, and the server closed (452-454). *)
Inductive wpc := Sending | Waiting (k : nat) | Receiving | Stopped.
(** [v_in]: replies in the pipe, [v_closed]: the other end is closed, [v_num]: process_num, [v_sent]: pings sent. *)
(** tremolo.py:385-450 *)
Record serving := mkV { v_pc : wpc; v_num : nat; v_in : list nat; v_closed : bool; v_sent : nat }.
(** tremolo.py:389-454 *)
Definition serve_step (v : serving) : option serving :=
  let pipe := match v_in v with [] => v_closed v | _ => true end in          (* poll() *)
  match v_pc v with
  | Sending => if v_closed v then Some (mkV Stopped (v_num v) (v_in v) true (v_sent v))     (* BrokenPipeError *)
               else Some (mkV (Waiting (2 * v_num v)) (v_num v) (v_in v) false (S (v_sent v)))
  | Waiting O => Some (mkV Receiving (v_num v) (v_in v) (v_closed v) (v_sent v))
  | Waiting (S k) => Some (mkV (if pipe then Receiving else Waiting k) (v_num v) (v_in v) (v_closed v) (v_sent v))
  | Receiving =>
      match v_in v with
      | n :: l => Some (mkV (match n with O => Stopped | _ => Sending end) n l (v_closed v) (v_sent v))
      | [] => if v_closed v then Some (mkV Stopped (v_num v) [] true (v_sent v)) else None   (* EOFError, or waiting *)
      end
  | Stopped => None
  end.
(** A message comes, or the other end is closed, or the worker goes on. *)
(** tremolo.py:389-450 *)
Inductive vev := Arrive (n : nat) | ParentGone | Go.
(** tremolo.py:389-454 *)
Definition serve_ev (v : serving) (ev : vev) : option serving :=
  match ev with
  | Arrive n => if v_closed v then None else Some (mkV (v_pc v) (v_num v) (v_in v ++ [n]) false (v_sent v))
  | ParentGone => Some (mkV (v_pc v) (v_num v) (v_in v) true (v_sent v))
  | Go => serve_step v
  end.
(** tremolo.py:385-389 *)
Definition serve_new : serving := mkV Sending 1 [] false 0.
