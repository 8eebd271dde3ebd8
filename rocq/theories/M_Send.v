(** Model of the sending side of one connection: HTTPProtocol._send_data (tremolo/lib/http_protocol.py:420-464), resume_writing (409-411), set_watermarks (413-418), set_timeout
    (123-137) as _send_data uses it, abort and close (100-112), with the write buffer of asyncio's selector transport (asyncio/selector_events.py: write, asyncio/transports.py: _FlowControlMixin).
    Left out: what _handle_keepalive does (M_Conn), TLS transports, an exception of get_write_buffer_size; sizes only are modelled of the buffer. *)
From Verif Require Import PyBytes.
Local Open Scope Z_scope.

(** Where _send_data is: at 423, at 451 with the item it took, there with the future done, or at its end. *)
Inductive pc := Getting | Waiting (d : bytes) | Woken (d : bytes) | Stopped.
(** [Closing]: close() or abort() was called; [Gone]: connection_lost was, self.transport is None. *)
(** http_protocol.py:101, 108, 533 *)
Inductive tr := Open | Closing | Gone.
(** [s_q]: queue[1]. [s_high]: self._watermarks['high'] (50). [s_buf], [t_high], [t_low], [t_paused]: of the transport. *)
Record snd := mkS { s_q : list (option bytes); s_pc : pc; s_high : Z; s_tr : tr; s_buf : Z; t_high : Z; t_low : Z; t_paused : bool }.
(** 50; asyncio's own limits at first are 64 KiB and a quarter of it. *)
Definition snd_new : snd := mkS [] Getting 65536 Open 0 65536 16384 false.

(** [Put x]: something is put into queue[1]. [Take keep n]: get() returns an item; [keep]: the test at 428 is true and _handle_keepalive does not close; [n]: what the socket takes at once, if the buffer is empty.
    [Resume n]: the task goes on after 451. [Drain n]: the socket takes n bytes of the buffer. [Timeout]: the timer of 124. [Limits high low]: set_watermarks. [Close], [Abort]: from elsewhere. [Lost]: connection_lost. *)
Inductive sev := Put (x : option bytes) | Take (keep : bool) (n : Z) | Resume (n : Z) | Drain (n : Z) | Timeout | Limits (high low : Z) | Close | Abort | Lost.
(** [Handed d b]: d was handed to the open transport, with b bytes in its buffer before. *)
(** http_protocol.py:102, 112, 460 *)
Inductive sobs := Handed (d : bytes) (b : Z) | Closed | Aborted.

(** transport.write(d), with n bytes sent at once. *)
(** http_protocol.py:460 *)
Definition write (d : bytes) (n : Z) (s : snd) : snd * list sobs :=
  match s_tr s with
  | Open =>
      let buf := if s_buf s =? 0 then blen d - Z.max 0 (Z.min n (blen d)) else s_buf s + blen d in
      (mkS (s_q s) Getting (s_high s) Open buf (t_high s) (t_low s) (t_paused s || (t_high s <? buf)), [Handed d (s_buf s)])
  | _ => (mkS (s_q s) Getting (s_high s) (s_tr s) (s_buf s) (t_high s) (t_low s) (t_paused s), [])              (* dropped, or RuntimeError after write_eof: 463 *)
  end.
(** close, 107-112: what is in the buffer is still sent. *)
Definition close (p : pc) (s : snd) : snd * list sobs :=
  match s_tr s with Open => (mkS (s_q s) p (s_high s) Closing (s_buf s) (t_high s) (t_low s) (t_paused s), [Closed]) | _ => (mkS (s_q s) p (s_high s) (s_tr s) (s_buf s) (t_high s) (t_low s) (t_paused s), []) end.
(** abort, 100-105: the buffer is dropped. *)
Definition abort (s : snd) : snd * list sobs :=
  match s_tr s with Open => (mkS (s_q s) (s_pc s) (s_high s) Closing 0 (t_high s) (t_low s) (t_paused s), [Aborted]) | _ => (s, []) end.

(** http_protocol.py:100-112, 123-137, 409-464, 510-533 *)
Definition send_step (s : snd) (ev : sev) : option (snd * list sobs) :=
  match ev with
  | Put x => Some (match s_tr s with Gone => s | _ => mkS (s_q s ++ [x]) (s_pc s) (s_high s) (s_tr s) (s_buf s) (t_high s) (t_low s) (t_paused s) end, [])
  | Take keep n =>
      match s_pc s, s_q s with
      | Getting, None :: q =>                                                                                  (* 425-436 *)
          let s1 := mkS q Getting (s_high s) (s_tr s) (s_buf s) (t_high s) (t_low s) (t_paused s) in
          if keep then Some (s1, []) else Some (close Stopped s1)
      | Getting, Some d :: q =>
          if s_high s <? s_buf s                                                                               (* 441 *)
          then Some (mkS q (Waiting d) (s_high s) (s_tr s) (s_buf s) (t_high s) (t_low s) (t_paused s), [])
          else Some (write d n (mkS q Getting (s_high s) (s_tr s) (s_buf s) (t_high s) (t_low s) (t_paused s)))
      | _, _ => None
      end
  | Resume n => match s_pc s with Woken d => Some (write d n s) | _ => None end
  | Drain n =>
      if (0 <? n) && (n <=? s_buf s) && match s_tr s with Gone => false | _ => true end
      then let buf := s_buf s - n in
           if t_paused s && (buf <=? t_low s)
           then Some (mkS (s_q s) (match s_pc s with Waiting d => Woken d | p => p end) (s_high s) (s_tr s) buf (t_high s) (t_low s) false, [])   (* 409-411 *)
           else Some (mkS (s_q s) (s_pc s) (s_high s) (s_tr s) buf (t_high s) (t_low s) (t_paused s), [])
      else None
  | Timeout =>
      match s_pc s with
      | Waiting d => let '(s1, b1) := abort s in let '(s2, b2) := write d 0 s1 in Some (s2, b1 ++ b2)              (* 128-134, 460 *)
      | _ => None
      end
  | Limits high low =>
      if (0 <=? low) && (low <=? high) && match s_tr s with Gone => false | _ => true end
      then Some (mkS (s_q s) (s_pc s) high (s_tr s) (s_buf s) high low (t_paused s || (high <? s_buf s)), []) else None
  | Close => Some (close (s_pc s) s)
  | Abort => Some (abort s)
  | Lost => match s_tr s with Gone => None | _ => Some (mkS [] Stopped (s_high s) Gone 0 (t_high s) (t_low s) (t_paused s), []) end   (* 510-533, 457, 461 *)
  end.
(** http_protocol.py:420-464, one step after another. *)
Fixpoint send_run (s : snd) (evs : list sev) : option (snd * list sobs) :=
  match evs with
  | [] => Some (s, [])
  | ev :: evs' => match send_step s ev with
                  | Some (s1, b1) => match send_run s1 evs' with Some (s2, b2) => Some (s2, b1 ++ b2) | None => None end
                  | None => None
                  end
  end.
