(** Model of HTTPProtocol.put_to_queue (tremolo/lib/http_protocol.py:138-180): throttled
    writes to a queue, and the accounting that follows an upload. *)
From Verif Require Import PyBytes PyExn Trans.
From Coq Require Export QArith.
Local Open Scope Z_scope.

(** ** The queueing loop, lines 146-160

    Several tasks may be inside put_to_queue for the same queue; they alternate at the
    sleep of line 158, and a consumer takes items meanwhile. *)
(** http_protocol.py:143-144, 152 *)
Record popts := mkPOpts { p_max : Z; (* options['max_queue_size'] *) p_buf : Z; (* buffer_size *) p_rate : Q }.

(** One call: the rest of the memoryview, what it slept so far, and where it is. *)
Inductive pphase := PLoop | POver | PAborted.   (* at line 148; past the loop; returned at 156 *)
(** http_protocol.py:146-160 *)
Record putter := mkPutter { p_rest : bytes; p_slept : Q; p_phase : pphase }.
(** http_protocol.py:146 *)
Definition start_put (data : bytes) : putter := mkPutter data 0 PLoop.

(** queue.py: the items, and whether a getter is waiting (then put_nowait hands over the
    item, lines 17-25). [taken] are the items the consumer got, in order. *)
Record bqueue := mkBQ { bq : list bytes; bwait : bool; taken : list bytes }.
(** queue.py:17-25 *)
Definition bput (q : bqueue) (x : bytes) : bqueue :=
  if bwait q then mkBQ (bq q) false (taken q ++ [x]) else mkBQ (bq q ++ [x]) false (taken q).
(** queue.py:27-40 for one consumer *)
Definition bget (q : bqueue) : bqueue :=
  match bq q with
  | x :: l => mkBQ l (bwait q) (taken q ++ [x])
  | [] => mkBQ [] true (taken q)
  end.

(** Line 158-159. Python floats are taken as exact rationals. *)
Definition sleep_time (rate : Q) (queue_size nbytes : Z) : Q :=
  (1 / (rate / inject_Z (Z.max queue_size 1) / inject_Z nbytes))%Q.

(** One turn of the loop, lines 148-160: [None] when the call is no longer in the loop. The
    boolean tells that abort() was called. *)
Definition put_turn (o : popts) (q : bqueue) (p : putter) : option (bqueue * putter * bool) :=
  match p_phase p with
  | PLoop =>
      match p_rest p with
      | [] => Some (q, mkPutter [] (p_slept p) POver, false)
      | mv =>
          let piece := upto mv (p_buf o) in
          let q' := bput q piece in
          let queue_size := Z.of_nat (List.length (bq q')) in
          if p_max o <? queue_size then Some (q', mkPutter mv (p_slept p) PAborted, true)
          else Some (q', mkPutter (from mv (p_buf o))
                           (p_slept p + sleep_time (p_rate o) queue_size (blen piece))%Q PLoop, false)
      end
  | _ => None
  end.

(** http_protocol.py:138-160 by several tasks; abort() of 155. *)
Record psys := mkPsys { ps_q : bqueue; ps_putters : list putter; ps_aborted : bool }.
(** A turn of a put_to_queue, or a get (request.py:33). *)
Inductive pev := EPut (i : nat) | EGet.

(** The i-th task goes on (http_protocol.py:158-160). *)
Fixpoint set_nth {A} (l : list A) (i : nat) (x : A) : list A :=
  match l, i with
  | [], _ => []
  | _ :: l', O => x :: l'
  | y :: l', S i' => y :: set_nth l' i' x
  end.

(** http_protocol.py:148-160, queue.py:27-40 *)
Definition pstep (o : popts) (s : psys) (e : pev) : option psys :=
  match e with
  | EGet => Some (mkPsys (bget (ps_q s)) (ps_putters s) (ps_aborted s))
  | EPut i =>
      match nth_error (ps_putters s) i with
      | None => None
      | Some p =>
          match put_turn o (ps_q s) p with
          | None => None
          | Some (q', p', ab) => Some (mkPsys q' (set_nth (ps_putters s) i p') (ps_aborted s || ab))
          end
      end
  end.

(** ** Accounting after an upload, lines 162-180, and the reads it allows

    [u_max] is options['client_max_body_size']; [u_cl] the Content-Length, if there is one. *)
Record uopts := mkUOpts { u_max : Z; u_cl : option Z }.

(** What lines 162-180 do for a request that is not upgraded. *)
Inductive outcome := UEnd      (* line 172: the end marker is queued, reading stays paused *)
                   | UResume   (* line 174: transport.resume_reading() *)
                   | UTooLarge (* lines 176-180: keep-alive off, the connection will close *).
(** http_protocol.py:167-180 *)
Definition account (o : uopts) (body_size : Z) : outcome :=
  match u_cl o with
  | Some n => if n <=? body_size then UEnd else if body_size <? u_max o then UResume else UTooLarge
  | None => if body_size <? u_max o then UResume else UTooLarge
  end.

(** The upload of one request. [u_pieces]: every piece handed over by the transport, in
    order (the first one is what followed the head, line 329-334). [u_pending]: pieces whose
    put_to_queue has not finished (they wait for each other, lines 356-364, 395-404).
    [u_expect]: http_continue is set, so that the 100 response makes _handle_keepalive resume
    reading once (lines 478-479, 504). *)
Record ustate := mkU {
  u_pieces : list bytes; u_pending : list bytes; u_body_size : Z;
  u_reading : bool; u_closing : bool; u_expect : bool; u_ends : nat
}.
(** http_protocol.py:329-334 *)
Definition ustart (first : bytes) (expect : bool) : ustate := mkU [first] [first] 0 false false expect 0.

(** http_protocol.py:138-180, 393-404, 478-504 *)
Inductive uev :=
| UData (d : bytes)   (* data_received: lines 393-404 *)
| UDone               (* put_to_queue of the oldest pending piece finishes *)
| UOverflow           (* ... or aborts, line 155 *)
| UContinued.         (* _handle_keepalive after the 100 response *)

(** http_protocol.py:155, 162-180, 393-404, 478-504 *)
Definition ustep (o : uopts) (s : ustate) (e : uev) : option ustate :=
  if u_closing s then None else
  match e with
  | UData d =>
      if u_reading s then
        Some (mkU (u_pieces s ++ [d]) (u_pending s ++ [d]) (u_body_size s) false false (u_expect s) (u_ends s))
      else None
  | UDone =>
      match u_pending s with
      | [] => None
      | d :: l =>
          let size := (u_body_size s + blen d)%Z in
          match account o size with
          | UEnd => Some (mkU (u_pieces s) l size (u_reading s) false (u_expect s) (S (u_ends s)))
          | UResume => Some (mkU (u_pieces s) l size true false (u_expect s) (u_ends s))
          | UTooLarge => Some (mkU (u_pieces s) l size (u_reading s) true (u_expect s) (u_ends s))
          end
      end
  | UOverflow =>
      match u_pending s with
      | [] => None
      | _ => Some (mkU (u_pieces s) (u_pending s) (u_body_size s) (u_reading s) true (u_expect s) (u_ends s))
      end
  | UContinued =>
      if u_expect s then
        Some (mkU (u_pieces s) (u_pending s) (u_body_size s) true false false (u_ends s))
      else None
  end.
