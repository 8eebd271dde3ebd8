(** Model of one connection: HTTPProtocol (tremolo/lib/http_protocol.py) as asyncio runs it, with any request handlers.

    A step is what runs between two awaits. The tasks that can run may run in any order: _handle_request (267-354), _receive_data (356-364), _send_data
    (420-464), and the handlers (headers_received, 182), which may do in any order what the request and response objects let them do.
    queue[0] and queue[1] are lists: C41 is about the queue itself; an item that put_nowait hands to a waiting get() counts as taken at that moment or later.
    Taken from asyncio: a transport that is paused, closing or lost calls data_received no more; writes after abort() are dropped.
    Left out: the watermarks and send_timeout (see M_Send), the contents of error responses; a timeout or an error that aborts the connection is the event
    [Abort], which may come at any time; the registry of keep-alive connections (C43): whether this one was put out is told by the event. *)
From Verif Require Import PyBytes PyInt PyExn M_Parser M_Framing.

(** http_protocol.py:144, 152, 173, 363, 374: options['client_max_header_size'], ['client_max_body_size'], ['max_queue_size'], 16 * 1024 (144), ['buffer_size'] *)
Record copts := mkO { o_head : Z; o_body : Z; o_queue : Z; o_first : nat; o_buf : nat }.

Notation item := (option bytes) (only parsing).

(** _handle_request, 268-324, up to the queue operations. [Dies]: HTTPRequest(...) raises, which no one catches. *)
Inductive framing := NotRequest | Dies | Bad (r : hreq) | Framed (r : hreq).
(** http_protocol.py:268-320 *)
Definition frame_head (data : bytes) (hs : Z) : framing :=
  let h := parse_header data hs 65536 [bs "proxy"] 100 8190 in                 (* http_parser.py:43-44 *)
  if is_request h then
    match request_init h with
    | Ok r => match frame r with Ok r' => Framed r' | Raise _ => Bad r end
    | Raise _ => Dies
    end
  else NotRequest.

(** A request object: [q_head] its head as it came, [q_info] what was parsed; http_keepalive, http_continue, upgraded, body_size, body_consumed, _eof;
    [q_reading]: stream() was started (http_request.py:169); [q_live]: its handler runs. *)
Record creq := mkRq { q_head : bytes; q_info : hreq; q_keep : bool; q_cont : bool; q_upg : bool; q_size : Z; q_used : Z; q_eof : bool; q_reading : bool; q_live : bool }.
(** http_request.py:131-134, request.py:26-28 *)
Definition clear_body (r : creq) : creq := mkRq (q_head r) (q_info r) (q_keep r) (q_cont r) (q_upg r) 0 0 (q_eof r) (q_reading r) (q_live r).
(** http_keepalive = b: http_protocol.py:177, http_response.py:172 *)
Definition set_keep (b : bool) (r : creq) : creq := mkRq (q_head r) (q_info r) b (q_cont r) (q_upg r) (q_size r) (q_used r) (q_eof r) (q_reading r) (q_live r).
(** http_continue = b: http_protocol.py:479 *)
Definition set_cont (b : bool) (r : creq) : creq := mkRq (q_head r) (q_info r) (q_keep r) b (q_upg r) (q_size r) (q_used r) (q_eof r) (q_reading r) (q_live r).
Definition set_upg (r : creq) : creq := mkRq (q_head r) (q_info r) (q_keep r) (q_cont r) true 0 0 (q_eof r) (q_reading r) (q_live r).   (* http_request.py:258-261 *)
(** body_size: http_protocol.py:167 *)
Definition set_size (n : Z) (r : creq) : creq := mkRq (q_head r) (q_info r) (q_keep r) (q_cont r) (q_upg r) n (q_used r) (q_eof r) (q_reading r) (q_live r).
(** body_consumed: request.py:51 *)
Definition set_used (n : Z) (r : creq) : creq := mkRq (q_head r) (q_info r) (q_keep r) (q_cont r) (q_upg r) (q_size r) n (q_eof r) (q_reading r) (q_live r).
(** _eof = True: http_request.py:252 *)
Definition set_qeof (r : creq) : creq := mkRq (q_head r) (q_info r) (q_keep r) (q_cont r) (q_upg r) (q_size r) (q_used r) true (q_reading r) (q_live r).
(** stream() is past its first lines: http_request.py:170-174 *)
Definition set_reading (r : creq) : creq := mkRq (q_head r) (q_info r) (q_keep r) (q_cont r) (q_upg r) (q_size r) (q_used r) (q_eof r) true (q_live r).
(** http_protocol.py:342, 349: the task of the handler begins, ends. *)
Definition set_live (b : bool) (r : creq) : creq := mkRq (q_head r) (q_info r) (q_keep r) (q_cont r) (q_upg r) (q_size r) (q_used r) (q_eof r) (q_reading r) b.

(** What _receive_data waits for: a future of _waiters, or the previous _receive_data. *)
(** http_protocol.py:395-404 *)
Inductive wref := WFut (n : nat) | WTask (j : nat).
(** _receive_data: at line 357; in put_to_queue, with the rest and len(data); done. *)
Inductive rcv := RWait (w : wref) (d : bytes) | RPut (rest : bytes) (len : Z) | ROver.
(** _handle_request: not started; in put_to_queue of line 329; done, or waiting for the handler (349). *)
Inductive hrt := HStart (data : bytes) (hs : Z) | HMore (i : nat) (rest : bytes) (len : Z) | HOver.

(** The attributes of http_protocol.py:24-52, and the tasks of 58-98, 329-364, 402-404, 420. *)
Record conn := mkC {
  c_hb : option bytes;                 (* _header_buf *)
  c_paused : bool; c_closing : bool; c_lost : bool;
  c_q0 : list item; c_q1 : list item;  (* queue; None is the end marker *)
  c_futs : list bool;                  (* the futures of _waiters['request'] and ['keepalive']: done? *)
  c_wreq : option nat; c_wkeep : option nat; c_wrecv : option wref;   (* _waiters *)
  c_reqs : list creq; c_cur : option nat;                             (* request *)
  c_hrs : list hrt; c_rcv : list rcv;
  c_sending : bool                     (* _send_data has not returned *)
}.
(** _header_buf: http_protocol.py:371, 382, 488 *)
Definition set_hb x s := mkC x (c_paused s) (c_closing s) (c_lost s) (c_q0 s) (c_q1 s) (c_futs s) (c_wreq s) (c_wkeep s) (c_wrecv s) (c_reqs s) (c_cur s) (c_hrs s) (c_rcv s) (c_sending s).
(** pause_reading, resume_reading: http_protocol.py:377, 393, 164, 174, 504 *)
Definition set_paused x s := mkC (c_hb s) x (c_closing s) (c_lost s) (c_q0 s) (c_q1 s) (c_futs s) (c_wreq s) (c_wkeep s) (c_wrecv s) (c_reqs s) (c_cur s) (c_hrs s) (c_rcv s) (c_sending s).
(** abort, close: http_protocol.py:100-112 *)
Definition set_closing s := mkC (c_hb s) (c_paused s) true (c_lost s) (c_q0 s) (c_q1 s) (c_futs s) (c_wreq s) (c_wkeep s) (c_wrecv s) (c_reqs s) (c_cur s) (c_hrs s) (c_rcv s) (c_sending s).
(** queue[0]: http_protocol.py:149, 172, 324, 502 *)
Definition set_q0 x s := mkC (c_hb s) (c_paused s) (c_closing s) (c_lost s) x (c_q1 s) (c_futs s) (c_wreq s) (c_wkeep s) (c_wrecv s) (c_reqs s) (c_cur s) (c_hrs s) (c_rcv s) (c_sending s).
(** queue[1]: http_protocol.py:178, 274, 423 *)
Definition set_q1 x s := mkC (c_hb s) (c_paused s) (c_closing s) (c_lost s) (c_q0 s) x (c_futs s) (c_wreq s) (c_wkeep s) (c_wrecv s) (c_reqs s) (c_cur s) (c_hrs s) (c_rcv s) (c_sending s).
(** http_protocol.py:91, 340, 492 *)
Definition set_futs x s := mkC (c_hb s) (c_paused s) (c_closing s) (c_lost s) (c_q0 s) (c_q1 s) x (c_wreq s) (c_wkeep s) (c_wrecv s) (c_reqs s) (c_cur s) (c_hrs s) (c_rcv s) (c_sending s).
(** _waiters: http_protocol.py:91, 402, 482, 490-492 *)
Definition set_waiters a b c s := mkC (c_hb s) (c_paused s) (c_closing s) (c_lost s) (c_q0 s) (c_q1 s) (c_futs s) a b c (c_reqs s) (c_cur s) (c_hrs s) (c_rcv s) (c_sending s).
(** request: http_protocol.py:279 *)
Definition set_reqs x c s := mkC (c_hb s) (c_paused s) (c_closing s) (c_lost s) (c_q0 s) (c_q1 s) (c_futs s) (c_wreq s) (c_wkeep s) (c_wrecv s) x c (c_hrs s) (c_rcv s) (c_sending s).
(** http_protocol.py:379-381 *)
Definition set_hrs x s := mkC (c_hb s) (c_paused s) (c_closing s) (c_lost s) (c_q0 s) (c_q1 s) (c_futs s) (c_wreq s) (c_wkeep s) (c_wrecv s) (c_reqs s) (c_cur s) x (c_rcv s) (c_sending s).
(** http_protocol.py:402-404 *)
Definition set_rcv x s := mkC (c_hb s) (c_paused s) (c_closing s) (c_lost s) (c_q0 s) (c_q1 s) (c_futs s) (c_wreq s) (c_wkeep s) (c_wrecv s) (c_reqs s) (c_cur s) (c_hrs s) x (c_sending s).
(** http_protocol.py:93, 436 *)
Definition set_sending x s := mkC (c_hb s) (c_paused s) (c_closing s) (c_lost s) (c_q0 s) (c_q1 s) (c_futs s) (c_wreq s) (c_wkeep s) (c_wrecv s) (c_reqs s) (c_cur s) (c_hrs s) (c_rcv s) x.

(** l[i] = x; for the assignments to attributes of the i-th request or task (http_protocol.py:167, 177, 340). *)
Fixpoint put_at {A} (i : nat) (x : A) (l : list A) : list A :=
  match l, i with [], _ => [] | _ :: l', O => x :: l' | y :: l', S i' => y :: put_at i' x l' end.
(** An assignment to attributes of request i (http_protocol.py:177, 479, 489). *)
Definition on_req (i : nat) (f : creq -> creq) (s : conn) : conn :=
  match nth_error (c_reqs s) i with Some r => set_reqs (put_at i (f r) (c_reqs s)) (c_cur s) s | None => s end.
(** queue[0].put_nowait(x): http_protocol.py:149, 172, 324, 407 *)
Definition put0 (x : item) (s : conn) : conn := set_q0 (c_q0 s ++ [x]) s.
(** queue[1].put_nowait(x): http_protocol.py:178, 274, response.py:50-52 *)
Definition put1 (x : item) (s : conn) : conn := set_q1 (c_q1 s ++ [x]) s.

(** What can be seen. [Started i h]: the handler of request i starts, its head is h; [Got i x]: a read of the body of request i gave x;
    [Wrote d]: d was handed to the transport; [Ended]: the end marker of a response was taken (425); [Interim i]: an end marker was taken while http_continue
    of request i was set, and the request goes on (478-479). *)
Inductive obs := Started (i : nat) (h : bytes) | Got (i : nat) (x : item) | Wrote (d : bytes) | Ended | Interim (i : nat).

(** connection_made, 91-98 *)
Definition conn_new : conn := mkC (Some []) false false false [] [] [false] (Some 0) None None [] None [] [] true.

(** data_received, 366-404 *)
Definition data_received (o : copts) (x : item) (s : conn) : conn :=
  match x with
  | None | Some [] => s
  | Some d =>
      match c_hb s with
      | Some b =>
          let b' := b ++ d in
          let hs := (pos (find (CRLF ++ CRLF) b') + 2)%Z in
          if ((1 <? hs) && (hs <=? o_head o))%Z
          then set_hb None (set_hrs (c_hrs s ++ [HStart b' hs]) (set_paused true s))
          else if (o_head o <? hs)%Z || negb ((hs =? 1) && (blen b' <=? o_head o))%Z then set_closing (set_hb (Some b') s)
          else set_hb (Some b') s
      | None =>
          let w := match c_wrecv s, c_wreq s, c_wkeep s with
                   | Some w, _, _ => Some w | None, Some n, _ => Some (WFut n) | None, None, Some n => Some (WFut n) | _, _, _ => None end in
          match w with
          | Some w => set_waiters (c_wreq s) (c_wkeep s) (Some (WTask (List.length (c_rcv s)))) (set_rcv (c_rcv s ++ [RWait w d]) (set_paused true s))
          | None => set_paused true s          (* KeyError *)
          end
      end
  end.

(** put_to_queue, 146-160: one round of the loop; the rest, or None if the loop is left by [return]. *)
Definition put_round (o : copts) (n : nat) (rest : bytes) (s : conn) : option bytes * conn :=
  let s1 := put0 (Some (firstn n rest)) s in
  if (o_queue o <? Z.of_nat (List.length (c_q0 s1)))%Z then (None, set_closing s1) else (Some (skipn n rest), s1).
(** put_to_queue, 162-180, where transport was given *)
Definition put_end (o : copts) (len : Z) (s : conn) : conn :=
  match c_cur s with
  | None => s
  | Some i =>
      match nth_error (c_reqs s) i with
      | None => s
      | Some r =>
          if q_upg r then set_paused false s
          else
            let r' := set_size (q_size r + len) r in
            let s1 := set_reqs (put_at i r' (c_reqs s)) (c_cur s) s in
            if hmem k_content_length (rq_headers (q_info r)) && (rq_content_length (q_info r) <=? q_size r')%Z then put0 None s1
            else if (q_size r' <? o_body o)%Z then set_paused false s1
            else put1 None (on_req i (set_keep false) s1)
      end
  end.
(** _handle_request, 336-343 *)
Definition set_done (w : option nat) (s : conn) : conn :=
  match w with Some n => set_futs (put_at n true (c_futs s)) s | None => s end.
(** _handle_request, http_protocol.py:336-349 *)
Definition start_handler (i : nat) (s : conn) : conn * list obs :=
  let s1 := set_done (c_wkeep s) (set_done (c_wreq s) s) in
  (on_req i (set_live true) s1, match nth_error (c_reqs s) i with Some r => [Started i (q_head r)] | None => [] end).
(** One round of put_to_queue in _handle_request (329) *)
Definition hr_put (o : copts) (j i : nat) (rest : bytes) (len : Z) (s : conn) : conn * list obs :=
  match rest with
  | [] => start_handler i (set_hrs (put_at j HOver (c_hrs s)) (put_end o len s))
  | _ => match put_round o (o_first o) rest s with
         | (Some rest', s1) => (set_hrs (put_at j (HMore i rest' len) (c_hrs s1)) s1, [])
         | (None, s1) => start_handler i (set_hrs (put_at j HOver (c_hrs s1)) s1)
         end
  end.
(** _handle_request, 267-334, and the handling of its exceptions (353-354, 204-265) *)
Definition run_hr (o : copts) (j : nat) (data : bytes) (hs : Z) (s : conn) : conn * list obs :=
  let over := set_hrs (put_at j HOver (c_hrs s)) s in
  match frame_head data hs with
  | NotRequest => (put1 None over, [])
  | Dies => (over, [])
  | Bad r => let i := List.length (c_reqs s) in
             (put1 None (put1 (Some (bs "error")) (set_reqs (c_reqs s ++ [mkRq (upto data (hs + 2)) r false false false 0 0 false false false]) (Some i) over)), [])
  | Framed r =>
      let i := List.length (c_reqs s) in
      let s1 := set_reqs (c_reqs s ++ [mkRq (upto data (hs + 2)) r (rq_keepalive r) (rq_continue r) false 0 0 false false false]) (Some i) s in
      let s2 := if has_body r then s1 else put0 (Some []) s1 in
      let rest := from data (hs + 2) in
      if has_body r || (hs + 2 <? blen data)%Z then hr_put o j i rest (blen rest) s2
      else start_handler i (set_hrs (put_at j HOver (c_hrs s2)) s2)
  end.
(** _receive_data, 356-364 *)
Definition rcv_put (o : copts) (j : nat) (rest : bytes) (len : Z) (s : conn) : conn :=
  match rest with
  | [] => put_end o len (set_rcv (put_at j ROver (c_rcv s)) s)
  | _ => match put_round o (o_buf o) rest s with
         | (Some rest', s1) => set_rcv (put_at j (RPut rest' len) (c_rcv s1)) s1
         | (None, s1) => set_rcv (put_at j ROver (c_rcv s1)) s1
         end
  end.
(** await waiter, http_protocol.py:357 *)
Definition w_done (w : wref) (s : conn) : bool :=
  match w with WFut n => nth n (c_futs s) false | WTask j => match nth_error (c_rcv s) j with Some ROver => true | _ => false end end.

(** _handle_keepalive, 500-502: the loop (data_received does not change queue[0]). *)
Fixpoint refeed (o : copts) (l : list item) (s : conn) : conn :=
  match l with [] => s | x :: l' => refeed o l' (data_received o x s) end.
(** _handle_keepalive, 466-504. [kicked]: this connection is not in options['_connections'] any more. *)
Definition keepalive (o : copts) (kicked : bool) (i : nat) (r : creq) (s : conn) : conn :=
  if kicked && match c_wreq s with Some _ => false | None => true end then set_closing s
  else set_paused false
    (if q_cont r then on_req i (set_cont false) s
     else if q_upg r then
       match c_wreq s with Some n => set_waiters None (c_wkeep s) (Some (WFut n)) s | None => set_closing s end
     else
       let s1 := set_hb (Some []) (on_req i clear_body s) in
       let s2 := set_waiters None (Some (List.length (c_futs s1))) None (set_futs (c_futs s1 ++ [false]) s1) in
       if has_body (q_info r) then s2 else refeed o (c_q0 s2) (set_q0 [] s2)).
(** _send_data, 420-464, without the watermarks *)
Definition run_send (o : copts) (kicked : bool) (s : conn) : option (conn * list obs) :=
  if c_sending s then
    match c_q1 s with
    | [] => None
    | Some d :: l => Some (set_q1 l s, if c_closing s then [] else [Wrote d])
    | None :: l =>
        let s1 := set_q1 l s in
        match c_cur s1 with
        | Some i =>
            match nth_error (c_reqs s1) i with
            | Some r => if q_keep r && match c_hb s1 with None => true | Some _ => false end
                        then Some (keepalive o kicked i r s1, [if q_cont r then Interim i else Ended])
                        else Some (set_sending false (set_closing (on_req i clear_body s1)), [Ended])
            | None => None
            end
        | None => Some (set_sending false (set_closing s1), [Ended])
        end
    end
  else None.

(** send_continue, http_response.py:176-186; its ExpectationFailed is a handler that raises. *)
Definition continue_100 (r : creq) : bytes := bs "HTTP/" ++ rq_version (q_info r) ++ bs " 100 Continue" ++ CRLF ++ CRLF.
(** http_response.py:176-186. A handler that still runs when its request is not the current one any more would use the response object of the current one (http_request.py:174): left out. *)
Definition send_continue (o : copts) (r : creq) (s : conn) : option conn :=
  if q_cont r then (if (o_body o <? rq_content_length (q_info r))%Z then None else Some (put1 None (put1 (Some (continue_100 r)) s))) else Some s.
(** The item that stream() (http_request.py:244-250; raw if chunked) gives for one that was queued. *)
Definition trimmed (r : creq) (d : bytes) : bytes :=
  let used := (q_used r + blen d)%Z in
  if ((-1 <? rq_content_length (q_info r)) && (rq_content_length (q_info r) <? used))%Z then upto d (rq_content_length (q_info r) - used) else d.

(** Events: http_protocol.py:366, 406, 506 (the transport), 58-64 (tasks), 182 (handlers). [HRead i]: the handler of request i starts to read the body; [HTake i]: it gets the next item; [HPut], [HClose]: response.send or write of some
    bytes, and response.close(keepalive); [HContinue]: response.send_continue(); [HEnd]: it is done. *)
Inductive cev := Data (d : bytes) | Eof | Abort | RunHR (j : nat) | RunRcv (j : nat) | RunSend (kicked : bool)
  | HRead (i : nat) | HTake (i : nat) | HPut (i : nat) (d : bytes) | HClose (i : nat) (keep : bool) | HContinue (i : nat) | HUpgrade (i : nat) | HEnd (i : nat) | Lost.
(** The i-th handler runs (http_protocol.py:342-349). *)
Definition live (s : conn) (i : nat) : option creq :=
  match nth_error (c_reqs s) i with Some r => if q_live r then Some r else None | None => None end.
(** One step of one of the tasks, a call by the transport, or a step of a handler; see the cases. None: not possible now. http_protocol.py:75-537 *)
Definition conn_step (o : copts) (s : conn) (e : cev) : option (conn * list obs) :=
  if c_lost s then None else
  match e with
  | Data d => if c_paused s || c_closing s then None else match d with [] => None | _ => Some (data_received o (Some d) s, []) end
  | Eof => if c_paused s || c_closing s then None else Some (set_closing (put0 None s), [])    (* 406-407; eof_received returns None: asyncio closes *)
  | Abort => Some (set_closing s, [])
  | RunHR j =>
      match nth_error (c_hrs s) j with
      | Some (HStart data hs) => Some (run_hr o j data hs s)
      | Some (HMore i rest len) => Some (hr_put o j i rest len s)
      | _ => None
      end
  | RunRcv j =>
      match nth_error (c_rcv s) j with
      | Some (RWait w d) => if w_done w s then Some (rcv_put o j d (blen d) s, []) else None
      | Some (RPut rest len) => Some (rcv_put o j rest len s, [])
      | _ => None
      end
  | RunSend kicked => run_send o kicked s
  | HRead i =>                                                                  (* http_request.py:169-174, 240-242 *)
      match live s i with
      | Some r => if q_eof r then Some (s, [])
                  else if (o_body o <? rq_content_length (q_info r))%Z then None
                  else match send_continue o r s with Some s1 => Some (on_req i set_reading s1, []) | None => None end
      | None => None
      end
  | HTake i =>                                                                  (* request.py:30-52 *)
      match live s i with
      | Some r =>
          if q_reading r && negb (q_eof r) then
            match c_q0 s with
            | [] => None
            | None :: l => Some (on_req i set_qeof (set_q0 l s), [Got i None])
            | Some d :: l => Some (on_req i (set_used (q_used r + blen d)) (set_q0 l s), [Got i (Some (trimmed r d))])
            end
          else None
      | None => None
      end
  | HPut i d => match live s i with Some _ => Some (put1 (Some d) s, []) | None => None end
  | HClose i keep =>                                                            (* http_response.py:169-174 *)
      match live s i with Some _ => Some (put1 None (if keep then s else on_req i (set_keep false) s), []) | None => None end
  | HContinue i => match live s i with Some r => match send_continue o r s with Some s1 => Some (s1, []) | None => None end | None => None end
  | HUpgrade i => match live s i with Some _ => Some (on_req i set_upg s, []) | None => None end
  | HEnd i => match live s i with Some _ => Some (on_req i (set_live false) s, []) | None => None end
  | Lost =>                                                                     (* 506-537 *)
      Some (mkC None (c_paused s) true true [] [] (c_futs s) (c_wreq s) (c_wkeep s) (c_wrecv s) [] None [] [] false, [])
  end.
(** Steps one after the other: the scheduler of asyncio, in any order (http_protocol.py:58-64). *)
Fixpoint conn_run (o : copts) (s : conn) (es : list cev) : option (conn * list obs) :=
  match es with
  | [] => Some (s, [])
  | e :: es' => match conn_step o s e with
                | Some (s1, b1) => match conn_run o s1 es' with Some (s2, b2) => Some (s2, b1 ++ b2) | None => None end
                | None => None
                end
  end.
