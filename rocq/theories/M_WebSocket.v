(** Model of tremolo/lib/websocket.py: WebSocket.create_frame, recv, receive.

    The frames are read with HTTPRequest.recv(n) (raw=True) of M_Stream.v. Sending is
    handing a frame to HTTPResponse.send (websocket.py:169-173); the frames sent while
    receiving (pongs) are collected in order. The timer that sends a ping while receive()
    waits (websocket.py:114-118, 175-179) is not modelled: it does not touch the reader. *)
From Verif Require Import PyBytes PyInt PyExn PyUtf8 M_Stream.
Local Open Scope N_scope.

(** str or bytes; bytes stands for bytearray too (websocket.py returns either). *)
(** websocket.py:77, 80, 133-139 *)
Inductive pyval := VStr (s : pystr) | VBytes (b : bytes).

(** int.from_bytes(l, 'big') *)
(** websocket.py:52-56, 95 *)
Definition from_big (l : bytes) : N := fold_left (fun a c => a * 256 + N_of_ascii c) l 0.
(** n.to_bytes(k, 'big'); [OverflowError] when it does not fit. *)
(** websocket.py:149, 152 *)
Fixpoint to_big_digits (k : nat) (n : N) (acc : bytes) : bytes :=
  match k with
  | O => acc
  | S k' => to_big_digits k' (n / 256) (ascii_of_N (n mod 256) :: acc)
  end.
(** websocket.py:149, 152 *)
Definition to_big (k : nat) (n : N) : res bytes :=
  if n <? 256 ^ N.of_nat k then Ok (to_big_digits k n []) else Raise OverflowError.

(** bytes(data_byte ^ masking_key[i % 4] for i, data_byte in enumerate(data)),
    websocket.py:69-72 and 160-163; [i] is the index of the first byte. *)
Fixpoint mask_from (key : bytes) (i : nat) (data : bytes) : res bytes :=
  match data with
  | [] => Ok []
  | c :: data' =>
      match nth_error key (Nat.modulo i 4) with
      | None => Raise IndexError
      | Some k =>
          let! r := mask_from key (S i) data' in
          Ok (ascii_of_N (N.lxor (N_of_ascii c) (N_of_ascii k)) :: r)
      end
  end.

(** bytes([a, b]) *)
(** websocket.py:158 *)
Definition two_bytes (a b : N) : res bytes :=
  if (a <? 256) && (b <? 256) then Ok [ascii_of_N a; ascii_of_N b] else Raise ValueError.

(** create_frame, websocket.py:130-167. [key] is what os.urandom(4) returns.
    [opcode] None is the default argument. A payload that is not of the type the opcode
    wants raises as in Python: b''.encode is an AttributeError, and adding a str to the
    header a TypeError. *)
Definition create_frame (v : pyval) (fin : N) (opcode : option N) (mask : bool) (key : bytes) : res bytes :=
  let opcode := match opcode with                                       (* 132-136 *)
                | Some n => n
                | None => match v with VStr _ => 1 | VBytes _ => 2 end
                end in
  let! payload := (if opcode =? 1 then                                   (* 138-139 *)
                     match v with
                     | VStr s => match utf8_encode s with Some b => Ok b | None => Raise ValueError end
                     | VBytes _ => Raise AttributeError
                     end
                   else match v with VBytes b => Ok b | VStr _ => Raise TypeError end) in
  let first_byte := N.lor (N.shiftl fin 7) opcode in                     (* 141 *)
  let n := N.of_nat (List.length payload) in                             (* 142 *)
  let! (second_byte, length_data) :=                                    (* 144-152 *)
    (if n <? 126 then Ok (n, [])
     else if n <? 65536 then let! l := to_big 2 n in Ok (126, l)
     else let! l := to_big 8 n in Ok (127, l)) in
  let second_byte := if mask then N.lor second_byte (N.shiftl 1 7) else second_byte in   (* 154-155 *)
  let! h := two_bytes first_byte second_byte in                          (* 158 *)
  if mask then
    let! masked := mask_from key 0 payload in                            (* 160-165 *)
    Ok (h ++ length_data ++ key ++ masked)
  else Ok (h ++ length_data ++ payload).

(** Reading with effects: the value, the reader, the frames sent. *)
(** websocket.py:37-106 *)
Inductive wout (A : Type) := WRet (a : A) | WRaise (e : exn) | WBlock | WFuel.
Arguments WRet {A} a.
Arguments WRaise {A} e.
Arguments WBlock {A}.
Arguments WFuel {A}.
(** websocket.py:37-106 *)
Definition io (A : Type) := reader -> wout A * reader * list bytes.
(** return; websocket.py:37-128 *)
Definition ret {A} (a : A) : io A := fun r => (WRet a, r, []).
(** raise; websocket.py:37-128 *)
Definition fail {A} (e : exn) : io A := fun r => (WRaise e, r, []).
(** One statement after another; websocket.py:37-128 *)
Definition bindio {A B} (m : io A) (f : A -> io B) : io B :=
  fun r => match m r with
           | (WRet a, r', out) => let '(x, r2, out2) := f a r' in (x, r2, out ++ out2)
           | (WRaise e, r', out) => (WRaise e, r', out)
           | (WBlock, r', out) => (WBlock, r', out)
           | (WFuel, r', out) => (WFuel, r', out)
           end.
Notation "'do!' x '<-' m 'in' k" := (bindio m (fun x => k))
  (at level 200, x pattern, m at level 100, k at level 200).
(** A call without effects; websocket.py:69-72, 171 *)
Definition lift {A} (x : res A) : io A := match x with Ok a => ret a | Raise e => fail e end.
(** websocket.py:169-173 *)
Definition send_frame (f : bytes) : io unit := fun r => (WRet tt, r, [f]).

(** await self.request.recv(n) *)
(** websocket.py:39, 52, 55, 67-68, 74 *)
Definition rd (o : opts) (n : N) : io bytes :=
  fun r => match recv o r (Z.of_N n) true with
           | (RRet d, r') => (WRet d, r', [])
           | (RRaise e, r') => (WRaise e, r', [])
           | (RBlock, r') => (WBlock, r', [])
           | (RFuel, r') => (WFuel, r', [])
           end.

(** What recv does with a frame once read, websocket.py:76-106. *)
Definition handle_frame (opcode payload_length : N) (data : bytes) : io pyval :=
  if opcode =? 1 then
    match utf8_decode data with Some s => ret (VStr s) | None => fail ValueError end
  else if opcode =? 2 then ret (VBytes data)
  else if (opcode =? 9) && (payload_length <? 126) then                    (* pong, 184-185 *)
    do! f <- lift (create_frame (VBytes data) 1 (Some 10) false []) in
    do! _ <- send_frame f in ret (VBytes [])
  else if (opcode =? 10) && (payload_length <? 126) then ret (VBytes [])
  else if opcode =? 8 then
    fail (WSClientClosed (match data with [] => 1005 | _ => Z.of_N (from_big (firstn 2 data)) end))
  else fail (WSServerClosed 1008).

(** recv, websocket.py:37-106. [max] is options['ws_max_payload_size']. The try block
    turns a ValueError raised by request.recv(2) into WebSocketClientClosed too;
    request.recv raises none. *)
Definition ws_recv (o : opts) (max : Z) : io pyval :=
  do! two <- rd o 2 in
  match two with
  | [a; b] =>
      let first_byte := N_of_ascii a in
      let second_byte := N_of_ascii b in
      let opcode := N.land first_byte 0x0f in
      let is_masked := N.shiftr (N.land second_byte 0x80) 7 in
      let len7 := N.land second_byte 0x7f in
      do! payload_length <-                                                 (* 52-64 *)
        (if len7 =? 126 then do! l <- rd o 2 in ret (from_big l)
         else if len7 =? 127 then
           do! l <- rd o 8 in
           if (max <? Z.of_N (from_big l))%Z then fail (WSServerClosed 1009) else ret (from_big l)
         else ret len7) in
      do! data <-                                                           (* 66-74 *)
        (if negb (is_masked =? 0) then
           do! key <- rd o 4 in
           do! payload <- rd o payload_length in
           lift (mask_from key 0 payload)
         else rd o payload_length) in
      handle_frame opcode payload_length data
  | _ => fail (WSClientClosed 1005)                                          (* 40-43 *)
  end.

(** Bytes that the reader can still get. *)
(** No code: for the fuel of receive, websocket.py:111. *)
Definition inp_bytes (i : inp) : bytes := match i with Data d => d | _ => [] end.
(** No code: for the fuel of receive, websocket.py:111. *)
Definition pending (r : reader) : bytes := rbuf r ++ concat (map inp_bytes (items (rs r))).

(** The loop of receive, websocket.py:108-128. *)
Fixpoint receive_loop (fuel : nat) (o : opts) (max : Z) : io pyval :=
  match fuel with
  | O => fun r => (WFuel, r, [])
  | S f =>
      fun r =>
      match ws_recv o max r with
      | (WRet (VBytes []), r', out) =>
          let '(x, r2, out2) := receive_loop f o max r' in (x, r2, out ++ out2)
      | (WRaise TimeoutError, r', out) => (WRaise (WSServerClosed 1000), r', out)
      | other => other
      end
  end.
(** websocket.py:108-128 *)
Definition receive (o : opts) (max : Z) : io pyval :=
  fun r => receive_loop (S (List.length (pending r))) o max r.

(** The request once upgraded (websocket.py:31-35): a GET without body fields has
    content_length -1 (http_request.py:100-107), no 100 response to send, and is read
    with raw=True only. [segs] are the packets queued, [tl] what follows: nothing yet,
    the end of the connection, or a timeout. *)
Definition upgraded (r : reader) (segs : list bytes) (tl : list inp) : Prop :=
  eof_ (rs r) = false /\ cont (rs r) = false /\ clen (rs r) = (-1)%Z /\
  In (inst r) [None; Some (GInit true); Some GPlain] /\
  items (rs r) = map Data segs ++ tl /\
  match tl with Data _ :: _ => False | _ => True end.
