(** Model of request body reading: Request.recv (tremolo/lib/request.py:30-52) and
    HTTPRequest.stream / recv / read / body / eof
    (tremolo/lib/http_request.py:131-252).

    queue[0] is the list of what the reader will find: data items, the end marker None
    (also standing for queue[0] being None after a disconnect, request.py:31), or the
    expiry of keepalive_timeout while it waits. An empty list means that the reader is
    still waiting. An async generator is a value of type [gen]; one __anext__ call is
    [gen_next]. When it blocks, the returned state is the suspended one: calling
    [gen_next] again with more items resumes it. *)
From Verif Require Import PyBytes PyInt PyExn.

(** What queue[0].get() gives within keepalive_timeout, request.py:31-49 *)
Inductive inp := Data (d : bytes) | End | Late.

(** options['buffer_size'], options['client_max_body_size'] *)
(** http_request.py:210, 241; http_response.py:178-179 *)
Record opts := mkOpts { o_buffer_size : Z; o_max_body : Z }.

(** Request state used while reading. [sent100] counts the 100 responses sent. *)
Record rstate := mkR {
  items : list inp;
  consumed : Z;         (* body_consumed *)
  eof_ : bool;          (* _eof *)
  cont : bool;          (* http_continue *)
  clen : Z;             (* content_length *)
  chunked : bool;       (* b'chunked' in transfer_encoding *)
  sent100 : nat
}.

(** request.py:42, 48-49 *)
Definition set_items (s : rstate) (l : list inp) : rstate :=
  mkR l (consumed s) (eof_ s) (cont s) (clen s) (chunked s) (sent100 s).
(** request.py:48-51: an item is taken and counted. *)
Definition took (s : rstate) (d : bytes) (l : list inp) : rstate :=
  mkR l (consumed s + blen d) (eof_ s) (cont s) (clen s) (chunked s) (sent100 s).
(** http_request.py:252 *)
Definition set_eof (s : rstate) : rstate :=
  mkR (items s) (consumed s) true (cont s) (clen s) (chunked s) (sent100 s).
(** http_response.py:182-185 *)
Definition sent (s : rstate) : rstate :=
  mkR (items s) (consumed s) (eof_ s) (cont s) (clen s) (chunked s) (S (sent100 s)).

(** Result of one __anext__. *)
(** http_request.py:169-252 *)
Inductive out := OYield (d : bytes) | OStop | ORaise (e : exn) | OBlock.

(** One pass over the chunked loop body after the reading part
    (http_request.py:193-238). The clean-up written after each [yield] only touches
    the generator's own variables, so it is done here together with the yield. *)
Inductive pass :=
| PYield (d buf : bytes) (paused : bool) (unread : Z)
| PNeed                                  (* lines 216-217: read more *)
| PStop                                  (* line 226: break *)
| PRaise.                                (* BadRequest *)

(** http_request.py:220 *)
Definition chunk_line_size (line : bytes) : option Z :=
  match split_max (bs ";") 1 line with
  | p :: _ => py_int16 (bs "0x" ++ p)
  | [] => None
  end.

(** http_request.py:193-238 *)
Definition chunk_pass (o : opts) (buf : bytes) (unread : Z) : pass :=
  if (0 <? unread)%Z then                                     (* 193-205 *)
    let data := upto buf unread in
    let unread' := (unread - blen data)%Z in
    if (0 <? unread')%Z then PYield data (from buf unread) false unread'
    else PYield data (from (from buf unread) 2) true unread'
  else
    match find CRLF buf with                                   (* 207-217 *)
    | None => if (o_buffer_size o * 4 <? blen buf)%Z then PRaise else PNeed
    | Some i =>
        match chunk_line_size (firstn i buf) with              (* 219-223 *)
        | None => PRaise
        | Some n =>
            if (n <? 1)%Z then PStop                           (* 225-226 *)
            else                                               (* 228-238 *)
              let data := slice buf (Z.of_nat i + 2) (Z.of_nat i + 2 + n) in
              let unread' := (n - blen data)%Z in
              if (0 <? unread')%Z then PYield data [] false unread'
              else PYield data (from buf (n + Z.of_nat i + 4)) true unread'
        end
    end.

(** Where the generator of http_request.py:169-252 is. *)
Inductive gen :=
| GInit (raw : bool)                                            (* not started *)
| GChunk (buf : bytes) (paused : bool) (unread : Z) (adone : bool)
    (* suspended in the chunked loop; [adone]: the inner generator has finished *)
| GPlain                                                        (* suspended in line 244 *)
| GDone.

(** After a pass. [PNeed] does not occur here when the pass is final. *)
(** http_request.py:182-252 *)
Definition after_pass (s : rstate) (p : pass) (buf : bytes) (adone : bool) : out * rstate * gen :=
  match p with
  | PYield d buf' paused unread => (OYield d, s, GChunk buf' paused unread adone)
  | PStop => (OStop, set_eof s, GDone)                           (* 226, 252 *)
  | PRaise => (ORaise BadRequest, s, GDone)
  | PNeed => (OBlock, s, GChunk buf false 0 adone)
  end.

(** The loop from a state with [paused] false: read an item, then one pass
    (http_request.py:182-217). *)
Fixpoint chunk_read (o : opts) (l : list inp) (s : rstate) (buf : bytes) (unread : Z)
  : out * rstate * gen :=
  match l with
  | [] => (OBlock, set_items s [], GChunk buf false unread false)
  | Data d :: l' =>
      let s' := took s d l' in
      match chunk_pass o (buf ++ d) unread with
      | PNeed => chunk_read o l' s' (buf ++ d) unread
      | p => after_pass s' p (buf ++ d) false
      end
  | End :: l' =>                                                 (* 186-191 *)
      let s' := set_items s l' in
      if contains (CRLF ++ CRLF) buf then after_pass s' (chunk_pass o buf unread) buf true
      else (ORaise BadRequest, s', GDone)
  | Late :: l' => (ORaise TimeoutError, set_items s l', GDone)   (* request.py:41-44 *)
  end.

(** A finished inner generator raises StopAsyncIteration again. A pass asking for more
    data would spin; it cannot, since CRLF CRLF in the buffer makes [find] succeed. *)
(** http_request.py:184-191, with a finished request.py:30-52 *)
Definition chunk_over (o : opts) (s : rstate) (buf : bytes) (unread : Z) : out * rstate * gen :=
  if contains (CRLF ++ CRLF) buf then after_pass s (chunk_pass o buf unread) buf true
  else (ORaise BadRequest, s, GDone).

(** http_request.py:182-238 *)
Definition chunk_next (o : opts) (s : rstate) (buf : bytes) (paused : bool) (unread : Z) (adone : bool)
  : out * rstate * gen :=
  let read := if adone then chunk_over o s buf unread else chunk_read o (items s) s buf unread in
  if paused then
    match chunk_pass o buf unread with
    | PNeed => read
    | p => after_pass s p buf adone
    end
  else read.

(** http_request.py:244-252 *)
Definition plain_next (s : rstate) : out * rstate * gen :=
  match items s with
  | [] => (OBlock, s, GPlain)
  | Data d :: l' =>
      let s' := took s d l' in
      if ((-1 <? clen s) && (clen s <? consumed s'))%Z
      then (OYield (upto d (clen s - consumed s')), s', GPlain)
      else (OYield d, s', GPlain)
  | End :: l' => (OStop, set_eof (set_items s l'), GDone)
  | Late :: l' => (ORaise TimeoutError, set_items s l', GDone)
  end.

(** HTTPResponse.send_continue, http_response.py:176-186: [None] raises ExpectationFailed. *)
Definition send_continue (o : opts) (s : rstate) : option rstate :=
  if cont s then
    if (o_max_body o <? clen s)%Z then None else Some (sent s)
  else Some s.

(** __anext__ of HTTPRequest.stream(raw), http_request.py:169-252 *)
Definition gen_next (o : opts) (s : rstate) (g : gen) : out * rstate * gen :=
  match g with
  | GInit raw =>
      if eof_ s then (OStop, s, GDone)                            (* 170-171 *)
      else match send_continue o s with                           (* 173-174 *)
           | None => (ORaise ExpectationFailed, s, GDone)
           | Some s' =>
               if negb raw && chunked s' then chunk_next o s' [] false 0 false
               else if (o_max_body o <? clen s')%Z then (ORaise PayloadTooLarge, s', GDone)
               else plain_next s'
           end
  | GChunk buf paused unread adone => chunk_next o s buf paused unread adone
  | GPlain => plain_next s
  | GDone => (OStop, s, GDone)
  end.

(** [async for data in gen: ...] collecting the data. [FFuel] means that the fuel given
    was too small; [work] below always suffices. *)
(** http_request.py:137-138 *)
Inductive fin := FStop | FRaise (e : exn) | FBlock | FFuel.

(** http_request.py:137-138 *)
Fixpoint drain (fuel : nat) (o : opts) (s : rstate) (g : gen) : list bytes * fin * rstate * gen :=
  match fuel with
  | O => ([], FFuel, s, g)
  | S f =>
      match gen_next o s g with
      | (OYield d, s', g') =>
          let '(ys, r, s2, g2) := drain f o s' g' in (d :: ys, r, s2, g2)
      | (OStop, s', g') => ([], FStop, s', g')
      | (ORaise e, s', g') => ([], FRaise e, s', g')
      | (OBlock, s', g') => ([], FBlock, s', g')
      end
  end.

(** Enough fuel: bytes and items left. *)
(** No code: fuel for the loop of http_request.py:137-138. *)
Definition inp_work (i : inp) : nat := match i with Data d => S (List.length d) | _ => 1 end.
(** As above (137-138). *)
Definition items_work (l : list inp) : nat := list_sum (map inp_work l).
(** As above (137-138). *)
Definition gen_work (g : gen) : nat := match g with GChunk buf _ _ _ => List.length buf | _ => 0 end.
(** As above (137-138). *)
Definition work (s : rstate) (g : gen) : nat := S (items_work (items s) + gen_work g).

(** request.stream(raw) read to its end. *)
(** http_request.py:137, 169-252 *)
Definition stream (o : opts) (s : rstate) (raw : bool) : list bytes * fin * rstate * gen :=
  drain (work s (GInit raw)) o s (GInit raw).

(** Reader state: [_read_instance] and [_read_buf]. http_request.py:70-71 *)
Record reader := mkReader { rs : rstate; inst : option gen; rbuf : bytes }.

(** http_request.py:145-146 *)
Definition eof (r : reader) : bool := eof_ (rs r) && beqb (rbuf r) [].

(** What http_request.py:136-167 return or raise; still waiting; out of fuel (never). *)
Inductive rout := RRet (d : bytes) | RRaise (e : exn) | RBlock | RFuel.

(** [async for data in self._read_instance] of http_request.py:159-163; [None] means that
    it ended or was left by break. *)
Fixpoint fill (fuel : nat) (o : opts) (size : Z) (s : rstate) (g : gen) (buf : bytes)
  : option rout * rstate * gen * bytes :=
  match fuel with
  | O => (Some RFuel, s, g, buf)
  | S f =>
      match gen_next o s g with
      | (OYield d, s', g') =>
          if (size <=? blen (buf ++ d))%Z then (None, s', g', buf ++ d)
          else fill f o size s' g' (buf ++ d)
      | (OStop, s', g') => (None, s', g', buf)
      | (ORaise e, s', g') => (Some (RRaise e), s', g', buf)
      | (OBlock, s', g') => (Some RBlock, s', g', buf)
      end
  end.

(** HTTPRequest.recv, http_request.py:148-167; read(size) is recv(size, raw=False). *)
Definition recv (o : opts) (r : reader) (size : Z) (raw : bool) : rout * reader :=
  if (size =? 0)%Z || eof r then (RRet [], r)
  else
    let g := match inst r with Some g => g | None => GInit raw end in
    if (size =? -1)%Z then
      match gen_next o (rs r) g with
      | (OYield d, s', g') => (RRet d, mkReader s' (Some g') (rbuf r))
      | (OStop, s', g') => (RRaise StopAsyncIteration, mkReader s' (Some g') (rbuf r))
      | (ORaise e, s', g') => (RRaise e, mkReader s' (Some g') (rbuf r))
      | (OBlock, s', g') => (RBlock, mkReader s' (Some g') (rbuf r))
      end
    else
      let '(stop, s', g', buf) :=
        if (blen (rbuf r) <? size)%Z then fill (work (rs r) g) o size (rs r) g (rbuf r)
        else (None, rs r, g, rbuf r) in
      match stop with
      | Some e => (e, mkReader s' (Some g') buf)
      | None => (RRet (upto buf size), mkReader s' (Some g') (from buf size))
      end.

(** request.read(size), http_request.py:142-143 *)
Definition read (o : opts) (r : reader) (size : Z) : rout * reader := recv o r size false.

(** A request that has not been read yet. *)
(** http_request.py:69-71 *)
Definition fresh_reader (s : rstate) : reader := mkReader s None [].

(** request.body(raw), http_request.py:136-140; [acc] is self._body. Returns the bytes, or
    what interrupted it, with the new self._body. *)
Definition body (o : opts) (s : rstate) (raw : bool) (acc : bytes) : rout * rstate * bytes :=
  let '(ys, r, s', _) := stream o s raw in
  let acc' := acc ++ concat ys in
  (match r with
   | FStop => RRet acc'
   | FRaise e => RRaise e
   | FBlock => RBlock
   | FFuel => RFuel
   end, s', acc').
