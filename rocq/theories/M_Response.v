(** Model of HTTPResponse (tremolo/lib/http_response.py:25-291) and Response
    (tremolo/lib/response.py).

    Header names and values are bytes: str arguments are encoded as latin-1 first, which is
    not modelled. [r_out] are the items put on queue[1] while this response was written
    (queue.py), None being the end marker; consuming them is modelled elsewhere. A throttled
    send leaves its pieces in the queue in order; being stopped by a full queue, which
    aborts the connection (http_protocol.py:151-156), is modelled in M_Upload.v only.
    set_watermarks has no effect on what is sent and is left out. *)
From Verif Require Import PyBytes PyInt PyExn PyUrl.

(** What the response reads of its request and server: request.version == b'1.1' (the only
    other value is b'1.0', http_request.py:55-58), request.method, server_info. *)
Record renv := mkEnv { e_11 : bool; e_method : bytes; e_date : bytes; e_server : bytes }.
(** http_request.py:55-58 *)
Definition version (e : renv) : bytes := if e_11 e then bs "1.1" else bs "1.0".

(** http_response.py:35 *)
Definition hdict := list (bytes * list bytes).
(** http_response.py:64-65, 132, 155 *)
Definition hget (k : bytes) (d : hdict) := dget beqb k d.
(** http_response.py:67, 123, 243 *)
Definition hset (k : bytes) (v : list bytes) (d : hdict) := dset beqb k v d.
(** http_response.py:140, 162, 281 *)
Definition hdel (k : bytes) (d : hdict) := ddel beqb k d.
(** http_response.py:64, 132, 155, 228 *)
Definition hmem (k : bytes) (d : hdict) := dmem beqb k d.

(** [r_headers] is None once the head was sent. The two stacks have their top first.
    [r_keep] and [r_up] are request.http_keepalive and request.upgraded. *)
(** http_response.py:26-40, response.py:5-9, http_request.py:65-66 *)
Record rsp := mkRsp {
  r_headers : option hdict;
  r_chunked : bool;
  r_status : list (Z * bytes);
  r_ctype : list bytes;
  r_buf : bytes;
  r_out : list (option bytes);
  r_keep : bool;
  r_up : bool
}.
(** A new HTTPResponse, http_response.py:32-40 *)
Definition new_rsp (keep : bool) : rsp := mkRsp (Some []) false [] [] [] [] keep false.

(** self._headers, http_response.py:35 *)
Definition with_headers (s : rsp) (d : hdict) : rsp :=
  mkRsp (Some d) (r_chunked s) (r_status s) (r_ctype s) (r_buf s) (r_out s) (r_keep s) (r_up s).
(** http_response.py:51 *)
Definition with_sent (s : rsp) : rsp :=
  mkRsp None (r_chunked s) (r_status s) (r_ctype s) (r_buf s) (r_out s) (r_keep s) (r_up s).
(** http_response.py:238-241 *)
Definition with_chunked (s : rsp) (b : bool) : rsp :=
  mkRsp (r_headers s) b (r_status s) (r_ctype s) (r_buf s) (r_out s) (r_keep s) (r_up s).
(** http_response.py:136, 144 *)
Definition with_status (s : rsp) (l : list (Z * bytes)) : rsp :=
  mkRsp (r_headers s) (r_chunked s) l (r_ctype s) (r_buf s) (r_out s) (r_keep s) (r_up s).
(** http_response.py:158, 165 *)
Definition with_ctype (s : rsp) (l : list bytes) : rsp :=
  mkRsp (r_headers s) (r_chunked s) (r_status s) l (r_buf s) (r_out s) (r_keep s) (r_up s).
(** response.py:14, 35, 46-52 *)
Definition with_out (s : rsp) (buf : bytes) (out : list (option bytes)) : rsp :=
  mkRsp (r_headers s) (r_chunked s) (r_status s) (r_ctype s) buf out (r_keep s) (r_up s).
(** http_response.py:172, 260, 271 *)
Definition with_keep (s : rsp) (b : bool) : rsp :=
  mkRsp (r_headers s) (r_chunked s) (r_status s) (r_ctype s) (r_buf s) (r_out s) b (r_up s).
(** http_response.py:255 *)
Definition with_up (s : rsp) (b : bool) : rsp :=
  mkRsp (r_headers s) (r_chunked s) (r_status s) (r_ctype s) (r_buf s) (r_out s) (r_keep s) b.

(** A method call (of http_response.py:25-486): its result or exception, and the state it leaves. *)
Definition call (A : Type) := rsp -> res A * rsp.
(** return; http_response.py:42-291 *)
Definition done {A} (a : A) : call A := fun s => (Ok a, s).
(** raise; http_response.py:42-291 *)
Definition raise {A} (e : exn) : call A := fun s => (Raise e, s).
(** One statement after another; http_response.py:42-291 *)
Definition seq {A B} (m : call A) (f : A -> call B) : call B :=
  fun s => match m s with (Ok a, s') => f a s' | (Raise e, s') => (Raise e, s') end.
Notation "'run' x '<-' m 'in' k" := (seq m (fun x => k))
  (at level 200, x pattern, m at level 100, k at level 200).
Notation "m ;; k" := (seq m (fun _ => k)) (at level 100, k at level 200, right associativity).
(** An assignment; http_response.py:42-291 *)
Definition update (f : rsp -> rsp) : call unit := fun s => (Ok tt, f s).

(** The [headers] property, http_response.py:42-47. *)
Definition get_headers : call hdict :=
  fun s => match r_headers s with Some d => (Ok d, s) | None => (Raise InternalServerError, s) end.
(** self.headers[...] = ..., http_response.py:67, 123, 243 *)
Definition put_headers (d : hdict) : call unit := update (fun s => with_headers s d).
(** headers_sent(), http_response.py:49-53 *)
Definition headers_sent (s : rsp) : bool := match r_headers s with None => true | _ => false end.

(** http_response.py:65, 67, 123 *)
Definition header_line (name value : bytes) : bytes := name ++ bs ": " ++ value.

(** http_response.py:55-67 *)
Definition append_header (name value : bytes) : call unit :=
  run d <- get_headers in
  put_headers (match hget (lower name) d with
               | Some l => hset (lower name) (l ++ [header_line name value]) d
               | None => hset (lower name) [header_line name value] d
               end).

(** http_response.py:113-123 *)
Definition set_header (name value : bytes) : call unit :=
  if memb LF name || memb LF value then raise InternalServerError
  else run d <- get_headers in put_headers (hset (lower name) [header_line name value] d).

(** http_response.py:69-80 *)
Definition set_base_header (e : renv) : call unit :=
  fun s =>
    match r_headers s with
    | None => (Ok tt, s)
    | Some (_ :: _) => (Ok tt, s)
    | Some [] => (set_header (bs "Date") (e_date e) ;; set_header (bs "Server") (e_server e)) s
    end.

(** set_cookie, http_response.py:82-111. [value], [path], [domain] and [samesite] are the
    UTF-8 bytes of the str arguments, [date] the formatted expiry time; an empty domain or
    samesite stands for the falsy arguments (None, ''). *)
Definition cookie_text (name value date : bytes) (expires : Z) (path domain samesite : bytes)
    (secure httponly : bool) : bytes :=
  name ++ bs "=" ++ quote value ++ bs "; expires=" ++ date ++ bs "; max-age=" ++ fmt_d expires
  ++ bs "; path=" ++ quote path
  ++ (match domain with [] => [] | _ => bs "; domain=" ++ quote domain end)
  ++ (match samesite with [] => [] | _ => bs "; samesite=" ++ quote samesite end)
  ++ (if secure then bs "; secure" else []) ++ (if httponly then bs "; httponly" else []).
(** http_response.py:82-111 *)
Definition set_cookie (name value date : bytes) (expires : Z) (path domain samesite : bytes)
    (secure httponly : bool) : call unit :=
  let cookie := cookie_text name value date expires path domain samesite secure httponly in
  if memb LF cookie then raise InternalServerError
  else append_header (bs "Set-Cookie") cookie.

(** http_response.py:132 *)
Definition k_line := bs "_line".
(** http_response.py:155 *)
Definition k_ctype := bs "content-type".

(** l[i] = x for a list; [None] is IndexError. http_response.py:133-134 *)
Fixpoint list_set {A} (l : list A) (i : nat) (x : A) : option (list A) :=
  match l, i with
  | [], _ => None
  | _ :: l', O => Some (x :: l')
  | y :: l', S i' => option_map (cons y) (list_set l' i' x)
  end.

(** http_response.py:125-136 *)
Definition set_status (status : Z) (message : bytes) : call unit :=
  if memb LF message then raise InternalServerError
  else
    run d <- get_headers in
    match hget k_line d with
    | Some l =>
        match list_set l 1 (fmt_d status) with
        | None => raise IndexError
        | Some l1 =>
            match list_set l1 2 message with
            | None => put_headers (hset k_line l1 d) ;; raise IndexError
            | Some l2 => put_headers (hset k_line l2 d)
            end
        end
    | None => update (fun s => with_status s ((status, message) :: r_status s))
    end.

(** http_response.py:138-146. int(status) may raise ValueError. *)
Definition get_status : call (Z * bytes) :=
  run d <- get_headers in
  match hget k_line d with
  | Some l =>
      put_headers (hdel k_line d) ;;
      match l with
      | [_; status; message] =>
          match py_int status with Some n => done (n, message) | None => raise ValueError end
      | _ => raise ValueError
      end
  | None =>
      fun s => match r_status s with
               | x :: l => (Ok x, with_status s l)
               | [] => (Ok (200%Z, bs "OK"), s)
               end
  end.

(** http_response.py:148-158 *)
Definition set_content_type (content_type : bytes) : call unit :=
  if memb LF content_type then raise InternalServerError
  else
    run d <- get_headers in
    if hmem k_ctype d then put_headers (hset k_ctype [bs "Content-Type: " ++ content_type] d)
    else update (fun s => with_ctype s (content_type :: r_ctype s)).

(** http_response.py:160-167 *)
Definition get_content_type : call bytes :=
  run d <- get_headers in
  match hget k_ctype d with
  | Some l =>
      put_headers (hdel k_ctype d) ;;
      match l with
      | v :: _ => done (lstrip_ws (skipn 13 v))
      | [] => raise IndexError
      end
  | None =>
      fun s => match r_ctype s with
               | x :: l => (Ok x, with_ctype s l)
               | [] => (Ok (bs "text/html; charset=utf-8"), s)
               end
  end.

(** The header API as data, to speak of sequences of calls. *)
(** http_response.py:55-158 *)
Inductive hop :=
| HSet (name value : bytes)
| HAppend (name value : bytes)
| HCookie (name value date : bytes) (expires : Z) (path domain samesite : bytes) (secure httponly : bool)
| HStatus (status : Z) (message : bytes)
| HCtype (content_type : bytes)
| HBase.
(** http_response.py:55-158 *)
Definition do_hop (e : renv) (h : hop) : call unit :=
  match h with
  | HSet n v => set_header n v
  | HAppend n v => append_header n v
  | HCookie n v d x p dm ss se ho => set_cookie n v d x p dm ss se ho
  | HStatus z m => set_status z m
  | HCtype c => set_content_type c
  | HBase => set_base_header e
  end.
(** A caller that catches the exceptions. *)
(** http_response.py:55-158, one call after another. *)
Fixpoint do_hops (e : renv) (l : list hop) (s : rsp) : rsp :=
  match l with [] => s | h :: l' => do_hops e l' (snd (do_hop e h s)) end.

(** The pieces a throttled write leaves in the queue: put_to_queue, http_protocol.py:146-160,
    run to its end. *)
Fixpoint pieces (fuel : nat) (n : nat) (data : bytes) : list bytes :=
  match fuel with
  | O => []
  | S f => match data with [] => [] | _ => firstn n data :: pieces f n (skipn n data) end
  end.
(** http_protocol.py:146-160 *)
Definition put_pieces (buffer_size : Z) (data : bytes) : list bytes :=
  pieces (S (List.length data)) (Z.to_nat buffer_size) data.

(** Keyword arguments of send: throttle, buffer_size, buffer_min_size. *)
(** response.py:21-24 *)
Record kw := mkKw { k_throttle : bool; k_bufsize : Z; k_min : option Z }.
(** http_response.py:184, 217, 283 *)
Definition kw_now : kw := mkKw false 16384 None.            (* throttle=False *)

(** Response.close, response.py:11-16 *)
Definition flush_close (s : rsp) : rsp :=
  with_out s [] (r_out s ++ (match r_buf s with [] => [] | b => [Some b] end) ++ [None]).

(** Response.send, response.py:18-53. [k_bufsize] is at least 1. *)
Definition send (data : option bytes) (k : kw) : call unit :=
  fun s =>
    match data with
    | None => (Ok tt, flush_close s)
    | Some d =>
        if match k_min k with Some m => (blen (r_buf s) <? m)%Z | None => false end
        then (Ok tt, with_out s (r_buf s ++ d) (r_out s))
        else
          let all := r_buf s ++ d in
          (Ok tt, with_out s []
             (r_out s ++ (if k_throttle k then map Some (put_pieces (k_bufsize k) all) else [Some all])))
    end.

(** HTTPResponse.close, http_response.py:169-174 *)
Definition close (keepalive : bool) : call unit :=
  update (fun s => flush_close (if keepalive then s else with_keep s false)).

(** http_response.py:199, 234-235 *)
Definition no_content (status : Z) : bool :=
  ((status =? 204) || (status =? 205) || (status =? 304) || ((100 <=? status) && (status <? 200)))%Z.
(** http_response.py:198, 269 *)
Definition is_head (e : renv) : bool := beqb (e_method e) (bs "HEAD").

(** http_response.py:214-216, 282 *)
Definition join_lines (vs : list (list bytes)) : bytes := join CRLF (map (join CRLF) vs).

(** end, http_response.py:188-222. [min] is the buffer_min_size keyword, if given. *)
Definition excluded (k : bytes) : bool :=
  beqb k (bs "connection") || beqb k (bs "content-length") || beqb k (bs "transfer-encoding").
(** http_response.py:287-291 *)
Definition write_body (data : option bytes) (k : kw) : call unit :=         (* 287-291 *)
  fun s =>
    match data with
    | Some d =>
        if r_chunked s && negb (r_up s)
        then send (Some (fmt_X (blen d) ++ CRLF ++ d ++ CRLF)) k s
        else send (Some d) k s
    | None => send None k s
    end.
(** http_response.py:188-222 *)
Definition end_ (e : renv) (data : bytes) (keepalive : bool) (min : option Z) : call unit :=
  (fun s =>
     if headers_sent s then write_body (Some data) (mkKw false 16384 None) s   (* 189-190, 287-291 *)
     else
       (set_base_header e ;;
        run status <- get_status in
        let content_length := blen data in
        let data' := if ((0 <? content_length) && (is_head e || no_content (fst status)))%bool%Z
                     then [] else data in
        run ct <- get_content_type in
        run d <- get_headers in
        run keep <- (fun s => (Ok (keepalive && r_keep s), s)) in
        send (Some (bs "HTTP/" ++ version e ++ bs " " ++ fmt_d (fst status) ++ bs " " ++ snd status ++ CRLF
                    ++ bs "Content-Type: " ++ ct ++ CRLF
                    ++ bs "Content-Length: " ++ fmt_d content_length ++ CRLF
                    ++ bs "Connection: " ++ (if keep then bs "keep-alive" else bs "close") ++ CRLF
                    ++ join_lines (map snd (filter (fun kv => negb (excluded (fst kv))) d)) ++ CRLF ++ CRLF ++ data'))
             (mkKw false 16384 min) ;;
        update with_sent) s) ;;
  close keepalive.

(** The status line and headers of write, http_response.py:227-278: builds b'_line' and the
    framing headers when no handler did, and says whether a body may follow. *)
Definition prepare (e : renv) (chunked : option bool) : call bool :=
  run d <- get_headers in
  if hmem k_line d then done true
  else
    set_base_header e ;;
    run status <- get_status in
    let nc := no_content (fst status) in
    update (fun s => with_chunked s (match chunked with Some b => b | None => e_11 e && negb nc end)) ;;
    run d <- get_headers in
    put_headers (hset k_line [bs "HTTP/" ++ version e; fmt_d (fst status); snd status] d) ;;
    (if nc then done tt
     else run ct <- get_content_type in set_header (bs "Content-Type") ct) ;;
    run s <- (fun s => (Ok s, s)) in
    (if r_chunked s then set_header (bs "Transfer-Encoding") (bs "chunked") else done tt) ;;
    (if r_keep s then
       run d <- get_headers in
       update (fun s' => if (fst status =? 101)%Z then with_up s' true
                         else if r_chunked s || hmem (bs "content-length") d then s'
                         else with_keep s' false) ;;
       set_header (bs "Connection")
         (if ((fst status =? 101) || (fst status =? 426))%Z then bs "upgrade" else bs "keep-alive")
     else set_header (bs "Connection") (bs "close")) ;;
    if is_head e || nc then
      update (fun s => if ((fst status =? 101) || (fst status =? 426))%Z then s else with_keep s false) ;;
      done false
    else done true.

(** The head, http_response.py:280-285. *)
Definition head_bytes (d : hdict) : option bytes :=
  match hget k_line d with
  | Some l => Some (join [SP] l ++ CRLF ++ join_lines (map snd (hdel k_line d)) ++ CRLF ++ CRLF)
  | None => None
  end.
(** http_response.py:280-285 *)
Definition send_head : call unit :=
  run d <- get_headers in
  match head_bytes d with
  | Some h => put_headers (hdel k_line d) ;; send (Some h) kw_now ;; update with_sent
  | None => raise KeyError
  end.

(** write, http_response.py:224-291. *)
Definition write (e : renv) (data : option bytes) (chunked : option bool) (k : kw) : call unit :=
  fun s =>
    if headers_sent s then write_body data k s
    else (run body <- prepare e chunked in
          send_head ;; write_body (if body then data else None) k) s.

(** ** Sending what a handler produced: the part of HTTPServer._handle_response
    (tremolo/http_server.py:137-260) that follows the handler's first result, where
    response middlewares are given by the header calls [mid] that they make. [h_chunked] is the route option 'chunked', [h_stream] the option
    'stream', [h_buf] the buffer_size in force. *)
Record hopts := mkHOpts { h_chunked : option bool; h_stream : bool; h_buf : Z }.

(** http_server.py:137-152: status line and framing headers. Returns status
    and no_content. *)
Definition start_response (e : renv) (o : hopts) : call (Z * bool) :=
  run status <- get_status in
  let nc := no_content (fst status) in
  update (fun s => with_chunked s (match h_chunked o with Some b => b | None => e_11 e && negb nc end)) ;;
  run d <- get_headers in
  put_headers (hset k_line [bs "HTTP/" ++ version e; fmt_d (fst status); snd status] d) ;;
  (if nc then done tt
   else run ct <- get_content_type in set_header (bs "Content-Type") ct) ;;
  run s <- (fun s => (Ok s, s)) in
  (if r_chunked s then set_header (bs "Transfer-Encoding") (bs "chunked") else done tt) ;;
  done (fst status, nc).

(** Calls of the header API made by a middleware; an exception ends the response. *)
(** http_server.py:59-65 *)
Fixpoint do_mid (e : renv) (l : list hop) : call unit :=
  match l with [] => done tt | h :: l' => do_hop e h ;; do_mid e l' end.

(** Lines 201-218: the yields after the first; empty ones are skipped. *)
Fixpoint write_yields (e : renv) (k : kw) (ys : list bytes) : call unit :=
  match ys with
  | [] => write e (Some []) None (mkKw false (k_bufsize k) (k_min k))
  | y :: ys' =>
      (match y with [] => done tt | _ => write e (Some y) None k end) ;; write_yields e k ys'
  end.

(** An async generator handler that yields [y0], then [ys], then ends. http_server.py:154-218, 260 *)
Definition respond_stream (e : renv) (o : hopts) (mid : list hop) (y0 : bytes) (ys : list bytes) : call unit :=
  run (status, nc) <- start_response e o in
  run s <- (fun s => (Ok s, s)) in
  (if r_keep s then
     run d <- get_headers in
     update (fun s' => if (status =? 101)%Z then with_up s' true
                       else if r_chunked s || hmem (bs "content-length") d then s'
                       else with_keep s' false) ;;
     set_header (bs "Connection")
       (if ((status =? 101) || (status =? 426))%Z then bs "upgrade" else bs "keep-alive")
   else set_header (bs "Connection") (bs "close")) ;;
  do_mid e mid ;;
  if is_head e || nc then write e None None (mkKw true 16384 None)
  else
    let k := mkKw true (h_buf o) (if h_stream o then None else Some (h_buf o / 2)%Z) in
    (match y0 with [] => done tt | _ => write e (Some y0) None k end) ;;
    write_yields e k ys ;;
    close true.

(** A handler that returns bytes. http_server.py:219-260. A str is encoded first. *)
Definition respond_value (e : renv) (o : hopts) (mid : list hop) (data : bytes) : call unit :=
  run (_, nc) <- start_response e o in
  run s <- (fun s => (Ok s, s)) in
  (if nc || r_chunked s then done tt else set_header (bs "Content-Length") (fmt_d (blen data))) ;;
  set_header (bs "Connection") (if r_keep s then bs "keep-alive" else bs "close") ;;
  do_mid e mid ;;
  if is_head e || nc then write e None None (mkKw true 16384 None)
  else
    (match data with [] => done tt | _ => write e (Some data) None (mkKw true (h_buf o) None) end) ;;
    write e (Some []) None kw_now ;;
    close true.
