(** Model of HTTPRequest.__init__ (tremolo/lib/http_request.py:36-71) and of the
    framing decisions in HTTPProtocol._handle_request
    (tremolo/lib/http_protocol.py:282-324). *)
From Verif Require Import PyBytes PyInt PyExn M_Parser.

(** The request attributes the framing step reads and writes.
    http_request.py:44-67. [content_type] may be a list if the header is repeated. *)
Record hreq := mkReq {
  rq_headers : hdict;
  rq_is_valid : bool;
  rq_host : option hval;
  rq_method : bytes;
  rq_url : bytes;
  rq_path : bytes;
  rq_query_string : bytes;
  rq_version : bytes;
  rq_content_length : Z;
  rq_content_type : hval;
  rq_transfer_encoding : bytes;
  rq_continue : bool;
  rq_keepalive : bool
}.

(** A method call such as .upper() on a header value: lists and ints raise. *)
(** http_request.py:52-54, http_protocol.py:286, 301, 317 *)
Definition as_bytes (v : option hval) : res bytes :=
  match v with Some (One (AB s)) => Ok s | _ => Raise AttributeError end.

(** http_request.py:47-50 *)
Definition init_host (h : header) : option hval :=
  match gethost h with
  | Some (Many (a :: _)) => Some (One a)
  | v => v
  end.

(** HTTPRequest.__init__, http_request.py:36-71 *)
Definition request_init (h : header) : res hreq :=
  let! method := as_bytes (getmethod h) in
  let! url := as_bytes (geturl h) in
  let '(path, _, query) := partition (bs "?") url in
  let version := match getversion h with
                 | Some (One (AB v)) => if beqb v (bs "1.0") then v else bs "1.1"
                 | _ => bs "1.1"
                 end in
  Ok (mkReq (headers h) (is_valid_request h) (init_host h) (upper method) url path query version
            (-1) (One (AB (bs "application/octet-stream"))) (bs "none") false false).

(** http_protocol.py:283 *)
Definition k_connection := bs "connection".
(** http_protocol.py:303 *)
Definition k_content_length := bs "content-length".
(** http_protocol.py:293 *)
Definition k_content_type := bs "content-type".
(** http_protocol.py:297 *)
Definition k_transfer_encoding := bs "transfer-encoding".
(** http_protocol.py:315 *)
Definition k_expect := bs "expect".

(** http_request.py:126-129 *)
Definition has_body (r : hreq) : bool :=
  hmem k_content_length (rq_headers r) || hmem k_transfer_encoding (rq_headers r).

(** http_protocol.py:283-289 *)
Definition keepalive_of (r : hreq) : res bool :=
  match hget k_connection (rq_headers r) with
  | Some v =>
      let! c := as_bytes (Some v) in
      Ok (negb (contains (bs ",close,") (bs "," ++ lower (replace (bs " ") [] c) ++ bs ",")))
  | None => Ok (beqb (rq_version r) (bs "1.1"))
  end.

(** http_protocol.py:297-301 *)
Definition transfer_encoding_of (r : hreq) : res bytes :=
  match hget k_transfer_encoding (rq_headers r) with
  | Some v =>
      if beqb (rq_version r) (bs "1.0") then Raise BadRequest
      else let! te := as_bytes (Some v) in Ok (lower te)
  | None => Ok (rq_transfer_encoding r)
  end.

(** http_protocol.py:303-313. Adding bytes to a list is a TypeError. *)
Definition content_length_of (r : hreq) (te : bytes) : res Z :=
  match hget k_content_length (rq_headers r) with
  | Some (One (AB v)) =>
      match py_int (bs "+" ++ v) with
      | None => Raise ValueError
      | Some n => if negb (beqb (fmt_d n) v) || contains (bs "chunked") te
                  then Raise BadRequest else Ok n
      end
  | Some _ => Raise TypeError
  | None => if beqb (rq_version r) (bs "1.0") then Raise BadRequest
            else Ok (rq_content_length r)
  end.

(** http_protocol.py:315-320 *)
Definition continue_of (r : hreq) : res bool :=
  match hget k_expect (rq_headers r) with
  | Some v => let! e := as_bytes (Some v) in Ok (beqb (lower e) (bs "100-continue"))
  | None => Ok false
  end.

(** http_protocol.py:283-324 without the queue operation of line 324; an exception
    leads to handle_exception (line 354). *)
Definition frame (r : hreq) : res hreq :=
  let! ka := keepalive_of r in
  if has_body r then
    let ct := match hget k_content_type (rq_headers r) with
              | Some v => v | None => rq_content_type r end in
    let! te := transfer_encoding_of r in
    let! cl := content_length_of r te in
    let! co := continue_of r in
    Ok (mkReq (rq_headers r) (rq_is_valid r) (rq_host r) (rq_method r) (rq_url r) (rq_path r)
              (rq_query_string r) (rq_version r) cl ct te co ka)
  else
    Ok (mkReq (rq_headers r) (rq_is_valid r) (rq_host r) (rq_method r) (rq_url r) (rq_path r)
              (rq_query_string r) (rq_version r) (rq_content_length r) (rq_content_type r)
              (rq_transfer_encoding r) (rq_continue r) ka).
