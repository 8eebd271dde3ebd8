(** Model of the exceptions of tremolo/lib/http_exceptions.py, of the default pages in tremolo/handlers.py, and of how handle_exception
    (tremolo/lib/http_protocol.py:198-265) turns an exception into a response with them.

    A str is the list of its code points; messages and content types are Latin-1 text, as bytes. [encode] is str.encode, by the name of the charset, where
    [None] is an exception; [tb] is what TracebackException.format gives. WebSocket exceptions are in M_Server.v (C52). *)
From Verif Require Import PyBytes PyInt PyExn PyUtf8 M_Response M_Utils M_Server.

(** Latin-1 text as a str; no code. handlers.py:37-41 *)
Definition text (b : bytes) : pystr := map N_of_ascii b.
(** sep.join(parts) for str. handlers.py:37, http_exceptions.py:12 *)
Fixpoint tjoin (sep : pystr) (parts : list pystr) : pystr :=
  match parts with [] => [] | [p] => p | p :: ps => p ++ sep ++ tjoin sep ps end.
(** s.replace(c, new) for a single character. *)
(** utils.py:23-24 *)
Definition trepl (c : N) (new : bytes) (s : pystr) : pystr := flat_map (fun x => if (x =? c)%N then text new else [x]) s.
(** utils.py:23-24: html.escape of CPython, which replaces one character after the other. *)
Definition html_escape_text (s : pystr) : pystr :=
  trepl 39 (bs "&#x27;") (trepl 34 (bs "&quot;") (trepl 62 (bs "&gt;") (trepl 60 (bs "&lt;") (trepl 38 (bs "&amp;") s)))).

(** ** Exceptions *)
(** http_exceptions.py:17-103 *)
Inductive cls := HTTPException_ | BadRequest | Unauthorized | Forbidden | NotFound | MethodNotAllowed | RequestTimeout | PreconditionFailed
  | PayloadTooLarge | RangeNotSatisfiable | ExpectationFailed | TooManyRequests | InternalServerError | ServiceUnavailable.
(** http_exceptions.py:18, 46, 51, 56, 61, 66, 71, 76, 81, 86, 91, 96, 105 *)
Definition cls_code (c : cls) : Z :=
  match c with
  | BadRequest => 400 | Unauthorized => 401 | Forbidden => 403 | NotFound => 404 | MethodNotAllowed => 405 | RequestTimeout => 408
  | PreconditionFailed => 412 | PayloadTooLarge => 413 | RangeNotSatisfiable => 416 | ExpectationFailed => 417 | TooManyRequests => 429
  | ServiceUnavailable => 503 | HTTPException_ | InternalServerError => 500
  end.
(** http_exceptions.py:19, 47, 52, 57, 62, 67, 72, 77, 82, 87, 92, 97, 106 *)
Definition cls_message (c : cls) : bytes :=
  match c with
  | BadRequest => bs "Bad Request" | Unauthorized => bs "Unauthorized" | Forbidden => bs "Forbidden" | NotFound => bs "Not Found"
  | MethodNotAllowed => bs "Method Not Allowed" | RequestTimeout => bs "Request Timeout" | PreconditionFailed => bs "Precondition Failed"
  | PayloadTooLarge => bs "Payload Too Large" | RangeNotSatisfiable => bs "Range Not Satisfiable" | ExpectationFailed => bs "Expectation Failed"
  | TooManyRequests => bs "Too Many Requests" | ServiceUnavailable => bs "Service Unavailable"
  | HTTPException_ | InternalServerError => bs "Internal Server Error"
  end.
(** An argument of an exception: a str, or an object of another type. http_exceptions.py:7-13 *)
Inductive arg := AStr (t : pystr) | AObj.
(** http_exceptions.py:17-42 *)
Record hexc := mkX { x_args : list arg; x_code : Z; x_message : bytes; x_ctype : bytes }.
(** HTTPException.__init__, http_exceptions.py:22-42. [None] for a keyword that is not given, or of the wrong type. *)
Definition new_exc (c : cls) (args : list arg) (code : option Z) (message ctype : option bytes) : hexc :=
  mkX args (match code with Some z => z | None => cls_code c end) (match message with Some m => m | None => cls_message c end)
      (match ctype with Some t => t | None => bs "text/html; charset=utf-8" end).
(** The strings of the arguments, if all of them are. http_exceptions.py:12 *)
Fixpoint all_str (l : list arg) : option (list pystr) :=
  match l with [] => Some [] | AStr t :: l' => option_map (cons t) (all_str l') | AObj :: _ => None end.
(** TremoloException.__str__, http_exceptions.py:10-14; [None] is the TypeError of str.join. *)
Definition str_exc (x : hexc) : option pystr :=
  match x_args x with [] => Some (text (x_message x)) | l => option_map (tjoin (text (bs " "))) (all_str l) end.

(** What was raised: an HTTPException, a TimeoutError, or another exception, with its str() (where [None] is that this raises). *)
(** http_protocol.py:228-231 *)
Inductive raised := RHttp (x : hexc) | RTimeout (s : option pystr) | ROther (s : option pystr).
(** str(exc), http_protocol.py:200 *)
Definition str_raised (r : raised) : option pystr := match r with RHttp x => str_exc x | RTimeout s | ROther s => s end.
(** The exception for the error handler, http_protocol.py:228-231. *)
Definition http_exc (r : raised) : hexc :=
  match r with RHttp x => x | RTimeout _ => new_exc RequestTimeout [] None None None | ROther _ => new_exc InternalServerError [] None None None end.
(** The same exception in M_Server.v; no code. *)
(** http_protocol.py:228-231 *)
Definition as_exc (r : raised) : exc :=
  match r with RHttp x => XHttp (x_code x) (x_message x) (x_ctype x) | RTimeout _ => XTimeout | ROther _ => XOther end.

(** ** Pages *)
(** handlers.py:17-31: the three yields of error_404 *)
Definition page_404 (path server : bytes) : list bytes :=
  [bs "<!DOCTYPE html><html lang=""en""><head><meta name=""viewport"" " ++ bs "content=""width=device-width, initial-scale=1.0"" />" ++
   bs "<title>404 Not Found</title>" ++ bs "<style>body { max-width: 600px; margin: 0 auto; padding: 1%; " ++
   bs "font-family: sans-serif; line-height: 1.5em; }</style></head>" ++ bs "<body><h1>Not Found</h1>";
   bs "<p>Unable to find handler for " ++ html_escape path ++ bs ".</p><hr />";
   bs "<address title=""Powered by Tremolo"">" ++ server ++ bs "</address>" ++ bs "</body></html>"].
(** tremolo.py:43-44: the options of that handler, status=(404, ...) and stream=False, with the response in a state where nothing was set before. *)
Definition hops_404 : list hop := [HStatus 404 (bs "Not Found"); HBase].
(** http_server.py:154-218 with these options *)
Definition respond_404 (e : renv) (path : bytes) (bufsize : Z) : call unit :=
  match page_404 path (e_server e) with
  | y0 :: ys => respond_stream e (mkHOpts None false bufsize) [] y0 ys
  | [] => done tt
  end.
(** handlers.py:34-41: error_500. [lines] is list(te.format()). *)
Definition page_500 (debug : bool) (lines : list pystr) (x : hexc) : option pystr :=
  if debug then Some (text (bs "<ul><li>") ++ tjoin (text (bs "</li><li>")) (map html_escape_text lines) ++ text (bs "</li></ul>"))
  else str_exc x.

(** ** The response *)
(** str.lstrip(), str.strip() for Latin-1 text, http_protocol.py:253, 256 *)
Definition str_space (c : byte) : bool :=
  let n := nat_of_ascii c in ((9 <=? n) && (n <=? 13)) || ((28 <=? n) && (n <=? 32)) || (n =? 133) || (n =? 160).
(** http_protocol.py:252-261: the loop over the parts of the content type *)
Fixpoint charset_in (parts : list bytes) : bytes :=
  match parts with
  | [] => bs "utf-8"
  | v :: parts' =>
      let v := lstrip_by str_space v in
      if startswith (bs "charset=") v then
        let charset := strip_by str_space (skipn 8 v) in if beqb charset [] then bs "utf-8" else charset
      else charset_in parts'
  end.
(** http_protocol.py:250-261 *)
Definition charset_of (ctype : bytes) : bytes := charset_in (split_max (bs ";") 100 ctype).

Section Pages.
Variables (encode : bytes -> pystr -> option bytes) (tb : hexc -> list pystr).
(** handle_error_500 with the default handler, and the encoding of its result: http_protocol.py:243-263, http_server.py:341-345. *)
Definition default_500 (debug : bool) (r : raised) : edata :=
  match page_500 debug (tb (http_exc r)) (http_exc r) with
  | Some t => match encode (charset_of (x_ctype (http_exc r))) t with Some b => EData b | None => EUnencodable end
  | None => ERaised XOther
  end.
(** handle_exception with the default error handler; print_exception (198-202, 212-214) comes before everything else, and evaluates str(exc).
    http_protocol.py:198-265 *)
Definition handle_raised (e : renv) (debug : bool) (r : raised) (s : rsp) : pout * rsp :=
  if headers_sent s && negb (r_up s) then (Aborted, s)
  else match str_raised r with
       | None => (Escaped XOther, s)
       | Some _ => handle_exception e (fun _ s => (default_500 debug r, s)) (as_exc r) s
       end.
End Pages.
