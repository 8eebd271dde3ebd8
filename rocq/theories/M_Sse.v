(** Model of SSE (tremolo/lib/sse.py:6-43).

    str arguments are given by their UTF-8 bytes (line feeds of the text are the LF bytes, so
    stripping before or after encoding is the same); text that UTF-8 cannot carry raises and
    is left out. A falsy event or event_id (None, '', b'') is the empty string. *)
From Verif Require Import PyBytes PyInt PyExn M_Response.

(** The arguments of send, sse.py:16 *)
Record sse_msg := mkMsg { m_data : bytes; m_event : bytes; m_id : bytes; m_retry : Z }.

(** sse.py:12-14 *)
Definition sse_hops : list hop :=
  [HCtype (bs "text/event-stream"); HSet (bs "Cache-Control") (bs "no-cache, must-revalidate");
   HSet (bs "Expires") (bs "Thu, 01 Jan 1970 00:00:00 GMT")].

(** One turn of the loop of sse.py:25-33. *)
Definition sse_field (name value data : bytes) : res bytes :=
  match value with
  | [] => Ok data
  | _ => if memb LF value then Raise InternalServerError else Ok (data ++ LF :: name ++ bs ": " ++ value)
  end.

(** The bytes that send writes, sse.py:16-38. *)
Definition sse_text (m : sse_msg) : res bytes :=
  let data0 := strip [LF] (m_data m) in
  let data1 := if memb LF data0 then replace [LF] (LF :: bs "data: ") data0 else data0 in
  let! data2 := sse_field (bs "event") (m_event m) data1 in
  let! data3 := sse_field (bs "id") (m_id m) data2 in
  let data4 := if (m_retry m =? 0)%Z then data3 else data3 ++ LF :: bs "retry: " ++ fmt_d (m_retry m) in
  Ok (bs "data: " ++ data4 ++ [LF; LF]).

(** send, sse.py:16-38; write is called with its default arguments. *)
Definition sse_send (e : renv) (m : sse_msg) : call unit :=
  match sse_text m with
  | Ok t => write e (Some t) None (mkKw true 16384 None)
  | Raise x => raise x
  end.

(** close, sse.py:40-43 *)
Definition sse_close (e : renv) : call unit := write e (Some []) None kw_now ;; close true.

(** A handler that calls send for every message, catching what it raises, then close. *)
(** sse.py:16-43 *)
Fixpoint sse_session (e : renv) (ms : list sse_msg) : call unit :=
  match ms with
  | [] => sse_close e
  | m :: ms' => fun s => sse_session e ms' (snd (sse_send e m s))
  end.
