(** Model of the head phase of HTTPProtocol.data_received
    (tremolo/lib/http_protocol.py:366-391). *)
From Verif Require Import PyBytes.

(** What one call does while [_header_buf] is not None. *)
(** The three ends of http_protocol.py:374-391. *)
Inductive head_out :=
| HWait (buf : bytes)                          (* keep waiting, _header_buf = buf *)
| HDispatch (data : bytes) (header_size : Z)   (* pause_reading, _handle_request(data, header_size) *)
| HAbort.                                      (* transport.abort() *)

(** http_protocol.py:366-391; [max] is options['client_max_header_size'].
    An empty [data] returns at once (lines 367-368). *)
Definition head_step (max : Z) (buf data : bytes) : head_out :=
  match data with
  | [] => HWait buf
  | _ =>
      let buf' := buf ++ data in
      let header_size := (pos (find (CRLF ++ CRLF) buf') + 2)%Z in
      if ((1 <? header_size) && (header_size <=? max))%Z then HDispatch buf' header_size
      else if (max <? header_size)%Z then HAbort
      else if negb ((header_size =? 1) && (blen buf' <=? max))%Z then HAbort
      else HWait buf'
  end.

(** Successive data_received calls (http_protocol.py:366-391); the result also has the calls not made (reading is
    paused after a dispatch, and the transport delivers nothing after an abort). *)
Fixpoint head_feed (max : Z) (buf : bytes) (segs : list bytes) : head_out * list bytes :=
  match segs with
  | [] => (HWait buf, [])
  | d :: segs' =>
      match head_step max buf d with
      | HWait buf' => head_feed max buf' segs'
      | o => (o, segs')
      end
  end.
