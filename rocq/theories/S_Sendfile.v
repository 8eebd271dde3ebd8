(** What sendfile is to send, in words of S_Range.v, S_Response.v and S_Chunked.v. *)
From Verif Require Import PyBytes PyInt M_Response S_Response S_Calls S_Chunked M_Sendfile S_Range.
Local Open Scope Z_scope.

(** A content type without LF that does not start with whitespace. *)
Definition ctype_ok (c : bytes) : Prop := one_line c /\ lstrip_ws c = c.
(** Calls that leave the framing headers alone. *)
Definition unframed_call (h : hop) : Prop := ~ In (bs "transfer-encoding") (names h) /\ ~ In (bs "content-length") (names h).
Definition no_line (key : bytes) (lines : list bytes) : Prop := forall y, In y lines -> field_name y <> key.

(** When sendfile is to look at the Range header: HTTP/1.1, and If-Range, if given, is the
    date of the file. Otherwise If-Modified-Since may make it answer 304. *)
Definition uses_range (e : renv) (q : freq) (f : ffile) : Prop :=
  e_11 e = true /\ f_range q <> [] /\ (f_if_range q = [] \/ f_if_range q = [fl_mdate f]).
Definition not_modified (e : renv) (q : freq) (f : ffile) : Prop :=
  (e_11 e = false \/ f_range q = []) /\ f_ims q = [fl_mdate f].
(** The file_size argument: not given, or right. *)
Definition size_ok (f : ffile) (file_size : Z) : Prop := file_size = 0 \/ file_size = blen (fl_bytes f).

Definition ok_206 : Z * bytes := (206, bs "Partial Content").
(** Head lines of a single range and of several. *)
Definition single_lines (ctype : bytes) (size a b : Z) (lines : list bytes) : Prop :=
  only_line (bs "content-type") (bs "Content-Type: " ++ ctype) lines /\
  only_line (bs "content-length") (bs "Content-Length: " ++ fmt_d (b - a + 1)) lines /\
  only_line (bs "content-range") (range_line a b size) lines /\ no_line (bs "transfer-encoding") lines.
Definition multi_lines (boundary : bytes) (lines : list bytes) : Prop :=
  only_line (bs "content-type") (bs "Content-Type: multipart/byteranges; boundary=" ++ boundary) lines /\
  only_line (bs "transfer-encoding") (bs "Transfer-Encoding: chunked") lines /\ no_line (bs "content-length") lines.
Definition full_lines (ctype mdate : bytes) (size : Z) (lines : list bytes) : Prop :=
  only_line (bs "content-type") (bs "Content-Type: " ++ ctype) lines /\
  only_line (bs "content-length") (bs "Content-Length: " ++ fmt_d size) lines /\
  only_line (bs "last-modified") (bs "Last-Modified: " ++ mdate) lines /\ no_line (bs "transfer-encoding") lines.

(** The ranges [rs] of [file] sent as a complete response: one range as the body, several as
    a chunked multipart body. *)
Definition served (e : renv) (ctype boundary file : bytes) (keep : bool) (rs : list (Z * Z)) (s : rsp) : Prop :=
  exists lines items,
    r_out s = Some (head_of (status_line e ok_206 :: lines)) :: map Some items ++ [None] /\
    Forall one_line (status_line e ok_206 :: lines) /\ r_keep s = keep /\
    match rs with
    | [(a, b)] => single_lines ctype (blen file) a b lines /\ concat items = positions file a b
    | _ => multi_lines boundary lines /\
           exists cs, concat items = chunked_body cs (bs "0") [] CRLF /\ Forall good_chunk cs /\
             chunks_data cs = byteranges boundary ctype file rs
    end.
