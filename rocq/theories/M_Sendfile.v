(** Model of HTTPResponse.sendfile (tremolo/lib/http_response.py:293-486).

    The file is opened, stat'ed and read on the thread pool; it is taken not to change
    meanwhile. The context of the connection keeps the open handle for later calls, which
    seek to 0 first (lines 318-327): [send_opened] is what comes after, with what the handle
    reads and what os.stat says of the path apart; [sendfile] is a call that opened the file;
    [sendfile_on] is any call on a connection. [boundary] is the random multipart boundary of lines 426-438. [k] are the
    keyword arguments passed on to write; its buffer_size is also the size of the reads. *)
From Verif Require Import PyBytes PyInt PyExn M_Response.
Local Open Scope Z_scope.

(** What sendfile reads of the request's headers: every value of the header, in order (the
    headers dict holds a list when there are several). *)
(** http_response.py:337-357, 466-467 *)
Record freq := mkFReq { f_range : list bytes; f_if_range : list bytes; f_ims : list bytes }.
(** The file: its bytes and its modification time as an HTTP date. *)
(** http_response.py:329-335 *)
Record ffile := mkFile { fl_bytes : bytes; fl_mdate : bytes }.

(** One range-spec, lines 371-402. A ValueError becomes a 400 (lines 403-404). *)
Definition parse_range (size : Z) (v0 : bytes) : res (Z * Z * Z) :=
  let v := strip_ws v0 in
  let bad := Raise BadRequest in
  if startswith (bs "-") v then
    match py_int v with
    | None => bad
    | Some n => let start := size + n in
                if start <? 0 then Raise RangeNotSatisfiable else Ok (start, size - 1, size - start)
    end
  else if endswith (bs "-") v then
    match py_int (upto v (-1)) with
    | None => bad
    | Some start => if size <=? start then Raise RangeNotSatisfiable else Ok (start, size - 1, size - start)
    end
  else
    match split_max (bs "-") 1 v with
    | [a; b] =>
        match py_int a, py_int b with
        | Some start, Some end0 =>
            let end_ := if end0 =? 0 then start else end0 in
            if (end_ <? start) || (size <=? end_) then Raise RangeNotSatisfiable
            else Ok (start, end_, end_ - start + 1)
        | _, _ => bad
        end
    | _ => bad
    end.
(** http_response.py:369-404 *)
Fixpoint parse_ranges (size : Z) (vs : list bytes) : res (list (Z * Z * Z)) :=
  match vs with
  | [] => Ok []
  | v :: vs' => let! r := parse_range size v in let! rs := parse_ranges size vs' in Ok (r :: rs)
  end.
(** Lines 355-404. *)
Definition range_header (size : Z) (values : list bytes) : res (list (Z * Z * Z)) :=
  if forallb (startswith (bs "bytes=")) values
  then parse_ranges size (split_max (bs ",") 100 (replace (bs "bytes=") [] (join (bs ",") values)))
  else Raise BadRequest.

(** handle.read(n) at a position *)
(** http_response.py:348, 421, 455, 482 *)
Definition read_at (file : bytes) (pos n : Z) : bytes := firstn (Z.to_nat n) (skipn (Z.to_nat pos) file).

(** while data: data = read(buffer_size); write(data, chunked=False). Lines 345-350, 479-484. *)
Fixpoint write_file (fuel : nat) (e : renv) (k : kw) (file : bytes) (pos : Z) : call unit :=
  match fuel with
  | O => done tt
  | S f =>
      let data := read_at file pos (k_bufsize k) in
      write e (Some data) (Some false) k ;;
      match data with [] => done tt | _ => write_file f e k file (pos + blen data) end
  end.
(** while size > 0: write(read(min(size, buffer_size))); size -= buffer_size. Lines 417-424, 451-459. *)
Fixpoint write_range (fuel : nat) (e : renv) (chunked : option bool) (k : kw) (file : bytes) (pos size : Z) : call unit :=
  match fuel with
  | O => done tt
  | S f =>
      if 0 <? size then
        let data := read_at file pos (Z.min size (k_bufsize k)) in
        write e (Some data) chunked k ;;
        write_range f e chunked k file (pos + blen data) (size - k_bufsize k)
      else done tt
  end.
(** Enough iterations: [size] shrinks by at least 1. *)
Definition range_fuel (size : Z) : nat := S (Z.to_nat size).

(** Lines 414-415, 447-448 *)
Definition content_range (start end_ size : Z) : bytes :=
  bs "bytes " ++ fmt_d start ++ bs "-" ++ fmt_d end_ ++ bs "/" ++ fmt_d size.
(** Lines 446-448 *)
Definition part_head (boundary ctype : bytes) (start end_ size : Z) : bytes :=
  bs "--" ++ boundary ++ CRLF ++ bs "Content-Type: " ++ ctype ++ CRLF
  ++ bs "Content-Range: " ++ content_range start end_ size ++ CRLF ++ CRLF.
(** Lines 444-461 *)
Fixpoint write_parts (e : renv) (k : kw) (boundary ctype file : bytes) (size : Z) (rs : list (Z * Z * Z)) : call unit :=
  match rs with
  | [] => done tt
  | (start, end_, n) :: rs' =>
      write e (Some (part_head boundary ctype start end_ size)) None k ;;
      write_range (range_fuel n) e None k file start n ;;
      write e (Some CRLF) None k ;;
      write_parts e k boundary ctype file size rs'
  end.

(** Lines 329-486. [file]: what the handle reads; [st_size], [mdate]: os.stat; [file_size] is the argument (0 when not given). *)
Definition send_opened (e : renv) (q : freq) (file : bytes) (st_size : Z) (mdate : bytes) (file_size : Z) (ctype boundary : bytes) (k : kw) : call unit :=
  let size := if file_size =? 0 then st_size else file_size in
  let full :=
    write_file (S (List.length file)) e k file 0 ;; close true in
  match e_11 e, f_range q with
  | true, _ :: _ =>
      if match f_if_range q with [] => false | [d] => negb (beqb d mdate) | _ => true end
      then
        set_content_type ctype ;;
        set_header (bs "Last-Modified") mdate ;;
        set_header (bs "Content-Length") (fmt_d size) ;;
        set_header (bs "Accept-Ranges") (bs "bytes") ;;
        full
      else
        match range_header size (f_range q) with
        | Raise x => raise x
        | Ok ranges =>
            set_status 206 (bs "Partial Content") ;;
            match ranges with
            | [(start, end_, n)] =>
                set_content_type ctype ;;
                set_header (bs "Content-Length") (fmt_d n) ;;
                set_header (bs "Content-Range") (content_range start end_ size) ;;
                write_range (range_fuel n) e (Some false) k file start n ;;
                close true
            | _ =>
                set_content_type (bs "multipart/byteranges; boundary=" ++ boundary) ;;
                write_parts e k boundary ctype file size ranges ;;
                write e (Some (bs "--" ++ boundary ++ bs "--" ++ CRLF)) None k ;;
                write e (Some []) None k ;;
                close true
            end
        end
  | _, _ =>
      if match f_ims q with [d] => beqb d mdate | _ => false end
      then set_status 304 (bs "Not Modified") ;; write e None None (mkKw true 16384 None)
      else
        set_content_type ctype ;;
        set_header (bs "Last-Modified") mdate ;;
        set_header (bs "Content-Length") (fmt_d size) ;;
        (if e_11 e then set_header (bs "Accept-Ranges") (bs "bytes") else done tt) ;;
        full
  end.
(** Lines 293-486, when the handle is of this file. *)
Definition sendfile (e : renv) (q : freq) (f : ffile) (file_size : Z) (ctype boundary : bytes) (k : kw) : call unit :=
  send_opened e q (fl_bytes f) (blen (fl_bytes f)) (fl_mdate f) file_size ctype boundary k.

(** The disk: which file a path is of, and the files. Lines 322, 329 *)
Record disk := mkDisk { d_name : bytes -> option nat; d_file : nat -> ffile }.
(** Lines 293-486 on a connection whose context has the handle [h] (RESPONSE_SENDFILE_HANDLE), and the handle that it has then. A path that does not exist is an
    OSError. *)
Definition sendfile_on (d : disk) (h : option nat) (path : bytes) (e : renv) (q : freq) (file_size : Z) (ctype boundary : bytes) (k : kw) : option nat * call unit :=
  match h, d_name d path with
  | Some i, Some j => (h, send_opened e q (fl_bytes (d_file d i)) (blen (fl_bytes (d_file d j))) (fl_mdate (d_file d j)) file_size ctype boundary k)
  | None, Some j => (Some j, sendfile e q (d_file d j) file_size ctype boundary k)
  | _, None => (h, raise OSError)
  end.
(** One call, with the response that it is called on, and calls of one connection one after the other: the disk may change in between. http_response.py:293-486,
    http_protocol.py:39 *)
Record job := mkJob { j_disk : disk; j_path : bytes; j_env : renv; j_req : freq; j_size : Z; j_ctype : bytes; j_boundary : bytes; j_kw : kw; j_rsp : rsp }.
(** http_response.py:293-486 *)
Fixpoint sendfiles (h : option nat) (js : list job) : list (res unit * rsp) :=
  match js with
  | [] => []
  | j :: js' =>
      let '(h', c) := sendfile_on (j_disk j) h (j_path j) (j_env j) (j_req j) (j_size j) (j_ctype j) (j_boundary j) (j_kw j) in
      c (j_rsp j) :: sendfiles h' js'
  end.
