(** Model of the dates in responses: server_date (tremolo/utils.py:48-50), the expiry of set_cookie (tremolo/lib/http_response.py:82-97) and the date of
    sendfile (tremolo/lib/http_response.py:329-334).

    [loc]: the locale in force (LC_TIME). Names that are not Latin-1 text make encode() raise; this is left out. The modification time is the
    float st_mtime rounded down. *)
From Verif Require Import PyBytes PyInt PyTime M_Response M_Sendfile.
Local Open Scope Z_scope.

(** utils.py:50, http_response.py:90, 333 *)
Definition date_format : bytes := bs "%a, %d %b %Y %H:%M:%S GMT".
(** utils.py:48-50; http_response.py:333-334 *)
Definition http_date (loc : locale) (t : Z) : bytes := strftime loc date_format (gmtime t).
(** datetime.now() + timedelta(seconds=expires) is a date up to the year 9999, or an OverflowError. http_response.py:88-92 *)
Definition cookie_date (loc : locale) (now expires : Z) : option bytes :=
  let y := t_year (gmtime (now + expires)) in
  if (1 <=? y) && (y <=? 9999) then Some (http_date loc (now + expires)) else None.
(** set_cookie with the clock, http_response.py:82-111 *)
Definition set_cookie_at (loc : locale) (now : Z) (name value : bytes) (expires : Z) (path domain samesite : bytes) (secure httponly : bool) : option bytes :=
  match cookie_date loc now expires with
  | Some date => Some (cookie_text name value date expires path domain samesite secure httponly)
  | None => None
  end.
(** The file as sendfile sees it: os.stat and its bytes, http_response.py:329-334 *)
Definition file_at (loc : locale) (mtime : Z) (content : bytes) : ffile := mkFile content (http_date loc mtime).
