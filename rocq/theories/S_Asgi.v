(** Words for the statements about ASGI applications. *)
From Verif Require Import PyBytes M_Response S_Response S_Calls M_Asgi.

(** A header line that the server alone decides about: its own Date and Server, and no transfer coding but its own. *)
Definition guarded (e : renv) (lines : list bytes) : Prop :=
  Forall one_line lines /\ only_line (bs "date") (bs "Date: " ++ e_date e) lines /\ only_line (bs "server") (bs "Server: " ++ e_server e) lines /\
  forall y, In y lines -> field_name y = bs "transfer-encoding" -> y = bs "Transfer-Encoding: chunked".
(** A header name that is not a line of its own: no colon in it. [_line] is where the response keeps its status line. *)
Definition plain_name (n : bytes) : Prop := ~ In ":"%char n /\ lower n <> bs "_line".
Definition plain_event (ev : event) : Prop := match ev with Start _ hs => Forall (fun h => plain_name (fst h)) hs | Body _ _ => True end.
(** Nothing was sent, or a head and then whatever came behind it. *)
Definition sent_guarded (e : renv) (out : list (option bytes)) : Prop :=
  out = [] \/ exists first lines body rest, out = Some (head_of (first :: lines) ++ body) :: rest /\ one_line first /\ guarded e lines.
(** What an application asks for with the headers of http.response.start. *)
Definition wants (n : bytes) (hs : list (bytes * bytes)) : bool := existsb (fun h => beqb (lower (fst h)) n) hs.
Definition wants_close (hs : list (bytes * bytes)) : bool := existsb (fun h => beqb (lower (fst h)) (bs "connection") && beqb (lower (snd h)) (bs "close")) hs.
Definition lf_free (h : bytes * bytes) : Prop := one_line (fst h) /\ one_line (snd h).
(** Header names the server decides about, and the lines of an application's headers of another name. *)
Definition servers_own : list bytes := [bs "content-type"; bs "date"; bs "server"; bs "transfer-encoding"; bs "connection"; bs "_line"].
Definition app_lines (key : bytes) (hs : list (bytes * bytes)) : list bytes :=
  map (fun h => fst h ++ bs ": " ++ snd h) (filter (fun h => beqb (lower (fst h)) key) hs).
