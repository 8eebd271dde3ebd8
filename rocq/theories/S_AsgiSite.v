(** The words of C78: a client that writes requests to an ASGI application and reads responses, and what it should get. *)
From Verif Require Import PyBytes PyInt PyUtf8 M_Conn M_Framing M_Response M_Scope M_Asgi M_AsgiSite S_Head S_Num S_Scope S_Response S_Calls S_Asgi S_Conn S_Site.

(** ** The client *)
(** A response as it is read: status line, header lines, body. *)
Record answer := mkAnswer { r_line : bytes; r_lines : list bytes; r_data : bytes }.
(** The text of a header line: what follows the first colon, without the spaces around it. *)
Definition field_text (line : bytes) : bytes := trim_ows (skipn (match find (bs ":") line with Some i => S i | None => List.length line end) line).
(** A decimal number. *)
Definition number (t : bytes) : option nat :=
  match t with
  | [] => None
  | _ => if forallb (fun c => (48 <=? N_of_ascii c)%N && (N_of_ascii c <=? 57)%N) t then Some (Z.to_nat (dec_value 0 t)) else None
  end.
(** Chunked, or as long as all lines Content-Length say (RFC 9112, 6.3); nothing else. *)
Definition read_answer (w : bytes) : option (answer * bytes) :=
  match read_head (S (List.length w)) w with
  | Some (first :: lines, rest) =>
      if existsb (fun l => beqb (field_name l) (bs "transfer-encoding") && beqb l (bs "Transfer-Encoding: chunked")) lines then
        match read_chunks (S (List.length rest)) rest with Some (d, rest') => Some (mkAnswer first lines d, rest') | None => None end
      else
        match map field_text (filter (fun l => beqb (field_name l) (bs "content-length")) lines) with
        | t :: ts =>
            match (if forallb (beqb t) ts then number t else None) with
            | Some n => if (n <=? List.length rest)%nat then Some (mkAnswer first lines (firstn n rest), skipn n rest) else None
            | None => None
            end
        | [] => None
        end
  | _ => None
  end.
Fixpoint read_answers (n : nat) (w : bytes) : option (list answer * bytes) :=
  match n with
  | O => Some ([], w)
  | S n' =>
      match read_answer w with
      | Some (x, rest) => match read_answers n' rest with Some (l, rest') => Some (x :: l, rest') | None => None end
      | None => None
      end
  end.

(** ** The application *)
(** The scope that a request should be told with (as in C63; the path is decoded as Latin-1). *)
Definition told (y : asite) (c : call) (sc : scope) : Prop :=
  exists path query decoded scheme client,
    target (k_url c) path query /\ path_written decoded path /\ scheme_is (y_tls y) (sent_fields c) scheme /\ client_of (y_peer y) = Some client /\
    sc = mkScope false (latin (bs "1.1")) (Some (latin (upper (k_method c)))) (latin scheme) (map N_of_ascii decoded) path query (y_root y)
           (filter (fun nv => negb (beqb (fst nv) (bs "proxy"))) (map (fun f => (lower (fst f), snd f)) (sent_fields c))) client None.
Definition data_of (x : reply) : bytes := List.concat (y_more x ++ [y_last x]).
(** It answers with a status that is known and has a body, and with headers that are header fields (S_Asgi); if it gives a Content-Length, it is the
    length of what it sends. *)
Definition app_ok (y : asite) : Prop :=
  (1 <= y_buf y)%Z /\ one_line (y_name y) /\
  forall sc body, let x := y_app y sc body in
    (exists p, y_phrase y (y_status x) = Some p /\ one_line p) /\ ~ bodyless [] (y_status x) /\
    Forall (fun h => plain_name (fst h)) (y_headers x) /\ Forall lf_free (y_headers x) /\
    (forall h, In h (y_headers x) -> lower (fst h) = bs "content-length" -> snd h = fmt_d (blen (data_of x))).
(** What the client should read: the status and the body that the application gave for this request, and each of its headers except those which the
    server decides about. *)
Definition right_reply (y : asite) (c : call) (x : answer) : Prop :=
  forall sc, told y c sc ->
  let p := y_app y sc (body_of c) in
  (exists phrase, y_phrase y (y_status p) = Some phrase /\ r_line x = status_text (y_status p, phrase)) /\ r_data x = data_of p /\
  forall key line, ~ In key servers_own -> (In line (r_lines x) /\ field_name line = key <-> In line (app_lines key (y_headers p))).

(** ** The handlers on the connection *)
(** Every application that closed its response did what [asgi_serve] says for the head it was started with, the body it has read and the mode that the
    one before it left behind. *)
Definition performs_asgi (y : asite) (date : nat -> bytes) (ch : nat -> option bool) (tr : list cev) (b : list obs) : Prop :=
  ch 0 = None /\
  forall i h r, In (Started i h) b -> In i (closers tr) -> frame_head h (blen h - 2) = Framed r ->
    let a := asgi_serve (date i) y h r (got i b) (ch i) in
    did i tr = r_out (a_rsp a) /\ (forall keep, In (HClose i keep) tr -> keep = r_keep (a_rsp a)) /\ ch (S i) = a_chunked a.
(** As [handlers_ok], but reading a body as ASGI has it: until more_body is false, that is when all of it was read, or until http.disconnect. *)
Definition reads_asgi (o : copts) (M : list msg) (tr : list cev) : Prop :=
  NoDup (closers tr) /\
  (forall pre i keep post s b m, tr = pre ++ HClose i keep :: post -> conn_run o conn_new pre = Some (s, b) -> nth_error M i = Some m -> m_has m = true ->
     got i b = m_body m \/ In (Got i None) b) /\
  (forall pre i post s b m, tr = pre ++ HTake i :: post -> conn_run o conn_new pre = Some (s, b) -> nth_error M i = Some m ->
     m_has m = true \/ (ended b <= i /\ ~ In (Got i (Some [])) b)) /\
  (forall i, ~ In (HUpgrade i) tr) /\ (forall i, ~ In (HContinue i) tr).
