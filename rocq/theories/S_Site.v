(** The words of C75: a client that writes requests and reads responses, and what it should get. *)
From Verif Require Import PyBytes PyInt PyUtf8 M_Conn M_Framing M_Response M_Pages M_Site S_Head S_Scope S_Route S_Response S_Calls S_Chunked S_Conn.

(** ** A client *)
(** A request: method, URL, header fields, and a body or none. *)
Record call := mkCall { k_method : bytes; k_url : bytes; k_fields : list field; k_body : option bytes }.
Definition sent_fields (c : call) : list field :=
  k_fields c ++ match k_body c with Some x => [(bs "Content-Length", fmt_d (blen x))] | None => [] end.
Definition body_of (c : call) : bytes := match k_body c with Some x => x | None => [] end.
(** As it is sent. *)
Definition msg_of (c : call) : msg :=
  mkM (head_bytes (k_method c) (k_url c) (bs "1.1") (sent_fields c)) (match k_body c with Some _ => true | None => false end) (body_of c).
(** The names that say how the message is framed and what becomes of the connection; the client sends no other than Content-Length. *)
Definition framing_names : list bytes := [bs "connection"; bs "content-length"; bs "transfer-encoding"; bs "expect"].
Definition length_names : list bytes := [bs "content-length"; bs "transfer-encoding"; bs "expect"].
(** A request that fits the limits, with Host, with at most one Connection field, and not with more bytes than Python has digits for in int(). *)
Definition sound_call (o : copts) (c : call) : Prop :=
  head_fits (k_method c) (k_url c) (bs "1.1") (sent_fields c) /\ values (bs "host") (k_fields c) <> [] /\
  (Forall (fun f => ~ In (lower (fst f)) length_names) (k_fields c) /\ List.length (values (bs "connection") (k_fields c)) <= 1) /\
  (exists p, has_path (k_url c) p) /\ (blen (head_bytes (k_method c) (k_url c) (bs "1.1") (sent_fields c)) - 2 <= o_head o)%Z /\
  (blen (fmt_d (blen (body_of c))) <= int_max_str_digits)%Z.
(** It asks to close the connection: one of the words of its Connection field, separated by commas, is close, in any case and with any spaces. *)
Definition bids_close (c : call) : Prop :=
  exists words t, In (join (bs ",") words) (values (bs "connection") (k_fields c)) /\ Forall (fun w => ~ In ","%char w) words /\ In t words /\
    lower (filter (fun x => negb (Ascii.eqb SP x)) t) = bs "close".
(** The same, without Connection, and not HEAD. *)
Definition good_call (o : copts) (c : call) : Prop :=
  head_fits (k_method c) (k_url c) (bs "1.1") (sent_fields c) /\ values (bs "host") (k_fields c) <> [] /\
  Forall (fun f => ~ In (lower (fst f)) framing_names) (k_fields c) /\ upper (k_method c) <> bs "HEAD" /\
  (exists p, has_path (k_url c) p) /\ (blen (head_bytes (k_method c) (k_url c) (bs "1.1") (sent_fields c)) - 2 <= o_head o)%Z /\
  (blen (fmt_d (blen (body_of c))) <= int_max_str_digits)%Z.

(** A message head is read line by line, up to an empty line. *)
Fixpoint read_head (fuel : nat) (w : bytes) : option (list bytes * bytes) :=
  match fuel with
  | O => None
  | S n =>
      match find CRLF w with
      | None => None
      | Some O => Some ([], skipn 2 w)
      | Some i => match read_head n (skipn (i + 2) w) with Some (ls, rest) => Some (firstn i w :: ls, rest) | None => None end
      end
  end.
(** A chunked body (RFC 9112, 7.1), without trailer fields. *)
Fixpoint read_chunks (fuel : nat) (w : bytes) : option (bytes * bytes) :=
  match fuel with
  | O => None
  | S n =>
      match find CRLF w with
      | None => None
      | Some i =>
          let line := firstn i w in
          let digits := match find (bs ";") line with Some j => firstn j line | None => line end in
          let rest := skipn (i + 2) w in
          match digits, hex_value 0 digits with
          | _ :: _, Some size =>
              let k := N.to_nat size in
              if (size =? 0)%N then (if startswith CRLF rest then Some ([], skipn 2 rest) else None)
              else if (k <=? List.length rest) && startswith CRLF (skipn k rest) then
                match read_chunks n (skipn (k + 2) rest) with Some (d, rest') => Some (firstn k rest ++ d, rest') | None => None end
              else None
          | _, _ => None
          end
      end
  end.
(** A response: the status line and the body; only chunked bodies. *)
Definition read_response (w : bytes) : option (bytes * bytes * bytes) :=
  match read_head (S (List.length w)) w with
  | Some (first :: lines, rest) =>
      if existsb (fun l => beqb (field_name l) (bs "transfer-encoding") && beqb l (bs "Transfer-Encoding: chunked")) lines then
        match read_chunks (S (List.length rest)) rest with Some (d, rest') => Some (first, d, rest') | None => None end
      else None
  | _ => None
  end.
(** [n] responses, one after the other, and what comes after them. *)
Fixpoint read_responses (n : nat) (w : bytes) : option (list (bytes * bytes) * bytes) :=
  match n with
  | O => Some ([], w)
  | S n' =>
      match read_response w with
      | Some (first, d, rest) => match read_responses n' rest with Some (l, rest') => Some ((first, d) :: l, rest') | None => None end
      | None => None
      end
  end.

(** ** The application *)
(** Routes are literal paths, [paths] are these without the slashes; the handlers make header calls that name header fields, and answer with a
    status that has a body. *)
Definition site_ok (si : site) (paths : list bytes) : Prop :=
  Forall2 (fun r p => literal (fst r) p) (t_regs si) paths /\ Forall (fun r => snd r <> 0) (t_regs si) /\
  (1 <= t_buf si)%Z /\ one_line (t_name si) /\
  (forall f, Forall (fun n => ~ In n reserved) (t_looks si f)) /\
  (forall f m u v x, let ops := fst (t_page si f m u v x) in
     Forall appends_clean ops /\ Forall name_ok ops /\ Forall unreserved ops /\ ~ bodyless [] (fst (the_status ops))).
(** The function of a path: the first of its routes; for the root the last one, or the function 0. *)
Definition function_of (regs : list (bytes * nat)) (paths : list bytes) (p : bytes) : option nat :=
  let l := combine regs paths in
  match p with
  | [] => Some (match List.find (fun rp => beqb (snd rp) []) (rev l) with Some ((_, f), _) => f | None => 0 end)
  | _ => match List.find (fun rp => beqb (snd rp) p) l with Some ((_, f), _) => Some f | None => None end
  end.
Definition status_text (st : Z * bytes) : bytes := bs "HTTP/1.1 " ++ fmt_d (fst st) ++ bs " " ++ snd st.
(** What the client should read, as status line and body: what the function of the path returns for this request, and its status. *)
Definition right_answer (si : site) (paths : list bytes) (c : call) (x : bytes * bytes) : Prop :=
  exists p, has_path (k_url c) p /\
  match function_of (t_regs si) paths p with
  | Some (S _ as f) =>
      let page := t_page si f (upper (k_method c)) (k_url c) (map (fun n => values n (sent_fields c)) (t_looks si f)) (body_of c) in
      x = (status_text (the_status (fst page)), snd page)
  | Some O => x = (bs "HTTP/1.1 503 Service Unavailable", bs "Service Unavailable")
  | None => exists path query, target (k_url c) path query /\ x = (bs "HTTP/1.1 404 Not Found", List.concat (page_404 path (t_name si)))
  end.

(** ** The handlers on the connection *)
(** What the handler of request i did with its response: items put, and None for the end. *)
Definition did (i : nat) (tr : list cev) : list (option bytes) :=
  flat_map (fun e => match e with HPut j d => if (i =? j)%nat then [Some d] else [] | HClose j _ => if (i =? j)%nat then [None] else [] | _ => [] end) tr.
(** Every handler that closed its response did what [serve] says for the request parsed from the head it was started with, and for the body it has read. *)
Definition performs (si : site) (date : nat -> bytes) (tr : list cev) (b : list obs) : Prop :=
  forall i h r, In (Started i h) b -> In i (closers tr) -> frame_head h (blen h - 2) = Framed r ->
  did i tr = r_out (snd (serve (date i) si r (got i b))).
(** All that was written. *)
Definition written (b : list obs) : bytes := List.concat (map (fun x => match x with Wrote d => d | _ => [] end) b).
