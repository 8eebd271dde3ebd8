(** C89: handlers that write their response piece by piece. *)
From Verif Require Import PyBytes PyBytesFacts PyInt PyExn M_Parser M_Framing M_Conn M_Response M_Server M_Sendfile S_Head S_Response S_Calls S_Range S_Sendfile S_Conn S_Site S_AsgiSite S_Own S_Pieces P_Own P_Pieces T_Response T_Own.

(** C89. A coroutine handler makes header calls, writes pieces with response.write and returns nothing. HTTP/1.1: the client, which reads the status line, the
    header lines and the chunks (read_answer), gets the header lines of the calls, and as body the pieces up to the first empty one. If this was the last one, nothing else was sent. The
    server then closes the connection. The options of the route count as
    calls that come before those of the handler. Missing: the sse option; middlewares; header names with a colon. *)
Theorem c89_pieces_partial : forall (A : Type) e (sv : @server A) hb kw (a : A) pre ds1 ds2 k keep ctx log,
  e_11 e = true -> one_line (e_date e) -> one_line (e_server e) -> route_ok kw -> Forall appends_clean pre -> Forall name_ok pre -> Forall unreserved pre ->
  ~ bodyless (e_method e) (fst (the_status (route_calls kw ++ pre))) -> (1 <= k_bufsize k)%Z -> Forall (fun d => d <> []) ds1 ->
  exists w' lines items rest,
    handle_response e sv hb (Coro (writes_out e pre (ds1 ++ [] :: ds2) k)) kw (mkW a (new_rsp keep) ctx log) = (w', inl tt) /\
    r_out (w_rsp w') = map Some items ++ [None] /\ r_keep (w_rsp w') = false /\
    read_answer (concat items) = Some (mkAnswer (status_line e (the_status (route_calls kw ++ pre))) lines (concat ds1), rest) /\ (rest = [] <-> ds2 = []) /\
    forall name, ~ In name added -> lines_named name lines = said name (route_calls kw ++ pre) [].
Proof. exact @pieces_main. Qed.
Print Assumptions c89_pieces_partial.

(** HTTP/1.1 and no empty piece at the end: whatever was written, the client does not find the end of the body before the connection is closed. *)
Theorem c89_unended : forall (A : Type) e (sv : @server A) hb kw (a : A) pre ds k keep ctx log,
  e_11 e = true -> one_line (e_date e) -> one_line (e_server e) -> route_ok kw -> Forall appends_clean pre -> Forall name_ok pre -> Forall unreserved pre ->
  ~ bodyless (e_method e) (fst (the_status (route_calls kw ++ pre))) -> (1 <= k_bufsize k)%Z -> ds <> [] -> Forall (fun d => d <> []) ds ->
  exists w' items, handle_response e sv hb (Coro (writes_out e pre ds k)) kw (mkW a (new_rsp keep) ctx log) = (w', inl tt) /\
    r_out (w_rsp w') = map Some items ++ [None] /\ read_answer (concat items) = None.
Proof. exact @unended_main. Qed.
Print Assumptions c89_unended.

(** HTTP/1.0: the body is all the pieces, empty or not, and ends with the connection. *)
Theorem c89_old : forall (A : Type) e (sv : @server A) hb kw (a : A) pre ds k keep ctx log,
  e_11 e = false -> one_line (e_date e) -> one_line (e_server e) -> route_ok kw -> Forall appends_clean pre -> Forall name_ok pre -> Forall unreserved pre -> Forall unframed_call pre ->
  ~ bodyless (e_method e) (fst (the_status (route_calls kw ++ pre))) -> (1 <= k_bufsize k)%Z -> ds <> [] ->
  exists w' lines items, handle_response e sv hb (Coro (writes_out e pre ds k)) kw (mkW a (new_rsp keep) ctx log) = (w', inl tt) /\
    r_out (w_rsp w') = Some (head_of (status_line e (the_status (route_calls kw ++ pre)) :: lines)) :: map Some items ++ [None] /\ r_keep (w_rsp w') = false /\
    client_body (head_of (status_line e (the_status (route_calls kw ++ pre)) :: lines) ++ concat items) = Some (concat ds).
Proof. exact @plain_pieces. Qed.
Print Assumptions c89_old.

(** ** Examples *)
Definition piece_out (e : renv) (ds : list bytes) : list item := r_out (w_rsp (fst (handle_response e own_server false (Coro (writes_out e pre30 ds kw_now)) [] (mkW tt (new_rsp true) [] [])))).
Definition get10 : renv := mkEnv false (e_method get11) (e_date get11) (e_server get11).
Definition read_out (l : list item) : option (answer * bytes) := read_answer (concat (map (fun x => match x with Some d => d | None => [] end) l)).
Example c89_example : e_11 get11 = true /\ Forall appends_clean pre30 /\ Forall name_ok pre30 /\ Forall unreserved pre30 /\ ~ bodyless (e_method get11) (fst (the_status pre30)) /\
  (1 <= k_bufsize kw_now)%Z /\ e_11 get10 = false /\ Forall unframed_call [HSet (bs "X-A") (bs "1")] /\
  option_map (fun x => (r_data (fst x), snd x)) (read_out (piece_out get11 [bs "one "; bs "two"; []])) = Some (bs "one two", []).
Proof.
  split; [reflexivity|]. split; [fall|]. split; [fall|]. split; [fall|]. split; [intros [A|[A|[A|[A|A]]]]; vm_compute in A; intuition discriminate|].
  split; [vm_compute; discriminate|]. split; [reflexivity|]. split; [fall|]. vm_compute. reflexivity.
Qed.

(** Pieces of which one is empty: the client takes it for the end of the body, and what follows for something else. *)
Theorem c89_empty_refuted : exists ds x rest, read_out (piece_out get11 (ds ++ [[]])) = Some (x, rest) /\ concat ds = bs "one two" /\ r_data x = bs "one " /\ rest = bs "3" ++ CRLF ++ bs "two" ++ CRLF ++ bs "0" ++ CRLF ++ CRLF.
Proof.
  exists [bs "one "; []; bs "two"].
  assert (option_map (fun x => (r_data (fst x), snd x)) (read_out (piece_out get11 ([bs "one "; []; bs "two"] ++ [[]]))) = Some (bs "one ", bs "3" ++ CRLF ++ bs "two" ++ CRLF ++ bs "0" ++ CRLF ++ CRLF)) as E by (vm_compute; reflexivity).
  destruct (read_out _) as [[x rest]|]; [|discriminate]. exists x, rest. split; [reflexivity|]. split; [reflexivity|]. injection E as E1 E2. split; assumption.
Qed.
Print Assumptions c89_empty_refuted.

(** A handler that writes one piece and returns: what was sent is not a whole response. *)
Theorem c89_end_refuted : exists d, d <> [] /\ read_out (piece_out get11 [d]) = None.
Proof. exists (bs "hello"). split; [discriminate|]. vm_compute. reflexivity. Qed.
Print Assumptions c89_end_refuted.
