(** ASGI applications, HTTP scopes: C53, C54. *)
From Verif Require Import PyBytes PyBytesFacts PyInt PyExn M_Stream S_Chunked S_Read M_Response M_Server M_Asgi S_Response S_Calls S_Asgi
  P_Response2 P_Response6 P_Chunked P_Asgi P_Asgi2 P_Asgi3 T_Body.
Local Open Scope Z_scope.

(** C53, partial: Content-Length n >= 1. [segs] are the pieces that follow the head, with any surplus. The events concatenate to the n bytes;
    more_body is true on all but the last. Missing: n = 0 (c53_zero_refuted). *)
Theorem c53_length_partial : forall o s n segs tail,
  0 < n <= o_max_body o -> clen s = n -> chunked s = false -> eof_ s = false -> consumed s = 0 ->
  items s = map Data segs ++ tail -> n <= blen (concat segs) ->
  exists evs last, receives (List.length evs + 1) o s (Some (GInit false)) = evs ++ [Request last false] /\
    (forall ev, In ev evs -> exists d, ev = Request d true) /\
    concat (map body_of evs) ++ last = firstn (Z.to_nat n) (concat segs).
Proof.
  intros o s n segs tail Hn Hl Hk He Hc Hi Hs. destruct (length_main o s n segs tail Hn Hl Hk He Hc Hi Hs) as (evs & last & E & F & C). exists evs, last. split; [exact E|]. split; [|exact C].
  intros ev I. rewrite Forall_forall in F. specialize (F ev I). destruct ev as [d m| |]; cbn in F; [|discriminate..]. subst m. now exists d.
Qed.
Print Assumptions c53_length_partial.

(** The client goes away before the n bytes came: no event says that the body is over, and http.disconnect follows. *)
Theorem c53_truncated : forall o s n segs tail,
  n <= o_max_body o -> clen s = n -> chunked s = false -> eof_ s = false -> consumed s = 0 ->
  items s = map Data segs ++ End :: tail -> blen (concat segs) < n ->
  receives (S (List.length segs)) o s (Some (GInit false)) = map (fun d => Request d true) segs ++ [Disconnect].
Proof. exact truncated_main. Qed.
Print Assumptions c53_truncated.

(** A request without a body (an empty item is queued for it): one event, empty and the last. *)
Theorem c53_no_body : forall o s rest, 0 <= o_max_body o -> clen s = -1 -> chunked s = false -> eof_ s = false -> consumed s = 0 ->
  items s = Data [] :: rest -> receives 1 o s (Some (GInit false)) = [Request [] false].
Proof.
  intros o s rest Hm Hl Hk He Hc Hi. destruct (first_receive o s 0 He Hk ltac:(lia)) as (s0 & I0 & L0 & N0 & ->). cbn [receives]. unfold receive. cbn [gen_next]. unfold plain_next. rewrite I0, Hi. cbv zeta.
  rewrite L0, Hl. replace (-1 <? -1) with false by reflexivity. cbn [andb]. cbn [took clen consumed beqb negb andb orb]. rewrite L0, Hl, N0, Hc. reflexivity.
Qed.
Print Assumptions c53_no_body.

(** Once an application was told http.disconnect, or once its response is over, every further call says the same. *)
Lemma next_over o s g x s' g' : gen_next o s g = (x, s', g') -> (forall d, x <> OYield d) -> x <> OBlock -> g' = GDone.
Proof.
  intros E Y B. assert (forall st p buf ad, after_pass st p buf ad = (x, s', g') -> g' = GDone) as Ka.
  { intros st [d b pa u| | |] buf ad H; cbn [after_pass] in H; try (now injection H); [injection H as H _ _; exfalso; now apply (Y d)|injection H as H _ _; now destruct B]. }
  assert (forall l st buf u, chunk_read o l st buf u = (x, s', g') -> g' = GDone) as Kr.
  { induction l as [|[d| |] l IH]; intros st buf u H; cbn [chunk_read] in H.
    - injection H as H _ _. now destruct B.
    - destruct (chunk_pass o (buf ++ d) u) eqn:P; try (now apply Ka in H). now apply IH in H.
    - destruct (contains _ buf); [now apply Ka in H|now injection H].
    - now injection H. }
  assert (forall st buf pa u ad, chunk_next o st buf pa u ad = (x, s', g') -> g' = GDone) as Kn.
  { intros st buf pa u ad H. unfold chunk_next in H.
    assert ((if ad then chunk_over o st buf u else chunk_read o (items st) st buf u) = (x, s', g') -> g' = GDone) as K2.
    { destruct ad; [|apply Kr]. unfold chunk_over. destruct (contains _ buf); [apply Ka|]. intros Z. now injection Z. }
    destruct pa; [|now apply K2]. destruct (chunk_pass o buf u) eqn:P; try (now apply Ka in H). now apply K2. }
  assert (forall st, plain_next st = (x, s', g') -> g' = GDone) as Kp.
  { intros st H. unfold plain_next in H. destruct (items st) as [|[d| |] l]; try (now injection H).
    - injection H as H _ _. now destruct B.
    - cbv zeta in H. destruct (_ && _); injection H as H _ _; exfalso; eapply Y; symmetry; exact H. }
  destruct g as [raw|buf pa u ad| |]; cbn [gen_next] in E; [|now apply Kn in E|now apply Kp in E|now injection E].
  destruct (eof_ s); [now injection E|]. destruct (send_continue o s) as [s1|]; [|now injection E]. destruct (negb raw && chunked s1); [now apply Kn in E|].
  destruct (o_max_body o <? clen s1); [now injection E|now apply Kp in E].
Qed.
Lemma receives_done o n : forall s, receives n o s (Some GDone) = repeat Disconnect n.
Proof. induction n as [|n IH]; intros s; [reflexivity|]. cbn [receives receive gen_next repeat]. now rewrite IH. Qed.
Theorem c53_disconnect : forall o s r s' r' n,
  (receive o s r = (Disconnect, s', r') -> receives n o s' r' = repeat Disconnect n) /\ receives n o s None = repeat Disconnect n.
Proof.
  intros o s r s' r' n.
  assert (forall st, receives n o st None = repeat Disconnect n) as K by (induction n as [|k IH]; intros st; [reflexivity|]; cbn [receives receive repeat]; now rewrite IH).
  split; [|apply K]. intros E. destruct r as [g|]; cbn [receive] in E; [|injection E as <- <-; apply K]. destruct (gen_next o s g) as [[y s2] g2] eqn:G.
  destruct y as [d| |e|]; try discriminate E; injection E as <- <-; rewrite (next_over _ _ _ _ _ _ G) by discriminate; apply receives_done.
Qed.
Print Assumptions c53_disconnect.

(** C53, partial: a chunked body, segmented as in c13_chunked_partial. The events concatenate to the body, and those that are not empty have
    more_body true; then comes http.disconnect. Missing: the last event does not have more_body false (c53_chunked_refuted). *)
Theorem c53_chunked_partial : forall o s cs zero zext trailer segs tail,
  clen s = -1 -> consumed s = 0 -> chunked s = true -> eof_ s = false -> (cont s = false \/ clen s <= o_max_body o) ->
  Forall good_chunk cs -> good_size zero zext 0 ->
  Forall (fun c => blen (size_line (c_size c) (c_ext c)) + 1 <= o_buffer_size o * 4) cs ->
  blen (size_line zero zext) + 1 <= o_buffer_size o * 4 ->
  items s = map Data segs ++ tail -> concat segs = chunked_body cs zero zext trailer ->
  (forall n, boundary segs n -> ~ after_data cs n) ->
  exists ys, concat ys = chunks_data cs /\
    receives (S (List.length ys)) o s (Some (GInit false)) = map (fun y => Request y (negb (beqb y []))) ys ++ [Disconnect].
Proof.
  intros o s cs zero zext trailer segs tail Hl Hc Hk He Ht F1 G F2 Z Hi C B.
  destruct (c13_chunked_partial o s cs zero zext trailer segs tail Hk He Ht F1 G F2 Z Hi C B) as (ys & s' & g' & E & Y & _). exists ys. split; [exact Y|]. exact (chunked_main o s ys s' g' Hl Hc E).
Qed.
Print Assumptions c53_chunked_partial.

Example c53_length_example :
  receives 3 ex_opts (ex_state (map Data [bs "ab"; bs "cde"; bs "fgGET"]) 7 false) (Some (GInit false)) = [Request (bs "ab") true; Request (bs "cde") true; Request (bs "fg") false].
Proof. reflexivity. Qed.
Example c53_truncated_example :
  receives 3 ex_opts (ex_state (map Data [bs "ab"; bs "cde"] ++ [End]) 7 false) (Some (GInit false)) = [Request (bs "ab") true; Request (bs "cde") true; Disconnect].
Proof. reflexivity. Qed.
Example c53_chunked_example :
  receives 3 ex_opts (ex_state (map Data (cut2 10 ex_chunked)) (-1) true) (Some (GInit false)) = [Request (bs "he") true; Request (bs "llo") true; Request (bs " wonderful") true].
Proof. vm_compute. reflexivity. Qed.

(** Content-Length: 0: the end marker is all there is in the queue (put_to_queue puts no empty piece), and the application gets http.disconnect. *)
Theorem c53_zero_refuted : exists o s, clen s = 0 /\ chunked s = false /\ eof_ s = false /\ consumed s = 0 /\ items s = [End] /\
  receives 1 o s (Some (GInit false)) = [Disconnect].
Proof. exists ex_opts, (ex_state [End] 0 false). repeat split. Qed.
Print Assumptions c53_zero_refuted.
(** A chunked body never ends with more_body false. *)
Theorem c53_chunked_refuted : exists o s cs, items s = [Data (chunked_body cs (bs "0") [] CRLF)] /\ clen s = -1 /\ chunked s = true /\ eof_ s = false /\ consumed s = 0 /\
  chunks_data cs = bs "hello wonderful" /\
  receives 4 o s (Some (GInit false)) = [Request (bs "hello") true; Request (bs " wonderful") true; Disconnect; Disconnect].
Proof. exists ex_opts, (ex_state [Data ex_chunked] (-1) true), ex_chunks. repeat split. Qed.
Print Assumptions c53_chunked_refuted.
(** And when a piece ends behind the size line of a chunk, an event comes that says that the body is over. *)
Theorem c53_empty_refuted : exists o s cs n, items s = map Data (cut2 n (chunked_body cs (bs "0") [] CRLF)) /\ clen s = -1 /\ chunked s = true /\ eof_ s = false /\ consumed s = 0 /\
  receives 2 o s (Some (GInit false)) = [Request [] false; Request (bs "hello") true].
Proof. exists ex_opts, (ex_state (map Data (cut2 8 ex_chunked)) (-1) true), ex_chunks, 8%nat. repeat split. Qed.
Print Assumptions c53_empty_refuted.

(** C54. [phrase] is http.HTTPStatus, [text] the error page, [ch] what the last response of the connection left in _http_chunked. *)
(** Whatever events are sent, in whatever order: the first thing sent is a head whose lines are one line each, with the server's own Date and Server and
    no transfer coding but its own. Header names must not have a colon in them, or be _line (c54_colon_refuted, c54_line_refuted). *)
Theorem c54_head_partial : forall e phrase text size evs keep ch open,
  one_line (e_date e) -> one_line (e_server e) -> (forall z p, phrase z = Some p -> one_line p) -> Forall plain_event evs ->
  sent_guarded e (r_out (a_rsp (asgi_sends e phrase text size evs (mkA (new_rsp keep) ch open)))).
Proof. intros e phrase text size evs keep ch open Hd Hs Hp F. apply inv_guarded. apply sends_inv; [exact Hd|exact Hs|exact Hp| |exact F]. apply new_inv. Qed.
Print Assumptions c54_head_partial.

(** A start with LF-free headers, and bodies: the head has the status, the headers given, and the body is the concatenation of the bodies, in chunks or as it
    is; the connection is kept only where the body's end can be told. There is one Connection line, or several that are the same: keep-alive (upgrade with status 426), unless client or application
    asked to close the connection; then close. HEAD, 1xx, 204, 205, 304 are left out (c30). *)
Theorem c54_response : forall e phrase text size z p hs bodies last keep ch open,
  one_line (e_date e) -> one_line (e_server e) -> 1 <= size -> phrase z = Some p -> one_line p ->
  Forall (fun h => plain_name (fst h)) hs -> Forall lf_free hs -> ~ bodyless (e_method e) z -> ch <> Some true ->
  let a' := asgi_sends e phrase text size (Start (Some z) hs :: map (fun x => Body x true) bodies ++ [Body last false]) (mkA (new_rsp keep) ch open) in
  let length := wants (bs "content-length") hs in
  let chunked := (e_11 e && negb length && match ch with None => true | _ => false end)%bool in
  exists lines items, r_out (a_rsp a') = Some (head_of (status_line e (z, p) :: lines)) :: map Some items ++ [None] /\ one_line (status_line e (z, p)) /\ guarded e lines /\
    (if chunked then In (bs "Transfer-Encoding: chunked") lines /\ exists cs, concat items = chunked_body cs (bs "0") [] CRLF /\ Forall good_chunk cs /\ chunks_data cs = concat (bodies ++ [last])
     else (forall y, In y lines -> field_name y <> bs "transfer-encoding") /\ concat items = concat (bodies ++ [last])) /\
    r_keep (a_rsp a') = (keep && negb (wants_close hs) && (chunked || length))%bool /\ a_open a' = open /\
    (forall key y, ~ In key servers_own -> (In y lines /\ field_name y = key <-> In y (app_lines key hs))) /\
    only_line (bs "connection") (if (keep && negb (wants_close hs))%bool then (if z =? 426 then bs "Connection: upgrade" else bs "Connection: keep-alive") else bs "Connection: close") lines.
Proof. intros. now apply response_main. Qed.
Print Assumptions c54_response.

Definition e54 : renv := mkEnv true (bs "GET") (bs "today") (bs "Tremolo").
Definition ph54 (z : Z) : option bytes := if z =? 200 then Some (bs "OK") else if z =? 404 then Some (bs "Not Found") else None.
Definition run54 (evs : list event) : list (option bytes) := r_out (a_rsp (asgi_sends e54 ph54 (bs "oops") 4 evs (mkA (new_rsp true) None true))).
Definition hs54 := [(bs "X-A", bs "1"); (bs "Server", bs "evil"); (bs "X-A", bs "2"); (bs "Content-Type", bs "text/plain")].
Example c54_example : Forall (fun h => plain_name (fst h)) hs54 /\ Forall lf_free hs54 /\
  run54 [Start (Some 404) hs54; Body (bs "hel") true; Body [] true; Body (bs "lo, you") false] =
  [Some (head_of [bs "HTTP/1.1 404 Not Found"; bs "Date: today"; bs "Server: Tremolo"; bs "X-A: 1"; bs "X-A: 2"; bs "Content-Type: text/plain"; bs "Transfer-Encoding: chunked"; bs "Connection: keep-alive"]);
   Some (bs "3" ++ CRLF ++ bs "hel" ++ CRLF); Some (bs "7" ++ CRLF ++ bs "l"); Some (bs "o, y"); Some (bs "ou" ++ CRLF); Some (bs "0" ++ CRLF ++ CRLF); None].
Proof.
  split; [|split; [|vm_compute; reflexivity]].
  - repeat (constructor; [split; [apply memb_notIn; reflexivity|vm_compute; discriminate]|]). constructor.
  - repeat (constructor; [split; apply memb_notIn; reflexivity|]). constructor.
Qed.
(** A value with LF in it: the error page instead. *)
Example c54_lf_example : run54 [Start (Some 200) [(bs "X-A", bs "1" ++ [LF] ++ bs "Set-Cookie: a=b")]; Body (bs "x") false] =
  [Some (head_of [bs "HTTP/1.1 500 Internal Server Error"; bs "Content-Type: text/html; charset=utf-8"; bs "Content-Length: 4"; bs "Connection: close"; bs "Date: today"; bs "Server: Tremolo"] ++ bs "oops"); None; Some (bs "x"); Some []; None].
Proof. vm_compute. reflexivity. Qed.

(** A header name with a colon in it makes a second Server line; one called _line takes the place of the status line. *)
Theorem c54_colon_refuted : exists evs lines rest, run54 evs = Some (head_of (bs "HTTP/1.1 200 OK" :: lines)) :: rest /\
  In (bs "Server: Tremolo") lines /\ In (bs "Server: evil: x") lines.
Proof.
  exists [Start (Some 200) [(bs "Server: evil", bs "x")]; Body (bs "hi") false],
    [bs "Date: today"; bs "Server: Tremolo"; bs "Server: evil: x"; bs "Content-Type: text/html; charset=utf-8"; bs "Transfer-Encoding: chunked"; bs "Connection: keep-alive"].
  eexists. split; [vm_compute; reflexivity|]. split; cbn; tauto.
Qed.
Print Assumptions c54_colon_refuted.
Theorem c54_line_refuted : exists evs w rest, run54 evs = Some w :: rest /\ startswith (bs "_line: x") w = true.
Proof. exists [Start (Some 200) [(bs "_line", bs "x"); (bs "Content-Length", bs "2")]; Body (bs "hi") false]. do 2 eexists. split; vm_compute; reflexivity. Qed.
Print Assumptions c54_line_refuted.
(** A status that http.HTTPStatus does not know: the start is dropped, headers and all, and 200 OK is sent. *)
Theorem c54_status_refuted : exists rest, run54 [Start (Some 599) [(bs "X-A", bs "1")]; Body (bs "hi") false] =
  Some (head_of [bs "HTTP/1.1 200 OK"; bs "Date: today"; bs "Server: Tremolo"; bs "Content-Type: text/html; charset=utf-8"; bs "Transfer-Encoding: chunked"; bs "Connection: keep-alive"]) :: rest.
Proof. eexists. vm_compute. reflexivity. Qed.
Print Assumptions c54_status_refuted.
(** A body event after the last one is written behind the end of the response, on a connection that is kept. *)
Theorem c54_late_refuted : exists evs front, run54 evs = front ++ [Some (bs "2" ++ CRLF ++ bs "hi" ++ CRLF); Some (bs "0" ++ CRLF ++ CRLF); None] ++ [Some (bs "2" ++ CRLF ++ bs "n"); Some (bs "o" ++ CRLF); Some (bs "0" ++ CRLF ++ CRLF); None] /\
  r_keep (a_rsp (asgi_sends e54 ph54 (bs "oops") 4 evs (mkA (new_rsp true) None true))) = true.
Proof. exists [Start (Some 200) []; Body (bs "hi") false; Body (bs "no") false]. eexists [Some _]. split; vm_compute; reflexivity. Qed.
Print Assumptions c54_late_refuted.
