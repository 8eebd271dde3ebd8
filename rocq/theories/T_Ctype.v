(** C90: the content type of responses. *)
From Verif Require Import PyBytes PyBytesFacts PyInt PyExn M_Response M_Server S_Head S_Response S_Calls S_Sendfile S_Own S_Pieces S_Ctype P_Response P_Response2 P_Response3 P_Response4 P_Response5 P_Response6 P_Response7 P_Response8 P_Sendfile2 P_Own P_Pieces P_Ctype T_Response T_Own T_Pieces.

(** C90. A handler makes header calls and sends its response with response.end: the response has exactly one Content-Type line, and this names the type that
    was set last, by the handler or as an option of its route, with set_content_type or set_header; text/html; charset=utf-8 if none was set. Missing: types
    that are given with append_header, or begin with white space; the sse option; middlewares, but for those of the last two theorems. *)
Theorem c90_end_partial : forall (A : Type) e (sv : @server A) hb kw (a : A) pre keep data min (nothing : bool) ctx log t,
  one_line (e_date e) -> one_line (e_server e) -> route_ok kw -> Forall appends_clean pre -> Forall name_ok pre -> Forall unreserved pre ->
  has_type (route_calls kw ++ pre) t ->
  exists w' lines body rest,
    handle_response e sv hb (Coro (ends_with e pre data min (if nothing then ONone else OOther))) kw (mkW a (new_rsp keep) ctx log) = (w', inl tt) /\
    r_out (w_rsp w') = Some (head_of (status_line e (the_status (route_calls kw ++ pre)) :: lines) ++ body) :: rest /\
    Forall one_line lines /\ client_body (head_of (status_line e (the_status (route_calls kw ++ pre)) :: lines) ++ body) = Some body /\
    only_line (bs "content-type") (bs "Content-Type: " ++ t) lines.
Proof.
  intros A e sv hb kw a pre keep data min nothing ctx log t D S Kw A1 A2 A3 Ty. destruct (has_stored e kw pre keep Kw A1 A3) as [stored H]. destruct (route_clean kw Kw) as (K1 & K2 & K3 & _).
  destruct (c30_calls e (route_calls kw ++ HBase :: pre) keep data true min stored (route_all kw pre K1 Logic.I A1) (route_all kw pre K2 Logic.I A2) (route_all kw pre K3 Logic.I A3) (route_date e kw pre keep D S) H) as (s' & ctype & body & X).
  cbv zeta in X. change (final_status (route_calls kw ++ HBase :: pre) (200%Z, bs "OK")) with (the_status (route_calls kw ++ HBase :: pre)) in X. rewrite status_base in X. destruct X as (E & O & K & B1 & B2 & L1 & L2 & C & Ct).
  change (do_hops e (route_calls kw ++ HBase :: pre) (new_rsp keep)) with (start e (route_calls kw ++ HBase :: pre) keep) in Ct. rewrite (type_main e _ t keep (type_base _ _ t Ty)) in Ct. subst ctype.
  destruct (own_run e sv hb kw (fun s => end_ e data true min (do_hops e pre s)) a keep ctx log s' nothing D S Kw) as (w' & R & O' & K'); [unfold start in *; rewrite hops_cat in E |- *; exact E|exact (closes_end e data true min _ _ E)|].
  rewrite O in O'. eexists w', _, body, _. split; [exact R|]. split; [exact O'|]. split; [exact (Forall_inv_tail L1)|]. split; [exact C|].
  split; [now left|]. intros y I F. destruct I as [<-|[<-|[<-|I]]]; [reflexivity| | |].
  - exfalso. vm_compute in F. discriminate.
  - exfalso. destruct keep; vm_compute in F; discriminate.
  - exfalso. rewrite Forall_forall in L2. apply (L2 y I). rewrite F. now left.
Qed.
Print Assumptions c90_end_partial.

(** The same with response.write. *)
Theorem c90_write_partial : forall (A : Type) e (sv : @server A) hb kw (a : A) pre ds k keep ctx log t,
  one_line (e_date e) -> one_line (e_server e) -> route_ok kw -> Forall appends_clean pre -> Forall name_ok pre -> Forall unreserved pre ->
  ~ bodyless (e_method e) (fst (the_status (route_calls kw ++ pre))) -> (1 <= k_bufsize k)%Z -> ds <> [] -> has_type (route_calls kw ++ pre) t ->
  exists w' lines rest, handle_response e sv hb (Coro (writes_out e pre ds k)) kw (mkW a (new_rsp keep) ctx log) = (w', inl tt) /\
    r_out (w_rsp w') = Some (head_of (status_line e (the_status (route_calls kw ++ pre)) :: lines)) :: rest /\
    Forall one_line lines /\ ~ In [] lines /\ only_line (bs "content-type") (bs "Content-Type: " ++ t) lines.
Proof.
  intros A e sv hb kw a pre ds k keep ctx log t D S Kw A1 A2 A3 B Hb Ne Ty.
  destruct (pieces_run e sv hb kw a pre ds k keep ctx log D S Kw A1 A2 A3 B Hb Ne) as (w' & stored & sent & items & R & O & K & H & SO & C).
  eexists w', (lines_of sent), _. split; [exact R|]. split; [exact O|]. split; [exact (Forall_inv_tail (so_lines _ _ _ _ _ _ SO))|]. split; [exact (no_empty_line _ _ _ _ _ _ SO)|].
  rewrite <- (type_main e _ t keep (type_base _ _ t Ty)). apply (sent_only _ _ _ _ _ _ _ _ SO); [discriminate|]. apply (so_ct _ _ _ _ _ _ SO). rewrite status_base.
  destruct (no_content (fst (the_status (route_calls kw ++ pre)))) eqn:X; [|reflexivity]. exfalso. apply B. apply bodyless_iff. rewrite X. apply orb_true_r.
Qed.
Print Assumptions c90_write_partial.

(** Handlers that return or yield the body, and response middlewares that make the calls [mid] (with set_content_type, not with set_header, for the type): the
    last call wins over both lists. Also to HEAD. Responses that have no content have no Content-Type. *)
Theorem c90_value_partial : forall e o pre mid data keep t, (1 <= h_buf o)%Z -> Forall appends_clean pre -> Forall name_ok pre -> Forall unreserved pre ->
  Forall (clean e) mid -> Forall name_ok mid -> Forall (fun h => ~ In (bs "content-type") (names h)) mid ->
  no_content (fst (the_status pre)) = false -> has_type (pre ++ mid) t ->
  exists s' lines rest, respond_value e o mid data (start e pre keep) = (Ok tt, s') /\ r_out s' = Some (head_of (status_line e (final_status mid (the_status pre)) :: lines)) :: rest /\
    Forall one_line (status_line e (final_status mid (the_status pre)) :: lines) /\ ~ In [] lines /\ only_line (bs "content-type") (bs "Content-Type: " ++ t) lines.
Proof.
  intros e o pre mid data keep t Hb A N U Cl Nk Nt Nc Ty. destruct (called_intro True e pre keep A ltac:(now intros _) U) as (d & Ca).
  destruct (respond_value e o mid data (start e pre keep)) as [r s'] eqn:E. pose proof (ca_s _ _ _ _ _ _ Ca) as Cs. fold (the_status pre) in Cs.
  destruct (value_type e o mid data _ d r s' Cl Nk Nt (ca_h _ _ _ _ _ _ Ca) (ca_g _ _ _ _ _ _ Ca) (ca_l _ _ _ _ _ _ Ca) (ca_b _ _ _ _ _ _ Ca) Hb ltac:(now rewrite Cs) E) as (-> & lines & rest & O & X).
  rewrite (ca_o _ _ _ _ _ _ Ca), Cs in O. rewrite Cs in X. pose proof (type_mid e pre mid t keep Nt Ty) as Tm. unfold start in Tm, X. rewrite Tm in X. exists s', lines, rest. split; [reflexivity|]. split; [exact O|exact X].
Qed.
Print Assumptions c90_value_partial.
Theorem c90_stream_partial : forall e o pre mid y0 ys keep t, (1 <= h_buf o)%Z -> Forall appends_clean pre -> Forall name_ok pre -> Forall unreserved pre ->
  Forall (clean e) mid -> Forall name_ok mid -> Forall (fun h => ~ In (bs "content-type") (names h)) mid ->
  no_content (fst (the_status pre)) = false -> has_type (pre ++ mid) t ->
  exists s' lines rest, respond_stream e o mid y0 ys (start e pre keep) = (Ok tt, s') /\ r_out s' = Some (head_of (status_line e (final_status mid (the_status pre)) :: lines)) :: rest /\
    Forall one_line (status_line e (final_status mid (the_status pre)) :: lines) /\ ~ In [] lines /\ only_line (bs "content-type") (bs "Content-Type: " ++ t) lines.
Proof.
  intros e o pre mid y0 ys keep t Hb A N U Cl Nk Nt Nc Ty. destruct (called_intro True e pre keep A ltac:(now intros _) U) as (d & Ca).
  destruct (respond_stream e o mid y0 ys (start e pre keep)) as [r s'] eqn:E. pose proof (ca_s _ _ _ _ _ _ Ca) as Cs. fold (the_status pre) in Cs.
  destruct (stream_type e o mid y0 ys _ d r s' Cl Nk Nt (ca_h _ _ _ _ _ _ Ca) (ca_g _ _ _ _ _ _ Ca) (ca_l _ _ _ _ _ _ Ca) (ca_b _ _ _ _ _ _ Ca) Hb ltac:(now rewrite Cs) E) as (-> & lines & rest & O & X).
  rewrite (ca_o _ _ _ _ _ _ Ca), Cs in O. rewrite Cs in X. pose proof (type_mid e pre mid t keep Nt Ty) as Tm. unfold start in Tm, X. rewrite Tm in X. exists s', lines, rest. split; [reflexivity|]. split; [exact O|exact X].
Qed.
Print Assumptions c90_stream_partial.

(** ** Examples: a route with a type, which the handler changes twice, and then sets something else; and a handler that sets no type. *)
Definition pre90 : list hop := [HCtype (bs "text/csv"); HSet (bs "CONTENT-TYPE") (bs "application/json"); HSet (bs "X-A") (bs "1"); HStatus 201 (bs "Created")].
Definition mid90 : list hop := [HCtype (bs "text/x"); HSet (bs "X-Mid") (bs "1")].
Example c90_example : route_ok own_kw /\ has_type (route_calls own_kw ++ pre90) (bs "application/json") /\ has_type (route_calls own_kw) (bs "text/plain") /\
  has_type [HSet (bs "X-A") (bs "1")] (bs "text/html; charset=utf-8") /\ Forall appends_clean pre90 /\ Forall name_ok pre90 /\ Forall unreserved pre90 /\ no_content (fst (the_status pre90)) = false /\
  has_type (pre90 ++ mid90) (bs "text/x") /\ Forall (clean get11) mid90 /\ Forall name_ok mid90 /\ Forall (fun h => ~ In (bs "content-type") (names h)) mid90 /\
  r_out (w_rsp (fst (handle_response get11 own_server false (Coro (ends_with get11 pre90 (bs "{}") None OOther)) own_kw (mkW tt (new_rsp true) [] [])))) =
    [Some (bs "HTTP/1.1 201 Created" ++ CRLF ++ bs "Content-Type: application/json" ++ CRLF ++ bs "Content-Length: 2" ++ CRLF ++ bs "Connection: keep-alive" ++ CRLF
      ++ bs "Date: Thu, 01 Jan 1970 00:00:00 GMT" ++ CRLF ++ bs "Server: Tremolo" ++ CRLF ++ bs "X-A: 1" ++ CRLF ++ CRLF ++ bs "{}"); None].
Proof.
  split; [apply c88_route_example|]. split.
  { left. exists [HStatus 201 (bs "Created"); HCtype (bs "text/plain"); HCtype (bs "text/csv")], (HSet (bs "CONTENT-TYPE") (bs "application/json")), [HSet (bs "X-A") (bs "1"); HStatus 201 (bs "Created")].
    split; [reflexivity|]. split; [split; [fin|split; [reflexivity|split; reflexivity]]|]. constructor; [discriminate|]. constructor; [exact (fun f => f)|constructor]. }
  split. { left. exists [HStatus 201 (bs "Created")], (HCtype (bs "text/plain")), []. split; [reflexivity|]. split; [split; [fin|split; reflexivity]|constructor]. }
  split. { right. split; [|reflexivity]. constructor; [discriminate|constructor]. }
  split; [fall|]. split; [fall|]. split; [fall|]. split; [reflexivity|].
  split. { left. exists pre90, (HCtype (bs "text/x")), [HSet (bs "X-Mid") (bs "1")]. split; [reflexivity|]. split; [split; [fin|split; reflexivity]|]. constructor; [discriminate|constructor]. }
  split; [fall|]. split; [fall|]. split; [constructor; [exact (fun f => f)|constructor; [intros [X|[]]; discriminate|constructor]]|]. vm_compute. reflexivity.
Qed.

(** A type given with append_header is not sent if there is one already, and neither is it added to the other: it is lost. *)
Theorem c90_append_refuted : exists pre, In (HAppend (bs "Content-Type") (bs "text/plain")) pre /\
  match r_out (snd (end_ get11 (bs "x") true None (start get11 (HBase :: pre) true))) with Some d :: _ => find (bs "text/plain") d = None /\ find (bs "text/csv") d <> None | _ => False end.
Proof. exists [HAppend (bs "Content-Type") (bs "text/csv"); HAppend (bs "Content-Type") (bs "text/plain")]. split; [right; now left|]. vm_compute. split; [reflexivity|discriminate]. Qed.
Print Assumptions c90_append_refuted.
