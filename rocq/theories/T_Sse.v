(** C36: server-sent events.

    [e], [keep] as in T_Response.v. A handler made the header calls [pre], created SSE (its
    constructor makes the calls [sse_hops]), made the set_header calls [post], and then
    called send for each of [ms] and close. The receiver is the WHATWG parser of
    S_EventSource.v; what it should have at the end is [received], S_Sse.v. *)
From Verif Require Import PyBytes PyBytesFacts PyInt PyExn M_Response S_Response S_Calls S_Chunked
  M_Sse S_EventSource S_Sse P_Sse T_Response.

(** The whole session: an event-stream response whose body, with the chunked coding removed
    on HTTP/1.1, is decoded by the parser to exactly the messages that were not refused.
    [_partial]: messages with a CR, with a NUL in the id or with a negative retry are not
    covered; see below. *)
Theorem c36_session_partial : forall e pre post keep,
  Forall appends_clean pre -> Forall name_ok (pre ++ sets post) -> Forall unreserved (pre ++ sets post) ->
  Forall (fun nv => lower (fst nv) <> bs "content-type") post ->
  ~ bodyless (e_method e) (fst (the_status pre)) ->
  forall ms, Forall (fun m => refused m = true \/ sse_ok m) ms ->
  exists s' lines items stream,
    sse_session e ms (start e (pre ++ sse_hops ++ HBase :: sets post) keep) = (Ok tt, s') /\
    r_out s' = Some (head_of (status_line e (the_status pre) :: lines)) :: map Some items ++ [None] /\
    only_line (bs "content-type") (bs "Content-Type: text/event-stream") lines /\
    (if e_11 e then only_line (bs "transfer-encoding") (bs "Transfer-Encoding: chunked") lines /\
                    exists cs, concat items = chunked_body cs (bs "0") [] CRLF /\ Forall good_chunk cs /\ chunks_data cs = stream
     else concat items = stream) /\
    es_run stream = received (filter (fun m => negb (refused m)) ms).
Proof. exact session_main. Qed.
Print Assumptions c36_session_partial.

(** A message whose event name or id has a line feed: send raises 500 and has done nothing. *)
Theorem c36_refused : forall e m s, refused m = true -> sse_send e m s = (Raise InternalServerError, s).
Proof. exact refused_send. Qed.
Print Assumptions c36_refused.

Definition msgs36 := [mkMsg (bs "hello") [] [] 0; mkMsg (LF :: bs "a" ++ LF :: bs ": b" ++ [LF; LF]) (bs "tick") (bs "7") 1500;
  mkMsg (bs "x") (bs "bad" ++ LF :: bs "data: y") [] 0; mkMsg [] (bs "end") [] 0].
Example c36_example :
  Forall appends_clean [HStatus 200 (bs "OK")] /\ ~ bodyless (e_method get11) (fst (the_status [HStatus 200 (bs "OK")])) /\
  Forall (fun m => refused m = true \/ sse_ok m) msgs36 /\
  map refused msgs36 = [false; false; true; false] /\
  received (filter (fun m => negb (refused m)) msgs36) = mkEs [] [] (bs "7") (Some 1500%Z)
    [mkEvent (bs "message") (bs "hello") []; mkEvent (bs "tick") (bs "a" ++ LF :: bs ": b") (bs "7"); mkEvent (bs "end") [] (bs "7")].
Proof.
  split; [fall|]. split; [intros [H|H]; [vm_compute in H; discriminate|]; change (fst _) with 200%Z in H; lia|].
  split; [|split; reflexivity].
  assert (forall m, memb CR (m_data m) || memb CR (m_event m) || memb CR (m_id m) || memb LF (m_event m) || memb LF (m_id m)
                    || memb (ascii_of_nat 0) (m_id m) || (m_retry m <? 0)%Z = false -> sse_ok m) as K.
  { intros m H. repeat apply orb_false_iff in H as [H ?]. unfold sse_ok.
    repeat match goal with E : memb _ _ = false |- _ => apply memb_notIn in E end. repeat split; try assumption. now apply Z.ltb_ge. }
  unfold msgs36. repeat (apply Forall_cons; [first [left; reflexivity|right; apply K; reflexivity]|]). apply Forall_nil.
Qed.

(** The full claim, "no caller value can inject another field or event", is false: send does
    not refuse a CR, and a CR ends a line for the parser. *)
Theorem c36_injection_refuted : exists m t, sse_text m = Ok t /\ m_event m = [] /\ ~ In LF (m_data m) /\
  es_out (es_run t) = [mkEvent (bs "message") (bs "a") []; mkEvent (bs "admin") (bs "forged") []].
Proof.
  exists (mkMsg (bs "a" ++ CR :: CR :: bs "event: admin" ++ CR :: bs "data: forged") [] [] 0). eexists. split; [vm_compute; reflexivity|].
  split; [reflexivity|]. split; [|vm_compute; reflexivity]. intros H; vm_compute in H; repeat (destruct H as [H|H]; [discriminate|]); destruct H.
Qed.
Print Assumptions c36_injection_refuted.
(** The same in an event name or an id. *)
Theorem c36_event_injection_refuted : exists m t, sse_text m = Ok t /\ m_data m = bs "a" /\ m_id m = [] /\
  es_out (es_run t) = [mkEvent (bs "x") (bs "a" ++ LF :: bs "forged") (bs "1")].
Proof. exists (mkMsg (bs "a") (bs "x" ++ CR :: bs "data: forged" ++ CR :: bs "id: 1") [] 0). eexists. split; [vm_compute; reflexivity|]. repeat split. Qed.
Print Assumptions c36_event_injection_refuted.
(** A negative retry is sent and ignored by the parser. *)
Theorem c36_retry_refuted : exists m t, m_retry m = (-1)%Z /\ sse_text m = Ok t /\ es_retry (es_run t) = None.
Proof. exists (mkMsg (bs "a") [] [] (-1)). eexists. split; [reflexivity|]. split; vm_compute; reflexivity. Qed.
Print Assumptions c36_retry_refuted.
