(** websocket.accept with line feeds in a header or in the subprotocol (C62). *)
From Verif Require Import PyBytes PyBytesFacts PyInt PyExn M_Stream M_WebSocket M_Response M_Server M_Asgi M_AsgiWs S_Response S_Calls S_Asgi S_AsgiWs P_Response P_Response2 P_Response3 P_Server2 P_Asgi2 P_AsgiWs.
From Verif Require M_Parser.

Lemma accept_waiting e text hs : one_line (e_date e) -> one_line (e_server e) -> forall a d, waiting e (a_rsp a) d -> based e d -> Forall (fun h => plain_name (fst h)) hs ->
  exists a1 d1, waiting e (a_rsp a1) d1 /\ a_open a1 = a_open a /\
    (Forall lf_free hs /\ accept_headers e text hs a = (a1, true) \/ ~ Forall lf_free hs /\ accept_headers e text hs a = (a_fail e text a1, false)).
Proof.
  intros Hd Hs. induction hs as [|[n v] hs IH]; intros a d W Bd F1.
  - exists a, d. split; [exact W|]. split; [reflexivity|]. left. split; [constructor|reflexivity].
  - inversion_clear F1 as [|? ? Pn F1']. cbn [fst snd] in *. cbn [accept_headers]. destruct (memb LF n || memb LF v) eqn:M.
    + exists a, d. split; [exact W|]. split; [reflexivity|]. right. split; [|reflexivity]. intros F. inversion_clear F as [|? ? [On Ov] _]. cbn [fst snd] in *. apply orb_prop in M. apply memb_notIn in On. apply memb_notIn in Ov. rewrite On, Ov in M. now destruct M.
    + apply orb_false_iff in M as [On Ov]. apply memb_notIn in On. apply memb_notIn in Ov.
      assert (forall a', (exists a1 d1, waiting e (a_rsp a1) d1 /\ a_open a1 = a_open a /\ (Forall lf_free hs /\ accept_headers e text hs a' = (a1, true) \/ ~ Forall lf_free hs /\ accept_headers e text hs a' = (a_fail e text a1, false))) ->
        exists a1 d1, waiting e (a_rsp a1) d1 /\ a_open a1 = a_open a /\ (Forall lf_free ((n, v) :: hs) /\ accept_headers e text hs a' = (a1, true) \/ ~ Forall lf_free ((n, v) :: hs) /\ accept_headers e text hs a' = (a_fail e text a1, false))) as K.
      { intros a' (a1 & d1 & W1 & O1 & [[F E]|[F E]]); exists a1, d1; (split; [exact W1|]; split; [exact O1|]); [left|right]; (split; [|exact E]); [constructor; [now split|exact F]|]. intros F'. apply F. now inversion_clear F'. }
      destruct (beqb (lower n) (bs "content-type")) eqn:N1; [|destruct (beqb (lower n) (bs "date") || _ || _) eqn:N2; [|destruct (beqb (lower n) (bs "connection")) eqn:N3]].
      * unfold a_call. destruct (ctype_waiting e v (a_rsp a) d W Ov) as [E W']. rewrite E. apply K. exact (IH (mkA (with_ctype (a_rsp a) (v :: r_ctype (a_rsp a))) (a_chunked a) (a_open a)) d W' Bd F1').
      * apply K. exact (IH a d W Bd F1').
      * apply K. destruct (beqb (lower v) (bs "close")); [|exact (IH a d W Bd F1')]. exact (IH (mkA (with_keep (a_rsp a) false) (a_chunked a) (a_open a)) d (keep_waiting e false _ d W) Bd F1').
      * unfold a_call. set (a1 := if beqb (lower n) (bs "content-length") then mkA (a_rsp a) (Some false) (a_open a) else a).
        assert (a_rsp a1 = a_rsp a /\ a_open a1 = a_open a) as [E1 E2] by (unfold a1; destruct (beqb (lower n) (bs "content-length")); now split). rewrite E1, E2.
        destruct (append_waiting e n v (a_rsp a) d W Bd On Ov Pn N1 N2) as (d2 & E & W' & Bd' & _). rewrite E. apply K.
        exact (IH (mkA (with_headers (a_rsp a) d2) (a_chunked a1) (a_open a)) d2 W' Bd' F1').
Qed.
Lemma fail_waiting e text a d : one_line (e_date e) -> one_line (e_server e) -> waiting e (a_rsp a) d ->
  r_out (a_rsp (a_fail e text a)) = [Some (head_of (error_lines e 500 (bs "Internal Server Error") default_ctype (blen text)) ++ (if is_head e then [] else text)); None] /\
  r_up (a_rsp (a_fail e text a)) = false /\ r_keep (a_rsp (a_fail e text a)) = false /\ a_open (a_fail e text a) = a_open a.
Proof.
  intros Hd Hs (H & Gs & L & B & O & U & R). unfold a_fail, handle_exception, headers_sent. rewrite H. cbn [andb http_of].
  assert ((put_headers [] ;; set_status 500 (bs "Internal Server Error") ;; set_content_type default_ctype) (a_rsp a) =
    (Ok tt, mkRsp (Some []) (r_chunked (a_rsp a)) ((500%Z, bs "Internal Server Error") :: r_status (a_rsp a)) (default_ctype :: r_ctype (a_rsp a)) [] (r_out (a_rsp a)) (r_keep (a_rsp a)) (r_up (a_rsp a)))) as E1.
  { unfold put_headers, update, seq, set_status, set_content_type. change (memb LF (bs "Internal Server Error")) with false. change (memb LF default_ctype) with false. destruct (a_rsp a). cbn in *. now subst. }
  rewrite E1. match goal with |- context [end_ e text false None ?s] => rewrite (end_empty e text s (500%Z, bs "Internal Server Error") (r_status (a_rsp a)) default_ctype (r_ctype (a_rsp a)) Hd Hs eq_refl eq_refl eq_refl eq_refl) end.
  cbn [a_rsp a_open r_out r_up r_keep fst snd]. rewrite O, U. cbn [app]. replace (is_head e || no_content 500) with (is_head e) by now destruct (is_head e).
  split; [reflexivity|]. split; [reflexivity|]. split; [reflexivity|apply andb_true_r].
Qed.
Lemma illegal_accept e phrase text size h keep ch r hs sub : one_line (e_date e) -> one_line (e_server e) -> Forall (fun x => plain_name (fst x)) hs -> ~ (Forall lf_free hs /\ one_line sub) ->
  let z := ws_send e phrase text size h (ws_scope keep ch r) (WsAccept hs sub) in
  queued z = [Some (head_of (error_lines e 500 (bs "Internal Server Error") default_ctype (blen text)) ++ (if is_head e then [] else text)); None] /\ r_up (a_rsp (z_a z)) = false /\ r_keep (a_rsp (z_a z)) = false /\ z_in z = r.
Proof.
  intros Hd Hs F1 Nf. assert (waiting e (new_rsp keep) []) as W0. { split; [reflexivity|]. split; [apply goodS_new|]. repeat (split; [reflexivity|]). now left. }
  destruct (base_waiting e Hd Hs _ _ W0) as (d1 & E1 & W1 & Bd1). cbv zeta. unfold queued. cbn [ws_send with_a z_a z_in ws_scope z_ws]. unfold ws_accept, a_call. cbn [a_rsp a_chunked a_open]. rewrite E1.
  destruct (accept_waiting e text hs Hd Hs (mkA (with_headers (new_rsp keep) d1) ch true) d1 W1 Bd1 F1) as (a2 & d2 & W2 & _ & [[F E]|[F E]]); rewrite E; cbn [negb].
  - destruct sub as [|x sub]; [exfalso; apply Nf; split; [exact F|intros []]|]. destruct (memb LF (x :: sub)) eqn:Ms; [|exfalso; apply Nf; split; [exact F|now apply memb_notIn]].
    destruct (fail_waiting e text a2 d2 Hd Hs W2) as (A & B & C & _). now repeat split.
  - destruct (fail_waiting e text a2 d2 Hd Hs W2) as (A & B & C & _). now repeat split.
Qed.
