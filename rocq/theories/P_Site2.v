(** Proofs about whole exchanges (C75): the response of an application. *)
From Verif Require Import PyBytes PyBytesFacts PyBytesFacts2 PyInt PyIntFacts PyExn PyUtf8 PyRe M_Parser M_Framing M_Route M_Response M_Server M_Pages M_Site
  S_Head S_Scope S_Route S_Response S_Calls S_Chunked S_Site P_Response P_Response2 P_Response3 P_Response4 P_Response5 P_Response6 P_Response7 P_Response8.

Definition plain (si : site) : @server unit := mkServer [] [] (VInt (t_rate si)) (VInt (t_buf si)).

Lemma base_run e s : one_line (e_date e) -> one_line (e_server e) -> set_base_header e s = (Ok tt, snd (set_base_header e s)).
Proof.
  intros A B. unfold set_base_header. destruct (r_headers s) as [[|]|] eqn:H; try reflexivity.
  unfold seq. rewrite (set_header_run _ _ _ [] H); [|ol|exact A]. rewrite (set_header_run _ _ _ (hdr1 (bs "Date") (e_date e) [])); [reflexivity|reflexivity|ol|exact B].
Qed.

(** What M_Server does after the handler returned is what [respond_value] says. *)
Lemma value_agree e si o data a c l s s' : oget "buffer_size" o = Some (VInt (t_buf si)) -> oget "chunked" o = None ->
  respond_value e (mkHOpts None true (t_buf si)) [] data s = (Ok tt, s') ->
  (act! st <- rsp_do (start_response e (mkHOpts (option_map truthy (oget "chunked" o)) true 1)) in send_value e (plain si) o st data) (mkW a s c l) = (mkW a s' c l, inl tt).
Proof.
  intros Hb Hc E. rewrite Hc. cbn [option_map]. unfold respond_value in E. unfold andthen at 1, rsp_do at 1. cbn [w_rsp w_app w_ctx w_log].
  change (start_response e (mkHOpts None true 1)) with (start_response e (mkHOpts None true (t_buf si))).
  unfold seq at 1 in E. destruct (start_response e (mkHOpts None true (t_buf si)) s) as [[[st nc]|] s1]; [|discriminate].
  unfold seq at 1 in E. unfold send_value. cbn [snd]. unfold andthen at 1, rsp_do at 1. cbn [w_rsp w_app w_ctx w_log].
  unfold seq at 1 in E. unfold seq at 1.
  destruct ((if nc || r_chunked s1 then done tt else set_header (bs "Content-Length") (fmt_d (blen data))) s1) as [[[]|] s2]; [|discriminate].
  unfold seq at 1 in E. destruct (set_header (bs "Connection") (if r_keep s1 then bs "keep-alive" else bs "close") s2) as [[[]|] s3]; [|discriminate].
  unfold seq at 1 in E. cbn [do_mid] in E. unfold done at 1 in E. cbn [s_resp plain numbered map List.seq List.length combine rev middlewares]. unfold andthen at 1, ret at 1.
  destruct (is_head e || nc).
  - unfold rsp_do. cbn [w_rsp w_app w_ctx w_log]. rewrite E. reflexivity.
  - unfold seq at 1 in E. unfold andthen at 1. destruct data as [|x data].
    + unfold done at 1 in E. unfold ret at 1. unfold seq at 1 in E. unfold andthen at 1, rsp_do at 1. cbn [w_rsp w_app w_ctx w_log].
      destruct (write e (Some []) None kw_now s3) as [[[]|] s4]; [|discriminate]. unfold rsp_do. cbn [w_rsp w_app w_ctx w_log]. rewrite E. reflexivity.
    + unfold andthen at 1, size_of. rewrite Hb. unfold ret at 1. unfold rsp_do at 1. cbn [w_rsp w_app w_ctx w_log h_buf] in *.
      match goal with |- context [write e ?a None ?b s3] => destruct (write e a None b s3) as [[[]|] s4] end; [|discriminate].
      unfold seq at 1 in E. unfold andthen at 1, rsp_do at 1. cbn [w_rsp w_app w_ctx w_log].
      destruct (write e (Some []) None kw_now s4) as [[[]|] s5]; [|discriminate]. unfold rsp_do. cbn [w_rsp w_app w_ctx w_log]. rewrite E. reflexivity.
Qed.

(** The same for the async generator of the 404 page. *)
Lemma write_size e d c a b m s : write e d c (mkKw false a m) s = write e d c (mkKw false b m) s.
Proof.
  assert (forall d s, write_body d (mkKw false a m) s = write_body d (mkKw false b m) s) as W.
  { intros [x|] t; [|reflexivity]. unfold write_body. destruct (r_chunked t && negb (r_up t)); reflexivity. }
  unfold write. destruct (headers_sent s); [apply W|]. apply seq_ext. intros body s1. apply seq_ext. intros _ s2. apply W.
Qed.
Lemma loop_agree e k ys : forall a c l s s', write_yields e k ys s = (Ok tt, s') ->
  gen_loop e k (map yields ys) (mkW a s c l) = (mkW a s' c l, inl tt).
Proof.
  induction ys as [|y ys IH]; intros a c l s s' E; cbn [write_yields map gen_loop] in *.
  - unfold rsp_do. cbn [w_rsp w_app w_ctx w_log]. rewrite (write_size e _ _ _ (k_bufsize k)), E. reflexivity.
  - unfold seq at 1 in E. unfold andthen at 1, run_func, yields at 1. cbn [w_rsp w_app w_ctx w_log]. destruct y as [|x y].
    + unfold done in E. now apply IH.
    + unfold andthen at 1, rsp_do at 1. cbn [w_rsp w_app w_ctx w_log]. match goal with |- context [write e ?d0 None k s] => destruct (write e d0 None k s) as [[[]|] s1] end; [|discriminate]. now apply IH.
Qed.
Lemma stream_agree e si o y0 ys a c l s s' : oget "buffer_size" o = Some (VInt (t_buf si)) -> oget "chunked" o = None -> oget "stream" o = Some (VBool false) ->
  respond_stream e (mkHOpts None false (t_buf si)) [] y0 ys s = (Ok tt, s') ->
  (act! st <- rsp_do (start_response e (mkHOpts (option_map truthy (oget "chunked" o)) true 1)) in send_stream e (plain si) o st y0 (map yields ys)) (mkW a s c l) = (mkW a s' c l, inl tt).
Proof.
  intros Hb Hc Hs E. rewrite Hc. cbn [option_map]. unfold respond_stream in E. unfold andthen at 1, rsp_do at 1. cbn [w_rsp w_app w_ctx w_log].
  change (start_response e (mkHOpts None true 1)) with (start_response e (mkHOpts None false (t_buf si))).
  unfold seq at 1 in E. destruct (start_response e (mkHOpts None false (t_buf si)) s) as [[[st nc]|] s1]; [|discriminate].
  unfold seq at 1 in E. unfold send_stream. cbn [fst snd]. unfold andthen at 1, rsp_do at 1. cbn [w_rsp w_app w_ctx w_log].
  unfold seq at 1 in E.
  match type of E with (let (_, _) := ?m s1 in _) = _ => destruct (m s1) as [[[]|] s3] end; [|discriminate].
  unfold seq at 1 in E. cbn [do_mid] in E. unfold done at 1 in E. cbn [s_resp plain numbered map List.seq List.length combine rev middlewares]. unfold andthen at 1, ret at 1.
  destruct (is_head e || nc).
  - unfold rsp_do. cbn [w_rsp w_app w_ctx w_log]. rewrite E. reflexivity.
  - cbv zeta in E. cbn [h_buf h_stream] in E. unfold andthen at 1, size_of. rewrite Hb. unfold ret at 1. rewrite Hs. cbn [truthy]. cbv zeta.
    set (k := mkKw true (t_buf si) (Some (t_buf si / 2)%Z)) in *. unfold seq at 1 in E. unfold andthen at 1.
    match type of E with (let (_, _) := ?m s3 in _) = _ => destruct (m s3) as [[[]|] s4] eqn:W end; [|discriminate].
    assert (match y0 with [] => ret tt | _ => rsp_do (write e (Some y0) None k) end (mkW a s3 c l) = (mkW a s4 c l, inl tt)) as ->.
    { destruct y0 as [|x y0]; [injection W as <-; reflexivity|]. unfold rsp_do. cbn [w_rsp w_app w_ctx w_log]. now rewrite W. }
    unfold seq at 1 in E. destruct (write_yields e k ys s4) as [[[]|] s5] eqn:Y; [|discriminate].
    unfold andthen. rewrite (loop_agree e k ys _ _ _ _ _ Y). unfold rsp_do. cbn [w_rsp w_app w_ctx w_log]. rewrite E. reflexivity.
Qed.

Lemma status_run z m keep : one_line m -> set_status z m (new_rsp keep) = (Ok tt, snd (do_hop (mkEnv true [] [] []) (HStatus z m) (new_rsp keep))).
Proof. intros O. cbn [do_hop]. unfold set_status. apply memb_notIn in O. rewrite O. reflexivity. Qed.

Definition pre_of (kw : opts) : list hop := match kw with (_, VStatus z m) :: _ => [HStatus z m] | _ => [] end.
Lemma coro_response e si hb ops data kw keep s' : kw = [] \/ (exists z m, kw = [(bs "status", VStatus z m)] /\ one_line m) ->
  one_line (e_date e) -> one_line (e_server e) ->
  respond_value e (mkHOpts None true (t_buf si)) [] data (start e (pre_of kw ++ HBase :: ops) keep) = (Ok tt, s') ->
  exists w', handle_response e (plain si) hb (coro e (ops, data)) (merge kw []) (mkW tt (new_rsp keep) [] []) = (w', inl tt) /\ w_rsp w' = s'.
Proof.
  intros K A B E. unfold handle_response. cbv zeta. unfold andthen at 1. unfold merge. cbn [app].
  replace (oget "sse" _) with (@None oval) by (destruct K as [->|(z & m & -> & _)]; reflexivity). unfold ret at 1.
  unfold andthen at 1. set (o := set_default _ _ _).
  assert (apply_options o (mkW tt (new_rsp keep) [] []) = (mkW tt (do_hops e (pre_of kw) (new_rsp keep)) [] [], inl tt)) as ->.
  { destruct K as [->|(z & m & -> & O)]; [reflexivity|]. unfold apply_options. change (oget "status" o) with (Some (VStatus z m)). change (oget "content_type" o) with (@None oval).
    unfold andthen, rsp_do. cbn [w_rsp w_app w_ctx w_log]. rewrite (status_run z m keep O). reflexivity. }
  unfold andthen at 1, rsp_do at 1. cbn [w_rsp w_app w_ctx w_log]. rewrite (base_run e _ A B).
  unfold andthen at 1, ctx_update. cbn [w_rsp w_app w_ctx w_log]. unfold andthen at 1. cbn [coro]. unfold run_func. cbn [w_rsp w_app w_ctx w_log fst snd].
  unfold andthen at 1, note. cbn [w_rsp w_app w_ctx w_log].
  assert (do_hops e ops (snd (set_base_header e (do_hops e (pre_of kw) (new_rsp keep)))) = start e (pre_of kw ++ HBase :: ops) keep) as ->.
  { unfold start. destruct K as [->|(z & m & -> & _)]; reflexivity. }
  assert (oget "buffer_size" o = Some (VInt (t_buf si)) /\ oget "chunked" o = None) as [Ob Oc] by (destruct K as [->|(z & m & -> & _)]; split; reflexivity).
  rewrite (value_agree e si o data _ _ _ _ _ Ob Oc E). eexists. split; reflexivity.
Qed.
Lemma missing_response e si hb y0 ys keep s' : one_line (e_date e) -> one_line (e_server e) ->
  respond_stream e (mkHOpts None false (t_buf si)) [] y0 ys (start e hops_404 keep) = (Ok tt, s') ->
  exists w', handle_response e (plain si) hb (Gen (map yields (y0 :: ys))) (merge [(bs "status", VStatus 404 (bs "Not Found")); (bs "stream", VBool false)] []) (mkW tt (new_rsp keep) [] []) = (w', inl tt) /\ w_rsp w' = s'.
Proof.
  intros A B E. unfold handle_response. cbv zeta. unfold andthen at 1. unfold merge. cbn [app].
  replace (oget "sse" _) with (@None oval) by reflexivity. unfold ret at 1.
  unfold andthen at 1. set (o := set_default _ _ _).
  assert (apply_options o (mkW tt (new_rsp keep) [] []) = (mkW tt (do_hops e [HStatus 404 (bs "Not Found")] (new_rsp keep)) [] [], inl tt)) as -> by reflexivity.
  unfold andthen at 1, rsp_do at 1. cbn [w_rsp w_app w_ctx w_log]. rewrite (base_run e _ A B).
  unfold andthen at 1, ctx_update. cbn [w_rsp w_app w_ctx w_log]. unfold andthen at 1. cbn [map]. unfold run_func, yields at 1. cbn [w_rsp w_app w_ctx w_log fst snd].
  unfold andthen at 1, note. cbn [w_rsp w_app w_ctx w_log tl].
  change (snd (set_base_header e (do_hops e [HStatus 404 (bs "Not Found")] (new_rsp keep)))) with (start e hops_404 keep).
  rewrite (stream_agree e si o y0 ys _ _ _ _ _ eq_refl eq_refl eq_refl E). eexists. split; reflexivity.
Qed.
