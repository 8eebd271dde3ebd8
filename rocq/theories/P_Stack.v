(** Proofs about applications with middlewares and streaming handlers (C79): the server's part. *)
From Verif Require Import PyBytes PyBytesFacts PyBytesFacts2 PyInt PyIntFacts PyExn PyUtf8 PyRe M_Parser M_Framing M_Route M_Response M_Server M_Pages M_Site M_Stack
  S_Head S_Scope S_Route S_Response S_Calls S_Chunked S_Site S_AsgiSite S_Stack P_Response P_Response2 P_Response3 P_Response4 P_Response5 P_Response6 P_Response7 P_Response8 P_Site2.

(** ** Middlewares *)
(** The calls of the request middlewares, as they are made. *)
Fixpoint walked (xs : list (list hop * option bytes)) : list hop :=
  match xs with
  | [] => []
  | (ops, Some d) :: _ => HBase :: ops
  | (ops, None) :: xs' => HBase :: ops ++ walked xs'
  end.
Lemma do_hops_app e a b : forall s, do_hops e (a ++ b) s = do_hops e b (do_hops e a s).
Proof. induction a as [|h a IH]; intros s; [reflexivity|]. cbn [app do_hops]. apply IH. Qed.
Lemma before_run e xs : one_line (e_date e) -> one_line (e_server e) -> forall l w, map snd l = map (fun x => (mid_func e x, [])) xs ->
  match snd (turned xs) with
  | None => exists w', middlewares e l [] w = (w', inl (Some [])) /\ w_rsp w' = do_hops e (walked xs) (w_rsp w)
  | Some d => forall s', end_ e d true None (do_hops e (walked xs) (w_rsp w)) = (Ok tt, s') -> exists w', middlewares e l [] w = (w', inl None) /\ w_rsp w' = s'
  end.
Proof.
  intros A B. induction xs as [|[ops a] xs IH]; intros [|[n [f mo]] l] w E; try discriminate.
  - exists w. split; reflexivity.
  - cbn [map snd] in E. injection E as -> -> E. unfold merge. cbn [turned walked app].
    assert (handle_middleware e n (mid_func e (ops, a)) [] w =
      match a with
      | None => (mkW (w_app w) (do_hops e (HBase :: ops) (w_rsp w)) (merge (w_ctx w) []) (w_log w ++ [Called n [] ONone]), inl (Some []))
      | Some d => (act! _ <- rsp_do (end_ e d true None) in ret None) (mkW (w_app w) (do_hops e (HBase :: ops) (w_rsp w)) (merge (w_ctx w) []) (w_log w ++ [Called n [] (OData d)]))
      end) as H.
    { unfold handle_middleware. unfold andthen at 1, rsp_do at 1. rewrite (base_run e _ A B). unfold andthen at 1, ctx_update. cbn [w_app w_rsp w_ctx w_log].
      unfold andthen at 1, run_func, mid_func. cbn [w_app w_rsp w_ctx w_log fst snd]. unfold andthen at 1, note. cbn [w_app w_rsp w_ctx w_log].
      destruct a; reflexivity. }
    destruct a as [d|]; cbn [snd].
    + intros s' En. cbn [middlewares]. unfold merge. cbn [app]. unfold andthen at 1. rewrite H. clear H. unfold andthen at 1, rsp_do at 1. cbn [w_app w_rsp w_ctx w_log]. rewrite En. eexists. split; reflexivity.
    + set (w1 := mkW _ _ _ _) in H. specialize (IH l w1 E).
      assert (middlewares e ((n, (mid_func e (ops, None), [])) :: l) [] w = middlewares e l [] w1) as -> by (cbn [middlewares]; unfold merge; cbn [app]; unfold andthen at 1; rewrite H; reflexivity).
      replace (do_hops e (HBase :: ops ++ walked xs) (w_rsp w)) with (do_hops e (walked xs) (w_rsp w1)); [exact IH|].
      unfold w1. cbn [w_rsp]. now rewrite <- do_hops_app.
Qed.
Definition based (xs : list (list hop)) : list hop := flat_map (cons HBase) xs.
Lemma after_run e o xs : one_line (e_date e) -> one_line (e_server e) -> forall l w, map snd l = map (fun x => (mid_func e (x, None), [])) xs ->
  exists w', middlewares e l o w = (w', inl (Some o)) /\ w_rsp w' = do_hops e (based xs) (w_rsp w).
Proof.
  intros A B. induction xs as [|ops xs IH]; intros [|[n [f mo]] l] w E; try discriminate.
  - exists w. split; reflexivity.
  - cbn [map snd] in E. injection E as -> -> E. unfold merge. cbn [middlewares]. unfold merge. rewrite app_nil_r. unfold andthen at 1.
    assert (handle_middleware e n (mid_func e (ops, None)) o w = (mkW (w_app w) (do_hops e (HBase :: ops) (w_rsp w)) (merge (w_ctx w) o) (w_log w ++ [Called n o ONone]), inl (Some o))) as ->.
    { unfold handle_middleware. unfold andthen at 1, rsp_do at 1. rewrite (base_run e _ A B). unfold andthen at 1, ctx_update. cbn [w_app w_rsp w_ctx w_log].
      unfold andthen at 1, run_func, mid_func. cbn [w_app w_rsp w_ctx w_log fst snd]. unfold andthen at 1, note. cbn [w_app w_rsp w_ctx w_log]. reflexivity. }
    destruct (IH l (mkW (w_app w) (do_hops e (HBase :: ops) (w_rsp w)) (merge (w_ctx w) o) (w_log w ++ [Called n o ONone])) E) as (w' & E1 & E2). exists w'. split; [exact E1|]. rewrite E2. cbn [w_rsp based flat_map]. now rewrite <- do_hops_app.
Qed.
Lemma do_mid_ok e mid : forall s s', do_mid e mid s = (Ok tt, s') -> do_hops e mid s = s'.
Proof.
  induction mid as [|h mid IH]; intros s s' E; cbn [do_mid do_hops] in *; [now injection E|]. unfold seq in E. destruct (do_hop e h s) as [[[]|] s1]; [|discriminate]. now apply IH.
Qed.

(** ** What M_Server does after the handler is what M_Response says *)
Definition mids_are (e : renv) (sv : @server unit) (xs : list (list hop)) : Prop := map snd (rev (numbered RespMid (s_resp sv))) = map (fun x => (mid_func e (x, None), [])) xs.
Lemma value_stack e sv o n xs data w s' : one_line (e_date e) -> one_line (e_server e) -> mids_are e sv xs ->
  oget "buffer_size" o = Some (VInt n) -> oget "chunked" o = None ->
  respond_value e (mkHOpts None true n) (based xs) data (w_rsp w) = (Ok tt, s') ->
  exists w', (act! st <- rsp_do (start_response e (mkHOpts (option_map truthy (oget "chunked" o)) true 1)) in send_value e sv o st data) w = (w', inl tt) /\ w_rsp w' = s'.
Proof.
  intros A B Hm Hb Hc E. rewrite Hc. cbn [option_map]. unfold respond_value in E. unfold andthen at 1, rsp_do at 1.
  change (start_response e (mkHOpts None true 1)) with (start_response e (mkHOpts None true n)).
  unfold seq at 1 in E. destruct (start_response e (mkHOpts None true n) (w_rsp w)) as [[[st nc]|] s1]; [|discriminate].
  unfold seq at 1 in E. unfold send_value. cbn [snd]. unfold andthen at 1, rsp_do at 1. cbn [w_rsp w_app w_ctx w_log].
  unfold seq at 1 in E. unfold seq at 1.
  destruct ((if nc || r_chunked s1 then done tt else set_header (bs "Content-Length") (fmt_d (blen data))) s1) as [[[]|] s2]; [|discriminate].
  unfold seq at 1 in E. destruct (set_header (bs "Connection") (if r_keep s1 then bs "keep-alive" else bs "close") s2) as [[[]|] s3]; [|discriminate].
  unfold seq at 1 in E. destruct (do_mid e (based xs) s3) as [[[]|] s4] eqn:M; [|discriminate]. apply do_mid_ok in M.
  unfold andthen at 1. destruct (after_run e o xs A B _ (mkW (w_app w) s3 (w_ctx w) (w_log w)) Hm) as (w1 & -> & R1). cbn [w_rsp] in R1. rewrite M in R1.
  destruct (is_head e || nc).
  - unfold rsp_do. rewrite R1, E. eexists. split; reflexivity.
  - unfold seq at 1 in E. unfold andthen at 1. destruct data as [|x data].
    + unfold done at 1 in E. unfold ret at 1. unfold seq at 1 in E. unfold andthen at 1, rsp_do at 1. rewrite R1.
      destruct (write e (Some []) None kw_now s4) as [[[]|] s5]; [|discriminate]. unfold rsp_do. cbn [w_rsp w_app w_ctx w_log]. rewrite E. eexists. split; reflexivity.
    + unfold andthen at 1, size_of. rewrite Hb. unfold ret at 1. unfold rsp_do at 1. rewrite R1. cbn [h_buf] in E.
      match goal with |- context [write e ?a None ?b s4] => destruct (write e a None b s4) as [[[]|] s5] end; [|discriminate].
      unfold seq at 1 in E. unfold andthen at 1, rsp_do at 1. cbn [w_rsp w_app w_ctx w_log].
      destruct (write e (Some []) None kw_now s5) as [[[]|] s6]; [|discriminate]. unfold rsp_do. cbn [w_rsp w_app w_ctx w_log]. rewrite E. eexists. split; reflexivity.
Qed.
Lemma loop_stack e k ys w s' : write_yields e k ys (w_rsp w) = (Ok tt, s') -> exists w', gen_loop e k (map yields ys) w = (w', inl tt) /\ w_rsp w' = s'.
Proof. destruct w as [[] s c l]. cbn [w_rsp]. intros E. rewrite (loop_agree e k ys _ _ _ _ _ E). eexists. split; reflexivity. Qed.
Lemma stream_stack e sv o n str xs y0 ys w s' : one_line (e_date e) -> one_line (e_server e) -> mids_are e sv xs ->
  oget "buffer_size" o = Some (VInt n) -> oget "chunked" o = None -> match oget "stream" o with Some v => truthy v | None => true end = str ->
  respond_stream e (mkHOpts None str n) (based xs) y0 ys (w_rsp w) = (Ok tt, s') ->
  exists w', (act! st <- rsp_do (start_response e (mkHOpts (option_map truthy (oget "chunked" o)) true 1)) in send_stream e sv o st y0 (map yields ys)) w = (w', inl tt) /\ w_rsp w' = s'.
Proof.
  intros A B Hm Hb Hc Hs E. rewrite Hc. cbn [option_map]. unfold respond_stream in E. unfold andthen at 1, rsp_do at 1.
  change (start_response e (mkHOpts None true 1)) with (start_response e (mkHOpts None str n)).
  unfold seq at 1 in E. destruct (start_response e (mkHOpts None str n) (w_rsp w)) as [[[st nc]|] s1]; [|discriminate].
  unfold seq at 1 in E. unfold send_stream. cbn [fst snd]. unfold andthen at 1, rsp_do at 1. cbn [w_rsp w_app w_ctx w_log].
  unfold seq at 1 in E.
  match type of E with (let (_, _) := ?m s1 in _) = _ => destruct (m s1) as [[[]|] s3] end; [|discriminate].
  unfold seq at 1 in E. destruct (do_mid e (based xs) s3) as [[[]|] s4] eqn:M; [|discriminate]. apply do_mid_ok in M.
  unfold andthen at 1. destruct (after_run e o xs A B _ (mkW (w_app w) s3 (w_ctx w) (w_log w)) Hm) as (w1 & -> & R1). cbn [w_rsp] in R1. rewrite M in R1.
  destruct (is_head e || nc).
  - unfold rsp_do. rewrite R1, E. eexists. split; reflexivity.
  - cbv zeta in E. cbn [h_buf h_stream] in E. unfold andthen at 1, size_of. rewrite Hb. unfold ret at 1. rewrite Hs. cbv zeta.
    set (k := mkKw true n (if str then None else Some (n / 2)%Z)) in *. unfold seq at 1 in E. unfold andthen at 1.
    match type of E with (let (_, _) := ?m s4 in _) = _ => destruct (m s4) as [[[]|] s5] eqn:W end; [|discriminate].
    assert (exists w2, match y0 with [] => ret tt | _ => rsp_do (write e (Some y0) None k) end w1 = (w2, inl tt) /\ w_rsp w2 = s5) as (w2 & -> & R2).
    { destruct y0 as [|x y0]; [injection W as <-; exists w1; now split|]. unfold rsp_do. rewrite R1, W. eexists. split; reflexivity. }
    unfold seq at 1 in E. destruct (write_yields e k ys s5) as [[[]|] s6] eqn:Y; [|discriminate]. rewrite <- R2 in Y. destruct (loop_stack e k ys w2 s6 Y) as (w3 & L3 & R3).
    unfold andthen. rewrite L3. unfold rsp_do. rewrite R3, E. eexists. split; reflexivity.
Qed.

(** ** _handle_response *)
Definition pre_kw (kw : opts) : list hop := match kw with (_, VStatus z m) :: _ => [HStatus z m] | _ => [] end.
Definition kw_ok (kw : opts) (str : bool) : Prop :=
  (kw = [] /\ str = true) \/ (exists z m, one_line m /\ ((kw = [(bs "status", VStatus z m)] /\ str = true) \/ (kw = [(bs "status", VStatus z m); (bs "stream", VBool false)] /\ str = false))).
Lemma set_status_runs z m s d : one_line m -> r_headers s = Some d -> hmem k_line d = false -> set_status z m s = (Ok tt, snd (do_hop (mkEnv true [] [] []) (HStatus z m) s)).
Proof.
  intros O H L. cbn [do_hop]. unfold set_status. apply memb_notIn in O. rewrite O. unfold seq, get_headers. rewrite H. unfold hmem, dmem in L. unfold hget. destruct (dget beqb k_line d); [discriminate|]. reflexivity.
Qed.
Definition answer_of (e : renv) (o : hopts) (mid : list hop) (x : content) : M_Response.call unit :=
  match x with Whole d => respond_value e (mkHOpts None true (h_buf o)) mid d | Parts y0 ys => respond_stream e o mid y0 ys end.
Lemma handle_stack e sv hb n str kw ops x xs w d s' : one_line (e_date e) -> one_line (e_server e) -> mids_are e sv xs -> s_bufsize sv = VInt n -> kw_ok kw str ->
  r_headers (w_rsp w) = Some d -> hmem k_line d = false ->
  answer_of e (mkHOpts None str n) (based xs) x (do_hops e (pre_kw kw ++ HBase :: ops) (w_rsp w)) = (Ok tt, s') ->
  exists w', handle_response e sv hb (page_func e (ops, x)) (merge kw []) w = (w', inl tt) /\ w_rsp w' = s'.
Proof.
  intros A B Hm Hn K H L E. unfold handle_response. cbv zeta. unfold andthen at 1. unfold merge. cbn [app]. set (o := set_default _ _ _).
  assert (oget "sse" o = None /\ oget "buffer_size" o = Some (VInt n) /\ oget "chunked" o = None /\ match oget "stream" o with Some v => truthy v | None => true end = str /\
    oget "status" o = match kw with (_, v) :: _ => Some v | [] => None end /\ oget "content_type" o = None) as (O1 & O2 & O3 & O4 & O5 & O6).
  { unfold o, set_default. rewrite Hn. destruct K as [(-> & ->)|(z & m & _ & [(-> & ->)|(-> & ->)])]; repeat split; reflexivity. }
  rewrite O1. unfold ret at 1. unfold andthen at 1.
  assert (exists w1, apply_options o w = (w1, inl tt) /\ w_rsp w1 = do_hops e (pre_kw kw) (w_rsp w)) as (w1 & -> & R1).
  { unfold apply_options. rewrite O5, O6. destruct K as [(-> & _)|(z & m & Om & K)]; [exists w; now split|].
    assert (pre_kw kw = [HStatus z m] /\ match kw with (_, v) :: _ => Some v | [] => None end = Some (VStatus z m)) as [-> ->] by (destruct K as [(-> & _)|(-> & _)]; split; reflexivity).
    unfold andthen, rsp_do. rewrite (set_status_runs z m _ d Om H L). eexists. split; reflexivity. }
  unfold andthen at 1, rsp_do at 1. rewrite (base_run e _ A B), R1. unfold andthen at 1, ctx_update. cbn [w_rsp w_app w_ctx w_log].
  set (s1 := snd (set_base_header e (do_hops e (pre_kw kw) (w_rsp w)))).
  assert (do_hops e ops s1 = do_hops e (pre_kw kw ++ HBase :: ops) (w_rsp w)) as S1 by (now rewrite do_hops_app).
  unfold page_func. cbn [fst snd]. destruct x as [data|y0 ys]; cbn [answer_of h_buf] in E.
  - unfold andthen at 1, run_func. cbn [w_rsp w_app w_ctx w_log fst snd]. unfold andthen at 1, note. cbn [w_rsp w_app w_ctx w_log]. rewrite S1.
    apply (value_stack e sv o n xs data _ s' A B Hm O2 O3). exact E.
  - unfold andthen at 1, run_func. cbn [w_rsp w_app w_ctx w_log fst snd]. unfold andthen at 1, note. cbn [w_rsp w_app w_ctx w_log tl]. rewrite S1.
    apply (stream_stack e sv o n str xs y0 ys _ s' A B Hm O2 O3 O4). exact E.
Qed.
