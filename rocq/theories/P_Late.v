(** Proofs about middlewares that fail (C84): nothing of the response has been sent yet. *)
From Verif Require Import PyBytes PyBytesFacts PyBytesFacts2 PyDictFacts PyInt PyIntFacts PyExn PyUtf8 PyRe M_Parser M_Framing M_Route M_Conn M_Response M_Server M_Pages M_Site M_Stack M_Fault
  S_Head S_Num S_Scope S_Route S_Response S_Calls S_Chunked S_Conn S_Site S_AsgiSite S_Stack S_Bare S_Fault P_Response P_Response2 P_Response3 P_Response4 P_Response5 P_Response6 P_Site2 P_Stack.

(** ** Calls that send nothing *)
Definition fresh (s : rsp) : Prop := headers_sent s = false /\ r_buf s = [] /\ r_out s = [].
Definition keeps {X} (m : M_Response.call X) : Prop := forall s, fresh s -> fresh (snd (m s)).
Lemma keeps_done {X} (x : X) : keeps (done x). Proof. intros s F. exact F. Qed.
Lemma keeps_raise {X} x : keeps (@raise X x). Proof. intros s F. exact F. Qed.
Lemma keeps_seq {X Y} (m : M_Response.call X) (f : X -> M_Response.call Y) : keeps m -> (forall x, keeps (f x)) -> keeps (seq m f).
Proof. intros A B s F. unfold seq. specialize (A s F). destruct (m s) as [[x|x] s1]; cbn [snd] in *; [now apply B|exact A]. Qed.
Lemma keeps_get : keeps get_headers.
Proof. intros s F. unfold get_headers. destruct (r_headers s); exact F. Qed.
Lemma keeps_put d : keeps (put_headers d).
Proof. intros s (A & B & C). split; [reflexivity|]. split; [exact B|exact C]. Qed.
Lemma keeps_state : keeps (fun s => (Ok s, s)). Proof. intros s F. exact F. Qed.
Lemma keeps_if {X} (b : bool) (m n : M_Response.call X) : keeps m -> keeps n -> keeps (if b then m else n). Proof. now destruct b. Qed.
Lemma keeps_set n v : keeps (set_header n v).
Proof. unfold set_header. apply keeps_if; [apply keeps_raise|]. apply keeps_seq; [apply keeps_get|]. intros d. apply keeps_put. Qed.
Lemma keeps_append n v : keeps (append_header n v).
Proof. unfold append_header. apply keeps_seq; [apply keeps_get|]. intros d. apply keeps_put. Qed.
Lemma keeps_status z m : keeps (set_status z m).
Proof.
  unfold set_status. apply keeps_if; [apply keeps_raise|]. apply keeps_seq; [apply keeps_get|]. intros d. destruct (hget k_line d) as [l|]; [|intros s F; exact F].
  destruct (list_set l 1 _) as [l1|]; [|apply keeps_raise]. destruct (list_set l1 2 m); [apply keeps_put|]. apply keeps_seq; [apply keeps_put|intros _; apply keeps_raise].
Qed.
Lemma keeps_ctype c : keeps (set_content_type c).
Proof. unfold set_content_type. apply keeps_if; [apply keeps_raise|]. apply keeps_seq; [apply keeps_get|]. intros d. apply keeps_if; [apply keeps_put|]. intros s F. exact F. Qed.
Lemma keeps_base e : keeps (set_base_header e).
Proof.
  intros s F. unfold set_base_header. destruct (r_headers s) as [[|]|]; [|exact F..]. revert s F. apply keeps_seq; [apply keeps_set|intros _; apply keeps_set].
Qed.
Lemma keeps_hop e h : keeps (do_hop e h).
Proof.
  destruct h; cbn [do_hop]; [apply keeps_set|apply keeps_append| |apply keeps_status|apply keeps_ctype|apply keeps_base].
  unfold set_cookie. cbv zeta. apply keeps_if; [apply keeps_raise|apply keeps_append].
Qed.
Lemma keeps_hops e l : forall s, fresh s -> fresh (do_hops e l s).
Proof. induction l as [|h l IH]; intros s F; [exact F|]. cbn [do_hops]. apply IH, keeps_hop, F. Qed.
Lemma keeps_get_status : keeps get_status.
Proof.
  apply keeps_seq; [apply keeps_get|]. intros d. destruct (hget k_line d) as [l|].
  - apply keeps_seq; [apply keeps_put|]. intros _. destruct l as [|? [|? [|? [|]]]]; try apply keeps_raise. destruct (py_int _); [apply keeps_done|apply keeps_raise].
  - intros s F. destruct (r_status s); exact F.
Qed.
Lemma keeps_get_ctype : keeps get_content_type.
Proof.
  apply keeps_seq; [apply keeps_get|]. intros d. destruct (hget k_ctype d) as [l|].
  - apply keeps_seq; [apply keeps_put|]. intros _. destruct l; [apply keeps_raise|apply keeps_done].
  - intros s F. destruct (r_ctype s); exact F.
Qed.
Lemma keeps_start e o : keeps (start_response e o).
Proof.
  unfold start_response. apply keeps_seq; [apply keeps_get_status|]. intros st. cbv zeta. apply keeps_seq; [intros s F; exact F|]. intros _. apply keeps_seq; [apply keeps_get|]. intros d.
  apply keeps_seq; [apply keeps_put|]. intros _. apply keeps_seq; [apply keeps_if; [apply keeps_done|apply keeps_seq; [apply keeps_get_ctype|intros ct; apply keeps_set]]|]. intros _.
  apply keeps_seq; [apply keeps_state|]. intros s0. apply keeps_seq; [apply keeps_if; [apply keeps_set|apply keeps_done]|]. intros _. apply keeps_done.
Qed.

(** ** Middlewares that fail *)
Lemma mid_fails e n x y o w : one_line (e_date e) -> one_line (e_server e) ->
  exists w', handle_middleware e n (mid_faulty e x (Some y)) o w = (w', inr (fst y)) /\ w_rsp w' = do_hops e (HBase :: fst x) (w_rsp w).
Proof.
  intros A B. unfold handle_middleware. unfold andthen at 1, rsp_do at 1. rewrite (base_run e _ A B). unfold andthen at 1, ctx_update. cbn [w_app w_rsp w_ctx w_log].
  unfold andthen at 1, run_func, mid_faulty. destruct y as [y d]. cbn [w_app w_rsp w_ctx w_log fst snd]. unfold andthen at 1, note. cbn [w_app w_rsp w_ctx w_log]. unfold throw. eexists. split; [reflexivity|]. reflexivity.
Qed.
Lemma answers_none e n d ops o w w' o' : handle_middleware e n (mid_func e (ops, Some d)) o w = (w', inl (Some o')) -> False.
Proof.
  unfold handle_middleware. unfold andthen at 1. destruct (rsp_do _ w) as [w1 [|]]; [|discriminate]. unfold andthen at 1, ctx_update. unfold andthen at 1, run_func, mid_func. cbn [fst snd]. unfold andthen at 1, note.
  unfold andthen at 1. destruct (apply_options _ _) as [w2 [|]]; [|discriminate]. unfold andthen at 1. destruct (rsp_do _ w2) as [w3 [|]]; discriminate.
Qed.
(** Request middlewares. *)
Definition stops (y : (list hop * option bytes) * option (exc * edata)) : bool := match y with ((_, None), None) => false | _ => true end.
Lemma before_faulty e ys : one_line (e_date e) -> one_line (e_server e) -> forall l w, map snd l = map (fun y => (mid_faulty e (fst y) (snd y), [])) ys ->
  match List.find stops ys with
  | Some (_, Some (x, _)) => exists w' ops, middlewares e l [] w = (w', inr x) /\ w_rsp w' = do_hops e ops (w_rsp w)
  | _ => forall l2, map snd l2 = map (fun y => (mid_func e (fst y), [])) ys -> map fst l2 = map fst l -> middlewares e l2 [] w = middlewares e l [] w
  end.
Proof.
  intros A B. induction ys as [|[[ops a] fault] ys IH]; intros [|[n [f mo]] l] w E; try discriminate.
  - cbn [List.find]. intros [|]; [reflexivity|discriminate].
  - cbn [map snd fst] in E. injection E as -> -> E. cbn [List.find]. destruct fault as [[x d]|].
    + replace (stops (ops, a, Some (x, d))) with true by now destruct a. destruct (mid_fails e n (ops, a) (x, d) [] w A B) as (w' & Em & R). exists w'. eexists. split; [|exact R].
      cbn [middlewares]. unfold merge. cbn [app]. unfold andthen at 1. rewrite Em. reflexivity.
    + destruct a as [d|]; cbn [stops].
      * intros [|[n2 [f2 mo2]] l2] E2 Ef; [discriminate|]. cbn [map snd fst] in E2, Ef. injection E2 as -> -> E2. injection Ef as -> _. cbn [middlewares mid_faulty]. unfold merge. cbn [app]. unfold andthen.
        destruct (handle_middleware e n (mid_func e (ops, Some d)) [] w) as [w1 [[o'|]|]] eqn:Em; [exfalso; exact (answers_none _ _ _ _ _ _ _ _ Em)|reflexivity|reflexivity].
      * assert (exists w1, handle_middleware e n (mid_func e (ops, None)) [] w = (w1, inl (Some [])) /\ w_rsp w1 = do_hops e (HBase :: ops) (w_rsp w)) as (w1 & Em & R1).
        { destruct (after_run e [] [ops] A B [(n, (mid_func e (ops, None), []))] w eq_refl) as (w1 & E1 & E2). cbn [middlewares] in E1. unfold merge in E1. cbn [app] in E1. unfold andthen in E1.
          destruct (handle_middleware e n (mid_func e (ops, None)) [] w) as [w2 [[o'|]|]]; try discriminate. injection E1 as <- <-. exists w2. split; [reflexivity|]. rewrite E2. cbn [based flat_map app]. now rewrite app_nil_r. }
        specialize (IH l w1 E). cbn [mid_faulty]. assert (middlewares e ((n, (mid_func e (ops, None), [])) :: l) [] w = middlewares e l [] w1) as -> by (cbn [middlewares]; unfold merge; cbn [app]; unfold andthen at 1; rewrite Em; reflexivity).
        assert (forall X : (forall l2, map snd l2 = map (fun y => (mid_func e (fst y), [])) ys -> map fst l2 = map fst l -> middlewares e l2 [] w1 = middlewares e l [] w1),
          forall l2, map snd l2 = map (fun y => (mid_func e (fst y), [])) (((ops, None), None) :: ys) -> map fst l2 = map fst ((n, (mid_func e (ops, None), [])) :: l) -> middlewares e l2 [] w = middlewares e l [] w1) as Ks.
        { intros X [|[n2 [f2 mo2]] l2] E2 Ef; [discriminate|]. cbn [map snd fst] in E2, Ef. injection E2 as -> -> E2. injection Ef as -> Ef. rewrite <- (X l2 E2 Ef). cbn [middlewares]. unfold merge. cbn [app]. unfold andthen at 1. rewrite Em. reflexivity. }
        destruct (List.find stops ys) as [[? [[x d]|]]|]; [|exact (Ks IH)..]. destruct IH as (w' & ops' & E1 & R). exists w', ((HBase :: ops) ++ ops'). split; [exact E1|]. rewrite R, R1. now rewrite do_hops_app.
Qed.
(** Response middlewares. *)
Lemma after_faulty e o ys : one_line (e_date e) -> one_line (e_server e) -> forall l w, map snd l = map (fun y => (mid_faulty e (fst y, None) (snd y), [])) ys ->
  match List.find (fun y : list hop * option (exc * edata) => match snd y with Some _ => true | None => false end) ys with
  | Some (_, Some (x, _)) => exists w' ops, middlewares e l o w = (w', inr x) /\ w_rsp w' = do_hops e ops (w_rsp w)
  | _ => True
  end.
Proof.
  intros A B. induction ys as [|[ops fault] ys IH]; intros [|[n [f mo]] l] w E; try discriminate; [exact I|].
  cbn [map snd fst] in E. injection E as -> -> E. cbn [List.find snd]. destruct fault as [[x d]|].
  - destruct (mid_fails e n (ops, None) (x, d) o w A B) as (w' & Em & R). exists w'. eexists. split; [|exact R].
    cbn [middlewares]. unfold merge. rewrite app_nil_r. unfold andthen at 1. rewrite Em. reflexivity.
  - assert (exists w1, handle_middleware e n (mid_func e (ops, None)) o w = (w1, inl (Some o)) /\ w_rsp w1 = do_hops e (HBase :: ops) (w_rsp w)) as (w1 & Em & R1).
    { destruct (after_run e o [ops] A B [(n, (mid_func e (ops, None), []))] w eq_refl) as (w1 & E1 & E2). cbn [middlewares] in E1. unfold merge in E1. rewrite app_nil_r in E1. unfold andthen in E1.
      destruct (handle_middleware e n (mid_func e (ops, None)) o w) as [w2 [[o'|]|]]; try discriminate. injection E1 as <- <-. exists w2. split; [reflexivity|]. rewrite E2. cbn [based flat_map app]. now rewrite app_nil_r. }
    specialize (IH l w1 E). destruct (List.find _ ys) as [[? [[x d]|]]|]; [|exact I..]. destruct IH as (w' & ops' & E1 & R). exists w', ((HBase :: ops) ++ ops'). split; [|rewrite R, R1; now rewrite do_hops_app].
    cbn [mid_faulty middlewares]. unfold merge. rewrite app_nil_r. unfold andthen at 1. rewrite Em. exact E1.
Qed.

(** ** _handle_response with a response middleware that fails *)
Definition ends_in (e : renv) (sv : @server unit) (x : exc) : Prop :=
  forall o w, exists w' ops, middlewares e (rev (numbered RespMid (s_resp sv))) o w = (w', inr x) /\ w_rsp w' = do_hops e ops (w_rsp w).
Lemma value_fails e sv o n mid data w s' x : ends_in e sv x -> oget "chunked" o = None -> fresh (w_rsp w) ->
  respond_value e (mkHOpts None true n) mid data (w_rsp w) = (Ok tt, s') ->
  exists w', (act! st <- rsp_do (start_response e (mkHOpts (option_map truthy (oget "chunked" o)) true 1)) in send_value e sv o st data) w = (w', inr x) /\ fresh (w_rsp w').
Proof.
  intros Hm Hc Hf E. rewrite Hc. cbn [option_map]. unfold respond_value in E. unfold andthen at 1, rsp_do at 1.
  change (start_response e (mkHOpts None true 1)) with (start_response e (mkHOpts None true n)). pose proof (keeps_start e (mkHOpts None true n) _ Hf) as F1.
  unfold seq at 1 in E. destruct (start_response e (mkHOpts None true n) (w_rsp w)) as [[[st nc]|] s1]; [|discriminate]. cbn [snd] in F1.
  unfold seq at 1 in E. unfold send_value. cbn [snd]. unfold andthen at 1, rsp_do at 1. cbn [w_rsp w_app w_ctx w_log].
  unfold seq at 1 in E. unfold seq at 1.
  assert (keeps (if nc || r_chunked s1 then done tt else set_header (bs "Content-Length") (fmt_d (blen data)))) as K2 by (apply keeps_if; [apply keeps_done|apply keeps_set]). specialize (K2 s1 F1).
  destruct ((if nc || r_chunked s1 then done tt else set_header (bs "Content-Length") (fmt_d (blen data))) s1) as [[[]|] s2]; [|discriminate]. cbn [snd] in K2.
  pose proof (keeps_set (bs "Connection") (if r_keep s1 then bs "keep-alive" else bs "close") s2 K2) as K3.
  unfold seq at 1 in E. destruct (set_header (bs "Connection") (if r_keep s1 then bs "keep-alive" else bs "close") s2) as [[[]|] s3]; [|discriminate]. cbn [snd] in K3.
  unfold andthen at 1. destruct (Hm o (mkW (w_app w) s3 (w_ctx w) (w_log w))) as (w1 & ops & -> & R1). exists w1. split; [reflexivity|]. rewrite R1. now apply keeps_hops.
Qed.
Lemma stream_fails e sv o n str mid y0 ys w s' x : ends_in e sv x -> oget "chunked" o = None -> fresh (w_rsp w) ->
  respond_stream e (mkHOpts None str n) mid y0 ys (w_rsp w) = (Ok tt, s') ->
  exists w', (act! st <- rsp_do (start_response e (mkHOpts (option_map truthy (oget "chunked" o)) true 1)) in send_stream e sv o st y0 (map yields ys)) w = (w', inr x) /\ fresh (w_rsp w').
Proof.
  intros Hm Hc Hf E. rewrite Hc. cbn [option_map]. unfold respond_stream in E. unfold andthen at 1, rsp_do at 1.
  change (start_response e (mkHOpts None true 1)) with (start_response e (mkHOpts None str n)). pose proof (keeps_start e (mkHOpts None str n) _ Hf) as F1.
  unfold seq at 1 in E. destruct (start_response e (mkHOpts None str n) (w_rsp w)) as [[[st nc]|] s1]; [|discriminate]. cbn [snd] in F1.
  unfold seq at 1 in E. unfold send_stream. cbn [fst snd]. unfold andthen at 1, rsp_do at 1. cbn [w_rsp w_app w_ctx w_log].
  unfold seq at 1 in E.
  match type of E with (let (_, _) := ?m s1 in _) = _ => assert (keeps m) as K3; [|specialize (K3 s1 F1); destruct (m s1) as [[[]|] s3]] end; [|cbn [snd] in K3|discriminate].
  { apply keeps_if; [|apply keeps_set]. apply keeps_seq; [apply keeps_get|]. intros d. apply keeps_seq; [|intros _; apply keeps_set]. intros s F. unfold update. cbn [snd]. repeat match goal with |- context [if ?b then _ else _] => destruct b end; exact F. }
  unfold andthen at 1. destruct (Hm o (mkW (w_app w) s3 (w_ctx w) (w_log w))) as (w1 & ops & -> & R1). exists w1. split; [reflexivity|]. rewrite R1. now apply keeps_hops.
Qed.
Lemma handle_fails e sv hb n str kw ops x mid w d s' xe : one_line (e_date e) -> one_line (e_server e) -> ends_in e sv xe -> s_bufsize sv = VInt n -> kw_ok kw str ->
  fresh (w_rsp w) -> r_headers (w_rsp w) = Some d -> hmem k_line d = false ->
  answer_of e (mkHOpts None str n) mid x (do_hops e (pre_kw kw ++ HBase :: ops) (w_rsp w)) = (Ok tt, s') ->
  exists w', handle_response e sv hb (page_func e (ops, x)) (merge kw []) w = (w', inr xe) /\ fresh (w_rsp w').
Proof.
  intros A B Hm Hn K Hf H L E. unfold handle_response. cbv zeta. unfold andthen at 1. unfold merge. cbn [app]. set (o := set_default _ _ _).
  assert (oget "sse" o = None /\ oget "chunked" o = None /\
    oget "status" o = match kw with (_, v) :: _ => Some v | [] => None end /\ oget "content_type" o = None) as (O1 & O3 & O5 & O6).
  { unfold o, set_default. rewrite Hn. destruct K as [(-> & ->)|(z & m & _ & [(-> & ->)|(-> & ->)])]; repeat split; reflexivity. }
  rewrite O1. unfold ret at 1. unfold andthen at 1.
  assert (exists w1, apply_options o w = (w1, inl tt) /\ w_rsp w1 = do_hops e (pre_kw kw) (w_rsp w)) as (w1 & -> & R1).
  { unfold apply_options. rewrite O5, O6. destruct K as [(-> & _)|(z & m & Om & K)]; [exists w; now split|].
    assert (pre_kw kw = [HStatus z m] /\ match kw with (_, v) :: _ => Some v | [] => None end = Some (VStatus z m)) as [-> ->] by (destruct K as [(-> & _)|(-> & _)]; split; reflexivity).
    unfold andthen, rsp_do. rewrite (set_status_runs z m _ d Om H L). eexists. split; reflexivity. }
  unfold andthen at 1, rsp_do at 1. rewrite (base_run e _ A B), R1. unfold andthen at 1, ctx_update. cbn [w_rsp w_app w_ctx w_log].
  set (s1 := snd (set_base_header e (do_hops e (pre_kw kw) (w_rsp w)))).
  assert (do_hops e ops s1 = do_hops e (pre_kw kw ++ HBase :: ops) (w_rsp w)) as S1 by (now rewrite do_hops_app).
  pose proof (keeps_hops e (pre_kw kw ++ HBase :: ops) _ Hf) as F1.
  unfold page_func. cbn [fst snd]. destruct x as [data|y0 ys]; cbn [answer_of h_buf] in E.
  - unfold andthen at 1, run_func. cbn [w_rsp w_app w_ctx w_log fst snd]. unfold andthen at 1, note. cbn [w_rsp w_app w_ctx w_log]. rewrite S1.
    eapply value_fails; [exact Hm|exact O3|exact F1|exact E].
  - unfold andthen at 1, run_func. cbn [w_rsp w_app w_ctx w_log fst snd]. unfold andthen at 1, note. cbn [w_rsp w_app w_ctx w_log tl]. rewrite S1.
    eapply stream_fails; [exact Hm|exact O3|exact F1|exact E].
Qed.
