(** Proofs about exchanges with handlers and middlewares that fail (C84). *)
From Verif Require Import PyBytes PyBytesFacts PyBytesFacts2 PyDictFacts PyInt PyIntFacts PyExn PyUtf8 PyRe M_Parser M_Framing M_Route M_Conn M_Response M_Server M_Pages M_Site M_Stack M_Fault
  S_Head S_Num S_Scope S_Route S_Response S_Calls S_Chunked S_Conn S_Site S_AsgiSite S_Stack S_Open S_Keep S_Bare S_Told S_Close S_Fault P_Route P_Response P_Response2 P_Response3 P_Response4 P_Response5 P_Response6 P_Said P_Response7 P_Response8
  P_Framing P_Server P_Server2 P_Conn P_Conn2 P_Conn3 P_Conn5 P_Conn6 P_Conn7 P_Conn8 P_Conn9 P_Conn10 P_Conn11 P_Conn12 P_Site P_Site2 P_Site3 P_Site4 P_Exchange P_AsgiSite P_Stack P_Stack2 P_Keep P_Bare P_Close P_Late T_Conn.

(** ** The error response, as the client reads it *)
Lemma error_fine e c m t data : e_11 e = true -> one_line (e_date e) -> one_line (e_server e) -> one_line m -> one_line t -> mild c ->
  exists y, fine_to (e_method e) (head_of (error_lines e c m t (blen data)) ++ (if is_head e || no_content c then [] else data)) y /\
    r_line y = status_text (c, m) /\ r_data y = (if S_Bare.silent (e_method e) (c, m) then [] else data) /\
    lines_named (bs "content-type") (r_lines y) = [bs "Content-Type: " ++ t] /\ lines_named (bs "connection") (r_lines y) = [bs "Connection: close"] /\
    forall name, ~ In name added -> lines_named name (r_lines y) = [].
Proof.
  intros V OD OS Om Ot Mi. pose proof (lines_ok e c m t (blen data) OD OS Om Ot) as Lo. unfold error_lines in *. set (first := bs "HTTP/" ++ _) in *.
  assert (first = status_line e (c, m)) as Ef by reflexivity. assert (first = status_text (c, m)) as Et by (rewrite Ef; unfold status_line, version; rewrite V; reflexivity).
  set (lines := [bs "Content-Type: " ++ t; bs "Content-Length: " ++ fmt_d (blen data); bs "Connection: close"; bs "Date: " ++ e_date e; bs "Server: " ++ e_server e]) in *.
  assert (Forall one_line (first :: lines)) as Ol by (eapply Forall_impl; [|exact Lo]; now intros l [_ X]).
  assert (~ In [] lines) as Nl by (intros X; inversion Lo as [|? ? _ Lo']; subst; rewrite Forall_forall in Lo'; destruct (Lo' [] X) as [Y _]; now apply Y).
  assert (forall n v : bytes, ~ In ":"%char n -> field_name (n ++ bs ": " ++ v) = lower n) as FN by (intros n v Nc; apply field_name_named; now exists n, v).
  pose proof (FN (bs "Content-Type") t ltac:(apply memb_notIn; reflexivity) : field_name (bs "Content-Type: " ++ t) = bs "content-type") as F1.
  pose proof (FN (bs "Content-Length") (fmt_d (blen data)) ltac:(apply memb_notIn; reflexivity) : field_name (bs "Content-Length: " ++ fmt_d (blen data)) = bs "content-length") as F2.
  assert (field_name (bs "Connection: close") = bs "connection") as F3 by reflexivity.
  pose proof (FN (bs "Date") (e_date e) ltac:(apply memb_notIn; reflexivity) : field_name (bs "Date: " ++ e_date e) = bs "date") as F4.
  pose proof (FN (bs "Server") (e_server e) ltac:(apply memb_notIn; reflexivity) : field_name (bs "Server: " ++ e_server e) = bs "server") as F5.
  exists (mkAnswer first lines (if S_Bare.silent (e_method e) (c, m) then [] else data)). split.
  - destruct (bodyless_dec (e_method e) c) as [B|B].
    + rewrite (silent_bodyless _ _ (c, m) Mi eq_refl B).
      replace (is_head e || no_content c) with true.
      2:{ symmetry. unfold is_head. destruct B as [->|B]; [reflexivity|]. unfold no_content. apply orb_true_iff. right. rewrite !orb_true_iff, andb_true_iff, !Z.eqb_eq, Z.leb_le, Z.ltb_lt. tauto. }
      rewrite app_nil_r. apply fine_bare; [exact Ol|discriminate|exact Nl|]. rewrite Ef. apply client_bare; [exact V|]. exact (silent_bodyless _ _ (c, m) Mi eq_refl B).
    + rewrite (body_speaks _ _ (c, m) eq_refl B). replace (is_head e || no_content c) with false.
      2:{ symmetry. unfold is_head. destruct (beqb (e_method e) (bs "HEAD")) eqn:H; [apply beqb_eq in H; destruct B; now left|]. destruct (no_content c) eqn:X; [|reflexivity]. destruct B. right. unfold no_content in X. rewrite !orb_true_iff, andb_true_iff, !Z.eqb_eq, Z.leb_le, Z.ltb_lt in X. tauto. }
      apply fine_full; [|cbn [r_line]; rewrite Ef; now apply client_full].
      apply fine_length; [exact Ol|discriminate|exact Nl| | |].
      * intros l [<-|[<-|[<-|[<-|[<-|[]]]]]]; rewrite ?F1, ?F2, ?F3, ?F4, ?F5; vm_compute; discriminate.
      * exists (bs "Content-Length: " ++ fmt_d (blen data)). split; [right; now left|exact F2].
      * intros l [<-|[<-|[<-|[<-|[<-|[]]]]]]; rewrite ?F1, ?F2, ?F3, ?F4, ?F5; try (vm_compute; discriminate). intros _.
        change (bs "Content-Length: " ++ fmt_d (blen data)) with (bs "Content-Length" ++ bs ": " ++ fmt_d (blen data)). apply text_of; [apply memb_notIn; reflexivity|].
        unfold blen. rewrite fmt_d_nonneg by lia. destruct (fmt_nat_canonical (Z.to_N (Z.of_nat (List.length data)))) as ((_ & X & _) & _). exact X.
  - cbn [r_line r_data r_lines]. split; [exact Et|]. split; [reflexivity|].
    unfold lines, lines_named. cbn [filter]. rewrite F1, F2, F3, F4, F5. split; [reflexivity|]. split; [reflexivity|].
    intros name Na. unfold added in Na. cbn [In] in Na.
    assert (forall k, k <> name -> beqb k name = false) as Kf by (intros k; apply beqb_neq). rewrite !Kf by tauto. reflexivity.
Qed.

(** ** The request *)
Lemma fault_known o fa paths c r p body : soft_app (f_app fa) paths -> sound_call o c -> frame_head (m_head (msg_of c)) (blen (m_head (msg_of c)) - 2) = Framed r -> has_path (k_url c) p ->
  fault_of fa r body = match function_of (p_regs (f_app fa)) paths p with
    | Some (S _ as f) => let v := map (fun n => values n (sent_fields c)) (p_looks (f_app fa) f) in
        option_map (pair (fst (p_page (f_app fa) f (method_of c) (k_url c) v body))) (f_raises fa f (method_of c) (k_url c) v body)
    | _ => None end.
Proof.
  intros (SR & S0 & SB & SN & SL & _) G Fr HP. destruct (call_framed o c G) as (r' & Fr' & Va & Me & Ur & _). rewrite Fr in Fr'. injection Fr' as <-.
  pose proof (fun ns F => eyes_see o c r ns G Fr F) as Ey. destruct G as (Ft & _). assert (~ In LF (k_url c)) as NL by (destruct Ft as (_ & X & _); rewrite !in_app_iff in X; tauto).
  pose proof (chosen (p_regs (f_app fa)) paths (k_url c) p SR HP NL) as Ch. unfold fault_of. rewrite Ur. destruct (function_of _ paths p) as [[|f]|]; [destruct Ch as [m ->]..|rewrite Ch]; cbn [fst]; [reflexivity| |reflexivity].
  cbn [Nat.eqb index]. cbv zeta. rewrite (Ey _ (SL (S f))), Me. reflexivity.
Qed.
(** The request middlewares. *)
Lemma front o ap paths c date r : soft_app ap paths -> sound_call o c -> one_line date -> frame_head (m_head (msg_of c)) (blen (m_head (msg_of c)) - 2) = Framed r ->
  let e := mkEnv true (method_of c) date (p_name ap) in
  let xs := map (fun g => g (upper (k_method c)) (k_url c) (map (fun n => values n (sent_fields c)) (p_eyes ap))) (p_before ap) in
  let w := mkW tt (new_rsp (rq_keepalive r)) [] [] in
  match snd (turned xs) with
  | Some _ => exists w', middlewares e (numbered ReqMid (s_req (server_of e ap r))) [] w = (w', inl None)
  | None => exists w', middlewares e (numbered ReqMid (s_req (server_of e ap r))) [] w = (w', inl (Some [])) /\ w_rsp w' = do_hops e (walked xs) (new_rsp (rq_keepalive r)) /\ Forall soft (walked xs)
  end.
Proof.
  intros (SR & S0 & SB & SN & SL & SE & SP & SF & SA) G OD Fr e xs w. destruct (call_framed o c G) as (r' & Fr' & Va & Me & Ur & _). rewrite Fr in Fr'. injection Fr' as <-.
  pose proof (fun ns F => eyes_see o c r ns G Fr F) as Ey. set (sv := server_of e ap r).
  assert (map snd (numbered ReqMid (s_req sv)) = map (fun x => (mid_func e x, [])) xs) as Hx.
  { rewrite numbered_snd. unfold sv, server_of. cbn [s_req]. rewrite Me, Ur, (Ey _ SE). unfold xs. now rewrite map_map. }
  assert (Forall (fun x => Forall soft_call (fst x)) xs) as Ux by (unfold xs; apply Forall_map; eapply Forall_impl; [|exact SF]; intros g Hg; apply Hg).
  pose proof (before_run e xs OD SN (numbered ReqMid (s_req sv)) w Hx) as Bf. pose proof (walked_soft xs Ux) as W.
  destruct (turned xs) as [calls [d|]] eqn:Tu; cbn [snd] in *.
  - assert (exists ops, walked xs = HBase :: ops /\ Forall soft ops) as (ops & Ew & Uo).
    { destruct (walked xs) as [|h ops] eqn:Ew; [destruct xs as [|[ops [d'|]] xs']; discriminate|]. assert (h = HBase) as -> by (destruct xs as [|[? [?|]] ?]; cbn [walked] in Ew; congruence). exists ops. split; [reflexivity|now inversion W]. }
    destruct (end_any (rq_keepalive r) e ops d eq_refl OD SN Uo) as (s' & _ & _ & E & _). cbn [w_rsp w] in Bf. rewrite Ew in Bf. destruct (Bf s' E) as (w' & Em & _). now exists w'.
  - destruct Bf as (w' & Em & R1). exists w'. split; [exact Em|]. split; [exact R1|exact W].
Qed.
(** ** Places *)
Lemma fst_combine {X Y} (a : list X) : forall b : list Y, List.length a = List.length b -> map fst (combine a b) = a.
Proof. induction a as [|x a IH]; intros [|y b] L; try discriminate; [reflexivity|]. cbn [combine map fst]. rewrite IH; [reflexivity|]. now injection L. Qed.
Lemma snd_combine {X Y} (a : list X) : forall b : list Y, List.length a = List.length b -> map snd (combine a b) = b.
Proof. induction a as [|x a IH]; intros [|y b] L; try discriminate; [reflexivity|]. cbn [combine map snd]. rewrite IH; [reflexivity|]. now injection L. Qed.
Lemma placed_snd {X} (l : list X) : map snd (placed l) = l.
Proof. apply snd_combine. apply seq_length. Qed.
Lemma placed_fst {X} (l : list X) : map fst (placed l) = List.seq 0 (List.length l).
Proof. apply fst_combine. apply seq_length. Qed.
Lemma numbered_fst w (l : list (func unit * opts)) : map fst (numbered w l) = map w (List.seq 0 (List.length l)).
Proof. apply fst_combine. now rewrite map_length, seq_length. Qed.
Lemma halted_find ys : halted (map (fun y => (snd y, snd (fst y))) ys) = option_map snd (List.find stops ys).
Proof. induction ys as [|[[ops [d|]] [xd|]] ys IH]; try reflexivity. exact IH. Qed.
Lemma first_find (ys : list (list hop * option (exc * edata))) :
  first_some (map snd ys) = match List.find (fun y => match snd y with Some _ => true | None => false end) ys with Some y => snd y | None => None end.
Proof. induction ys as [|[ops [xd|]] ys IH]; try reflexivity. exact IH. Qed.
Lemma find_turned ys : match List.find stops ys with Some (_, Some _) => True | Some (_, None) => snd (turned (map fst ys)) <> None | None => snd (turned (map fst ys)) = None end.
Proof.
  induction ys as [|[[ops [d|]] [xd|]] ys IH]; try exact I; try reflexivity; [cbn; discriminate|]. cbn [List.find stops map fst turned snd]. exact IH.
Qed.
(** ** The one that fails *)
Lemma failed_reply e x d (m : act unit unit) w0 w2 : e_11 e = true -> one_line (e_date e) -> one_line (e_server e) -> sound_fault (x, d) -> m w0 = (w2, inr x) -> fresh (w_rsp w2) ->
  exists w y, r_out (snd (serve_request e (fun _ s => (d, s)) m w0)) = [Some w; None] /\ r_keep (snd (serve_request e (fun _ s => (d, s)) m w0)) = false /\ fine_to (e_method e) w y /\ error_says (e_method e) x d y.
Proof.
  intros V OD SN (Nu & st & ctype & Es & Om & Ot & Mi) Em (Hs & Hb & Ho). cbn [fst snd] in *. unfold serve_request. rewrite Em.
  assert (expected x = Some (fst st, snd st, ctype)) as Ex by (destruct x; cbn in Es |- *; try discriminate; injection Es as <- <-; reflexivity).
  pose proof (error_main e (fun _ s => (d, s)) x (w_rsp w2) (fst st) (snd st) ctype d _ OD SN Hs Hb Ex Om Ot eq_refl Nu eq_refl eq_refl eq_refl eq_refl) as Emn. cbv zeta in Emn.
  destruct (handle_exception e _ x _) as [po s'] eqn:Eq. cbn [snd]. destruct Emn as (_ & Eo & Ek & _). cbn [r_out] in Eo. rewrite Ho in Eo. cbn [app] in Eo.
  destruct (error_fine e (fst st) (snd st) ctype (page_data d) V OD SN Om Ot Mi) as (y & Fy & L1 & L2 & L3 & L4 & L5).
  eexists _, y. split; [exact Eo|]. split; [exact Ek|]. split; [exact Fy|]. exists st, ctype. destruct st as [z ms]. repeat (split; [assumption|]). exact L5.
Qed.
(** The handler of a request, and its options. *)
Lemma routed o ap paths c r e body : soft_app ap paths -> sound_call o c -> frame_head (m_head (msg_of c)) (blen (m_head (msg_of c)) - 2) = Framed r ->
  exists kw str ops x, match app_route e ap r body with Some h => h | None => on_404 (app_errors ap r) end = (page_func e (ops, x), kw) /\ kw_ok kw str /\ Forall soft (pre_kw kw) /\ Forall soft_call ops.
Proof.
  intros (SR & S0 & SB & SN & SL & SE & SP & SF & SA) G Fr. unfold app_route. destruct (fst (choose search (add_routes (p_regs ap)) (rq_url r))) as [f ? ?|].
  - destruct (f =? index).
    + exists [(bs "status", VStatus 503 (bs "Service Unavailable"))], true, [], (Whole (bs "Service Unavailable")). split; [reflexivity|]. split; [|split; [apply usual_softs, status_usual|constructor]].
      { right. exists 503%Z, (bs "Service Unavailable"). split; [apply memb_notIn; reflexivity|]. left. now split. }
      { intros X. vm_compute in X. intuition discriminate. }
    + set (page := p_page ap f _ _ _ _). exists [], true, (fst page), (snd page). split; [now destruct page|]. split; [left; now split|]. split; [constructor|apply SP].
  - cbn [on_404 app_errors]. destruct (page_404 (rq_path r) (p_name ap)) as [|y0 ys] eqn:P4; [discriminate|].
    exists [(bs "status", VStatus 404 (bs "Not Found")); (bs "stream", VBool false)], false, [], (Parts y0 ys). split; [reflexivity|]. split; [|split; [apply usual_softs, status_usual|constructor]].
    { right. exists 404%Z, (bs "Not Found"). split; [apply memb_notIn; reflexivity|]. right. now split. }
    { intros X. vm_compute in X. intuition discriminate. }
Qed.
Lemma fresh_new k : fresh (new_rsp k). Proof. repeat split. Qed.
Section Reply.
Context (o : copts) (fa : faulty) (paths : list bytes) (c : S_Site.call) (date : bytes) (r : hreq) (body : bytes).
Hypothesis (A : soft_app (f_app fa) paths) (Sf : sound_faults fa) (G : sound_call o c) (OD : one_line date) (Fr : frame_head (m_head (msg_of c)) (blen (m_head (msg_of c)) - 2) = Framed r).
Let e := mkEnv true (method_of c) date (p_name (f_app fa)).
Let sees := map (fun n => values n (sent_fields c)) (p_eyes (f_app fa)).
Let xs := map (fun g => g (upper (k_method c)) (k_url c) sees) (p_before (f_app fa)).
Let zs := map (fun g => g (upper (k_method c)) (k_url c) sees) (p_after (f_app fa)).
Let w0 := mkW tt (new_rsp (rq_keepalive r)) [] [].
Lemma befores_are : befores fa r = map (fun ig => (snd ig (method_of c) (k_url c) sees, f_before fa (fst ig) (method_of c) (k_url c) sees)) (placed (p_before (f_app fa))).
Proof.
  destruct (call_framed o c G) as (r' & Fr' & Va & Me & Ur & _). rewrite Fr in Fr'. injection Fr' as <-. unfold befores. cbv zeta. destruct A as (_ & _ & _ & _ & _ & SE & _).
  rewrite Me, Ur, (eyes_see o c r (p_eyes (f_app fa)) G Fr SE). reflexivity.
Qed.
Lemma afters_are : afters fa r = map (fun ig => (snd ig (method_of c) (k_url c) sees, f_after fa (fst ig) (method_of c) (k_url c) sees)) (placed (p_after (f_app fa))).
Proof.
  destruct (call_framed o c G) as (r' & Fr' & Va & Me & Ur & _). rewrite Fr in Fr'. injection Fr' as <-. unfold afters. cbv zeta. destruct A as (_ & _ & _ & _ & _ & SE & _).
  rewrite Me, Ur, (eyes_see o c r (p_eyes (f_app fa)) G Fr SE). reflexivity.
Qed.
Lemma befores_fst : map fst (befores fa r) = xs.
Proof.
  rewrite befores_are, map_map. cbn [fst]. unfold xs. rewrite <- (placed_snd (p_before (f_app fa))) at 2. now rewrite map_map.
Qed.
Lemma afters_fst : map fst (afters fa r) = zs.
Proof.
  rewrite afters_are, map_map. cbn [fst]. unfold zs. rewrite <- (placed_snd (p_after (f_app fa))) at 2. now rewrite map_map.
Qed.
Lemma plain_req : s_req (server_of e (f_app fa) r) = map (fun x => (mid_func e x, [])) xs.
Proof.
  destruct (call_framed o c G) as (r' & Fr' & Va & Me & Ur & _). rewrite Fr in Fr'. injection Fr' as <-. destruct A as (_ & _ & _ & _ & _ & SE & _).
  unfold server_of. cbn [s_req]. rewrite Me, Ur, (eyes_see o c r (p_eyes (f_app fa)) G Fr SE). unfold xs. now rewrite map_map.
Qed.
Lemma plain_resp : s_resp (server_of e (f_app fa) r) = map (fun x => (mid_func e (x, None), [])) zs.
Proof.
  destruct (call_framed o c G) as (r' & Fr' & Va & Me & Ur & _). rewrite Fr in Fr'. injection Fr' as <-. destruct A as (_ & _ & _ & _ & _ & SE & _).
  unfold server_of. cbn [s_resp]. rewrite Me, Ur, (eyes_see o c r (p_eyes (f_app fa)) G Fr SE). unfold zs. now rewrite map_map.
Qed.
(** What is raised is what the model says. *)
Lemma raised_is p : has_path (k_url c) p -> forall out, raised fa paths c out <-> out = the_fault fa r (body_of c).
Proof.
  intros HP out. unfold raised, the_fault. cbv zeta. fold (method_of c). fold sees.
  assert (map (fun ig => (f_before fa (fst ig) (method_of c) (k_url c) sees, snd (snd ig (method_of c) (k_url c) sees))) (combine (List.seq 0 (List.length (p_before (f_app fa)))) (p_before (f_app fa))) = map (fun y => (snd y, snd (fst y))) (befores fa r)) as ->.
  { rewrite befores_are, map_map. reflexivity. }
  rewrite halted_find. change (fun y : list hop * option bytes * option (exc * edata) => match y with (_, None, None) => false | _ => true end) with stops.
  destruct (List.find stops (befores fa r)) as [[x [xd|]]|]; cbn [option_map snd]; [tauto|tauto|].
  assert (forall q, first_some (q :: rev (map (fun i => f_after fa i (method_of c) (k_url c) sees) (List.seq 0 (List.length (p_after (f_app fa)))))) =
    match q with Some xd => Some xd | None => match List.find (fun y => match snd y with Some _ => true | None => false end) (rev (afters fa r)) with Some y => snd y | None => None end end) as Kq.
  { intros [q|]; [reflexivity|]. cbn [first_some]. rewrite <- first_find, map_rev. do 2 f_equal. rewrite afters_are, map_map. cbn [snd]. rewrite <- placed_fst, map_map. reflexivity. }
  split.
  - intros (p' & HP' & ->). rewrite Kq, (fault_known o fa paths c r p' (body_of c) A G Fr HP'). destruct (function_of _ paths p') as [[|f]|]; try reflexivity. cbv zeta. now destruct (f_raises fa (S f) _ _ _ _).
  - intros ->. exists p. split; [exact HP|]. rewrite Kq, (fault_known o fa paths c r p (body_of c) A G Fr HP). destruct (function_of _ paths p) as [[|f]|]; try reflexivity. cbv zeta. now destruct (f_raises fa (S f) _ _ _ _).
Qed.
Lemma the_sound x : the_fault fa r body = Some x -> sound_fault x.
Proof.
  destruct Sf as (S1 & S2 & S3). unfold the_fault. destruct (List.find _ (befores fa r)) as [y|] eqn:F1.
  - intros E. apply List.find_some in F1 as [I _]. rewrite befores_are in I. apply in_map_iff in I as (ig & <- & _). exact (S2 _ _ _ _ _ E).
  - destruct (fault_of fa r body) as [[ops xd]|] eqn:Ef.
    + intros E. injection E as <-. unfold fault_of in Ef. destruct (fst (choose _ _ _)) as [f ? ?|]; [|discriminate]. destruct (f =? index); [discriminate|]. cbv zeta in Ef.
      destruct (f_raises fa f _ _ _ _) as [xd'|] eqn:Hr; [|discriminate]. cbn [option_map] in Ef. apply (f_equal (option_map snd)) in Ef. cbn [option_map snd] in Ef. injection Ef as <-. exact (S1 _ _ _ _ _ _ Hr).
    + destruct (List.find _ (rev (afters fa r))) as [y|] eqn:F2; [|discriminate]. intros E. apply List.find_some in F2 as [I _]. apply in_rev in I. rewrite afters_are in I. apply in_map_iff in I as (ig & <- & _). exact (S3 _ _ _ _ _ E).
Qed.
(** The request middlewares, as far as they do not fail. *)
Lemma same_before : match List.find stops (befores fa r) with
  | Some (_, Some (x, _)) => exists w', middlewares e (numbered ReqMid (s_req (server_faulty e fa r))) [] w0 = (w', inr x) /\ fresh (w_rsp w')
  | _ => middlewares e (numbered ReqMid (s_req (server_faulty e fa r))) [] w0 = middlewares e (numbered ReqMid (s_req (server_of e (f_app fa) r))) [] w0
  end.
Proof.
  pose proof A as (_ & _ & _ & SN & _). pose proof (before_faulty e (befores fa r) OD SN (numbered ReqMid (s_req (server_faulty e fa r))) w0 (numbered_snd _ _)) as B.
  destruct (List.find stops (befores fa r)) as [[y [[x d]|]]|].
  - destruct B as (w' & ops & E1 & E2). exists w'. split; [exact E1|]. rewrite E2. apply keeps_hops, fresh_new.
  - symmetry. apply B; [rewrite numbered_snd, plain_req, <- befores_fst, map_map; reflexivity|]. rewrite !numbered_fst. do 2 f_equal. rewrite plain_req, <- befores_fst. cbn [s_req server_faulty]. now rewrite !map_length.
  - symmetry. apply B; [rewrite numbered_snd, plain_req, <- befores_fst, map_map; reflexivity|]. rewrite !numbered_fst. do 2 f_equal. rewrite plain_req, <- befores_fst. cbn [s_req server_faulty]. now rewrite !map_length.
Qed.
Lemma serve_env : fault_serve date fa r body = serve_request e (match the_fault fa r body with Some (_, d) => fun _ s => (d, s) | None => error_page end)
    (headers_received e (server_faulty e fa r) (app_errors (f_app fa) r) true (has_body r) (fault_route e fa r body)) w0 /\
  app_serve date (f_app fa) r body = serve_request e error_page (headers_received e (server_of e (f_app fa) r) (app_errors (f_app fa) r) true (has_body r) (app_route e (f_app fa) r body)) w0.
Proof.
  destruct (call_framed o c G) as (r' & Fr' & Va & Me & Ur & Ve & _). rewrite Fr in Fr'. injection Fr' as <-.
  unfold fault_serve, app_serve. rewrite Va, Ve, Me. change (beqb (bs "1.1") (bs "1.1")) with true. fold (method_of c). split; reflexivity.
Qed.
(** Nothing fails. *)
Lemma none_fails : the_fault fa r body = None -> fault_serve date fa r body = app_serve date (f_app fa) r body.
Proof.
  intros T. destruct serve_env as [-> ->]. rewrite T. unfold serve_request, headers_received, andthen. pose proof same_before as B. pose proof (find_turned (befores fa r)) as Ft. unfold the_fault in T.
  change (fun y : list hop * option bytes * option (exc * edata) => match y with (_, None, None) => false | _ => true end) with stops in T. rewrite befores_fst in Ft.
  pose proof (front o (f_app fa) paths c date r A G OD Fr) as F. cbv zeta in F. fold sees in F. fold xs in F. fold e in F. fold w0 in F.
  destruct (List.find stops (befores fa r)) as [[y [xd|]]|]; cbn [snd] in T; [discriminate| |]; rewrite B; clear B.
  - destruct (snd (turned xs)); [|congruence]. destruct F as (w' & ->). reflexivity.
  - rewrite Ft in F. destruct F as (w' & -> & _). unfold fault_route. destruct (fault_of fa r body) as [[ops [x d]]|]; [discriminate|].
    assert (s_resp (server_faulty e fa r) = s_resp (server_of e (f_app fa) r)) as Er.
    { rewrite plain_resp, <- afters_fst, map_map. cbn [server_faulty s_resp]. apply map_ext_in. intros y Iy. replace (snd y) with (@None (exc * edata)); [reflexivity|].
      destruct (snd y) as [xd|] eqn:Ey; [|reflexivity]. destruct (List.find _ (rev (afters fa r))) as [y'|] eqn:Fy; [apply List.find_some in Fy as [_ Fy]; rewrite T in Fy; discriminate|].
      apply List.find_none with (x := y) in Fy; [rewrite Ey in Fy; discriminate|now apply -> in_rev]. }
    unfold server_faulty, server_of in Er |- *. cbn [s_resp] in Er. rewrite Er. reflexivity.
Qed.
(** Something fails. *)
Lemma some_fails x d : the_fault fa r body = Some (x, d) ->
  exists w y, r_out (snd (fault_serve date fa r body)) = [Some w; None] /\ r_keep (snd (fault_serve date fa r body)) = false /\ fine_to (method_of c) w y /\ error_says (method_of c) x d y.
Proof.
  intros T. destruct serve_env as [-> _]. rewrite T. pose proof (the_sound _ T) as So. pose proof A as (SR & S0 & SB & SN & SL & SE & SP & SF & SA).
  assert (exists w2, headers_received e (server_faulty e fa r) (app_errors (f_app fa) r) true (has_body r) (fault_route e fa r body) w0 = (w2, inr x) /\ fresh (w_rsp w2)) as (w2 & Em & Fw).
  2:{ exact (failed_reply e x d _ w0 w2 eq_refl OD SN So Em Fw). }
  unfold headers_received, andthen at 1. pose proof same_before as B. pose proof (find_turned (befores fa r)) as Ft. unfold the_fault in T.
  change (fun y : list hop * option bytes * option (exc * edata) => match y with (_, None, None) => false | _ => true end) with stops in T. rewrite befores_fst in Ft.
  pose proof (front o (f_app fa) paths c date r A G OD Fr) as F. cbv zeta in F. fold sees in F. fold xs in F. fold e in F. fold w0 in F.
  destruct (List.find stops (befores fa r)) as [[y [[x' d']|]]|]; cbn [snd] in T; [|discriminate|].
  { injection T as <- <-. destruct B as (w' & -> & Fw). exists w'. split; [reflexivity|exact Fw]. }
  rewrite B, Ft in *. clear B. destruct F as (w1 & -> & R1 & Wk). assert (fresh (w_rsp w1)) as F1 by (rewrite R1; apply keeps_hops, fresh_new). unfold fault_route.
  destruct (fault_of fa r body) as [[ops [x' d']]|] eqn:Ef.
  - injection T as <- <-. unfold handle_response. cbv zeta. unfold merge. cbn [app]. set (op := set_default _ _ _). assert (oget "sse" op = None /\ oget "status" op = None /\ oget "content_type" op = None) as (O1 & O2 & O3) by (repeat split; reflexivity).
    rewrite O1. unfold andthen at 1, ret at 1. unfold andthen at 1, apply_options. rewrite O2, O3. unfold andthen at 1 2, ret at 1 2. unfold rsp_do at 1. rewrite (base_run e _ OD SN).
    unfold andthen at 1, ctx_update. cbn [w_rsp w_app w_ctx w_log]. unfold andthen at 1, run_func. cbn [w_rsp w_app w_ctx w_log fst snd]. unfold andthen at 1, note. cbn [w_rsp w_app w_ctx w_log]. unfold throw. eexists. split; [reflexivity|].
    cbn [w_rsp]. apply keeps_hops, keeps_base, F1.
  - destruct (routed o (f_app fa) paths c r e body A G Fr) as (kw & str & ops & y & -> & Hk & Uk & Uo).
    assert (Forall (Forall user_call) (rev zs) /\ Forall (Forall sure_call) (rev zs) /\ Forall (Forall calm_call) (rev zs)) as (Uz & Sz & Cz).
    { repeat split; apply Forall_rev; unfold zs; apply Forall_map; (eapply Forall_impl; [|exact SA]); intros g Hg; apply Hg. }
    set (pre := walked xs ++ pre_kw kw ++ HBase :: ops).
    assert (Forall soft pre) as Up. { unfold pre. rewrite !Forall_app. split; [exact Wk|]. split; [exact Uk|]. apply Forall_cons; [apply usual_soft, base_usual|now apply soft_softs]. }
    destruct (soft_all _ Wk) as (W1 & W2 & W3). destruct (called_intro True e (walked xs) (rq_keepalive r) W1 (fun _ => W2) W3) as (st & Ca).
    destruct (answer_any (rq_keepalive r) e (p_buf (f_app fa)) str pre (based (rev zs)) y eq_refl SB Up (based_usual _ Uz) (based_clean e _ OD SN Uz Sz) (based_framing _ Sz) (based_calm _ Cz)) as (s' & _ & _ & E & _).
    destruct (List.find _ (rev (afters fa r))) as [z|] eqn:Fz; [|discriminate].
    apply (handle_fails e (server_faulty e fa r) (has_body r) (p_buf (f_app fa)) str kw ops y (based (rev zs)) w1 st s' x OD SN); [|reflexivity|exact Hk|exact F1|rewrite R1; apply (ca_h _ _ _ _ _ _ Ca)|exact (ca_l _ _ _ _ _ _ Ca)|rewrite R1, <- do_hops_app; exact E].
    intros op w. pose proof (after_faulty e op (rev (afters fa r)) OD SN (rev (numbered RespMid (s_resp (server_faulty e fa r)))) w) as Af. rewrite Fz in Af. destruct z as [zo zf]. cbn [snd] in T. rewrite T in Af. apply Af.
    rewrite !map_rev, numbered_snd. reflexivity.
Qed.
End Reply.

Lemma error_close m x d y : error_says m x d y -> says_close y.
Proof.
  intros (st & ctype & _ & _ & _ & _ & L & _). unfold lines_named in L. split.
  - assert (In (bs "Connection: close") (filter (fun l => beqb (field_name l) (bs "connection")) (r_lines y))) as I by (rewrite L; now left). now apply filter_In in I as [I _].
  - intros l Il El. assert (In l (filter (fun l => beqb (field_name l) (bs "connection")) (r_lines y))) as I by (apply filter_In; split; [exact Il|now apply beqb_eq]). rewrite L in I. now destruct I as [<-|[]].
Qed.
(** A request and its response. *)
Lemma fault_any o fa paths c date : soft_app (f_app fa) paths -> sound_faults fa -> sound_call o c -> one_line date ->
  exists r z w y, frame_head (m_head (msg_of c)) (blen (m_head (msg_of c)) - 2) = Framed r /\ snd (fault_serve date fa r (body_of c)) = z /\
    (exists items, r_out z = map Some items ++ [None] /\ List.concat items = w) /\ fine_to (method_of c) w y /\ right_reply fa paths c y /\
    (fails fa paths c -> r_keep z = false) /\ (full_streams (f_app fa) -> ~ fails fa paths c -> r_keep z = rq_keepalive r) /\ (fails fa paths c \/ ~ fails fa paths c) /\
    (leaves_connection (f_app fa) -> (fails fa paths c -> says_close y) /\ (~ fails fa paths c -> reads (rq_keepalive r) y)).
Proof.
  intros A Sf G OD. destruct (stack_any o (f_app fa) paths c date A G OD) as (r & z & w & y & Fr & Ez & It & Fi & Ri & Ke & Rd). exists r.
  pose proof G as (_ & _ & _ & (p & HP) & _).
  pose proof (raised_is o fa paths c r A G Fr p HP) as Ra.
  destruct (the_fault fa r (body_of c)) as [[x d]|] eqn:Ef.
  - destruct (some_fails o fa paths c date r (body_of c) A Sf G OD Fr x d Ef) as (w' & y' & Eo & Ek & Fy & Es).
    exists (snd (fault_serve date fa r (body_of c))), w', y'. split; [exact Fr|]. split; [reflexivity|]. split; [exists [w']; split; [exact Eo|cbn; apply app_nil_r]|]. split; [exact Fy|]. split; [exists (Some (x, d)); split; [now apply Ra|exact Es]|].
    assert (fails fa paths c) as Yf by (exists (x, d); now apply Ra). split; [intros _; exact Ek|]. split; [intros _ Nf; contradiction|]. split; [now left|]. intros _. split; [intros _; exact (error_close _ _ _ _ Es)|intros X; contradiction].
  - rewrite (none_fails o fa paths c date r (body_of c) A G OD Fr Ef). exists z, w, y. split; [exact Fr|]. split; [exact Ez|]. split; [exact It|]. split; [exact Fi|]. split; [exists None; split; [now apply Ra|exact Ri]|].
    assert (~ fails fa paths c) as Nf by (intros (xd & X); apply Ra in X; discriminate). split; [intros X; contradiction|]. split; [intros Fs _; now apply Ke|]. split; [now right|]. intros Lc. split; [intros X; contradiction|]. intros _. now apply Rd.
Qed.

(** ** The exchange *)
Definition reply_pair (fa : faulty) (paths : list bytes) (c : S_Site.call) (p : bytes * answer) : Prop := fst p = method_of c /\ right_reply fa paths c (snd p).
Lemma pairs_read fa paths cs l : Forall2 (reply_pair fa paths) cs l -> map method_of cs = map fst l /\ Forall2 (right_reply fa paths) cs (map snd l).
Proof.
  induction 1 as [|c x cs l [E R] F [IH1 IH2]]; [split; [reflexivity|constructor]|]. cbn [map]. split; [now rewrite E, IH1|now constructor].
Qed.
Section Run.
Context (o : copts) (fa : faulty) (paths : list bytes) (reqs : list call) (date : nat -> bytes) (tr : list cev) (s : conn) (b : list obs).
Let M := map msg_of reqs.
Hypothesis (Ook : opts_ok o) (Aok : soft_app (f_app fa) paths) (Fok : sound_faults fa) (Rok : Forall (sound_call o) reqs) (Dok : forall i, one_line (date i)).
Hypothesis (Hrun : conn_run o conn_new tr = Some (s, b)) (Hop : c_closing s = false).
Hypothesis (Hc : client_ok o M tr) (Hs : S_Conn.settled o tr \/ client_waits o M tr) (Hh : handlers_ok o M tr).

Lemma fault_page i c : performs_faulty fa date tr b -> nth_error reqs i = Some c -> In i (closers tr) ->
  exists items, did i tr = map Some items ++ [None] /\ exists x, fine_pair (List.concat items) x /\ reply_pair fa paths c x.
Proof.
  intros Hp Ei Hi. destruct (closed_read o reqs tr s b Ook Rok Hrun Hop Hc Hs Hh i c Ei Hi) as (St & Gb & G).
  destruct (fault_any o fa paths c (date i) Aok Fok G (Dok i)) as (r & z & w & x & Fr & Ez & (items & Oi & Ew) & Rd & Ra & _).
  exists items. split; [|exists (method_of c, x); split; [rewrite Ew; exact Rd|split; [reflexivity|exact Ra]]].
  rewrite (Hp i _ r St Hi Fr), Gb, Ez. exact Oi.
Qed.
Lemma fault_exchange : performs_faulty fa date tr b -> exists l rest, read_answers_to (map method_of (firstn (ended b) reqs)) (written b) = Some (l, rest) /\ Forall2 (right_reply fa paths) (firstn (ended b) reqs) l /\
  (input tr = List.concat (map wire M) -> S_Conn.quiet o tr s b -> ended b = List.length reqs /\ rest = []).
Proof.
  intros Hp. assert (forall i c, nth_error reqs i = Some c -> In i (closers tr) -> exists items, did i tr = map Some items ++ [None] /\ (i < ended b -> exists x, fine_pair (List.concat items) x /\ reply_pair fa paths c x)) as Ha.
  { intros i c Ei Hi. destruct (fault_page i c Hp Ei Hi) as (items & Dd & X). exists items. split; [exact Dd|]. intros _. exact X. }
  destruct (answers_upto fine_pair (reply_pair fa paths) o reqs tr s b Ook Rok Hrun Hop Hc Hs Hh Ha (ended b) (le_n _)) as (l & A & B). destruct (pairs_read _ _ _ _ B) as [B1 B2]. exists (map snd l), (out (ended b) b). split; [|split].
  - rewrite written_out, B1. now apply read_all_to.
  - exact B2.
  - exact (all_done fine_pair (reply_pair fa paths) o reqs tr s b Ook Rok Hrun Hop Hc Hs Hh Ha).
Qed.
Lemma fault_obeys : closes_faulty fa date tr b -> Forall (fun c => ~ fails fa paths c /\ (full_streams (f_app fa) -> ~ bids_close c)) (firstn (ended b) reqs).
Proof.
  intros Hq. apply Forall_forall. intros c Hc'. apply In_nth_error in Hc' as (i & Ei).
  assert (i < ended b) as Li by (assert (nth_error (firstn (ended b) reqs) i <> None) as X by congruence; apply nth_error_Some in X; rewrite firstn_length in X; lia).
  assert (nth_error reqs i = Some c) as Er. { clear -Ei Li. revert i Ei Li. generalize (ended b) as n. induction reqs as [|y ys IH]; intros [|n] [|i] E L; try lia; try discriminate; cbn [firstn nth_error] in *; [exact E|]. apply (IH n); [exact E|lia]. }
  pose proof (ended_closed o reqs tr s b Ook Rok Hrun Hop Hc Hs Hh i Li) as Hi. destruct (closed_read o reqs tr s b Ook Rok Hrun Hop Hc Hs Hh i c Er Hi) as (St & Gb & G).
  apply in_flat_map in Hi as (x & Hx & Hi). destruct x; try contradiction. destruct Hi as [->|[]].
  pose proof (run_kept o M (all_ok o reqs Rok) Ook tr s b Hrun Hop Hc Hh (seemly o reqs tr Rok Hs) i keep Li Hx) as ->.
  destruct (fault_any o fa paths c (date i) Aok Fok G (Dok i)) as (r & z & w & x & Fr & Ez & _ & _ & _ & Kf & Ke & _). pose proof (Hq i _ r true St Hx Fr) as X. rewrite Gb, Ez in X.
  assert (~ fails fa paths c) as Nf by (intros F; rewrite (Kf F) in X; discriminate). split; [exact Nf|]. intros Fs Bc. rewrite (Ke Fs Nf) in X.
  destruct (call_framed o c G) as (r' & Fr' & _ & _ & _ & _ & Ka & _). rewrite Fr in Fr'. injection Fr' as <-. apply Ka in Bc. congruence.
Qed.
End Run.
Lemma fault_closed o fa paths reqs date tr e s b s' bx :
  opts_ok o -> (0 < o_body o)%Z -> soft_app (f_app fa) paths -> sound_faults fa -> Forall (sound_call o) reqs -> Forall (small o) reqs -> (forall i, one_line (date i)) ->
  conn_run o conn_new tr = Some (s, b) -> c_closing s = false -> conn_step o s e = Some (s', bx) -> c_closing s' = true ->
  client_waits o (map msg_of reqs) (tr ++ [e]) -> handlers_ok o (map msg_of reqs) (tr ++ [e]) -> uncut (tr ++ [e]) -> keeps_up o (tr ++ [e]) ->
  performs_faulty fa date tr b -> closes_faulty fa date tr b ->
  exists n, ended (b ++ bx) = S n /\ List.length (starts (b ++ bx)) = S n /\ Forall (fun c => ~ fails fa paths c) (firstn n reqs) /\
  (exists answers, read_answers_to (map method_of (firstn (S n) reqs)) (written (b ++ bx)) = Some (answers, []) /\ Forall2 (right_reply fa paths) (firstn (S n) reqs) answers) /\
  (full_streams (f_app fa) -> e = RunSend true \/ exists c, nth_error reqs n = Some c /\ (bids_close c \/ fails fa paths c)).
Proof.
  intros Oo Ob Ao Fo Ro Lo Do Run Op St Cl Hw Hh Hu Hk Hp Hq.
  assert (client_waits o (map msg_of reqs) tr) as Hw1 by (intros pre d post s3 b3 Et; apply (Hw pre d (post ++ [e]) s3 b3); rewrite Et, <- app_assoc; reflexivity).
  assert (calm o (map msg_of reqs) (tr ++ [e])) as Hm by (apply counted_calm, Forall_map; eapply Forall_impl; [|exact Ro]; intros c; apply call_counted).
  destruct (prefix_ok o (map msg_of reqs) tr e (waits_ok _ _ _ Hw) Hh (or_intror (conj Hw Hm))) as (Hc1 & Hh1 & _).
  destruct (closing_step fine_pair (reply_pair fa paths) o reqs tr e s s' b bx Oo Ob Ro Lo Run Op St Cl Hw Hh Hu Hk
    (fun i c => fault_page o fa paths reqs date tr s b Oo Ao Fo Ro Do Run Op Hc1 (or_intror Hw1) Hh1 i c Hp)) as (-> & Hi & _ & Ls & (l & F & B) & c & r & Ei & Sc & Fr & Why).
  assert (ended (b ++ [Ended]) = S (ended b)) as En by (rewrite ended_app; cbn; lia). exists (ended b). split; [exact En|]. split; [rewrite starts_app, app_length, Ls; cbn; lia|].
  split; [|split].
  - pose proof (fault_obeys o fa paths reqs date tr s b Oo Ao Fo Ro Do Run Op Hc1 (or_intror Hw1) Hh1 Hq) as X. eapply Forall_impl; [|exact X]. now intros ? [? _].
  - destruct (pairs_read _ _ _ _ B) as [B1 B2]. exists (map snd l). split; [|exact B2].
    assert (written (b ++ [Ended]) = List.concat (map (fun i => out i b) (List.seq 0 (S (ended b)))) ++ []) as ->.
    { unfold written. rewrite map_app, concat_app. cbn [map List.concat]. fold (written b). rewrite (written_out b), seq_S, map_app, concat_app. cbn [map List.concat Nat.add]. now rewrite !app_nil_r. }
    rewrite B1. now apply read_all_to.
  - intros Fs. destruct Why as [->|Why]; [now left|right]. exists c. split; [exact Ei|]. pose proof (proj1 (Forall_forall _ _) Ro c (nth_error_In _ _ Ei)) as G.
    destruct (closed_read o reqs tr s b Oo Ro Run Op Hc1 (or_intror Hw1) Hh1 _ c Ei Hi) as (_ & Gb & _).
    destruct (call_framed o c G) as (r' & Fr' & _ & _ & _ & _ & Ka & _). rewrite Fr in Fr'. injection Fr' as <-. destruct Why as [W|W]; [left; now apply Ka|].
    destruct (fault_any o fa paths c (date (ended b)) Ao Fo G (Do _)) as (r' & z & w & y & Fr' & Ez & _ & _ & _ & _ & Ke & Dec & _). rewrite Fr in Fr'. injection Fr' as <-.
    pose proof (Hq _ _ r false Sc W Fr) as X. rewrite Gb, Ez in X.
    destruct (rq_keepalive r) eqn:Kr; [|left; now apply Ka].
    destruct Dec as [Y|Y]; [now right|rewrite (Ke Fs Y) in X; discriminate].
Qed.
