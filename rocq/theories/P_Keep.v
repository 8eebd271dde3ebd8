(** Proofs about exchanges on connections that stay open (C80). *)
From Verif Require Import PyBytes PyBytesFacts PyInt PyExn M_Parser M_Framing M_Conn M_Response M_Scope M_Asgi M_AsgiSite M_Stack
  S_Head S_Response S_Calls S_Scope S_Asgi S_Conn S_Site S_AsgiSite S_Stack S_Open S_Keep P_Conn P_Conn2 P_Conn3 P_Conn5 P_Conn6 P_Conn7 P_Conn8 P_Conn9 P_Conn10 P_Conn11 P_Asgi3 P_Site3 P_Exchange P_AsgiSite P_Stack2 T_Conn.

Section Run.
Context (o : copts) (reqs : list call) (tr : list cev) (s : conn) (b : list obs).
Let M := map msg_of reqs.
Hypothesis (Ook : opts_ok o) (Obk : (0 < o_body o)%Z) (Rok : Forall (sound_call o) reqs) (Kok : Forall (fun c => ~ bids_close c) reqs) (Lok : Forall (small o) reqs).
Hypothesis (Hrun : conn_run o conn_new tr = Some (s, b)) (Hw : client_waits o M tr) (Hh : handlers_ok o M tr) (Hu : unbroken tr) (Hk : keeps_up o tr).

Lemma all_limits : Forall (in_limits o) M.
Proof.
  pose proof (all_ok o reqs Rok) as Mo. apply Forall_map, Forall_forall. intros c Hc. destruct (proj1 (Forall_forall _ _) Lok c Hc) as [L1 L2]. pose proof (proj1 (Forall_forall _ _) Rok c Hc) as G. split; [exact L1|]. split.
  { destruct (counted (msg_of c)) eqn:Cm; [exact L2|]. assert (m_has (msg_of c) = false) as Hn by (destruct (m_has (msg_of c)) eqn:X; [rewrite (call_counted o c G X) in Cm; discriminate|reflexivity]). unfold m_has, msg_of in Hn. cbn [m_body msg_of]. unfold body_of. destruct (k_body c); [discriminate|exact Obk]. }
  intros r Pr. destruct (call_framed o c G) as (r' & Fr & _ & _ & _ & _ & Ka & _). destruct (proj1 (Forall_forall _ _) Mo (msg_of c) (in_map _ _ _ Hc)) as (p & r2 & F & L & _ & F2 & _).
  unfold parsed in Pr. rewrite F in Pr. assert (blen (m_head (msg_of c)) - 2 = Z.of_nat p + 2)%Z as Ep by (unfold blen; lia). rewrite Ep in Fr. rewrite Fr in Pr. injection Pr as <-. destruct (rq_keepalive r'); [reflexivity|]. exfalso. apply (proj1 (Forall_forall _ _) Kok c Hc). now apply Ka.
Qed.
Lemma all_calm tr' : calm o M tr'.
Proof. apply counted_calm, Forall_map. eapply Forall_impl; [|exact Rok]. intros c. apply call_counted. Qed.
(** What holds of the run holds of its beginnings. *)
Lemma beginnings pre post : tr = pre ++ post -> client_ok o M pre /\ client_waits o M pre /\ handlers_ok o M pre /\ keeps_up o pre.
Proof.
  intros E. assert (client_waits o M pre) as W by (intros p d q s3 b3 Et; apply (Hw p d (q ++ post) s3 b3); rewrite E, Et, <- app_assoc; reflexivity).
  split; [exact (waits_ok _ _ _ W)|]. split; [exact W|]. split; [|intros p q s3 b3 Et; apply (Hk p (q ++ post) s3 b3); rewrite E, Et, <- app_assoc; reflexivity].
  destruct Hh as (Hn & Hb & Ht & Hup & Ha). split; [|split; [|split; [|split]]].
  - unfold closers in *. rewrite E, flat_map_app in Hn. now apply nodup_app_l in Hn.
  - intros p i keep q s3 b3 m Et. apply (Hb p i keep (q ++ post) s3 b3 m). rewrite E, Et, <- app_assoc. reflexivity.
  - intros p i q s3 b3 m Et. apply (Ht p i (q ++ post) s3 b3 m). rewrite E, Et, <- app_assoc. reflexivity.
  - intros i H. apply (Hup i). rewrite E. apply in_or_app. now left.
  - intros p e0 i q s3 b3 m Et. apply (Ha p e0 i (q ++ post) s3 b3 m). rewrite E, Et, <- app_assoc. reflexivity.
Qed.
(** If the handlers keep the connection whenever those before them were started with the right heads and have closed, nobody wants to end it. *)
Hypothesis (Hkeep : forall i c keep, nth_error reqs i = Some c -> In (Started i (m_head (msg_of c))) b ->
  (forall j, j < i -> In j (closers tr) /\ exists c', nth_error reqs j = Some c' /\ In (Started j (m_head (msg_of c'))) b) -> In (HClose i keep) tr -> keep = true).
Lemma wanted_upto pre : forall post, tr = pre ++ post -> wanted pre.
Proof.
  induction pre as [|e pre IH] using rev_ind; intros post E; [constructor|]. rewrite <- app_assoc in E. cbn [app] in E. pose proof (IH _ E) as W. apply Forall_app. split; [exact W|]. constructor; [|constructor].
  assert (match e with Eof | Abort | Lost | RunSend true => False | _ => True end) as U.
  { unfold unbroken in Hu. rewrite E in Hu. apply Forall_app in Hu as [_ Hu']. now inversion_clear Hu'. }
  destruct e as [| | | | | | | | |i [|]| | | |]; try exact U; try exact Logic.I.
  destruct (beginnings pre _ E) as (Hc1 & Hw1 & Hh1 & Hk1). pose proof Hrun as R. rewrite E, conn_run_app in R. destruct (conn_run o conn_new pre) as [[s1 b1]|] eqn:E1; [|discriminate]. cbn [conn_run] in R.
  destruct (conn_step o s1 (HClose i false)) as [[s2 b2]|] eqn:E2; [|discriminate]. destruct (conn_run o s2 post) as [[s3 b3]|]; [|discriminate]. assert (b = b1 ++ b2 ++ b3) as Eb by congruence. clear R.
  destruct (stays_open o M (all_ok o reqs Rok) Ook all_limits Obk pre s1 b1 E1 Hc1 Hw1 (all_calm pre) Hh1 W Hk1) as (Cl & _).
  assert (c_closing s2 = false) as Cl2.
  { unfold conn_step in E2. destruct (c_lost s1); [discriminate|]. destruct (live s1 i); [|discriminate]. apply pair_some in E2 as [-> _]. csimp. destruct (on_req_misc i (set_keep false) s1) as (-> & _). exact Cl. }
  assert (tr = (pre ++ [HClose i false]) ++ post) as E' by (rewrite <- app_assoc; exact E). destruct (beginnings _ _ E') as (Hc2 & Hw2 & Hh2 & _).
  assert (conn_run o conn_new (pre ++ [HClose i false]) = Some (s2, b1 ++ b2)) as R2 by (rewrite conn_run_app, E1; cbn [conn_run]; rewrite E2, app_nil_r; reflexivity).
  assert (In i (closers (pre ++ [HClose i false]))) as Hi by (unfold closers; rewrite flat_map_app; apply in_or_app; right; now left).
  assert (forall j, In j (closers (pre ++ [HClose i false])) -> exists c, nth_error reqs j = Some c /\ In (Started j (m_head (msg_of c))) b) as K.
  { intros j Hj. destruct (closed_call o reqs _ s2 _ Ook Rok R2 Cl2 Hc2 (or_intror Hw2) Hh2 j Hj) as (c & Ej). exists c. split; [exact Ej|].
    destruct (closed_read o reqs _ s2 _ Ook Rok R2 Cl2 Hc2 (or_intror Hw2) Hh2 j c Ej Hj) as (St & _). rewrite Eb, app_assoc. apply in_or_app. now left. }
  destruct (K i Hi) as (c & Ei & St). cut (false = true); [discriminate|]. apply (Hkeep i c false Ei St); [|rewrite E; apply in_or_app; right; now left].
  intros j Lj. pose proof (closed_after o reqs _ s2 _ Ook Rok R2 Cl2 Hc2 (or_intror Hw2) Hh2 i j Hi Lj) as Le. pose proof (ended_closed o reqs _ s2 _ Ook Rok R2 Cl2 Hc2 (or_intror Hw2) Hh2 j Le) as Hj.
  split; [|now apply K]. rewrite E'. unfold closers in *. rewrite (flat_map_app _ (pre ++ _) post). apply in_or_app. now left.
Qed.
Lemma kept_open : c_closing s = false /\ c_lost s = false.
Proof.
  pose proof (wanted_upto tr [] (eq_sym (app_nil_r _))) as W.
  destruct (stays_open o M (all_ok o reqs Rok) Ook all_limits Obk tr s b Hrun (waits_ok _ _ _ Hw) Hw (all_calm tr) Hh W Hk) as (A & B & _). now split.
Qed.
End Run.

(** ** Handlers and middlewares *)
Lemma stack_keeps o ap paths c date r x : good_app ap paths -> good_call o c -> one_line date ->
  frame_head (m_head (msg_of c)) (blen (m_head (msg_of c)) - 2) = Framed r -> r_keep (snd (app_serve date ap r x)) = true.
Proof.
  intros A G D Fr. set (ap' := mkStack (p_regs ap) (p_looks ap) (fun f m u v _ => p_page ap f m u v x) (p_eyes ap) (p_before ap) (p_after ap) (p_rate ap) (p_buf ap) (p_name ap)).
  assert (good_app ap' paths) as A' by (destruct A as (A1 & A2 & A3 & A4 & A5 & A6 & A7 & A8); split; [exact A1|]; repeat (split; [assumption|]); split; [intros f m u v y; apply A7|exact A8]).
  destruct (stack_right o ap' paths c date A' G D) as (r' & z & w & y & Fr' & Ez & _ & _ & _ & Ke). rewrite Fr in Fr'. injection Fr' as <-. change (app_serve date ap r x) with (app_serve date ap' r (body_of c)). now rewrite Ez.
Qed.

(** ** ASGI *)
Lemma headers_mode e text hs : wants (bs "content-length") hs = false -> forall a, a_chunked (start_headers e text hs a) = a_chunked a.
Proof.
  induction hs as [|[n v] hs IH]; intros W a; [reflexivity|]. cbn [wants existsb fst] in W. apply orb_false_elim in W as [W1 W2]. specialize (IH W2). cbn [start_headers]. destruct (_ || _)%bool; [now rewrite fail_chunked|]. cbn zeta. destruct (beqb _ (bs "content-type")); [called; [rewrite IH|]; exact K|]. destruct (_ || _)%bool; [apply IH|].
  destruct (beqb _ (bs "connection")); [rewrite IH; now destruct (beqb (lower v) (bs "close"))|]. cbn zeta. rewrite W1. called; [rewrite IH|]; exact K.
Qed.
Lemma finish_mode e more a : a_chunked (body_finish e more a) = a_chunked a.
Proof. unfold body_finish. destruct more; [reflexivity|]. called; [rewrite call_chunked|]; exact K. Qed.
Lemma send_mode e phrase text size a ev : match ev with Start _ hs => wants (bs "content-length") hs = false | _ => True end -> a_chunked (asgi_send e phrase text size a ev) = a_chunked a.
Proof.
  assert (forall hs a, wants (bs "content-length") hs = false -> a_chunked (start_base e text hs a) = a_chunked a) as B.
  { intros hs a0 N0. unfold start_base. called; [rewrite headers_mode by exact N0|]; exact K. }
  intros N. destruct ev as [[st|] hs|[|c body] more]; cbn [asgi_send].
  - destruct (phrase st); [|reflexivity]. called; [rewrite B by exact N|]; exact K.
  - now apply B.
  - apply finish_mode.
  - called; [rewrite finish_mode|]; exact K.
Qed.
Lemma serve_mode date y h r x ch : (forall sc, wants (bs "content-length") (y_headers (y_app y sc x)) = false) -> a_chunked (asgi_serve date y h r x ch) = ch.
Proof.
  intros N. unfold asgi_serve. cbn zeta. destruct (scope_for y h r) as [sc|]; [|reflexivity]. destruct (sc_websocket sc); [reflexivity|]. unfold asgi_sends.
  assert (Forall (fun ev => match ev with Start _ hs => wants (bs "content-length") hs = false | _ => True end) (events_of (y_app y sc x))) as F.
  { unfold events_of. constructor; [apply N|]. apply Forall_app. split; [apply Forall_map, Forall_forall; easy|now constructor]. }
  assert (forall evs a, Forall (fun ev => match ev with Start _ hs => wants (bs "content-length") hs = false | _ => True end) evs ->
    forall e, a_chunked (fold_left (asgi_send e (y_phrase y) (y_text y) (y_buf y)) evs a) = a_chunked a) as K; [|now apply K].
  induction evs as [|ev evs IH]; intros a Fe e; [reflexivity|]. inversion_clear Fe as [|? ? F1 F2]. cbn [fold_left]. rewrite IH by exact F2. now apply send_mode.
Qed.
Lemma serve_keeps o y c date ch r z : app_ok y -> one_line date -> good_call o c -> (exists sc, told y c sc) -> ch <> Some true ->
  frame_head (m_head (msg_of c)) (blen (m_head (msg_of c)) - 2) = Framed r -> (forall sc x, wants_close (y_headers (y_app y sc x)) = false) ->
  (forall sc x, wants (bs "content-length") (y_headers (y_app y sc x)) = true) \/ ch = None ->
  r_keep (a_rsp (asgi_serve date y (m_head (msg_of c)) r z ch)) = true.
Proof.
  intros (B1 & B2 & Ap) Od G (sc & Ts) Nc Fr Wc Hl. destruct (call_scope o c y sc r G Fr Ts) as [Es Ew].
  destruct (call_framed o c (good_sound _ _ G)) as (r' & Fr' & _ & Em & _ & Ev & Ka & _). rewrite Fr in Fr'. injection Fr' as <-. apply (good_keeps o c _ G) in Ka.
  unfold asgi_serve. rewrite Es, Ew. unfold events_of. set (x := y_app y sc z). destruct (Ap sc z) as ((p & Ep & Op) & Nb & F1 & F2 & Cl). fold x in Ep, Nb, F1, F2, Cl.
  set (e := mkEnv _ _ _ _).
  destruct (response_main e (y_phrase y) (y_text y) (y_buf y) Od B2 B1 (y_status x) p (y_headers x) (y_more x) (y_last x) (rq_keepalive r) ch true Ep Op F1 F2) as (lines & items & _ & _ & _ & _ & Ek & _).
  { unfold bodyless in *. unfold e. cbn [e_method]. rewrite Em. destruct G as (_ & _ & _ & Nh & _). intros [H|H]; [contradiction|apply Nb; now right]. }
  { exact Nc. }
  rewrite Ek, Ka. unfold x. rewrite Wc. cbn [negb andb]. unfold e. cbn [e_11]. rewrite Ev. change (beqb (bs "1.1") (bs "1.1")) with true. destruct Hl as [Hl| ->]; [rewrite Hl; now rewrite orb_true_r|]. destruct (wants _ _); reflexivity.
Qed.

Lemma stack_kept o ap paths reqs date tr s b :
  opts_ok o -> (0 < o_body o)%Z -> good_app ap paths -> Forall (good_call o) reqs -> Forall (small o) reqs -> (forall i, one_line (date i)) ->
  conn_run o conn_new tr = Some (s, b) -> client_waits o (map msg_of reqs) tr -> handlers_ok o (map msg_of reqs) tr -> unbroken tr -> keeps_up o tr -> closes_app ap date tr b ->
  c_closing s = false /\ c_lost s = false.
Proof.
  intros Oo Ob A R L D Run W H U K C. apply (kept_open o reqs tr s b Oo Ob (all_sound _ _ R) (all_stay _ _ R) L Run W H U K). intros i c keep Ei St _ Hi.
  pose proof (proj1 (Forall_forall _ _) R c (nth_error_In _ _ Ei)) as G. destruct (call_framed o c (good_sound _ _ G)) as (r & Fr & _). rewrite (C i _ r keep St Hi Fr). exact (stack_keeps o ap paths c (date i) r _ A G (D i) Fr).
Qed.
Lemma asgi_kept o y reqs date ch tr s b :
  opts_ok o -> (0 < o_body o)%Z -> app_ok y -> keeps_asgi y -> Forall (good_call o) reqs -> Forall (small o) reqs -> Forall (fun c => exists sc, told y c sc) reqs -> (forall i, one_line (date i)) ->
  conn_run o conn_new tr = Some (s, b) -> client_waits o (map msg_of reqs) tr -> handlers_ok o (map msg_of reqs) tr -> unbroken tr -> keeps_up o tr -> performs_asgi y date ch tr b ->
  c_closing s = false /\ c_lost s = false.
Proof.
  intros Oo Ob A (Wc & length & Hl) R L T D Run W H U K (P0 & P). apply (kept_open o reqs tr s b Oo Ob (all_sound _ _ R) (all_stay _ _ R) L Run W H U K). intros i c keep Ei St Bf Hi.
  pose proof (proj1 (Forall_forall _ _) R c (nth_error_In _ _ Ei)) as G. destruct (call_framed o c (good_sound _ _ G)) as (r & Fr & _).
  assert (In i (closers tr)) as Hc by (apply in_flat_map; exists (HClose i keep); split; [exact Hi|now left]). destruct (P i _ r St Hc Fr) as (_ & Ek & _). rewrite (Ek keep Hi).
  assert (ch i <> Some true /\ (length = false -> ch i = None)) as [N1 N2].
  { clear -R Bf P0 P Hl. induction i as [|i IH]; [rewrite P0; split; [discriminate|reflexivity]|]. destruct (IH (fun j Hj => Bf j ltac:(lia))) as [I1 I2]. destruct (Bf i ltac:(lia)) as (Hj & c' & Ej & Sj).
    pose proof (proj1 (Forall_forall _ _) R c' (nth_error_In _ _ Ej)) as G'. destruct (call_framed o c' (good_sound _ _ G')) as (r' & Fr' & _). destruct (P i _ r' Sj Hj Fr') as (_ & _ & ->). split; [now apply serve_chunked|].
    intros El. rewrite serve_mode; [now apply I2|]. intros sc. rewrite Hl. exact El. }
  apply (serve_keeps o y c (date i) (ch i) r _ A (D i) G (proj1 (Forall_forall _ _) T c (nth_error_In _ _ Ei)) N1 Fr Wc). destruct length; [left; exact Hl|right; now apply N2].
Qed.
