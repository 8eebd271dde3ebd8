(** Exchanges on a connection, whatever the handlers answer: from what they put into their responses to what is written (C75, C78). *)
From Verif Require Import PyBytes PyBytesFacts PyInt PyExn M_Parser M_Framing M_Conn
  S_Head S_Conn S_Site P_Conn P_Conn2 P_Conn3 P_Conn4 P_Conn5 P_Conn6 P_Conn7 P_Conn8 P_Conn9 P_Conn10 P_Site3.

Definition somes (l : list (option bytes)) : bytes := List.concat (map (fun x => match x with Some d => d | None => [] end) l).
Lemma puts_did i tr : puts i tr = somes (did i tr).
Proof.
  unfold somes, puts, did. induction tr as [|e tr IH]; [reflexivity|]. cbn [map List.concat flat_map]. rewrite map_app, concat_app, IH. f_equal.
  destruct e; try reflexivity; destruct (i =? i0)%nat; cbn; rewrite ?app_nil_r; reflexivity.
Qed.
Lemma did_app i a b : did i (a ++ b) = did i a ++ did i b.
Proof. apply flat_map_app. Qed.
Lemma closers_did i tr : In i (closers tr) -> In None (did i tr).
Proof.
  intros H. apply in_flat_map in H as (e & He & Hi). apply in_flat_map. exists e. split; [exact He|]. destruct e; try contradiction. destruct Hi as [->|[]]. rewrite Nat.eqb_refl. now left.
Qed.
Lemma none_last (items : list bytes) a x c : map Some items ++ [None] = a ++ Some x :: c -> ~ In None a.
Proof.
  revert a. induction items as [|y items IH]; intros [|z a] E H; try contradiction; cbn in E.
  - injection E as _ E. destruct a; discriminate.
  - injection E as <- E. destruct H as [H|H]; [discriminate|]. exact (IH a E H).
Qed.
Lemma somes_items items : somes (map Some items ++ [None]) = List.concat items.
Proof. unfold somes. rewrite map_app, concat_app, map_map, map_id. cbn. now rewrite app_nil_r. Qed.

Lemma written_out b : written b = List.concat (map (fun i => out i b) (List.seq 0 (ended b))) ++ out (ended b) b.
Proof.
  unfold written. induction b as [|x b IH]; [reflexivity|]. cbn [map List.concat]. rewrite IH. clear IH.
  destruct x; try reflexivity.
  - change (ended (Wrote d :: b)) with (ended b). destruct (ended b) as [|n]; cbn [List.seq map List.concat out app]; [reflexivity|]. rewrite <- !app_assoc. f_equal. f_equal. f_equal.
    rewrite <- seq_shift, !map_map. reflexivity.
  - change (ended (Ended :: b)) with (S (ended b)). cbn [List.seq map List.concat out app]. rewrite <- seq_shift, map_map. reflexivity.
Qed.
Lemma f2_length {A B} (R : A -> B -> Prop) l l' : Forall2 R l l' -> List.length l = List.length l'.
Proof. induction 1; cbn [List.length]; congruence. Qed.

(** ** http_keepalive is never switched on again *)
Definition down (s s' : conn) : Prop := List.length (c_reqs s) <= List.length (c_reqs s') /\
  forall i r', nth_error (c_reqs s') i = Some r' -> i < List.length (c_reqs s) -> exists r, nth_error (c_reqs s) i = Some r /\ (q_keep r' = true -> q_keep r = true).
Lemma down_eq s s' : c_reqs s' = c_reqs s -> down s s'.
Proof. intros E. unfold down. rewrite E. split; [lia|]. intros i r' H _. exists r'. now split. Qed.
Lemma down_trans a b c : down a b -> down b c -> down a c.
Proof.
  intros [L1 D1] [L2 D2]. split; [lia|]. intros i r' E L. destruct (D2 i r' E ltac:(lia)) as (r1 & E1 & K1). destruct (D1 i r1 E1 L) as (r & Er & K). exists r. split; [exact Er|]. tauto.
Qed.
Lemma down_on i f s : (forall r, q_keep (f r) = true -> q_keep r = true) -> down s (on_req i f s).
Proof.
  intros F. destruct (on_req_misc i f s) as (_ & _ & _ & _ & _ & _ & _ & _ & _ & _ & _ & _ & _ & _ & L). split; [lia|]. intros j r' E _. rewrite on_req_nth in E. destruct (i =? j)%nat; [|exists r'; now split].
  destruct (nth_error (c_reqs s) j) as [r|]; [|discriminate]. injection E as <-. exists r. split; [reflexivity|apply F].
Qed.
Lemma down_put i r f s c : nth_error (c_reqs s) i = Some r -> (q_keep (f r) = true -> q_keep r = true) -> down s (set_reqs (put_at i (f r) (c_reqs s)) c s).
Proof.
  intros Er F. split; [csimp; rewrite put_length; lia|]. csimp. intros j r' E _. rewrite nth_put in E. destruct (Nat.eqb_spec i j) as [<-|]; [|exists r'; now split]. rewrite Er in E. injection E as <-. exists r. now split.
Qed.
Lemma down_snoc q c s : down s (set_reqs (c_reqs s ++ [q]) c s).
Proof. split; csimp; [rewrite app_length; lia|]. intros i r' E L. rewrite nth_error_app1 in E by exact L. exists r'. now split. Qed.
Lemma set_done_down w s : down s (set_done w s).
Proof. apply down_eq. now destruct w. Qed.
Lemma start_down i s : down s (fst (start_handler i s)).
Proof. unfold start_handler. cbn [fst]. apply (down_trans _ (set_done (c_wreq s) s)); [apply set_done_down|]. apply (down_trans _ (set_done (c_wkeep s) (set_done (c_wreq s) s))); [apply set_done_down|]. now apply down_on. Qed.
Lemma put_end_down o len s : down s (put_end o len s).
Proof.
  unfold put_end. destruct (c_cur s) as [i|]; [|now apply down_eq]. destruct (nth_error (c_reqs s) i) as [r|] eqn:Er; [|now apply down_eq]. destruct (q_upg r); [now apply down_eq|]. cbn zeta.
  pose proof (down_put i r (set_size (q_size r + len)) s (Some i) Er (fun x => x)) as D. destruct (_ && _)%bool; [apply (down_trans _ _ _ D); now apply down_eq|]. destruct (_ <? _)%Z; [apply (down_trans _ _ _ D); now apply down_eq|].
  apply (down_trans _ _ _ D). match goal with |- down ?a (put1 _ (on_req i (set_keep false) ?a)) => apply (down_trans _ (on_req i (set_keep false) a)); [apply down_on; discriminate|now apply down_eq] end.
Qed.
Lemma hr_put_down o j i rest len s : down s (fst (hr_put o j i rest len s)).
Proof.
  unfold hr_put. destruct rest as [|c rest].
  - apply (down_trans _ (put_end o len s)); [apply put_end_down|]. match goal with |- down _ (fst (start_handler i ?x)) => apply (down_trans _ x); [now apply down_eq|apply start_down] end.
  - unfold put_round. cbn zeta. destruct (_ <? _)%Z; [|now apply down_eq]. match goal with |- down _ (fst (start_handler i ?x)) => apply (down_trans _ x); [now apply down_eq|apply start_down] end.
Qed.
Lemma run_hr_down o j data hs s : down s (fst (run_hr o j data hs s)).
Proof.
  unfold run_hr. cbn zeta. destruct (frame_head data hs) as [| |r|r]; try (now apply down_eq).
  - cbn [fst]. match goal with |- context [set_reqs (c_reqs s ++ [?q]) ?c ?x] => apply (down_trans _ (set_reqs (c_reqs x ++ [q]) c x)); [|now apply down_eq]; apply (down_trans _ x); [now apply down_eq|apply down_snoc] end.
  - match goal with |- context [set_reqs (c_reqs s ++ [?q]) ?c s] => pose proof (down_snoc q c s) as D; set (s1 := set_reqs (c_reqs s ++ [q]) c s) in * end.
    assert (down s (if has_body r then s1 else put0 (Some []) s1)) as D2 by (destruct (has_body r); [exact D|apply (down_trans _ _ _ D); now apply down_eq]).
    destruct (_ || _)%bool; [apply (down_trans _ _ _ D2), hr_put_down|]. apply (down_trans _ _ _ D2). match goal with |- down _ (fst (start_handler _ ?x)) => apply (down_trans _ x); [now apply down_eq|apply start_down] end.
Qed.
Lemma rcv_put_down o j rest len s : down s (rcv_put o j rest len s).
Proof.
  unfold rcv_put. destruct rest as [|c rest]; [match goal with |- down _ (put_end _ _ ?x) => apply (down_trans _ x); [now apply down_eq|apply put_end_down] end|].
  unfold put_round. cbn zeta. destruct (_ <? _)%Z; now apply down_eq.
Qed.
Lemma refeed_reqs o l : forall s, c_reqs (refeed o l s) = c_reqs s.
Proof. induction l as [|x l IH]; intros s; [reflexivity|]. cbn [refeed]. now rewrite IH, data_reqs. Qed.
Lemma keepalive_down o kicked i r s : down s (keepalive o kicked i r s).
Proof.
  unfold keepalive. destruct (kicked && _)%bool; [now apply down_eq|]. destruct (q_cont r).
  - apply (down_trans _ (on_req i (set_cont false) s)); [now apply down_on|now apply down_eq].
  - destruct (q_upg r); [destruct (c_wreq s); now apply down_eq|]. cbn zeta. apply (down_trans _ (on_req i clear_body s)); [now apply down_on|]. destruct (has_body (q_info r)); [now apply down_eq|].
    apply down_eq. csimp. rewrite refeed_reqs. reflexivity.
Qed.
Lemma step_down o s e s' bx : conn_step o s e = Some (s', bx) -> e <> Lost -> down s s'.
Proof.
  intros E NL. unfold conn_step in E. destruct (c_lost s); [discriminate|]. destruct e.
  - destruct (_ || _)%bool; [discriminate|]. destruct d as [|c d]; [discriminate|]. apply pair_some in E as [-> _]. apply down_eq, data_reqs.
  - destruct (_ || _)%bool; [discriminate|]. apply pair_some in E as [-> _]. now apply down_eq.
  - apply pair_some in E as [-> _]. now apply down_eq.
  - destruct (nth_error (c_hrs s) j) as [[data hs|i rest len|]|]; try discriminate.
    + assert (s' = fst (run_hr o j data hs s)) as -> by (assert (run_hr o j data hs s = (s', bx)) as -> by congruence; reflexivity). apply run_hr_down.
    + assert (s' = fst (hr_put o j i rest len s)) as -> by (assert (hr_put o j i rest len s = (s', bx)) as -> by congruence; reflexivity). apply hr_put_down.
  - destruct (nth_error (c_rcv s) j) as [[w d|rest len|]|]; try discriminate; [destruct (w_done w s); [|discriminate]|]; apply pair_some in E as [-> _]; apply rcv_put_down.
  - unfold run_send in E. destruct (c_sending s); [|discriminate]. destruct (c_q1 s) as [|[d|] q]; [discriminate|apply pair_some in E as [-> _]; now apply down_eq|]. cbn zeta in E.
    assert (down s (set_q1 q s)) as D0 by now apply down_eq.
    destruct (c_cur (set_q1 q s)) as [i|]; [|apply pair_some in E as [-> _]; now apply down_eq]. destruct (nth_error _ i) as [r|]; [|discriminate]. destruct (_ && _)%bool; apply pair_some in E as [-> _].
    + apply (down_trans _ _ _ D0), keepalive_down.
    + apply (down_trans _ (on_req i clear_body (set_q1 q s))); [apply (down_trans _ _ _ D0); now apply down_on|now apply down_eq].
  - destruct (live s i) as [r|]; [|discriminate]. destruct (q_eof r); [apply pair_some in E as [-> _]; now apply down_eq|]. destruct (_ <? _)%Z eqn:Lm; [discriminate|]. unfold send_continue in E.
    destruct (q_cont r); [rewrite Lm in E|]; apply pair_some in E as [-> _]; [|now apply down_on].
    match goal with |- down _ (on_req i set_reading ?x) => apply (down_trans _ x); [now apply down_eq|now apply down_on] end.
  - destruct (live s i) as [r|]; [|discriminate]. destruct (_ && _)%bool; [|discriminate]. destruct (c_q0 s) as [|[d|] q]; [discriminate| |]; apply pair_some in E as [-> _];
    match goal with |- down _ (on_req i _ ?x) => apply (down_trans _ x); [now apply down_eq|now apply down_on] end.
  - destruct (live s i) as [r|]; [|discriminate]. apply pair_some in E as [-> _]. now apply down_eq.
  - destruct (live s i) as [r|]; [|discriminate]. apply pair_some in E as [-> _]. destruct keep; [now apply down_eq|]. apply (down_trans _ (on_req i (set_keep false) s)); [apply down_on; discriminate|now apply down_eq].
  - destruct (live s i) as [r|]; [|discriminate]. unfold send_continue in E. destruct (q_cont r); [destruct (_ <? _)%Z; [discriminate|]|]; apply pair_some in E as [-> _]; now apply down_eq.
  - destruct (live s i) as [r|]; [|discriminate]. apply pair_some in E as [-> _]. now apply down_on.
  - destruct (live s i) as [r|]; [|discriminate]. apply pair_some in E as [-> _]. now apply down_on.
  - now destruct NL.
Qed.
(** A response that was closed for good. *)
Definition shut (tr : list cev) (s : conn) : Prop := forall i, In (HClose i false) tr -> i < List.length (c_reqs s) /\ forall r, nth_error (c_reqs s) i = Some r -> q_keep r = false.
Lemma run_shut o tr : forall s b, conn_run o conn_new tr = Some (s, b) -> c_closing s = false -> shut tr s.
Proof.
  induction tr as [|e tr IH] using rev_ind; intros s b E Cl; [intros i []|].
  rewrite conn_run_app in E. destruct (conn_run o conn_new tr) as [[s1 b1]|] eqn:E1; [|discriminate]. cbn [conn_run] in E. destruct (conn_step o s1 e) as [[s2 b2]|] eqn:E2; [|discriminate]. assert (s2 = s) as -> by congruence. clear E.
  assert (c_closing s1 = false) as Cl1. { destruct (c_closing s1) eqn:X; [|reflexivity]. rewrite (step_closing _ _ _ _ _ E2 X) in Cl. discriminate. }
  assert (e <> Lost) as NL. { intros ->. unfold conn_step in E2. destruct (c_lost s1); [discriminate|]. apply pair_some in E2 as [-> _]. discriminate. }
  pose proof (step_down _ _ _ _ _ E2 NL) as [L D]. intros i Hi. apply in_app_or in Hi as [Hi|[He|[]]].
  - destruct (IH s1 b1 eq_refl Cl1 i Hi) as [L1 K]. split; [lia|]. intros r Er. destruct (D i r Er L1) as (r1 & Er1 & K1). specialize (K r1 Er1). destruct (q_keep r); [|reflexivity]. now rewrite K1 in K.
  - subst e. unfold conn_step in E2. destruct (c_lost s1); [discriminate|]. unfold live in E2. destruct (nth_error (c_reqs s1) i) as [r1|] eqn:Er1; [|discriminate]. destruct (q_live r1); [|discriminate]. apply pair_some in E2 as [-> _].
    assert (i < List.length (c_reqs s1)) as Li by (apply nth_error_Some; congruence). split; [lia|]. intros r Er. csimp_in Er. rewrite on_req_nth, Nat.eqb_refl, Er1 in Er. injection Er as <-. reflexivity.
Qed.
Lemma start_none i s : ended (snd (start_handler i s)) = 0.
Proof. unfold start_handler. cbn [snd]. now destruct (nth_error (c_reqs s) i). Qed.
Lemma hr_put_none o j i rest len s : ended (snd (hr_put o j i rest len s)) = 0.
Proof. unfold hr_put. destruct rest as [|c rest]; [apply start_none|]. unfold put_round. cbn zeta. destruct (_ <? _)%Z; [apply start_none|reflexivity]. Qed.
Lemma step_sender o s e s' bx : conn_step o s e = Some (s', bx) -> 0 < ended bx -> exists kicked, e = RunSend kicked.
Proof.
  intros E Z. unfold conn_step in E. destruct (c_lost s); [discriminate|]. destruct e; try (now exists kicked); exfalso; assert (ended bx = 0) as X; try lia; revert E.
  - destruct (_ || _)%bool; [discriminate|]. destruct d as [|c d]; [discriminate|]. intros E. apply pair_some in E as [_ ->]. reflexivity.
  - destruct (_ || _)%bool; [discriminate|]. intros E. apply pair_some in E as [_ ->]. reflexivity.
  - intros E. apply pair_some in E as [_ ->]. reflexivity.
  - destruct (nth_error (c_hrs s) j) as [[data hs|i rest len|]|]; try discriminate; intros E.
    + assert (bx = snd (run_hr o j data hs s)) as -> by (assert (run_hr o j data hs s = (s', bx)) as -> by congruence; reflexivity).
      unfold run_hr. cbn zeta. destruct (frame_head data hs); try reflexivity. destruct (_ || _)%bool; [apply hr_put_none|apply start_none].
    + assert (bx = snd (hr_put o j i rest len s)) as -> by (assert (hr_put o j i rest len s = (s', bx)) as -> by congruence; reflexivity). apply hr_put_none.
  - destruct (nth_error (c_rcv s) j) as [[w d|rest len|]|]; try discriminate; [destruct (w_done w s); [|discriminate]|]; intros E; apply pair_some in E as [_ ->]; reflexivity.
  - destruct (live s i) as [r|]; [|discriminate]. destruct (q_eof r); [intros E; apply pair_some in E as [_ ->]; reflexivity|]. destruct (_ <? _)%Z; [discriminate|]. destruct (send_continue o r s); [|discriminate]. intros E. apply pair_some in E as [_ ->]. reflexivity.
  - destruct (live s i) as [r|]; [|discriminate]. destruct (_ && _)%bool; [|discriminate]. destruct (c_q0 s) as [|[d|] q]; [discriminate| |]; intros E; apply pair_some in E as [_ ->]; reflexivity.
  - destruct (live s i) as [r|]; [|discriminate]. intros E. apply pair_some in E as [_ ->]. reflexivity.
  - destruct (live s i) as [r|]; [|discriminate]. intros E. apply pair_some in E as [_ ->]. reflexivity.
  - destruct (live s i) as [r|]; [|discriminate]. destruct (send_continue o r s); [|discriminate]. intros E. apply pair_some in E as [_ ->]. reflexivity.
  - destruct (live s i) as [r|]; [|discriminate]. intros E. apply pair_some in E as [_ ->]. reflexivity.
  - destruct (live s i) as [r|]; [|discriminate]. intros E. apply pair_some in E as [_ ->]. reflexivity.
  - intros E. apply pair_some in E as [_ ->]. reflexivity.
Qed.

Section Kept.
Context (o : copts) (M : list msg) (Mok : Forall (msg_ok o) M) (Ook : opts_ok o).
(** While the connection is open, the responses that have ended were closed with keepalive. *)
Lemma run_kept tr : forall s b, conn_run o conn_new tr = Some (s, b) -> c_closing s = false -> client_ok o M tr -> handlers_ok o M tr -> settled o tr \/ (client_waits o M tr /\ calm o M tr) ->
  forall i k, i < ended b -> In (HClose i k) tr -> k = true.
Proof.
  induction tr as [|e tr IH] using rev_ind; intros s b E Cl Hc Hh Hs i k Hi Hk; [contradiction|].
  rewrite conn_run_app in E. destruct (conn_run o conn_new tr) as [[s1 b1]|] eqn:E1; [|discriminate]. cbn [conn_run] in E. destruct (conn_step o s1 e) as [[s2 b2]|] eqn:E2; [|discriminate]. assert (s2 = s) as -> by congruence. assert (b = b1 ++ b2) as -> by (rewrite app_nil_r in E; congruence). clear E.
  assert (c_closing s1 = false) as Cl1. { destruct (c_closing s1) eqn:X; [|reflexivity]. rewrite (step_closing _ _ _ _ _ E2 X) in Cl. discriminate. }
  destruct (prefix_ok o M tr e Hc Hh Hs) as (Hc1 & Hh1 & Hs1). pose proof (run_inv o M Mok Ook tr s1 b1 E1 Cl1 Hc1 Hh1 Hs1) as I.
  destruct (run_layers o M Mok Ook tr s1 b1 E1 Cl1 Hc1 Hh1 Hs1) as (_ & Old & _). specialize (IH s1 b1 eq_refl Cl1 Hc1 Hh1 Hs1 i k).
  assert (In (HClose i k) tr -> In i (closers tr)) as Ht by (intros H; apply in_flat_map; exists (HClose i k); split; [exact H|now left]).
  apply in_app_or in Hk. destruct (Nat.lt_ge_cases i (ended b1)) as [L|L].
  - destruct Hk as [Hk|[->|[]]]; [now apply IH|]. exfalso. destruct Hh as (Hn & _). rewrite closers_app in Hn. apply NoDup_remove_2 in Hn. apply Hn. rewrite app_nil_r. now apply Old.
  - rewrite ended_app in Hi. destruct (step_ends o M Mok Ook _ _ _ _ _ _ _ _ I E2 Cl) as [Z|[Z _]]; [lia|]. assert (i = ended b1) as -> by lia.
    assert (exists kicked, e = RunSend kicked) as (kicked & ->).
    { apply (step_sender o s1 e s b2 E2). lia. }
    destruct Hk as [Hk|[Hk|[]]]; [|discriminate]. destruct k; [reflexivity|]. exfalso.
    destruct (run_shut o tr s1 b1 E1 Cl1 _ Hk) as [_ Sh].
    unfold conn_step in E2. destruct (c_lost s1); [discriminate|]. unfold run_send in E2. destruct (c_sending s1); [|discriminate]. destruct (c_q1 s1) as [|[d|] q] eqn:Eq; [discriminate|apply pair_some in E2 as [_ ->]; rewrite Cl1 in Z; discriminate|].
    destruct (inv_phase M _ _ _ _ _ I) as [(P1 & P2 & _)|(P1 & P2 & P3 & _ & _ & _ & r & P7 & _)].
    + destruct I as (k0 & n & C & _). assert (List.length (starts b1) = k0) as Lk. { rewrite (cm_starts _ _ _ _ _ _ C), combine_length, seq_length, map_length. pose proof (cm_k _ _ _ _ _ _ C). lia. }
      pose proof (pigeon (closers tr) k0 (cm_nodup _ _ _ _ _ _ C) (fun j Hj => proj1 (cm_closers _ _ _ _ _ _ C j Hj))) as Ln. rewrite Eq in P2. cbn [nones] in P2. change (nones (None :: q)) with (S (nones q)) in P2. lia.
    + csimp_in E2. rewrite P3, P7, (Sh r P7) in E2. cbn [andb] in E2. apply pair_some in E2 as [-> _]. discriminate.
Qed.
End Kept.

Section Run.
Context {A : Type} (fine : bytes -> A -> Prop) (right : call -> A -> Prop).
Context (o : copts) (reqs : list call) (tr : list cev) (s : conn) (b : list obs).
Let M := map msg_of reqs.
Hypothesis (Ook : opts_ok o) (Rok : Forall (sound_call o) reqs).
Hypothesis (Hrun : conn_run o conn_new tr = Some (s, b)) (Hop : c_closing s = false).
Hypothesis (Hc : client_ok o M tr) (Hw : settled o tr \/ client_waits o M tr) (Hh : handlers_ok o M tr).

Lemma all_ok : Forall (msg_ok o) M.
Proof. apply Forall_map. eapply Forall_impl; [|exact Rok]. intros c. apply call_ok. Qed.
Lemma seemly : settled o tr \/ (client_waits o M tr /\ calm o M tr).
Proof. destruct Hw as [H|H]; [now left|right]. split; [exact H|]. apply counted_calm, Forall_map. eapply Forall_impl; [|exact Rok]. intros c. apply call_counted. Qed.
(** A handler that closed its response was started with its head, and has read its body. *)
Lemma closed_read i c : nth_error reqs i = Some c -> In i (closers tr) -> In (Started i (m_head (msg_of c))) b /\ got i b = body_of c /\ sound_call o c.
Proof.
  intros Ei Hi. pose proof (run_inv o M all_ok Ook tr s b Hrun Hop Hc Hh seemly) as (k & n & C & _).
  assert (nth_error M i = Some (msg_of c)) as Em by (unfold M; rewrite nth_error_map, Ei; reflexivity).
  destruct (cm_closers _ _ _ _ _ _ C i Hi) as [Lk Gt]. pose proof (k_started M b k i _ (cm_starts _ _ _ _ _ _ C) Lk Em) as St.
  assert (sound_call o c) as G by (rewrite Forall_forall in Rok; apply Rok; now apply nth_error_In in Ei).
  split; [exact St|]. split; [|exact G].
  destruct (cm_got _ _ _ _ _ _ C i _ Em) as [(t & P) E]. cbn [m_body msg_of] in P, E. destruct (k_body c) as [y|] eqn:Kb.
  - assert (m_has (msg_of c) = true) as Hm by (cbn [m_has msg_of]; now rewrite Kb). pose proof (Gt _ Em Hm) as Ra. unfold read_all in Ra. rewrite (call_counted o c G Hm) in Ra. now apply E.
  - unfold body_of in *. rewrite Kb in *. now destruct (got i b).
Qed.
Lemma closed_call i : In i (closers tr) -> exists c, nth_error reqs i = Some c.
Proof.
  intros Ht. pose proof (run_inv o M all_ok Ook tr s b Hrun Hop Hc Hh seemly) as (k & n & C & _). destruct (cm_closers _ _ _ _ _ _ C i Ht) as [Lk _].
  pose proof (cm_k _ _ _ _ _ _ C) as Lm. unfold M in Lm. rewrite map_length in Lm. destruct (nth_error reqs i) as [c|] eqn:Ei; [now exists c|apply nth_error_None in Ei; lia].
Qed.
Lemma ended_closed i : i < ended b -> In i (closers tr).
Proof. destruct (run_layers o M all_ok Ook tr s b Hrun Hop Hc Hh seemly) as (_ & L & _). apply L. Qed.
(** When a handler has closed its response, those before it have ended. *)
Lemma closed_after i j : In i (closers tr) -> j < i -> j < ended b.
Proof.
  intros Hi L. pose proof (run_inv o M all_ok Ook tr s b Hrun Hop Hc Hh seemly) as Iv. pose proof (inv_phase M _ _ _ _ _ Iv) as Ph. destruct Iv as (k & n & C & _).
  assert (List.length (starts b) = k) as Lk. { rewrite (cm_starts _ _ _ _ _ _ C), combine_length, seq_length, map_length. pose proof (cm_k _ _ _ _ _ _ C). lia. }
  destruct (cm_closers _ _ _ _ _ _ C i Hi) as [Hk _]. destruct Ph as [(P1 & _)|(P1 & _)]; lia.
Qed.

Hypothesis (Hans : forall i c, nth_error reqs i = Some c -> In i (closers tr) ->
  exists items, did i tr = map Some items ++ [None] /\ (i < ended b -> exists x, fine (List.concat items) x /\ right c x)).

Lemma is_tidy : tidy tr.
Proof.
  intros pre i d post E Hi.
  assert (In i (closers tr)) as Ht by (rewrite E; unfold closers; rewrite flat_map_app; apply in_or_app; now left).
  destruct (closed_call i Ht) as (c & Ei). destruct (Hans i c Ei Ht) as (items & Dd & _). rewrite E, did_app in Dd. cbn [did flat_map] in Dd. rewrite Nat.eqb_refl in Dd. cbn [app] in Dd.
  symmetry in Dd. apply none_last in Dd. apply Dd. now apply closers_did.
Qed.
Lemma answers_upto n : n <= ended b -> exists l, Forall2 fine (map (fun i => out i b) (List.seq 0 n)) l /\ Forall2 right (firstn n reqs) l.
Proof.
  destruct (run_layers o M all_ok Ook tr s b Hrun Hop Hc Hh seemly) as (_ & _ & L). specialize (L is_tidy).
  induction n as [|n IH]; intros Hn; [exists []; split; constructor|].
  destruct (IH ltac:(lia)) as (l & F & B). pose proof (ended_closed n ltac:(lia)) as Hcl. destruct (closed_call n Hcl) as (c & Ei).
  destruct (lw_old _ _ _ _ L n ltac:(lia)) as [Eo _]. destruct (Hans n c Ei Hcl) as (items & Dd & Hx). destruct (Hx ltac:(lia)) as (x & Rd & Ra).
  exists (l ++ [x]). split.
  - rewrite seq_S, map_app. apply Forall2_app; [exact F|]. constructor; [|constructor]. cbn [Nat.add].
    assert (nth_error M n = Some (msg_of c)) as Em by (unfold M; rewrite nth_error_map, Ei; reflexivity).
    assert (sound_call o c) as G by (rewrite Forall_forall in Rok; apply Rok; now apply nth_error_In in Ei).
    rewrite Eo. unfold response. rewrite Em, (call_expects o c G), answer_puts, puts_did, Dd, somes_items. exact Rd.
  - assert (firstn (S n) reqs = firstn n reqs ++ [c]) as ->.
    { clear -Ei. revert n Ei. induction reqs as [|y ys IH]; intros [|n] E; try discriminate; cbn [firstn app]; [injection E as ->; reflexivity|]. f_equal. now apply IH. }
    apply Forall2_app; [exact B|]. constructor; [exact Ra|constructor].
Qed.
Lemma all_done : input tr = List.concat (map wire M) -> quiet o tr s b -> ended b = List.length reqs /\ out (ended b) b = [].
Proof.
  intros Hi Hq. pose proof (run_inv o M all_ok Ook tr s b Hrun Hop Hc Hh seemly) as Iv.
  destruct (complete o M all_ok tr s b (closers tr) (askers tr) (input tr) Iv eq_refl Hop Hq Hi) as [St En].
  destruct (run_layers o M all_ok Ook tr s b Hrun Hop Hc Hh seemly) as (_ & _ & L). specialize (L is_tidy).
  unfold M in En at 1. rewrite map_length in En. split; [exact En|]. apply (lw_idle _ _ _ _ L). rewrite St, combine_length, seq_length, !map_length. unfold M. rewrite !map_length. lia.
Qed.
End Run.
