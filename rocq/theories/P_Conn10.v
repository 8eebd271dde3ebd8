(** The invariants of P_Conn8 and P_Conn9 over runs; the theorems' proofs. *)
From Verif Require Import PyBytes PyBytesFacts PyInt PyExn M_Parser M_Framing M_Conn S_Conn P_Parser2 P_Conn P_Conn2 P_Conn3 P_Conn4 P_Conn5 P_Conn6 P_Conn8 P_Conn9.

(** A handler runs from its start to its end. *)
Definition runs (s : conn) (i : nat) : Prop := exists r, nth_error (c_reqs s) i = Some r /\ q_live r = true.
Lemma runs_live s i : runs s i -> exists r, live s i = Some r.
Proof. intros (r & E & L). exists r. unfold live. now rewrite E, L. Qed.
Lemma runs_on_req k f s i : (forall r, q_live r = true -> q_live (f r) = true) -> runs s i -> runs (on_req k f s) i.
Proof.
  intros Hf (r & E & L). unfold runs. rewrite on_req_nth, E. destruct (k =? i)%nat; [exists (f r); split; [reflexivity|now apply Hf]|now exists r].
Qed.
Lemma runs_same s s' i : c_reqs s' = c_reqs s -> runs s i -> runs s' i.
Proof. intros E (r & H). exists r. now rewrite E. Qed.
Lemma runs_put_end o len s i : runs s i -> runs (put_end o len s) i.
Proof.
  intros R. unfold put_end. destruct (c_cur s) as [k|]; [|exact R]. destruct (nth_error (c_reqs s) k) as [r|] eqn:Er; [|exact R]. destruct (q_upg r); [now apply (runs_same s)|]. cbn zeta.
  assert (runs (set_reqs (put_at k (set_size (q_size r + len) r) (c_reqs s)) (Some k) s) i) as R'.
  { destruct R as (r' & E' & L'). unfold runs. csimp. rewrite nth_put, E'. destruct (Nat.eqb_spec k i) as [->|N]; [|now exists r']. assert (r' = r) as -> by congruence. eexists. split; [reflexivity|exact L']. }
  set (s1 := set_reqs (put_at k (set_size (q_size r + len) r) (c_reqs s)) (Some k) s) in *. destruct (_ && _); [now apply (runs_same s1)|]. destruct (_ <? _)%Z; [now apply (runs_same s1)|]. apply (runs_same (on_req k (set_keep false) s1)); [reflexivity|]. apply runs_on_req; [now intros|exact R'].
Qed.
Lemma runs_start k s i : runs s i -> runs (fst (start_handler k s)) i.
Proof.
  intros (r & E & L). destruct (start_work k s) as (_ & _ & _ & _ & _ & S6 & _). unfold runs. rewrite S6, E. destruct (k =? i)%nat; [exists (set_live true r); now split|now exists r].
Qed.
Lemma start_runs k s i h : In (Started i h) (snd (start_handler k s)) -> runs (fst (start_handler k s)) i.
Proof.
  intros H. destruct (start_work k s) as (_ & _ & _ & _ & _ & S6 & _). unfold start_handler in H. cbn [snd] in H. destruct (nth_error (c_reqs s) k) as [r|] eqn:E; [|contradiction]. destruct H as [H|[]]. injection H as -> _. unfold runs. rewrite S6, Nat.eqb_refl, E. exists (set_live true r). now split.
Qed.
Lemma runs_put_round o n rest s i : runs s i -> runs (snd (put_round o n rest s)) i.
Proof. intros R. unfold put_round. cbn zeta. destruct (_ <? _)%Z; apply (runs_same s); try reflexivity; exact R. Qed.
Lemma hr_put_runs o j k rest len s i : (runs s i -> runs (fst (hr_put o j k rest len s)) i) /\ (forall h, In (Started i h) (snd (hr_put o j k rest len s)) -> runs (fst (hr_put o j k rest len s)) i).
Proof.
  unfold hr_put. destruct rest as [|c rest].
  - split; [intros R; apply runs_start; eapply runs_same; [|apply runs_put_end; exact R]; reflexivity|intros h; apply start_runs].
  - pose proof (runs_put_round o (o_first o) (c :: rest) s i) as W. destruct (put_round o (o_first o) (c :: rest) s) as [[rest'|] s1]; cbn [snd] in W.
    + split; [intros R; cbn [fst]; now apply (runs_same s1), W|intros h []].
    + split; [intros R; apply runs_start; now apply (runs_same s1), W|intros h; apply start_runs].
Qed.
Lemma runs_app r c s i : runs s i -> runs (set_reqs (c_reqs s ++ [r]) c s) i.
Proof. intros (r' & E & L). exists r'. split; [|exact L]. csimp. rewrite nth_error_app1; [exact E|]. apply nth_error_Some. now rewrite E. Qed.
Lemma run_hr_runs o j d hs s i : (runs s i -> runs (fst (run_hr o j d hs s)) i) /\ (forall h, In (Started i h) (snd (run_hr o j d hs s)) -> runs (fst (run_hr o j d hs s)) i).
Proof.
  unfold run_hr. destruct (frame_head d hs) as [| |r|r]; cbn zeta.
  - split; [intros R; now apply (runs_same s)|intros h []].
  - split; [intros R; now apply (runs_same s)|intros h []].
  - split; [intros R; cbn [fst]; apply (runs_same (set_reqs (c_reqs s ++ [mkRq (upto d (hs + 2)) r false false false 0 0 false false false]) None s)); [reflexivity|now apply runs_app]|intros h []].
  - set (s1 := set_reqs (c_reqs s ++ [_]) _ s). assert (runs s i -> runs (if has_body r then s1 else put0 (Some []) s1) i) as W. { intros R. assert (runs s1 i) as R1 by now apply runs_app. destruct (has_body r); [exact R1|now apply (runs_same s1)]. }
    destruct (has_body r || _).
    + destruct (hr_put_runs o j (List.length (c_reqs s)) (from d (hs + 2)) (blen (from d (hs + 2))) (if has_body r then s1 else put0 (Some []) s1) i) as [H1 H2]. split; [intros R; now apply H1, W|exact H2].
    + split; [intros R; apply runs_start; eapply runs_same; [|apply W; exact R]; reflexivity|intros h; apply start_runs].
Qed.
Lemma keepalive_runs o kicked k r s i : runs s i -> runs (keepalive o kicked k r s) i.
Proof.
  intros R. unfold keepalive. destruct (kicked && _); [now apply (runs_same s)|]. eapply runs_same; [unfold set_paused; cbn [c_reqs]; reflexivity|]. destruct (q_cont r); [apply runs_on_req; [now intros|exact R]|]. destruct (q_upg r); [destruct (c_wreq s); now apply (runs_same s)|].
  assert (runs (on_req k clear_body s) i) as R' by (apply runs_on_req; [now intros|exact R]). cbn zeta. destruct (has_body (q_info r)); [now apply (runs_same (on_req k clear_body s))|]. apply (runs_same (on_req k clear_body s)); [now rewrite refeed_reqs|exact R'].
Qed.
Lemma step_runs o s e s' bx i : conn_step o s e = Some (s', bx) -> e <> Lost -> (runs s i -> e <> HEnd i -> runs s' i) /\ (forall h, In (Started i h) bx -> runs s' i).
Proof.
  intros E Nl. unfold conn_step in E. destruct (c_lost s); [discriminate|]. destruct e; try congruence.
  - destruct (_ || _); [discriminate|]. destruct d as [|c d]; [discriminate|]. apply pair_some in E as [-> ->]. split; [intros R _; apply (runs_same s); [apply data_reqs|exact R]|intros h []].
  - destruct (_ || _); [discriminate|]. apply pair_some in E as [-> ->]. split; [intros R _; now apply (runs_same s)|intros h []].
  - apply pair_some in E as [-> ->]. split; [intros R _; now apply (runs_same s)|intros h []].
  - destruct (nth_error (c_hrs s) j) as [[d hs|k rest len|]|]; try discriminate.
    + assert (run_hr o j d hs s = (s', bx)) as Er by congruence. pose proof (run_hr_runs o j d hs s i) as W. rewrite Er in W. destruct W as [W1 W2]. split; [intros R _; now apply W1|exact W2].
    + assert (hr_put o j k rest len s = (s', bx)) as Er by congruence. pose proof (hr_put_runs o j k rest len s i) as W. rewrite Er in W. destruct W as [W1 W2]. split; [intros R _; now apply W1|exact W2].
  - destruct (nth_error (c_rcv s) j) as [t|]; [|discriminate].
    assert (exists rest len, s' = rcv_put o j rest len s /\ bx = []) as (rest & len & -> & ->). { destruct t as [w d|rs ln|]; [destruct (w_done w s); [|discriminate]| |discriminate]; apply pair_some in E as [-> ->]; do 2 eexists; split; reflexivity. }
    split; [intros R _|intros h []]. unfold rcv_put. destruct rest as [|c rest]; [now apply runs_put_end, (runs_same s)|]. pose proof (runs_put_round o (o_buf o) (c :: rest) s i R) as W. destruct (put_round o (o_buf o) (c :: rest) s) as [[rest'|] s1]; now apply (runs_same s1).
  - unfold run_send in E. destruct (c_sending s); [|discriminate]. destruct (c_q1 s) as [|[d|] q]; [discriminate| |].
    + apply pair_some in E as [-> ->]. split; [intros R _; now apply (runs_same s)|]. intros h H. destruct (c_closing s); [contradiction|]. destruct H as [H|[]]. discriminate.
    + csimp_in E. assert (forall k, runs s i -> runs (set_sending false (set_closing (on_req k clear_body (set_q1 q s)))) i) as W by (intros k R; eapply runs_same; [|apply (runs_on_req k clear_body (set_q1 q s) i); [now intros|exact R]]; reflexivity).
      destruct (c_cur s) as [k|].
      * destruct (nth_error (c_reqs s) k) as [r|]; [|discriminate]. destruct (q_keep r && _)%bool; apply pair_some in E as [-> ->]; (split; [intros R _|intros h [H|[]]; try discriminate; destruct (q_cont r); discriminate]); [now apply keepalive_runs|now apply W].
      * apply pair_some in E as [-> ->]. split; [intros R _; now apply (runs_same s)|intros h [H|[]]; discriminate].
  - destruct (live s i0) as [r|]; [|discriminate]. destruct (q_eof r); [apply pair_some in E as [-> ->]; split; [now intros R _|intros h []]|]. destruct (_ <? _)%Z; [discriminate|]. unfold send_continue in E.
    destruct (q_cont r); [destruct (_ <? _)%Z; [discriminate|]|]; apply pair_some in E as [-> ->]; (split; [intros R _|intros h []]); (apply runs_on_req; [now intros|first [exact R|now apply (runs_same s)]]).
  - destruct (live s i0) as [r|]; [|discriminate]. destruct (_ && _); [|discriminate]. destruct (c_q0 s) as [|[d|] q]; [discriminate| |]; apply pair_some in E as [-> ->]; (split; [intros R _|intros h [H|[]]; discriminate]); (apply runs_on_req; [now intros|now apply (runs_same s)]).
  - destruct (live s i0) as [r|]; [|discriminate]. apply pair_some in E as [-> ->]. split; [intros R _; now apply (runs_same s)|intros h []].
  - destruct (live s i0) as [r|]; [|discriminate]. apply pair_some in E as [-> ->]. split; [intros R _|intros h []]. destruct keep; [now apply (runs_same s)|]. eapply runs_same; [|apply (runs_on_req i0 (set_keep false) s i); [now intros|exact R]]. reflexivity.
  - destruct (live s i0) as [r|]; [|discriminate]. unfold send_continue in E. destruct (q_cont r); [destruct (_ <? _)%Z; [discriminate|]|]; apply pair_some in E as [-> ->]; (split; [intros R _; now apply (runs_same s)|intros h []]).
  - destruct (live s i0) as [r|]; [|discriminate]. apply pair_some in E as [-> ->]. split; [intros R _; apply runs_on_req; [now intros|exact R]|intros h []].
  - destruct (live s i0) as [r|]; [|discriminate]. apply pair_some in E as [-> ->]. split; [intros (r' & E' & L') N|intros h []]. exists r'. split; [|exact L']. rewrite on_req_nth. destruct (Nat.eqb_spec i0 i) as [->|]; [congruence|exact E'].
Qed.
Lemma run_runs o tr : forall s b i h, conn_run o conn_new tr = Some (s, b) -> c_closing s = false -> ~ In (HEnd i) tr -> In (Started i h) b -> runs s i.
Proof.
  induction tr as [|e tr IH] using rev_ind; intros s b i h E Cl N H; [injection E as <- <-; contradiction|].
  rewrite conn_run_app in E. destruct (conn_run o conn_new tr) as [[s1 b1]|] eqn:E1; [|discriminate]. cbn [conn_run] in E. destruct (conn_step o s1 e) as [[s2 b2]|] eqn:E2; [|discriminate]. assert (s2 = s) as -> by congruence. assert (b = b1 ++ b2) as -> by (rewrite app_nil_r in E; congruence). clear E.
  assert (c_closing s1 = false) as Cl1. { destruct (c_closing s1) eqn:X; [|reflexivity]. rewrite (step_closing _ _ _ _ _ E2 X) in Cl. discriminate. }
  assert (e <> Lost) as Nl. { intros ->. unfold conn_step in E2. destruct (c_lost s1); [discriminate|]. apply pair_some in E2 as [-> _]. discriminate. }
  destruct (step_runs _ _ _ _ _ i E2 Nl) as [W1 W2]. apply in_app_or in H as [H|H]; [|now apply (W2 h)]. apply W1; [|intros ->; apply N; apply in_or_app; right; now left]. apply (IH _ _ _ h eq_refl Cl1); [|exact H]. intros X. apply N. apply in_or_app. now left.
Qed.

(** A step ends at most one response, and does not start a handler then. *)
Lemma step_ends o M (Mok : Forall (msg_ok o) M) (Ook : opts_ok o) nc ak rec s b e s' bx : Inv M nc ak rec s b -> conn_step o s e = Some (s', bx) -> c_closing s' = false -> ended bx = 0 \/ (ended bx = 1 /\ starts bx = []).
Proof.
  intros I E Cl. destruct e.
  4: destruct (hr_work o M Mok _ _ _ _ _ _ _ _ I E Cl) as (_ & _ & _ & W & _); left; exact (ended_silent bx [] W).
  4: destruct (rcv_work o M Ook _ _ _ _ _ _ _ _ I E Cl) as (-> & _); now left.
  all: unfold conn_step in E; destruct (c_lost s); [discriminate|].
  - destruct (_ || _); [discriminate|]. destruct d as [|c d]; [discriminate|]. apply pair_some in E as [_ ->]. now left.
  - destruct (_ || _); [discriminate|]. apply pair_some in E as [_ ->]. now left.
  - apply pair_some in E as [_ ->]. now left.
  - unfold run_send in E. destruct (c_sending s); [|discriminate]. destruct (c_q1 s) as [|[d|] q]; [discriminate| |]; [apply pair_some in E as [_ ->]; left; now destruct (c_closing s)|]. cbn zeta in E.
    destruct (c_cur (set_q1 q s)) as [i|]; [|apply pair_some in E as [_ ->]; right; now split]. destruct (nth_error _ i) as [r|]; [|discriminate]. destruct (_ && _); apply pair_some in E as [_ ->]; [destruct (q_cont r); [now left|right; now split]|right; now split].
  - destruct (live s i) as [r|]; [|discriminate]. destruct (q_eof r); [apply pair_some in E as [_ ->]; now left|]. destruct (_ <? _)%Z; [discriminate|]. destruct (send_continue o r s); [|discriminate]. apply pair_some in E as [_ ->]. now left.
  - destruct (live s i) as [r|]; [|discriminate]. destruct (_ && _); [|discriminate]. destruct (c_q0 s) as [|[d|] q]; [discriminate| |]; apply pair_some in E as [_ ->]; now left.
  - destruct (live s i) as [r|]; [|discriminate]. apply pair_some in E as [_ ->]. now left.
  - destruct (live s i) as [r|]; [|discriminate]. apply pair_some in E as [_ ->]. now left.
  - destruct (live s i) as [r|]; [|discriminate]. destruct (send_continue o r s); [|discriminate]. apply pair_some in E as [_ ->]. now left.
  - destruct (live s i) as [r|]; [|discriminate]. apply pair_some in E as [_ ->]. now left.
  - destruct (live s i) as [r|]; [|discriminate]. apply pair_some in E as [_ ->]. now left.
  - apply pair_some in E as [_ ->]. now left.
Qed.

Lemma answer_puts i tr : answer [] i tr = puts i tr.
Proof. induction tr as [|e tr IH]; [reflexivity|]. destruct e; cbn [answer]; rewrite ?IH; try reflexivity; destruct (i =? i0)%nat; reflexivity. Qed.
Lemma puts_app i a c : puts i (a ++ c) = puts i a ++ puts i c.
Proof. unfold puts. now rewrite map_app, concat_app. Qed.
(** Where the interim response comes. *)
Lemma answer_asked x i tr : In i (askers tr) -> exists pre e post, tr = pre ++ e :: post /\ (e = HRead i \/ e = HContinue i) /\ ~ In i (askers pre) /\ answer x i tr = puts i pre ++ x ++ puts i post.
Proof.
  induction tr as [|e tr IH]; intros H; [contradiction|].
  assert ((e = HRead i \/ e = HContinue i) \/ (askers [e] <> [i] /\ In i (askers tr))) as [He|[Hn Hi]].
  { destruct e; try (right; split; [discriminate|exact H]); destruct (Nat.eq_dec i0 i) as [->|N]; [left; now left|right|left; now right|right]; (split; [cbn; congruence|destruct H as [H|H]; [congruence|exact H]]). }
  - exists [], e, tr. split; [reflexivity|]. split; [exact He|]. split; [intros []|]. destruct He as [-> | ->]; cbn [answer]; rewrite Nat.eqb_refl, answer_puts; reflexivity.
  - destruct (IH Hi) as (pre & e1 & post & -> & He1 & Np & Ea). exists (e :: pre), e1, post. split; [reflexivity|]. split; [exact He1|]. split.
    + change (e :: pre) with ([e] ++ pre). rewrite askers_app. intros X. apply in_app_or in X as [X|X]; [|contradiction]. apply Hn. destruct e; cbn in X |- *; tauto || (destruct X as [-> |[]]; reflexivity).
    + destruct e; cbn [answer app]; rewrite Ea; try reflexivity; try (destruct (Nat.eqb_spec i i0) as [->|]; [destruct Hn; reflexivity|reflexivity]). unfold puts. cbn [map List.concat]. now rewrite <- !app_assoc.
Qed.

Section Runs.
Context (o : copts) (M : list msg) (Mok : Forall (msg_ok o) M) (Ook : opts_ok o).

Lemma prefix_ok tr e : client_ok o M (tr ++ [e]) -> handlers_ok o M (tr ++ [e]) -> settled o (tr ++ [e]) \/ (client_waits o M (tr ++ [e]) /\ calm o M (tr ++ [e])) -> client_ok o M tr /\ handlers_ok o M tr /\ (settled o tr \/ (client_waits o M tr /\ calm o M tr)).
Proof.
  intros Hc (Hn & Hb & Ht & Hu & Ha) Hs. split; [|split].
  - intros pre d post s3 b3 Et. apply (Hc pre d (post ++ [e]) s3 b3). rewrite Et, <- app_assoc. reflexivity.
  - split; [|split; [|split; [|split]]].
    + rewrite closers_app in Hn. now apply nodup_app_l in Hn.
    + intros pre i keep post s3 b3 m Et. apply (Hb pre i keep (post ++ [e]) s3 b3 m). rewrite Et, <- app_assoc. reflexivity.
    + intros pre i post s3 b3 m Et. apply (Ht pre i (post ++ [e]) s3 b3 m). rewrite Et, <- app_assoc. reflexivity.
    + intros i H. apply (Hu i). apply in_or_app. now left.
    + intros pre e0 i post s3 b3 m Et. apply (Ha pre e0 i (post ++ [e]) s3 b3 m). rewrite Et, <- app_assoc. reflexivity.
  - destruct Hs as [Hs|[Hs Hm]]; [left|right; split; [intros pre d post s3 b3 Et; apply (Hs pre d (post ++ [e]) s3 b3); rewrite Et, <- app_assoc; reflexivity|intros pre kicked post s3 b3 s4 b4 m Et; apply (Hm pre kicked (post ++ [e]) s3 b3 s4 b4 m); rewrite Et, <- app_assoc; reflexivity]]. intros pre kicked post s3 b3 s4 b4 Et. apply (Hs pre kicked (post ++ [e]) s3 b3 s4 b4). rewrite Et, <- app_assoc. reflexivity.
Qed.
Lemma asks_again tr e rec s b : Inv M (closers tr) (askers tr) rec s b -> conn_run o conn_new tr = Some (s, b) -> handlers_ok o M (tr ++ [e]) ->
  forall i r, e = HRead i \/ e = HContinue i -> In i (askers tr) -> nth_error (c_reqs s) i = Some r -> q_cont r = false.
Proof.
  intros (k & n & C & _ & _ & Ci) E1 (_ & _ & _ & _ & Ha) i r He Hi Er. destruct (q_cont r) eqn:Qc; [|reflexivity]. destruct (cm_reqs _ _ _ _ _ _ C i r Er) as ((m & Em & _ & _ & Pm & _) & _).
  assert (In (Interim i) b) as X. { apply (Ha tr e i [] s b m eq_refl E1 He Hi Em). unfold expects. rewrite Pm. now apply (ci_info _ _ _ Ci i r Er). }
  apply (ci_int _ _ _ Ci) in X as [_ X]. unfold cont in X. rewrite Er in X. congruence.
Qed.
Lemma run_layers tr : forall s b, conn_run o conn_new tr = Some (s, b) -> c_closing s = false -> client_ok o M tr -> handlers_ok o M tr -> settled o tr \/ (client_waits o M tr /\ calm o M tr) ->
  LD (askers tr) s b /\ (forall i, i < ended b -> In i (closers tr)) /\ (tidy tr -> LW M tr s b).
Proof.
  induction tr as [|e tr IH] using rev_ind; intros s b E Cl Hc Hh Hs.
  - injection E as <- <-. split; [apply ld_new|]. split; [cbn; lia|]. intros _. apply lw_start.
  - pose proof (run_inv o M Mok Ook _ s b E Cl Hc Hh Hs) as I'. rewrite conn_run_app in E. destruct (conn_run o conn_new tr) as [[s1 b1]|] eqn:E1; [|discriminate]. cbn [conn_run] in E. destruct (conn_step o s1 e) as [[s2 b2]|] eqn:E2; [|discriminate]. assert (s2 = s) as -> by congruence. assert (b = b1 ++ b2) as -> by (rewrite app_nil_r in E; congruence). clear E.
    assert (c_closing s1 = false) as Cl1. { destruct (c_closing s1) eqn:X; [|reflexivity]. rewrite (step_closing _ _ _ _ _ E2 X) in Cl. discriminate. }
    destruct (prefix_ok tr e Hc Hh Hs) as (Hc1 & Hh1 & Hs1). pose proof (run_inv o M Mok Ook _ s1 b1 E1 Cl1 Hc1 Hh1 Hs1) as I. destruct (IH s1 b1 eq_refl Cl1 Hc1 Hh1 Hs1) as (L1 & L2 & L3). pose proof (asks_again tr e _ s1 b1 I E1 Hh) as Ha'. assert (forall i x, In (Got i x) b1 -> In i (askers tr)) as Hgot by (intros i x; now apply (got_asked o M Mok Ook tr s1 b1)). destruct Hh as (Hn & Hb & Ht & Hu & Ha).
    split; [|split].
    + rewrite askers_app. pose proof I' as I2. rewrite closers_app, askers_app, input_app in I2. apply (ld_step o M Mok Ook _ _ _ s1 b1 e s b2 I I2 L1 E2 Cl); [intros i m ->; exact (Ht tr i [] s1 b1 m eq_refl E1)|intros i ->; apply (Hu i); apply in_or_app; right; now left|exact Hgot].
    + destruct (inv_phase M _ _ _ _ _ I') as [(_ & _ & _ & P)|(P1 & _)]; [exact P|]. intros i Hi. rewrite closers_app. apply in_or_app. left. apply L2. rewrite ended_app in *. rewrite starts_app, app_length in P1.
      destruct (step_ends o M Mok Ook _ _ _ _ _ _ _ _ I E2 Cl) as [Z|[Z1 Z2]]; [lia|]. rewrite Z2 in P1. cbn [List.length] in P1. destruct (inv_phase M _ _ _ _ _ I) as [(P2 & _)|(P2 & _)]; lia.
    + intros Td. apply (lw_step o M Mok Ook tr _ _ s1 b1 e s b2 I I'); try assumption.
      * apply L3. intros pre i d post Et. apply (Td pre i d (post ++ [e])). rewrite Et, <- app_assoc. reflexivity.
      * intros i d ->. apply (Td tr i d []). reflexivity.
      * intros i ->. apply (Hu i). apply in_or_app. right. now left.
Qed.

Lemma prefix_runs post : forall pre s b, conn_run o conn_new (pre ++ post) = Some (s, b) -> c_closing s = false -> client_ok o M (pre ++ post) -> handlers_ok o M (pre ++ post) -> settled o (pre ++ post) \/ (client_waits o M (pre ++ post) /\ calm o M (pre ++ post)) ->
  exists s1 b1, conn_run o conn_new pre = Some (s1, b1) /\ c_closing s1 = false /\ client_ok o M pre /\ handlers_ok o M pre /\ (settled o pre \/ (client_waits o M pre /\ calm o M pre)).
Proof.
  induction post as [|e post IH] using rev_ind; intros pre s b E Cl Hc Hh Hs; [rewrite app_nil_r in *; exists s, b; now repeat (split; [assumption|])|]. rewrite app_assoc in *.
  rewrite conn_run_app in E. destruct (conn_run o conn_new (pre ++ post)) as [[s1 b1]|] eqn:E1; [|discriminate]. cbn [conn_run] in E. destruct (conn_step o s1 e) as [[s2 b2]|] eqn:E2; [|discriminate]. assert (s2 = s) as -> by congruence. clear E.
  assert (c_closing s1 = false) as Cl1. { destruct (c_closing s1) eqn:X; [|reflexivity]. rewrite (step_closing _ _ _ _ _ E2 X) in Cl. discriminate. }
  destruct (prefix_ok _ e Hc Hh Hs) as (Hc1 & Hh1 & Hs1). apply (IH pre s1 b1); assumption.
Qed.
Lemma step_wrote s e s' bx d : conn_step o s e = Some (s', bx) -> In (Wrote d) bx -> exists kicked, e = RunSend kicked /\ c_closing s = false.
Proof.
  intros E H. unfold conn_step in E. destruct (c_lost s); [discriminate|]. destruct e.
  - destruct (_ || _); [discriminate|]. destruct d0 as [|c d0]; [discriminate|]. apply pair_some in E as [_ ->]. contradiction.
  - destruct (_ || _); [discriminate|]. apply pair_some in E as [_ ->]. contradiction.
  - apply pair_some in E as [_ ->]. contradiction.
  - exfalso. assert (forall k s0, ~ In (Wrote d) (snd (start_handler k s0))) as Ns by (intros k s0; unfold start_handler; cbn [snd]; destruct (nth_error _ k); [intros [X|[]]; discriminate|intros []]).
    assert (forall k rest len s0, ~ In (Wrote d) (snd (hr_put o j k rest len s0))) as Np. { intros k rest len s0. unfold hr_put. destruct rest as [|c rest]; [apply Ns|]. destruct (put_round o (o_first o) (c :: rest) s0) as [[rest'|] s1]; [intros []|apply Ns]. }
    destruct (nth_error (c_hrs s) j) as [[d0 hs|k rest len|]|]; try discriminate.
    + assert (snd (run_hr o j d0 hs s) = bx) as <- by (destruct (run_hr o j d0 hs s); cbn; congruence). revert H. unfold run_hr. destruct (frame_head d0 hs); cbn zeta; cbn [snd]; try tauto. destruct (_ || _); [apply Np|apply Ns].
    + assert (snd (hr_put o j k rest len s) = bx) as <- by (destruct (hr_put o j k rest len s); cbn; congruence). now apply Np in H.
  - destruct (nth_error (c_rcv s) j) as [[w d0|rs ln|]|]; try discriminate; [destruct (w_done w s); [|discriminate]|]; apply pair_some in E as [_ ->]; contradiction.
  - exists kicked. split; [reflexivity|]. unfold run_send in E. destruct (c_sending s); [|discriminate]. destruct (c_q1 s) as [|[d0|] q]; [discriminate| |].
    + apply pair_some in E as [_ ->]. now destruct (c_closing s).
    + exfalso. cbn zeta in E. destruct (c_cur (set_q1 q s)) as [k|]; [|apply pair_some in E as [_ ->]; destruct H as [H|[]]; discriminate]. destruct (nth_error _ k) as [r|]; [|discriminate].
      destruct (_ && _); apply pair_some in E as [_ ->]; destruct H as [H|[]]; [destruct (q_cont r)|]; discriminate.
  - exfalso. destruct (live s i) as [r|]; [|discriminate]. destruct (q_eof r); [apply pair_some in E as [_ ->]; contradiction|]. destruct (_ <? _)%Z; [discriminate|]. destruct (send_continue o r s); [|discriminate]. apply pair_some in E as [_ ->]. contradiction.
  - exfalso. destruct (live s i) as [r|]; [|discriminate]. destruct (_ && _) eqn:X; [|discriminate]. destruct (c_q0 s) as [|[d0|] q]; [discriminate| |]; apply pair_some in E as [_ ->]; destruct H as [H|[]]; discriminate.
  - destruct (live s i) as [r|]; [|discriminate]. apply pair_some in E as [_ ->]. contradiction.
  - destruct (live s i) as [r|]; [|discriminate]. apply pair_some in E as [_ ->]. contradiction.
  - destruct (live s i) as [r|]; [|discriminate]. destruct (send_continue o r s); [|discriminate]. apply pair_some in E as [_ ->]. contradiction.
  - destruct (live s i) as [r|]; [|discriminate]. apply pair_some in E as [_ ->]. contradiction.
  - destruct (live s i) as [r|]; [|discriminate]. apply pair_some in E as [_ ->]. contradiction.
  - apply pair_some in E as [_ ->]. contradiction.
Qed.
Lemma step_silent s e s' bx d : conn_step o s e = Some (s', bx) -> c_closing s = true -> ~ In (Wrote d) bx.
Proof. intros E Cl H. destruct (step_wrote _ _ _ _ _ E H) as (_ & _ & X). congruence. Qed.
(** A handler reads after it asked for the body. *)

Lemma started_k b k i h : starts b = combine (seq 0 k) (map m_head M) -> In (Started i h) b -> i < k.
Proof.
  intros E H. assert (In (i, h) (starts b)) as X by (apply in_flat_map; exists (Started i h); split; [exact H|now left]). rewrite E in X. apply in_combine_l, in_seq in X. lia.
Qed.
Lemma k_started b k i m : starts b = combine (seq 0 k) (map m_head M) -> i < k -> nth_error M i = Some m -> In (Started i (m_head m)) b.
Proof.
  intros E Hk Em. assert (In (i, m_head m) (starts b)) as X.
  { rewrite E. apply (nth_error_In _ i). assert (forall (L : list msg) j st k, j < k -> nth_error L j = Some m -> nth_error (combine (seq st k) (map m_head L)) j = Some (st + j, m_head m)) as K.
    { induction L as [|x L IH]; intros j st k0 Hj Ej; [now destruct j|]. destruct k0 as [|k0]; [lia|]. cbn [seq map combine]. destruct j as [|j]; [injection Ej as ->; cbn; now rewrite Nat.add_0_r|]. cbn [nth_error]. rewrite (IH j (S st) k0); [f_equal; f_equal; lia|lia|exact Ej]. }
    apply (K M i 0 k Hk Em). }
  unfold starts in X. apply in_flat_map in X as (x & Hx & X). destruct x; cbn in X; try contradiction. destruct X as [X|[]]. injection X as -> ->. exact Hx.
Qed.

(** What an idle connection looks like. *)
Lemma idle_phase nc ak rec s b : Inv M nc ak rec s b -> (forall i, i < ended b -> In i nc) -> idle o s ->
  (c_hb s <> None /\ exists k, starts b = combine (seq 0 k) (map m_head M) /\ k = ended b) \/
  (exists k m r ds (mk : bool), active b k /\ c_q1 s = [] /\ ~ In k nc /\ Forall (fun t => t = ROver) (c_rcv s) /\ nth_error M k = Some m /\ nth_error (c_reqs s) k = Some r /\ carries r = m_has m /\ has_cl r = counted m /\
    In (Started k (m_head m)) b /\ (q_eof r = true <-> In (Got k None) b) /\ olds M k b /\ starts b = combine (seq 0 (S k)) (map m_head M) /\
    parsed m = Some (q_info r) /\ (counted m = true -> rq_content_length (q_info r) = blen (m_body m)) /\
    c_q0 s = map Some ds ++ (if mk then [None] else []) /\ rec = upto_msg M k ++ m_head m ++ got k b ++ List.concat ds /\ q_size r = blen (got k b ++ List.concat ds) /\
    (m_has m = true -> q_used r = blen (got k b) /\ (mk = true \/ q_eof r = true -> got k b ++ List.concat ds = m_body m))).
Proof.
  intros (k & n & C & P & B) Hold (Q1 & Q2 & Q3). pose proof (cm_lost _ _ _ _ _ _ C) as Lo. pose proof (cm_starts _ _ _ _ _ _ C) as St.
  assert (List.length (starts b) = k) as Lk. { rewrite St, combine_length, seq_length, map_length. pose proof (cm_k _ _ _ _ _ _ C). lia. }
  destruct P as [bb h a A1 A2 A3 A4 A5 A6 A7 A8 A9 A10 A11 A12|m rest h a l A1 A2 A3 A4 A5 A6 A7 A8 A9 A10 A11 A12 A13|rest len h a l A1 A2 A3 A4 A5 A6 A7 A8 A9 A10 A11 A12 A13|k' h a l mk A1 A2 A3 A4 A5 A6 A7 A8 A9 A10 A11 A12 A13].
  - left. split; [congruence|]. exists k. split; [exact St|]. symmetry. now apply ended_rep.
  - exfalso. specialize (Q1 h). unfold conn_step in Q1. rewrite Lo, A3, nth_error_app2, repeat_length, Nat.sub_diag in Q1 by now rewrite repeat_length. discriminate.
  - exfalso. specialize (Q1 h). unfold conn_step in Q1. rewrite Lo, A2, nth_error_app2, repeat_length, Nat.sub_diag in Q1 by now rewrite repeat_length. discriminate.
  - right. subst k. pose proof (ended_rep1 b k' A8) as Ee. assert (c_cur s = Some k') as Ec by (rewrite (cm_cur _ _ _ _ _ _ C); replace n with (S k'); [reflexivity|rewrite <- (cm_n _ _ _ _ _ _ C); now symmetry]).
    destruct A13 as (m & r & ds & Em & Er & D1 & D2 & (D3 & D4 & D5) & D6). exists k', m, r, ds, mk. split; [now split|].
    assert (c_q1 s = []) as Eq. { specialize (Q3 false). unfold conn_step, run_send in Q3. rewrite Lo, (cm_sending _ _ _ _ _ _ C) in Q3. destruct (c_q1 s) as [|[d|] q]; [reflexivity|discriminate|]. csimp_in Q3. rewrite Ec, Er in Q3. destruct (q_keep r && _)%bool; discriminate. }
    split; [exact Eq|]. rewrite Eq in A9. cbn in A9. assert (~ In k' nc) as Nk.
    { intros H. assert (S k' <= List.length nc); [|lia]. rewrite <- (seq_length (S k') 0). apply NoDup_incl_length; [apply seq_NoDup|]. intros i Hi. apply in_seq in Hi. destruct (Nat.eq_dec i k') as [->|]; [exact H|]. apply Hold. lia. }
    split; [exact Nk|]. assert (l = []) as ->.
    { destruct l as [|t l]; [reflexivity|]. exfalso. specialize (Q2 a). unfold conn_step in Q2. rewrite Lo, A4, nth_error_app2, repeat_length, Nat.sub_diag in Q2 by now rewrite repeat_length. cbn [nth_error] in Q2. destruct A6 as [W|[[La W]|(rs & ln & l' & W & _)]].
      - destruct t as [w d| |]; cbn [waits] in W; try tauto. destruct W as (-> & _). cbn [w_done] in Q2. rewrite A11 in Q2. discriminate.
      - destruct t as [w d| |]; cbn [waits] in W; try tauto. destruct W as (-> & _). cbn [w_done] in Q2. rewrite A4, nth_error_app1, nth_error_repeat in Q2 by (rewrite ?repeat_length; lia). discriminate.
      - injection W as -> _. discriminate. }
    cbn [pend lens] in D2, D5. rewrite ?app_nil_l, ?app_nil_r in D2, D5. destruct (cm_reqs _ _ _ _ _ _ C k' r Er) as ((m' & Em' & R1 & R2 & R3 & R4 & R5 & R6 & R7) & Re & _). assert (m' = m) as -> by congruence.
    split; [rewrite A4, app_nil_r; apply Forall_forall; intros t Ht; now apply repeat_spec in Ht|]. split; [exact Em|]. split; [exact Er|]. split; [exact R5|]. split; [exact R4|]. split; [apply (k_started b (S k') k' m St ltac:(lia) Em)|]. split; [exact Re|]. split; [exact A12|]. split; [exact St|].
    split; [exact R3|]. split; [intros H; now apply R6|]. split; [exact D1|]. split; [exact D2|]. split; [lia|]. intros H. rewrite H in D6. destruct D6 as (D6 & _ & _ & D7 & _). split; [exact D6|]. intros X. now apply D7.
Qed.

Lemma progress tr s b : conn_run o conn_new tr = Some (s, b) -> c_closing s = false -> client_ok o M tr -> handlers_ok o M tr -> settled o tr \/ (client_waits o M tr /\ calm o M tr) -> idle o s ->
  c_paused s = false \/ exists i m, nth_error M i = Some m /\ In (Started i (m_head m)) b /\ ended b = i /\ ~ In i (closers tr) /\ (m_has m = false \/ In (Got i None) b \/ c_q0 s <> []).
Proof.
  intros E Cl Hc Hh Hs Hi. pose proof (run_inv o M Mok Ook tr s b E Cl Hc Hh Hs) as I. destruct (run_layers tr s b E Cl Hc Hh Hs) as (L1 & L2 & _).
  destruct (idle_phase _ _ _ s b I L2 Hi) as [(Hb & _)|(k & m & r & ds & mk & A & Eq & Nk & Fr & Em & Er & Hcl & _ & Sk & Re & _)]; [left; now apply (ld_hb _ _ _ L1)|].
  destruct (c_paused s) eqn:Pz; [right|now left]. exists k, m. split; [exact Em|]. split; [exact Sk|]. split; [apply A|]. split; [exact Nk|]. destruct (m_has m) eqn:Mc; [right|now left].
  destruct (ld_body _ _ _ L1 k r A Er) as [_ [H|[H|[H|H]]]]; [congruence|rewrite Eq; apply Nat.le_0_l|right; intros X; now rewrite X in H|left; now apply Re|congruence|contradiction].
Qed.

(** When no task can run, all that was put is written. *)
Lemma idle_out tr s b : conn_run o conn_new tr = Some (s, b) -> c_closing s = false -> client_ok o M tr -> handlers_ok o M tr -> settled o tr \/ (client_waits o M tr /\ calm o M tr) -> tidy tr -> idle o s ->
  forall i, In i (askers tr) -> out i b = response M i tr.
Proof.
  intros E Cl Hc Hh Hs Td Hi i Ha. pose proof (run_inv o M Mok Ook tr s b E Cl Hc Hh Hs) as I. destruct (run_layers tr s b E Cl Hc Hh Hs) as (_ & L2 & L). specialize (L Td).
  assert (i < List.length (starts b)) as Li by (destruct I as (k & n & _ & _ & _ & Ci); exact (ci_ask _ _ _ Ci i Ha)). destruct (Nat.lt_ge_cases i (ended b)) as [Lt|Ge]; [now apply (lw_old _ _ _ _ L)|].
  pose proof (inv_phase M _ _ _ _ _ I) as Ph. destruct (idle_phase _ _ _ s b I L2 Hi) as [(_ & k & St & Ek)|(k & m & r & ds & mk & A & Eq & Nk & _)].
  - destruct Ph as [(P1 & _)|(P1 & P2 & _)]; [lia|]. exfalso. rewrite St, combine_length, seq_length, map_length in P1. lia.
  - destruct Ph as [(P1 & _)|(P1 & _ & _ & _ & P5 & _)]; [lia|]. assert (i = k) as -> by (destruct A; lia). assert (ended b = k) as Ek by apply A. rewrite Eq in P5. cbn [nones filter List.length] in P5.
    assert (k <= List.length (closers tr)) as Lc. { rewrite <- (seq_length k 0). apply NoDup_incl_length; [apply seq_NoDup|]. intros j Hj. apply in_seq in Hj. apply L2. lia. }
    destruct (lw_cur _ _ _ _ L k A) as (X & Y & X1 & X2); [rewrite Eq; cbn [nones filter List.length]; lia|]. rewrite Eq in X1. destruct X; [|discriminate]. destruct (pending _ _); [|discriminate]. destruct Y; [|discriminate]. cbn in X2. now rewrite app_nil_r in X2.
Qed.

Lemma take_all i body : forall ds s b r, live s i = Some r -> c_lost s = false -> q_reading r = true -> q_eof r = false -> c_q0 s = map Some ds ++ [None] -> q_used r = blen (got i b) -> rq_content_length (q_info r) = blen body -> got i b ++ List.concat ds = body ->
  exists s' b', conn_run o s (repeat (HTake i) (S (List.length ds))) = Some (s', b') /\ got i (b ++ b') = body /\ In (Got i None) b'.
Proof.
  induction ds as [|d ds IH]; intros s b r Lr Lo Rr Re Eq Eu El Eb.
  - cbn [repeat conn_run List.length map app] in *. unfold conn_step at 1. rewrite Lo, Lr, Rr, Re, Eq. cbn [andb negb]. do 2 eexists. split; [reflexivity|]. split; [|now left]. rewrite got_app. cbn. rewrite app_nil_r in Eb |- *. exact Eb.
  - cbn [repeat conn_run List.length map app List.concat] in *. unfold conn_step at 1. rewrite Lo, Lr, Rr, Re, Eq. cbn [andb negb].
    assert (trimmed r d = d) as Et. { unfold trimmed. rewrite Eu, El. destruct (_ && _)%bool eqn:X; [|reflexivity]. exfalso. apply andb_prop in X as [_ X]. apply Z.ltb_lt in X. rewrite <- Eb in X. unfold blen in X. rewrite !app_length in X. lia. }
    rewrite Et. set (s1 := on_req i (set_used (q_used r + blen d)) (set_q0 (map Some ds ++ [None]) s)). apply live_some in Lr as [Er Lv].
    destruct (on_req_misc i (set_used (q_used r + blen d)) (set_q0 (map Some ds ++ [None]) s)) as (B1 & B2 & B3 & B4 & B5 & B6 & B7 & B8 & B9 & B10 & B11 & B12 & B13 & B14 & B15).
    destruct (IH s1 (b ++ [Got i (Some d)]) (set_used (q_used r + blen d) r)) as (s' & b' & R & G & H); try assumption.
    + unfold live, s1. rewrite on_req_nth, Nat.eqb_refl. csimp. rewrite Er. cbn [option_map]. cbn [set_used q_live]. now rewrite Lv.
    + unfold s1. rewrite B13. exact Lo.
    + cbn [set_used q_used]. rewrite Eu, got_app. cbn. rewrite Nat.eqb_refl, app_nil_r. unfold blen. rewrite app_length. lia.
    + rewrite got_app. cbn. rewrite Nat.eqb_refl, app_nil_r, <- app_assoc. exact Eb.
    + exists s', (Got i (Some d) :: b'). cbn [repeat] in R. rewrite R. split; [reflexivity|]. split; [|now right]. rewrite <- G, <- app_assoc. reflexivity.
Qed.
Lemma take_chunks i : forall ds s b r, live s i = Some r -> c_lost s = false -> q_reading r = true -> q_eof r = false -> c_q0 s = map Some ds -> rq_content_length (q_info r) = (-1)%Z ->
  exists s' b', conn_run o s (repeat (HTake i) (List.length ds)) = Some (s', b') /\ got i (b ++ b') = got i b ++ List.concat ds.
Proof.
  induction ds as [|d ds IH]; intros s b r Lr Lo Rr Re Eq El.
  - exists s, []. split; [reflexivity|]. now rewrite !app_nil_r.
  - cbn [repeat conn_run List.length map app List.concat] in *. unfold conn_step at 1. rewrite Lo, Lr, Rr, Re, Eq. cbn [andb negb].
    assert (trimmed r d = d) as Et by (unfold trimmed; now rewrite El).
    rewrite Et. set (s1 := on_req i (set_used (q_used r + blen d)) (set_q0 (map Some ds) s)). apply live_some in Lr as [Er Lv].
    destruct (on_req_misc i (set_used (q_used r + blen d)) (set_q0 (map Some ds) s)) as (B1 & B2 & B3 & B4 & B5 & B6 & B7 & B8 & B9 & B10 & B11 & B12 & B13 & B14 & B15).
    destruct (IH s1 (b ++ [Got i (Some d)]) (set_used (q_used r + blen d) r)) as (s' & b' & R & G); try assumption.
    + unfold live, s1. rewrite on_req_nth, Nat.eqb_refl. csimp. rewrite Er. cbn [option_map]. cbn [set_used q_live]. now rewrite Lv.
    + unfold s1. rewrite B13. exact Lo.
    + exists s', (Got i (Some d) :: b'). rewrite R. split; [reflexivity|]. rewrite <- app_assoc in G. cbn [app] in G. rewrite G, got_app. cbn. now rewrite Nat.eqb_refl, app_nil_r, <- app_assoc.
Qed.
(** Once the whole body has come and the tasks have run, the handler can read all of it, and its end. *)
Lemma delivered tr s b i m : conn_run o conn_new tr = Some (s, b) -> c_closing s = false -> client_ok o M tr -> handlers_ok o M tr -> settled o tr \/ (client_waits o M tr /\ calm o M tr) -> idle o s ->
  nth_error M i = Some m -> m_has m = true -> In (Started i (m_head m)) b -> ~ In (HEnd i) tr -> is_prefix (List.concat (map wire (firstn (S i) M))) (input tr) -> (blen (m_body m) <= o_body o)%Z ->
  read_all i m b \/ exists n s' b', conn_run o s (HRead i :: repeat (HTake i) n) = Some (s', b') /\ got i (b ++ b') = m_body m /\ read_all i m (b ++ b').
Proof.
  intros E Cl Hc Hh Hs Hi Em Mc Si Ne Px Lb. pose proof (run_inv o M Mok Ook tr s b E Cl Hc Hh Hs) as I. destruct (run_layers tr s b E Cl Hc Hh Hs) as (L1 & L2 & _). pose proof (run_runs o tr s b i _ E Cl Ne Si) as Rn.
  assert (i < ended b -> read_all i m b) as Old. { intros Hl. specialize (L2 i Hl). destruct I as (k & n & C & _). destruct (cm_closers _ _ _ _ _ _ C i L2) as [_ X]. now apply (X m). }
  pose proof I as (kk & nn & C & _ & Bd & _). pose proof (cm_lost _ _ _ _ _ _ C) as Lo.
  destruct (idle_phase _ _ _ s b I L2 Hi) as [(Hb & k & St & Ek)|(k & m' & r & ds & mk & A & Eq & Nk & Fr & Em' & Er & Hca & Hcl & Sk & Re & Ol & St & Pm & Hq & D1 & D2 & D3 & D4)]; [left; apply Old; rewrite <- Ek; now apply (started_k b k i (m_head m))|].
  pose proof (started_k b (S k) i _ St Si) as Hk. destruct (Nat.eq_dec i k) as [->|N]; [|left; apply Old; destruct A as [A _]; lia]. assert (m' = m) as -> by congruence. destruct (D4 Mc) as [D5 D6].
  assert (In (Got k None) b -> read_all k m b) as Rd. { intros H. unfold read_all. destruct (counted m); [exact H|]. now apply (cm_got _ _ _ _ _ _ C k m Em). }
  destruct (q_eof r) eqn:Ef; [left; now apply Rd, Re|right].
  assert (is_prefix (m_body m) (got k b ++ List.concat ds)) as Pb. { rewrite D2 in Px. change (List.concat (map wire (firstn (S k) M))) with (upto_msg M (S k)) in Px. rewrite (upto_msg_S M k m Em) in Px. unfold wire in Px. apply prefix_cancel in Px. now apply prefix_cancel in Px. }
  set (s0 := if q_cont r then put1 None (put1 (Some (continue_100 r)) s) else s). assert (c_reqs s0 = c_reqs s /\ c_lost s0 = c_lost s /\ c_q0 s0 = c_q0 s) as (Z1 & Z2 & Z3) by (unfold s0; now destruct (q_cont r)).
  set (s1 := on_req k set_reading s0). destruct (on_req_misc k set_reading s0) as (B1 & B2 & B3 & B4 & B5 & B6 & B7 & B8 & B9 & B10 & B11 & B12 & B13 & B14 & B15).
  destruct (runs_live _ _ Rn) as (r' & Lr). pose proof Lr as Lr0. apply live_some in Lr0 as [Er0 Lv]. assert (r' = r) as -> by congruence.
  assert (live s1 k = Some (set_reading r)) as Ls1. { unfold live, s1. rewrite on_req_nth, Nat.eqb_refl, Z1, Er. cbn [option_map]. cbn [set_reading q_live]. now rewrite Lv. }
  destruct (counted m) eqn:Cm.
  2:{ assert (rq_content_length (q_info r) = (-1)%Z) as Nl by (apply (no_length m); [exact Pm|exact Cm|]; unfold carries in Hca; congruence).
    rewrite D2 in Bd. apply (body_bound M k m _ b Em Mc (proj1 A)) in Bd. assert (got k b ++ List.concat ds = m_body m) as Eb by (apply prefix_full; [exact Bd|now apply prefix_length]).
    assert (mk = false) as ->. { destruct mk; [|reflexivity]. exfalso. pose proof I as (k2 & n2 & C2 & P2 & _). destruct P2 as [bb h a A1 A2 A3 A4 A5 A6 A7 A8 A9 A10 A11 A12|mm rest h a l A1 A2 A3 A4 A5 A6 A7 A8 A9 A10 A11 A12 A13|rest len h a l A1 A2 A3 A4 A5 A6 A7 A8 A9 A10 A11 A12 A13|k' h a l mk A1 A2 A3 A4 A5 A6 A7 A8 A9 A10 A11 A12 A13].
      - rewrite A6 in D1. destruct ds; discriminate.
      - rewrite A7 in D1. destruct ds; discriminate.
      - destruct A13 as (m2 & r2 & ds2 & _ & _ & E0 & _). rewrite app_nil_r, D1 in E0. assert (In None (map (@Some bytes) ds2)) as X by (rewrite <- E0; apply in_or_app; right; now left). apply in_map_iff in X as (x & X & _). discriminate.
      - assert (k' = k) as -> by (rewrite <- (ended_rep1 b k' A8); apply A). destruct A13 as (m2 & r2 & ds2 & Em2 & _ & E0 & _ & _ & E1). assert (m2 = m) as -> by congruence. rewrite Mc in E1. destruct E1 as (_ & E1 & _).
        destruct mk; [specialize (E1 eq_refl); congruence|]. rewrite app_nil_r, D1 in E0. assert (In None (map (@Some bytes) ds2)) as X by (rewrite <- E0; apply in_or_app; right; now left). apply in_map_iff in X as (x & X & _). discriminate. }
    rewrite app_nil_r in D1. destruct (take_chunks k ds s1 b (set_reading r)) as (s' & b' & R & G); try assumption; try reflexivity.
    - unfold s1. rewrite B13, Z2. exact Lo.
    - unfold s1. rewrite B3, Z3. exact D1.
    - exists (List.length ds), s', b'. split; [|split; [congruence|unfold read_all; rewrite Cm; congruence]]. cbn [conn_run]. unfold conn_step at 1. rewrite Lo, Lr, Ef. destruct (o_body o <? rq_content_length (q_info r))%Z eqn:W; [apply Z.ltb_lt in W; unfold blen in Lb; lia|]. unfold send_continue. rewrite W. unfold s1, s0 in R. destruct (q_cont r); rewrite R; reflexivity. }
  pose proof (Hq eq_refl) as Hl.
  assert (rq_content_length (q_info r) <= q_size r)%Z as Ls by (rewrite Hl, D3; unfold blen; pose proof (prefix_length _ _ Pb); lia).
  destruct (ld_body _ _ _ L1 k r A Er) as [H _]; [congruence|rewrite Eq; apply Nat.le_0_l|]. destruct (H Hcl Ls) as [H'|H']; [|congruence].
  assert (mk = true) as ->. { destruct mk; [reflexivity|]. rewrite D1, app_nil_r in H'. apply in_map_iff in H' as (x & X & _). discriminate. }
  specialize (D6 (or_introl eq_refl)).
  destruct (take_all k (m_body m) ds s1 b (set_reading r)) as (s' & b' & R & G & X); try assumption; try reflexivity.
  - unfold s1. rewrite B13, Z2. exact Lo.
  - unfold s1. rewrite B3, Z3. exact D1.
  - exists (S (List.length ds)), s', b'. split; [|split; [exact G|unfold read_all; rewrite Cm; apply in_or_app; now right]]. cbn [conn_run]. unfold conn_step at 1. rewrite Lo, Lr, Ef. destruct (o_body o <? rq_content_length (q_info r))%Z eqn:W; [apply Z.ltb_lt in W; lia|]. unfold send_continue. rewrite W. unfold s1, s0 in R. destruct (q_cont r); rewrite R; reflexivity.
Qed.
End Runs.
