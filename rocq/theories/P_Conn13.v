(** What was written of the current response is always a beginning of what its handler has put (for C85). *)
From Verif Require Import PyBytes PyBytesFacts PyInt PyExn M_Parser M_Framing M_Conn S_Conn P_Parser2 P_Conn P_Conn2 P_Conn3 P_Conn4 P_Conn5 P_Conn6 P_Conn8 P_Conn9 P_Conn10 P_Conn12.

(** What is queued before the first end mark. *)
Fixpoint lead (q : list (option bytes)) : bytes := match q with Some d :: q' => d ++ lead q' | _ => [] end.
Lemma lead_none q : lead (q ++ [None]) = lead q.
Proof. induction q as [|[d|] q IH]; [reflexivity| |reflexivity]. cbn [app lead]. now rewrite IH. Qed.
Lemma lead_put d q : lead (q ++ [Some d]) = if (nones q =? 0)%nat then lead q ++ d else lead q.
Proof.
  induction q as [|[x|] q IH]; [cbn; now rewrite app_nil_r| |reflexivity]. cbn [app lead]. rewrite IH. change (nones (Some x :: q)) with (nones q). destruct (nones q =? 0)%nat; [now rewrite app_assoc|reflexivity].
Qed.
Lemma prefix_app {A} (a b t : list A) : is_prefix a b -> is_prefix a (b ++ t).
Proof. intros (u & <-). exists (u ++ t). apply app_assoc. Qed.

Section Cut.
Context (o : copts) (M : list msg) (Mok : Forall (msg_ok o) M) (Ook : opts_ok o) (Mex : Forall (fun m => expects m = false) M).

Definition LP (tr : list cev) (s : conn) (b : list obs) : Prop :=
  forall i, active b i -> is_prefix (out i b ++ lead (c_q1 s)) (response M i tr) /\ (nones (c_q1 s) = 0 -> out i b ++ lead (c_q1 s) = response M i tr).
Lemma lp_same tr e s s' b bx : silent bx -> starts (b ++ bx) = starts b -> q1_grows s s' -> (forall i, says M i tr e = []) -> LP tr s b -> LP (tr ++ [e]) s' (b ++ bx).
Proof.
  intros Sb Es Eq Ep L i [A1 A2]. rewrite (ended_silent bx b Sb) in A1. rewrite Es in A2. rewrite response_snoc, Ep, app_nil_r, (out_silent bx b i Sb). destruct (L i (conj A1 A2)) as [L1 L2].
  destruct Eq as [Eq|Eq]; rewrite Eq; [now split|]. rewrite lead_none, nones_snoc. split; [exact L1|discriminate].
Qed.
Lemma no_says i tr e : (forall d, e <> HPut i d) -> says M i tr e = [].
Proof.
  intros N. assert (match nth_error M i with Some m => if expects m then interim m else [] | None => [] end = []) as X.
  { destruct (nth_error M i) as [m|] eqn:E; [|reflexivity]. pose proof (proj1 (Forall_forall _ _) Mex m (nth_error_In _ _ E)) as Y. cbn beta in Y. now rewrite Y. }
  destruct e; try reflexivity; cbn [says]; try (rewrite X; now destruct (_ && _)). destruct (Nat.eqb_spec i i0) as [->|]; [|reflexivity]. now destruct (N d).
Qed.
Lemma no_says' tr e : (forall i d, e <> HPut i d) -> forall i, says M i tr e = [].
Proof. intros N i. apply no_says. intros d. apply N. Qed.
Lemma lp_step tr rec rec' s b e s' bx : Inv M (closers tr) (askers tr) rec s b -> Inv M (closers (tr ++ [e])) (askers (tr ++ [e])) rec' s' (b ++ bx) -> LW M tr s b -> LP tr s b -> conn_step o s e = Some (s', bx) -> c_closing s = false -> c_closing s' = false ->
  (forall i d, e = HPut i d -> ~ In i (closers tr)) -> (forall i, e <> HUpgrade i) -> LP (tr ++ [e]) s' (b ++ bx).
Proof.
  intros I I' L P E Cl0 Cl Hp Hu. pose proof (inv_phase M _ _ _ _ _ I) as Ph.
  assert (forall i r, nth_error (c_reqs s) i = Some r -> q_cont r = false) as Nc by (intros i r; apply (no_cont M Mex _ _ _ _ _ _ _ I)).
  destruct e; try (exfalso; now apply (Hu i)).
  - unfold conn_step in E. destruct (c_lost s); [discriminate|]. destruct (c_paused s || c_closing s)%bool eqn:Pc; [discriminate|]. destruct d as [|c d]; [discriminate|]. apply pair_some in E as [-> ->].
    apply (lp_same tr _ s); [constructor|now rewrite app_nil_r|left; apply data_q1|now apply no_says'|exact P].
  - unfold conn_step in E. destruct (c_lost s); [discriminate|]. destruct (c_paused s || c_closing s)%bool; [discriminate|]. assert (s' = set_closing (put0 None s)) as -> by congruence. discriminate.
  - unfold conn_step in E. destruct (c_lost s); [discriminate|]. assert (s' = set_closing s) as -> by congruence. discriminate.
  - destruct (hr_work o M Mok _ _ _ _ _ _ _ _ I E Cl) as (W1 & W2 & W3 & W4 & W5). destruct (lw_idle _ _ _ _ L W1) as [L1 L2].
    assert (q1_grows s s') as G by (destruct W5 as [[_ W5]|[W5 _]]; [now left|exact W5]). intros i [A1 A2]. rewrite (ended_silent bx b W4) in A1. subst i.
    rewrite response_snoc, no_says, app_nil_r by discriminate. rewrite (out_silent bx b _ W4), L1, (lw_new _ _ _ _ L (ended b)) by lia. cbn [app].
    assert (lead (c_q1 s') = []) as -> by (destruct G as [G|G]; rewrite G, L2; reflexivity). split; [now exists []|reflexivity].
  - destruct (rcv_work o M Ook _ _ _ _ _ _ _ _ I E Cl) as (-> & W1 & W2 & W3). assert (q1_grows s s') as G by (destruct W3 as [[W3 _]|[W3 _]]; [now left|exact W3]).
    apply (lp_same tr _ s); [constructor|now rewrite app_nil_r|exact G|now apply no_says'|exact P].
  - unfold conn_step in E. destruct (c_lost s); [discriminate|]. unfold run_send in E. destruct (c_sending s); [|discriminate]. destruct (c_q1 s) as [|[d|] q] eqn:Eq; [discriminate| |].
    + assert (s' = set_q1 q s) as -> by congruence. assert (bx = [Wrote d]) as -> by (rewrite Cl0 in E; congruence).
      intros i [A1 A2]. rewrite ended_app in A1. rewrite starts_app in A2. cbn in A1, A2. rewrite app_nil_r in A2. rewrite Nat.add_0_r in A1. destruct (P i (conj A1 A2)) as [P1 P2]. rewrite Eq in P1, P2. cbn [lead] in P1, P2.
      rewrite response_snoc, no_says, app_nil_r by discriminate. rewrite out_snoc, A1, Nat.eqb_refl, <- app_assoc. csimp. split; [exact P1|]. intros H. apply P2. exact H.
    + destruct Ph as [(P1 & _)|(P1 & P2 & P3 & P4 & P5 & P6 & r & P7 & P8)]; [destruct (lw_idle _ _ _ _ L P1) as [_ Y]; congruence|]. csimp_in E. rewrite P3, P7 in E. rewrite (Nc _ _ P7) in E.
      destruct (q_keep r && _)%bool eqn:K; [|assert (s' = set_sending false (set_closing (on_req (ended b) clear_body (set_q1 q s)))) as -> by congruence; discriminate].
      assert (bx = [Ended]) as -> by congruence. intros i [A1 A2]. rewrite ended_app in A1. rewrite starts_app in A2. cbn in A1, A2. rewrite app_nil_r in A2. lia.
  - unfold conn_step in E. destruct (c_lost s); [discriminate|]. destruct (live s i) as [r|] eqn:Lr; [|discriminate]. apply live_some in Lr as [Er _]. unfold send_continue in E. rewrite (Nc i r Er) in E.
    destruct (q_eof r); [|destruct (_ <? _)%Z; [discriminate|]]; apply pair_some in E as [-> ->]; (apply (lp_same tr _ s); [constructor|now rewrite app_nil_r|left; rewrite ?on_req_q1; reflexivity|now apply no_says'|exact P]).
  - unfold conn_step in E. destruct (c_lost s); [discriminate|]. destruct (live s i) as [r|] eqn:Lr; [|discriminate]. destruct (q_reading r && negb (q_eof r)) eqn:Re; [|discriminate].
    destruct (c_q0 s) as [|x q] eqn:Eq; [discriminate|]. assert (exists y f, bx = [Got i y] /\ s' = on_req i f (set_q0 q s)) as (y & f & -> & ->) by (destruct x as [d|]; apply pair_some in E as [-> ->]; do 2 eexists; split; reflexivity).
    apply (lp_same tr _ s); [apply Forall_cons; [exact Logic.I|apply Forall_nil]|rewrite starts_app; apply app_nil_r|left; rewrite on_req_q1; reflexivity|now apply no_says'|exact P].
  - unfold conn_step in E. destruct (c_lost s); [discriminate|]. destruct (live s i) as [r|] eqn:Lr; [|discriminate]. assert (s' = put1 (Some d) s) as -> by congruence. assert (bx = []) as -> by congruence. rewrite app_nil_r.
    pose proof (lw_here M _ _ _ _ _ _ I L Lr (Hp i d eq_refl)) as [A1 A2]. intros k A. assert (k = i) as -> by (destruct A; lia). destruct (P i A) as [Q1 Q2]. rewrite response_snoc. cbn [says]. rewrite Nat.eqb_refl. csimp. rewrite lead_put, nones_app.
    destruct (Nat.eqb_spec (nones (c_q1 s)) 0) as [Z|Z].
    + rewrite app_assoc, (Q2 Z). split; [exists []; apply app_nil_r|reflexivity].
    + split; [now apply prefix_app|cbn; lia].
  - unfold conn_step in E. destruct (c_lost s); [discriminate|]. destruct (live s i) as [r|] eqn:Lr; [|discriminate]. assert (bx = []) as -> by congruence.
    assert (c_q1 s' = c_q1 s ++ [None]) as Eq. { assert (s' = put1 None (if keep then s else on_req i (set_keep false) s)) as -> by congruence. destruct keep; csimp; [reflexivity|now rewrite on_req_q1]. }
    apply (lp_same tr _ s); [constructor|now rewrite app_nil_r|now right|now apply no_says'|exact P].
  - unfold conn_step in E. destruct (c_lost s); [discriminate|]. destruct (live s i) as [r|] eqn:Lr; [|discriminate]. apply live_some in Lr as [Er _]. unfold send_continue in E. rewrite (Nc i r Er) in E. apply pair_some in E as [-> ->].
    apply (lp_same tr _ s); [constructor|now rewrite app_nil_r|now left|now apply no_says'|exact P].
  - unfold conn_step in E. destruct (c_lost s); [discriminate|]. destruct (live s i) as [r|] eqn:Lr; [|discriminate]. assert (s' = on_req i (set_live false) s) as -> by congruence. assert (bx = []) as -> by congruence.
    apply (lp_same tr _ s); [constructor|now rewrite app_nil_r|left; apply on_req_q1|now apply no_says'|exact P].
  - unfold conn_step in E. destruct (c_lost s); [discriminate|]. assert (s' = mkC None (c_paused s) true true [] [] (c_futs s) (c_wreq s) (c_wkeep s) (c_wrecv s) [] None [] [] false) as -> by congruence. discriminate.
Qed.
Lemma run_lead tr : forall s b, conn_run o conn_new tr = Some (s, b) -> c_closing s = false -> client_ok o M tr -> handlers_ok o M tr -> settled o tr \/ (client_waits o M tr /\ calm o M tr) -> tidy tr -> LP tr s b.
Proof.
  induction tr as [|e tr IH] using rev_ind; intros s b E Cl Hc Hh Hs Td.
  - injection E as <- <-. intros i [A1 A2]. discriminate A2.
  - pose proof (run_inv o M Mok Ook _ s b E Cl Hc Hh Hs) as I'. rewrite conn_run_app in E. destruct (conn_run o conn_new tr) as [[s1 b1]|] eqn:E1; [|discriminate]. cbn [conn_run] in E. destruct (conn_step o s1 e) as [[s2 b2]|] eqn:E2; [|discriminate]. assert (s2 = s) as -> by congruence. assert (b = b1 ++ b2) as -> by (rewrite app_nil_r in E; congruence). clear E.
    assert (c_closing s1 = false) as Cl1. { destruct (c_closing s1) eqn:X; [|reflexivity]. rewrite (step_closing _ _ _ _ _ E2 X) in Cl. discriminate. }
    destruct (prefix_ok o M tr e Hc Hh Hs) as (Hc1 & Hh1 & Hs1). pose proof (run_inv o M Mok Ook _ s1 b1 E1 Cl1 Hc1 Hh1 Hs1) as I. destruct (run_layers o M Mok Ook tr s1 b1 E1 Cl1 Hc1 Hh1 Hs1) as (_ & _ & L).
    assert (tidy tr) as Td1 by (intros pre i d post Et; apply (Td pre i d (post ++ [e])); rewrite Et, <- app_assoc; reflexivity). specialize (L Td1). destruct Hh as (Hn & Hb & Ht & Hu & Ha).
    apply (lp_step tr _ _ s1 b1 e s b2 I I' L (IH s1 b1 eq_refl Cl1 Hc1 Hh1 Hs1 Td1) E2 Cl1 Cl); [intros i d ->; apply (Td tr i d []); reflexivity|intros i ->; apply (Hu i); apply in_or_app; right; now left].
Qed.
(** What was written of the current response. *)
Lemma run_cut tr s b : conn_run o conn_new tr = Some (s, b) -> c_closing s = false -> client_ok o M tr -> handlers_ok o M tr -> settled o tr \/ (client_waits o M tr /\ calm o M tr) -> tidy tr ->
  (out (ended b) b = [] /\ List.length (starts b) = ended b) \/ (List.length (starts b) = S (ended b) /\ is_prefix (out (ended b) b) (response M (ended b) tr)).
Proof.
  intros E Cl Hc Hh Hs Td. pose proof (run_inv o M Mok Ook _ s b E Cl Hc Hh Hs) as I. destruct (run_layers o M Mok Ook tr s b E Cl Hc Hh Hs) as (_ & _ & L). specialize (L Td).
  destruct (inv_phase M _ _ _ _ _ I) as [(P1 & _)|(P1 & _)]; [left; split; [now apply (lw_idle _ _ _ _ L)|exact P1]|right]. split; [exact P1|].
  destruct (run_lead tr s b E Cl Hc Hh Hs Td (ended b) (conj eq_refl P1)) as [(t & Ht) _]. exists (lead (c_q1 s) ++ t). now rewrite app_assoc.
Qed.
End Cut.
(** The step that closes the connection writes nothing. *)
Lemma closing_mute o s e s' bx : conn_step o s e = Some (s', bx) -> c_closing s = false -> c_closing s' = true -> forall d, ~ In (Wrote d) bx.
Proof.
  intros E Cl Cl' d H. destruct (step_wrote _ _ _ _ _ _ E H) as (kicked & -> & _). unfold conn_step in E. destruct (c_lost s); [discriminate|]. unfold run_send in E. destruct (c_sending s); [|discriminate]. destruct (c_q1 s) as [|[x|] q]; [discriminate| |].
  - assert (s' = set_q1 q s) as -> by congruence. csimp_in Cl'. congruence.
  - assert (forall y : obs, (forall d, y <> Wrote d) -> ~ In (Wrote d) [y]) as N by (intros y Hy [X|[]]; now apply (Hy d)).
    destruct (c_cur _) as [i|]; [destruct (nth_error _ i) as [r|]; [|discriminate]; destruct (_ && _)|]; apply pair_some in E as [_ ->]; revert H; apply N; try discriminate. now destruct (q_cont r).
Qed.
