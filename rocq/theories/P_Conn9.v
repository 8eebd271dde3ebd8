(** What was written on a connection, and what waits on it. *)
From Verif Require Import PyBytes PyBytesFacts PyInt PyExn M_Parser M_Framing M_Conn S_Conn P_Parser2 P_Conn P_Conn2 P_Conn3 P_Conn4 P_Conn5 P_Conn6 P_Conn8.

Section Layers.
Context (o : copts) (M : list msg) (Mok : Forall (msg_ok o) M) (Ook : opts_ok o).

Definition ended_by (i : nat) (nc : list nat) : list (option bytes) := if in_dec Nat.eq_dec i nc then [None] else [].
Definition says (i : nat) (tr : list cev) (e : cev) : bytes :=
  match e with
  | HPut j d => if (i =? j)%nat then d else []
  | HRead j | HContinue j => if ((i =? j)%nat && negb (existsb (Nat.eqb i) (askers tr)))%bool then match nth_error M i with Some m => if expects m then interim m else [] | None => [] end else []
  | _ => []
  end.
Lemma answer_nil i tr : forall x, ~ In i (askers tr) -> answer x i tr = answer [] i tr.
Proof.
  induction tr as [|e tr IH]; intros x N; [reflexivity|]. destruct e; cbn [answer]; try (apply IH; exact N); try (cbn in N; destruct (Nat.eqb_spec i i0) as [->|Ni]; [tauto|apply IH; tauto]). f_equal. now apply IH.
Qed.
Lemma answer_snoc i e tr : forall x, answer x i (tr ++ [e]) = answer x i tr ++ match e with HPut j d => if (i =? j)%nat then d else [] | HRead j | HContinue j => if ((i =? j)%nat && negb (existsb (Nat.eqb i) (askers tr)))%bool then x else [] | _ => [] end.
Proof.
  induction tr as [|e0 tr IH]; intros x.
  - destruct e; cbn; try reflexivity; try (destruct (i =? i0)%nat; cbn; now rewrite ?app_nil_r).
  - assert (forall (c : bool), (if c then [] else []) = @nil ascii) as Nn by now intros [].
    destruct e0; cbn [app answer]; try (rewrite IH; reflexivity).
    + destruct (Nat.eqb_spec i i0) as [->|N]; rewrite IH.
      * rewrite <- app_assoc. f_equal. f_equal. destruct e; try reflexivity; cbn [askers flat_map app existsb]; rewrite ?Nat.eqb_refl; cbn [orb negb]; rewrite andb_false_r; now apply Nn.
      * f_equal. apply Nat.eqb_neq in N. destruct e; try reflexivity; cbn [askers flat_map app existsb]; rewrite N; reflexivity.
    + rewrite IH, app_assoc. reflexivity.
    + destruct (Nat.eqb_spec i i0) as [->|N]; rewrite IH.
      * rewrite <- app_assoc. f_equal. f_equal. destruct e; try reflexivity; cbn [askers flat_map app existsb]; rewrite ?Nat.eqb_refl; cbn [orb negb]; rewrite andb_false_r; now apply Nn.
      * f_equal. apply Nat.eqb_neq in N. destruct e; try reflexivity; cbn [askers flat_map app existsb]; rewrite N; reflexivity.
Qed.
Lemma response_snoc i tr e : response M i (tr ++ [e]) = response M i tr ++ says i tr e.
Proof. unfold response. rewrite answer_snoc. reflexivity. Qed.
Record LW (tr : list cev) (s : conn) (b : list obs) : Prop := {
  lw_old : forall i, i < ended b -> out i b = response M i tr /\ In i (closers tr);
  lw_idle : List.length (starts b) = ended b -> out (ended b) b = [] /\ c_q1 s = [];
  lw_cur : forall i, active b i -> nones (c_q1 s) + i = List.length (closers tr) + pending (askers tr) s ->
    exists X Y, c_q1 s = map Some X ++ repeat None (pending (askers tr) s) ++ map Some Y ++ ended_by i (closers tr) /\ out i b ++ List.concat X ++ List.concat Y = response M i tr;
  lw_new : forall i, List.length (starts b) <= i -> response M i tr = [] }.
Lemma lw_start : LW [] conn_new [].
Proof. constructor; intros; try reflexivity; [cbn in *; lia|now split|]. destruct H as [<- H]. discriminate. Qed.
Lemma lw_same tr e s s' b bx : silent bx -> starts (b ++ bx) = starts b -> c_q1 s' = c_q1 s -> closers [e] = [] -> (forall i, says i tr e = []) -> pending (askers (tr ++ [e])) s' = pending (askers tr) s -> LW tr s b -> LW (tr ++ [e]) s' (b ++ bx).
Proof.
  intros Sb Es Eq Ec Ep Epn [L1 L2 L3 L4]. assert (forall i, response M i (tr ++ [e]) = response M i tr) as Ep' by (intros i; rewrite response_snoc, Ep; apply app_nil_r). constructor; rewrite ?(ended_silent bx b Sb), ?Es, ?Eq, ?Epn.
  - intros i Hi. rewrite closers_app, Ec, app_nil_r, Ep', (out_silent bx b i Sb). now apply L1.
  - rewrite (out_silent bx b _ Sb). exact L2.
  - intros i [A1 A2]. rewrite (ended_silent bx b Sb) in A1. rewrite Es in A2. rewrite closers_app, Ec, app_nil_r, Ep', (out_silent bx b i Sb). now apply L3.
  - intros i Hi. rewrite Ep'. now apply L4.
Qed.
Lemma data_q1 x s : c_q1 (data_received o x s) = c_q1 s.
Proof. apply (refeed_q1 o [x] s). Qed.
Lemma on_req_q1 i f s : c_q1 (on_req i f s) = c_q1 s.
Proof. now destruct (on_req_misc i f s) as (_ & _ & _ & X & _). Qed.
Lemma starts_le b bx : List.length (starts b) <= List.length (starts (b ++ bx)).
Proof. rewrite starts_app, app_length. lia. Qed.
Lemma nones_zero X : nones (map (@Some bytes) X) = 0.
Proof. unfold nones. induction X as [|x X IH]; [reflexivity|exact IH]. Qed.
Lemma not_closed i nc : ~ In i nc -> ended_by i nc = [].
Proof. intros H. unfold ended_by. now destruct (in_dec _ _ _). Qed.
Lemma is_closed i nc : In i nc -> ended_by i nc = [None].
Proof. intros H. unfold ended_by. now destruct (in_dec _ _ _). Qed.
(** The handler that puts or closes is that of the current request. *)
Lemma lw_here tr rec s b i r : Inv M (closers tr) (askers tr) rec s b -> LW tr s b -> live s i = Some r -> ~ In i (closers tr) -> active b i.
Proof.
  intros I L Lr Ni. pose proof (inv_phase M _ _ _ _ _ I) as Ph. destruct I as (k & n & C & _). apply live_some in Lr as [Er Lv]. destruct (cm_reqs _ _ _ _ _ _ C i r Er) as (_ & _ & H). specialize (H Lv).
  assert (List.length (starts b) = k) as Lk. { rewrite (cm_starts _ _ _ _ _ _ C), combine_length, seq_length, map_length. pose proof (cm_k _ _ _ _ _ _ C). lia. }
  destruct Ph as [(P1 & P2 & _ & P3)|(P1 & _)]; [destruct Ni; apply P3; lia|]. destruct (Nat.lt_ge_cases i (ended b)) as [X|X]; [destruct Ni; now apply (lw_old _ _ _ L)|]. split; lia.
Qed.
(** A handler asks for the body. *)
Lemma lw_ask tr rec s s' b e i r : Inv M (closers tr) (askers tr) rec s b -> LW tr s b -> e = HRead i \/ e = HContinue i -> nth_error (c_reqs s) i = Some r -> i < List.length (starts b) ->
  (c_q1 s' = c_q1 s /\ (q_cont r = false \/ In i (askers tr)) \/ c_q1 s' = c_q1 s ++ [Some (continue_100 r); None] /\ q_cont r = true /\ ~ In i (askers tr)) -> (forall j, cont s' j = cont s j) -> (forall i x, In (Got i x) b -> In i (askers tr)) -> LW (tr ++ [e]) s' b.
Proof.
  intros I L He Er Li H Kc Hg. assert (closers [e] = [] /\ askers (tr ++ [e]) = askers tr ++ [i]) as [Ec Ea] by (rewrite askers_app; destruct He as [-> | ->]; now split).
  assert (forall j, says j tr e = if ((j =? i)%nat && negb (existsb (Nat.eqb j) (askers tr)))%bool then match nth_error M j with Some m => if expects m then interim m else [] | None => [] end else []) as Es by (intros j; destruct He as [-> | ->]; reflexivity).
  pose proof I as (k & n & C & P & B & Ci). destruct (cm_reqs _ _ _ _ _ _ C i r Er) as ((m & Em & _ & _ & Pm & _) & Ree & _). destruct H as [[Eq H]|(Eq & Qc & Ni)].
  - rewrite <- (app_nil_r b). apply (lw_same tr e s); try assumption; [constructor|now rewrite app_nil_r| |].
    + intros j. rewrite Es. destruct (Nat.eqb_spec j i) as [->|]; [|reflexivity]. cbn [andb]. destruct (existsb (Nat.eqb i) (askers tr)) eqn:X; [reflexivity|]. cbn [negb]. rewrite Em.
      assert (~ In i (askers tr)) as Ni by (intros Hi; assert (existsb (Nat.eqb i) (askers tr) = true) as Y by (apply existsb_exists; exists i; split; [exact Hi|apply Nat.eqb_refl]); congruence).
      destruct H as [H|H]; [|contradiction]. unfold expects. rewrite Pm. destruct (ci_info _ _ _ Ci i r Er) as [_ Y]. rewrite <- (Y Ni), H. reflexivity.
    + rewrite Ea, pending_again; [apply pending_ext; intros; apply Kc|]. destruct H as [H|H]; [right; rewrite Kc; unfold cont; now rewrite Er|now left].
  - assert (cont s i = true) as Ck by (unfold cont; now rewrite Er).
    assert (pending (askers tr) s = 0) as Pz. { apply pending_no. intros j Hj. destruct (cont s j) eqn:X; [|reflexivity]. destruct (asked_active _ s b j Ci Hj X) as [X1 X2]. destruct (ci_cont _ _ _ Ci i r Er Qc) as [Y|[Y _]]; [lia|]. exfalso. apply Ni. replace i with j by congruence. exact Hj. }
    assert (pending (askers (tr ++ [e])) s' = 1) as P1. { rewrite Ea. apply (pending_yes _ s' i); [apply in_or_app; right; now left|now rewrite Kc]. }
    assert (active b i) as A. { destruct (ci_cont _ _ _ Ci i r Er Qc) as [Y|Y]; [lia|exact Y]. }
    assert (expects m = true) as Ex. { unfold expects. rewrite Pm. now apply (ci_info _ _ _ Ci i r Er). }
    assert (~ In i (closers tr)) as Nc.
    { intros Hc. destruct (m_has m) eqn:Mc; [|unfold expects in Ex; rewrite Pm, (not_expected o M Mok m _ (nth_error_In _ _ Em) Mc Pm) in Ex; discriminate].
      apply Ni. pose proof (proj2 (cm_closers _ _ _ _ _ _ C i Hc) m Em Mc) as Ra. unfold read_all in Ra. destruct (counted m) eqn:Cm; [now apply (Hg _ None)|]. apply (read_some _ b) in Ra; [destruct Ra as (d & Hd); now apply (Hg _ (Some d))|].
      pose proof (proj1 (Forall_forall _ _) Mok m (nth_error_In _ _ Em)) as (p & r1 & Fd & _ & _ & Fr & Rl). unfold counted, parsed in Cm. rewrite Fd, Fr in Cm. rewrite Mc, Cm in Rl. apply Rl. }
    assert (says i tr e = continue_100 r) as Si. { rewrite Es, Nat.eqb_refl. destruct (existsb (Nat.eqb i) (askers tr)) eqn:X; [apply existsb_exists in X as (j & Hj & X); apply Nat.eqb_eq in X; subst j; contradiction|]. cbn [andb negb]. rewrite Em, Ex. unfold interim, continue_100. now rewrite Pm. }
    assert (forall j, j <> i -> says j tr e = []) as Sj by (intros j Nj; rewrite Es; apply Nat.eqb_neq in Nj; now rewrite Nj).
    destruct A as [A1 A2]. constructor; rewrite ?closers_app, ?Ec, ?app_nil_r.
    + intros j Hj. rewrite response_snoc, Sj, app_nil_r by lia. now apply (lw_old _ _ _ L).
    + lia.
    + intros j A. assert (j = i) as -> by (destruct A; lia). rewrite P1, Eq, nones_app. cbn [nones filter List.length]. intros En. destruct (lw_cur _ _ _ L i A) as (X & Y & X1 & X2); [rewrite Pz; lia|].
      rewrite Pz in X1. cbn [repeat app] in X1. rewrite (not_closed _ _ Nc), app_nil_r in X1. exists (X ++ Y ++ [continue_100 r]), []. rewrite (not_closed _ _ Nc), X1, !map_app, !concat_app, response_snoc, Si, <- X2. cbn. rewrite !app_nil_r, <- !app_assoc. now split.
    + intros j Hj. rewrite response_snoc, Sj, app_nil_r by lia. now apply (lw_new _ _ _ L).
Qed.
Lemma lw_step tr rec rec' s b e s' bx : Inv M (closers tr) (askers tr) rec s b -> Inv M (closers (tr ++ [e])) (askers (tr ++ [e])) rec' s' (b ++ bx) -> LW tr s b -> conn_step o s e = Some (s', bx) -> c_closing s = false -> c_closing s' = false -> NoDup (closers (tr ++ [e])) ->
  (forall i d, e = HPut i d -> ~ In i (closers tr)) -> (forall i, e <> HUpgrade i) ->
  (forall i r, e = HRead i \/ e = HContinue i -> In i (askers tr) -> nth_error (c_reqs s) i = Some r -> q_cont r = false) -> (forall i x, In (Got i x) b -> In i (askers tr)) -> LW (tr ++ [e]) s' (b ++ bx).
Proof.
  intros I I' L E Cl0 Cl Nd Hp Hu Ha Hgot.
  assert (forall i r, live s i = Some r -> nth_error (c_reqs s) i = Some r /\ i < List.length (starts b)) as Hlive. { destruct I as (k & n & C & _). intros i r H. apply live_some in H as [H Lv]. split; [exact H|]. rewrite (starts_k M _ s b k n C). now apply (cm_reqs _ _ _ _ _ _ C i r H). }
  pose proof (inv_phase M _ _ _ _ _ I) as Ph. pose proof (inv_phase M _ _ _ _ _ I') as Ph'. assert (cont_inv (askers tr) s b) as Ci by now destruct I as (k & n & _ & _ & _ & Ci).
  assert (askers [e] = [] -> askers (tr ++ [e]) = askers tr) as Ea by (intros X; rewrite askers_app, X; apply app_nil_r).
  destruct e; try (exfalso; now apply (Hu i)).
  - unfold conn_step in E. destruct (c_lost s); [discriminate|]. destruct (c_paused s || c_closing s)%bool eqn:Pc; [discriminate|]. destruct d as [|c d]; [discriminate|]. apply pair_some in E as [-> ->].
    apply (lw_same tr _ s); try reflexivity; [constructor|now rewrite app_nil_r|apply data_q1|rewrite Ea by reflexivity; apply kin_pending, kin_eq, data_reqs|exact L].
  - unfold conn_step in E. destruct (c_lost s); [discriminate|]. destruct (c_paused s || c_closing s)%bool; [discriminate|]. assert (s' = set_closing (put0 None s)) as -> by congruence. discriminate.
  - unfold conn_step in E. destruct (c_lost s); [discriminate|]. assert (s' = set_closing s) as -> by congruence. discriminate.
  - destruct (hr_work o M Mok _ _ _ _ _ _ _ _ I E Cl) as (W1 & W2 & W3 & W4 & W5). destruct (lw_idle _ _ _ L W1) as [L1 L2].
    assert (q1_grows s s') as G by (destruct W5 as [[_ W5]|[W5 _]]; [now left|exact W5]). rewrite closers_app, (Ea eq_refl) in Ph'. cbn [closers flat_map app] in Ph'. rewrite app_nil_r in Ph'. rewrite (ended_silent bx b W4) in Ph'.
    assert (pending (askers tr) s' = 0) as Pz'. { rewrite (Ea eq_refl) in I'. destruct I' as (k & n & _ & _ & _ & Ci'). apply pending_no. intros i Hi. destruct (cont s' i) eqn:X; [|reflexivity]. destruct (asked_active _ _ _ _ Ci' Hi X) as [Y _]. rewrite ended_silent in Y by exact W4. pose proof (ci_ask _ _ _ Ci i Hi). lia. }
    destruct Ph as [(P1 & P2 & _ & P3)|(P1 & _)]; [|lia]. rewrite L2 in P2. cbn in P2.
    assert (nones (c_q1 s') = 0 -> c_q1 s' = []) as G0. { destruct G as [G|G]; rewrite G, L2; [reflexivity|discriminate]. }
    assert (forall i, response M i (tr ++ [RunHR j]) = response M i tr) as Ep by (intros i; rewrite response_snoc; apply app_nil_r).
    constructor; rewrite ?(ended_silent bx b W4).
    + intros i Hi. rewrite closers_app, Ep, (out_silent bx b i W4). cbn [closers flat_map app]. rewrite app_nil_r. now apply (lw_old _ _ _ L).
    + intros X. rewrite (out_silent bx b _ W4). split; [exact L1|]. apply G0. destruct Ph' as [(P1' & P2' & _)|(P1' & _)]; lia.
    + intros i [A1 A2]. rewrite (ended_silent bx b W4) in A1. rewrite closers_app, Ep, (out_silent bx b i W4), (Ea eq_refl), Pz'. cbn [closers flat_map app]. rewrite app_nil_r. intros Eq. exists [], []. rewrite G0 by lia. rewrite <- A1, L1, (lw_new _ _ _ L (ended b)) by lia. split; [|reflexivity].
      rewrite not_closed; [reflexivity|]. destruct I as (k & n & C & _). intros H. destruct (cm_closers _ _ _ _ _ _ C _ H) as [H1 _].
      assert (List.length (starts b) = k) as Lk. { rewrite (cm_starts _ _ _ _ _ _ C), combine_length, seq_length, map_length. pose proof (cm_k _ _ _ _ _ _ C). lia. } lia.
    + intros i Hi. rewrite Ep. apply (lw_new _ _ _ L). pose proof (starts_le b bx). lia.
  - assert (pending (askers tr) s' = pending (askers tr) s) as Epn by (apply kin_pending; clear -E; unfold conn_step in E; destruct (c_lost s); [discriminate|]; destruct (nth_error (c_rcv s) j) as [[w d|rs ln|]|]; try discriminate; [destruct (w_done w s); [|discriminate]|]; apply pair_some in E as [-> _]; apply kin_rcv_put).
    destruct (rcv_work o M Ook _ _ _ _ _ _ _ _ I E Cl) as (-> & W1 & W2 & W3). rewrite app_nil_r. assert (q1_grows s s') as G by (destruct W3 as [[W3 _]|[W3 _]]; [now left|exact W3]).
    assert (forall i, response M i (tr ++ [RunRcv j]) = response M i tr) as Ep by (intros i; rewrite response_snoc; apply app_nil_r).
    constructor.
    + intros i Hi. rewrite closers_app, Ep. cbn [closers flat_map app]. rewrite app_nil_r. now apply (lw_old _ _ _ L).
    + destruct W1 as [_ W1]. lia.
    + intros i A. rewrite closers_app, Ep, (Ea eq_refl), Epn. cbn [closers flat_map app]. rewrite app_nil_r. intros Eq. destruct G as [G|G]; [rewrite G in *; now apply (lw_cur _ _ _ L)|]. exfalso. rewrite G, nones_snoc in Eq. destruct A as [A1 A2]. destruct Ph as [(P1 & _)|(_ & _ & _ & _ & P2 & _)]; lia.
    + intros i Hi. rewrite Ep. now apply (lw_new _ _ _ L).
  - unfold conn_step in E. destruct (c_lost s); [discriminate|]. unfold run_send in E. destruct (c_sending s); [|discriminate]. assert (forall i, response M i (tr ++ [RunSend kicked]) = response M i tr) as Ep by (intros i; rewrite response_snoc; apply app_nil_r).
    assert (closers (tr ++ [RunSend kicked]) = closers tr) as Ec' by (rewrite closers_app; cbn [closers flat_map app]; apply app_nil_r). destruct (c_q1 s) as [|[d|] q] eqn:Eq; [discriminate| |].
    + assert (s' = set_q1 q s) as -> by congruence. assert (bx = [Wrote d]) as -> by (rewrite Cl0 in E; congruence).
      assert (ended (b ++ [Wrote d]) = ended b /\ starts (b ++ [Wrote d]) = starts b) as [Q1 Q2] by (rewrite ended_app, starts_app; cbn; rewrite app_nil_r; split; [lia|reflexivity]).
      constructor; rewrite ?Q1, ?Q2, ?Ec'; csimp.
      * intros i Hi. rewrite out_snoc, Ep. destruct (Nat.eqb_spec (ended b) i); [lia|]. rewrite app_nil_r. now apply (lw_old _ _ _ L).
      * intros X. destruct (lw_idle _ _ _ L X) as [_ Y]. congruence.
      * intros i [A1 A2] En. rewrite Q1 in A1. rewrite Q2 in A2. rewrite (Ea eq_refl) in *. assert (pending (askers tr) (set_q1 q s) = pending (askers tr) s) as Epn by (apply kin_pending; now apply kin_eq). rewrite Epn in *. assert (nones (c_q1 s) + i = List.length (closers tr) + pending (askers tr) s) as En' by (rewrite Eq; exact En). destruct (lw_cur _ _ _ L i (conj A1 A2) En') as (X & Y & X1 & X2). rewrite Eq in X1. rewrite Ep, out_snoc, A1, Nat.eqb_refl.
        destruct X as [|x X].
        -- destruct (pending (askers tr) s); [|discriminate]. cbn [map app repeat] in X1. destruct Y as [|y Y]; [unfold ended_by in X1; destruct (in_dec _ _ _) in X1; discriminate|]. cbn [map app] in X1. assert (y = d) as -> by congruence. exists [], Y. split; [cbn [map app repeat]; congruence|]. rewrite <- X2. cbn [List.concat app]. now rewrite <- app_assoc.
        -- cbn [map app] in X1. assert (x = d) as -> by congruence. exists X, Y. split; [congruence|]. rewrite <- X2. cbn [List.concat]. now rewrite <- !app_assoc.
      * intros i Hi. rewrite Ep. now apply (lw_new _ _ _ L).
    + destruct Ph as [(P1 & _)|(P1 & P2 & P3 & P4 & P5 & P6 & r & P7 & P8)]; [destruct (lw_idle _ _ _ L P1) as [_ Y]; congruence|]. csimp_in E. rewrite P3, P7 in E.
      destruct (q_keep r && _)%bool eqn:K; [|assert (s' = set_sending false (set_closing (on_req (ended b) clear_body (set_q1 q s)))) as -> by congruence; discriminate]. apply andb_prop in K as [K _]. specialize (P8 K).
      assert (s' = keepalive o kicked (ended b) r (set_q1 q s)) as -> by congruence. assert (bx = [if q_cont r then Interim (ended b) else Ended]) as Ebx by congruence. pose proof (fun Qc => marker_asked o M Mok _ _ _ _ _ _ _ _ I Eq P3 P7 K Qc Hgot) as Mk. destruct I as (k & n & C & _). destruct (cm_reqs _ _ _ _ _ _ C _ r P7) as ((m & _ & _ & Ru & _) & _).
      pose proof (fun j => keepalive_cont o kicked (ended b) r (set_q1 q s) j Cl Ru P7) as Kc.
      destruct (keepalive_work o _ _ _ _ Cl Ru) as [_ Kq]. csimp_in Kq. destruct (lw_cur _ _ _ L (ended b) (conj eq_refl P1)) as (X & Y & X1 & X2); [rewrite Eq; lia|]. rewrite Eq in X1. destruct X as [|x X]; [|discriminate]. cbn [map app List.concat] in X1, X2.
      assert (pending (askers tr) (keepalive o kicked (ended b) r (set_q1 q s)) = 0) as Pz'.
      { apply pending_no. intros j Hj. rewrite Kc. destruct (Nat.eqb_spec (ended b) j) as [Nj|Nj]; [reflexivity|]. cbn [negb andb]. destruct (cont (set_q1 q s) j) eqn:Z; [|reflexivity]. destruct (asked_active _ s b j Ci Hj Z). lia. }
      destruct (q_cont r) eqn:Qc.
      { destruct (Mk eq_refl) as [_ Hi]. assert (pending (askers tr) s = 1) as Po by (apply (pending_yes _ s (ended b) Hi); unfold cont; now rewrite P7). rewrite Po in *. cbn [repeat app] in X1. assert (q = map Some Y ++ ended_by (ended b) (closers tr)) as Eqq by congruence.
        assert (silent bx) as Sb by (rewrite Ebx; apply Forall_cons; [exact Logic.I|apply Forall_nil]). assert (starts (b ++ bx) = starts b) as Q2 by (rewrite Ebx, starts_app; apply app_nil_r).
        constructor; rewrite ?(ended_silent bx b Sb), ?Q2, ?Ec', ?(Ea eq_refl), ?Pz', ?Kq.
        - intros i Hi'. rewrite Ep, (out_silent bx b i Sb). now apply (lw_old _ _ _ L).
        - lia.
        - intros i [A1 A2] _. rewrite (ended_silent bx b Sb) in A1. subst i. rewrite Ep, (out_silent bx b _ Sb). exists [], Y. split; [exact Eqq|exact X2].
        - intros i Hi'. rewrite Ep. now apply (lw_new _ _ _ L). }
      subst bx. assert (pending (askers tr) s = 0) as Pz. { apply pending_no. intros j Hj. destruct (cont s j) eqn:Z; [|reflexivity]. destruct (asked_active _ s b j Ci Hj Z) as [<- _]. unfold cont in Z. rewrite P7 in Z. congruence. }
      rewrite Pz in X1. cbn [repeat app] in X1. destruct Y as [|y Y]; [|discriminate]. cbn [map app List.concat] in X1, X2. rewrite app_nil_r in X2.
      assert (In (ended b) (closers tr) /\ q = []) as [Ic ->] by (unfold ended_by in X1; destruct (in_dec _ _ _) in X1; [split; [assumption|congruence]|discriminate]).
      assert (ended (b ++ [Ended]) = S (ended b) /\ starts (b ++ [Ended]) = starts b) as [Q1 Q2] by (rewrite ended_app, starts_app; cbn; rewrite app_nil_r; split; [lia|reflexivity]).
      constructor; rewrite ?Q1, ?Q2, ?Ec'.
      * intros i Hi. rewrite out_snoc, Ep, app_nil_r. destruct (Nat.eq_dec i (ended b)) as [->|N]; [now split|]. apply (lw_old _ _ _ L). lia.
      * intros _. rewrite out_snoc, app_nil_r. split; [apply out_late; lia|]. rewrite Kq. reflexivity.
      * intros i [A1 A2]. rewrite Q1 in A1. rewrite Q2 in A2. lia.
      * intros i Hi. rewrite Ep. now apply (lw_new _ _ _ L).
  - unfold conn_step in E. destruct (c_lost s); [discriminate|]. destruct (live s i) as [r|] eqn:Lr; [|discriminate]. destruct (Hlive i r Lr) as [Er Ec].
    assert (forall j, cont (on_req i set_reading s) j = cont s j) as Kr by (intros j; now apply cont_on_req).
    destruct (q_eof r) eqn:Qe; [apply pair_some in E as [-> ->]; rewrite app_nil_r; apply (lw_ask tr rec s s b _ i r I L (or_introl eq_refl) Er Ec); [left; split; [reflexivity|]; right; apply (ci_read _ _ _ Ci i r Er); now right|reflexivity|exact Hgot]|].
    destruct (_ <? _)%Z eqn:Lm; [discriminate|]. unfold send_continue in E. destruct (q_cont r) eqn:Qc; [rewrite Lm in E|]; apply pair_some in E as [-> ->]; rewrite app_nil_r.
    + apply (lw_ask tr rec s _ b _ i r I L (or_introl eq_refl) Er Ec); [right; split; [rewrite on_req_q1; csimp; now rewrite <- app_assoc|]; split; [exact Qc|]; intros Hi; rewrite (Ha i r (or_introl eq_refl) Hi Er) in Qc; discriminate| |exact Hgot].
      intros j. rewrite cont_on_req by reflexivity. reflexivity.
    + apply (lw_ask tr rec s _ b _ i r I L (or_introl eq_refl) Er Ec); [left; split; [apply on_req_q1|now left]|exact Kr|exact Hgot].
  - unfold conn_step in E. destruct (c_lost s); [discriminate|]. destruct (live s i) as [r|] eqn:Lr; [|discriminate]. destruct (q_reading r && negb (q_eof r)) eqn:Re; [|discriminate].
    destruct (c_q0 s) as [|x q] eqn:Eq; [discriminate|]. assert (exists y f, bx = [Got i y] /\ s' = on_req i f (set_q0 q s) /\ forall r0, q_cont (f r0) = q_cont r0) as (y & f & -> & -> & Hf) by (destruct x as [d|]; apply pair_some in E as [-> ->]; do 2 eexists; split; [reflexivity|split; [reflexivity|now intros]|reflexivity|split; [reflexivity|now intros]]).
    apply (lw_same tr _ s); [apply Forall_cons; [exact Logic.I|apply Forall_nil]|rewrite starts_app; apply app_nil_r|rewrite on_req_q1; reflexivity|reflexivity|reflexivity| |exact L].
    rewrite (Ea eq_refl). apply pending_ext. intros j _. rewrite cont_on_req; [reflexivity|]. exact Hf.
  - unfold conn_step in E. destruct (c_lost s); [discriminate|]. destruct (live s i) as [r|] eqn:Lr; [|discriminate]. assert (s' = put1 (Some d) s) as -> by congruence. assert (bx = []) as -> by congruence. rewrite app_nil_r.
    pose proof (Hp i d eq_refl) as Ni. pose proof (lw_here _ _ _ _ _ _ I L Lr Ni) as [A1 A2]. assert (forall k, response M k (tr ++ [HPut i d]) = response M k tr ++ if (k =? i)%nat then d else []) as Ep by (intros k; rewrite response_snoc; reflexivity).
    assert (pending (askers tr) (put1 (Some d) s) = pending (askers tr) s) as Epn by (apply kin_pending; now apply kin_eq).
    assert (closers (tr ++ [HPut i d]) = closers tr) as Ec' by (rewrite closers_app; cbn [closers flat_map app]; apply app_nil_r). constructor; rewrite ?Ec'; csimp.
    + intros k Hk. rewrite Ep. destruct (Nat.eqb_spec k i); [lia|]. rewrite app_nil_r. now apply (lw_old _ _ _ L).
    + lia.
    + intros k A. assert (k = i) as -> by (destruct A; lia). rewrite nones_app. cbn. rewrite Nat.add_0_r. intros En. rewrite (Ea eq_refl), Epn in *. destruct (lw_cur _ _ _ L i A En) as (X & Y & X1 & X2). rewrite not_closed in * by exact Ni. exists X, (Y ++ [d]). rewrite Ep, Nat.eqb_refl, X1, <- X2, !app_nil_r, map_app, concat_app, <- !app_assoc. cbn. rewrite app_nil_r. now split.
    + intros k Hk. rewrite Ep. destruct (Nat.eqb_spec k i); [lia|]. rewrite app_nil_r. now apply (lw_new _ _ _ L).
  - unfold conn_step in E. destruct (c_lost s); [discriminate|]. destruct (live s i) as [r|] eqn:Lr; [|discriminate]. assert (bx = []) as -> by congruence. rewrite app_nil_r.
    assert (c_q1 s' = c_q1 s ++ [None]) as Eq. { assert (s' = put1 None (if keep then s else on_req i (set_keep false) s)) as -> by congruence. destruct keep; csimp; [reflexivity|now rewrite on_req_q1]. }
    assert (closers (tr ++ [HClose i keep]) = closers tr ++ [i]) as Ec' by (now rewrite closers_app). rewrite Ec' in Nd. assert (~ In i (closers tr)) as Ni. { intros H. apply NoDup_remove_2 in Nd. rewrite app_nil_r in Nd. now apply Nd. }
    pose proof (lw_here _ _ _ _ _ _ I L Lr Ni) as [A1 A2]. assert (forall k, response M k (tr ++ [HClose i keep]) = response M k tr) as Ep by (intros k; rewrite response_snoc; apply app_nil_r).
    assert (pending (askers tr) s' = pending (askers tr) s) as Epn. { assert (s' = put1 None (if keep then s else on_req i (set_keep false) s)) as -> by congruence. apply kin_pending. apply (kin_trans _ (if keep then s else on_req i (set_keep false) s)); [|now apply kin_eq]. destruct keep; [now apply kin_eq|apply kin_on_req; intros; repeat split; tauto]. }
    constructor; rewrite ?Ec', ?Eq.
    + intros k Hk. rewrite Ep. destruct (lw_old _ _ _ L k Hk) as [X Y]. split; [exact X|]. apply in_or_app. now left.
    + lia.
    + intros k A. assert (k = i) as -> by (destruct A; lia). rewrite nones_snoc, app_length. cbn [List.length]. intros En. rewrite (Ea eq_refl), Epn in *. destruct (lw_cur _ _ _ L i A) as (X & Y & X1 & X2); [lia|]. rewrite not_closed, app_nil_r in X1 by exact Ni. exists X, Y. rewrite Ep, X1, is_closed; [rewrite <- !app_assoc; now split|]. apply in_or_app. right. now left.
    + intros k Hk. rewrite Ep. now apply (lw_new _ _ _ L).
  - unfold conn_step in E. destruct (c_lost s); [discriminate|]. destruct (live s i) as [r|] eqn:Lr; [|discriminate]. destruct (Hlive i r Lr) as [Er Ec]. unfold send_continue in E. destruct (q_cont r) eqn:Qc; [destruct (_ <? _)%Z; [discriminate|]|]; apply pair_some in E as [-> ->]; rewrite app_nil_r.
    + apply (lw_ask tr rec s _ b _ i r I L (or_intror eq_refl) Er Ec); [right; split; [csimp; now rewrite <- app_assoc|]; split; [exact Qc|]; intros Hi; rewrite (Ha i r (or_intror eq_refl) Hi Er) in Qc; discriminate|reflexivity|exact Hgot].
    + apply (lw_ask tr rec s _ b _ i r I L (or_intror eq_refl) Er Ec); [left; split; [reflexivity|now left]|reflexivity|exact Hgot].
  - unfold conn_step in E. destruct (c_lost s); [discriminate|]. destruct (live s i) as [r|] eqn:Lr; [|discriminate]. assert (s' = on_req i (set_live false) s) as -> by congruence. assert (bx = []) as -> by congruence.
    apply (lw_same tr _ s); try reflexivity; [constructor|now rewrite app_nil_r|apply on_req_q1|rewrite (Ea eq_refl); apply pending_ext; intros; now apply cont_on_req|exact L].
  - unfold conn_step in E. destruct (c_lost s); [discriminate|]. assert (s' = mkC None (c_paused s) true true [] [] (c_futs s) (c_wreq s) (c_wkeep s) (c_wrecv s) [] None [] [] false) as -> by congruence. discriminate.
Qed.
End Layers.
