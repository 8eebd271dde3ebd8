From Verif Require Import PyBytes PyBytesFacts PyInt PyExn M_Parser M_Framing M_Conn S_Conn P_Parser2 P_Conn P_Conn2 P_Conn3 P_Conn4 P_Conn5.


Lemma nodup_app_l {A} (a b : list A) : NoDup (a ++ b) -> NoDup a.
Proof. induction a as [|x a IH]; intros N; [constructor|]. inversion N as [|? ? N1 N2]; subst. constructor; [intros H; apply N1, in_or_app; now left|now apply IH]. Qed.

Lemma askers_app a b : askers (a ++ b) = askers a ++ askers b.
Proof. apply flat_map_app. Qed.
Lemma pending_snoc ak i s : pending (ak ++ [i]) s = if (existsb (cont s) ak || cont s i)%bool then 1 else 0.
Proof. unfold pending. rewrite existsb_app. cbn [existsb]. now rewrite orb_false_r. Qed.
Lemma pending_again ak i s : In i ak \/ cont s i = false -> pending (ak ++ [i]) s = pending ak s.
Proof.
  intros H. rewrite pending_snoc. unfold pending. destruct (existsb (cont s) ak) eqn:E; [reflexivity|]. cbn [orb]. destruct H as [H|H]; [|now rewrite H]. destruct (cont s i) eqn:X; [|reflexivity].
  assert (existsb (cont s) ak = true) as Y by (apply existsb_exists; now exists i). congruence.
Qed.
Lemma kept_trans r r1 r2 : kept r r1 -> kept r1 r2 -> kept r r2.
Proof. intros (A1 & A2 & A3 & A4) (B1 & B2 & B3 & B4). repeat split; try congruence; tauto. Qed.
Lemma fresh_kin s s1 s' : fresh_or_kept s s1 -> kin s1 s' -> fresh_or_kept s s'.
Proof.
  intros F [_ K] i r' E. destruct (K i r' E) as (r1 & E1 & K1). destruct (F i r1 E1) as [(r & Er & K0)|(-> & H1 & H2 & H3)]; [left; exists r; split; [exact Er|now apply (kept_trans r r1)]|right].
  destruct K1 as (A1 & A2 & A3 & A4). split; [reflexivity|]. split; [congruence|]. split; [destruct (q_reading r'); [rewrite A3 in H2 by reflexivity; discriminate|reflexivity]|destruct (q_eof r'); [rewrite A4 in H3 by reflexivity; discriminate|reflexivity]].
Qed.
Lemma starts_start k s : List.length (starts (snd (start_handler k s))) <= 1 /\ ended (snd (start_handler k s)) = 0 /\ forall i, ~ In (Interim i) (snd (start_handler k s)).
Proof. unfold start_handler. cbn [snd]. destruct (nth_error _ _); cbn; repeat split; try lia; intuition discriminate. Qed.
Lemma starts_hr_put o j k rest len s : List.length (starts (snd (hr_put o j k rest len s))) <= 1 /\ ended (snd (hr_put o j k rest len s)) = 0 /\ forall i, ~ In (Interim i) (snd (hr_put o j k rest len s)).
Proof. unfold hr_put. destruct rest as [|c rest]; [apply starts_start|]. destruct (put_round _ _ _ _) as [[rest'|] s1]; [cbn; repeat split; try lia; tauto|apply starts_start]. Qed.
Lemma run_hr_fresh o j data hs s r : frame_head data hs = Framed r ->
  fresh_or_kept s (fst (run_hr o j data hs s)) /\ List.length (c_reqs (fst (run_hr o j data hs s))) = S (List.length (c_reqs s)) /\
  List.length (starts (snd (run_hr o j data hs s))) <= 1 /\ ended (snd (run_hr o j data hs s)) = 0 /\ forall i, ~ In (Interim i) (snd (run_hr o j data hs s)).
Proof.
  intros F. unfold run_hr. rewrite F. cbn zeta. set (rq := mkRq _ _ _ _ _ _ _ _ _ _). set (s1 := set_reqs (c_reqs s ++ [rq]) (Some (List.length (c_reqs s))) s).
  assert (fresh_or_kept s s1) as F1.
  { intros i r' E. unfold s1 in E. csimp_in E. destruct (Nat.lt_ge_cases i (List.length (c_reqs s))) as [L|L]; [rewrite nth_error_app1 in E by exact L; left; exists r'; split; [exact E|apply kept_refl]|].
    rewrite nth_error_app2 in E by exact L. destruct (i - List.length (c_reqs s)) as [|x] eqn:D; [|destruct x; discriminate]. right. injection E as <-. split; [lia|]. repeat split. }
  set (s2 := if has_body r then s1 else put0 (Some []) s1). assert (kin s1 s2) as K2 by (apply kin_eq; unfold s2; destruct (has_body r); reflexivity).
  assert (List.length (c_reqs s1) = S (List.length (c_reqs s))) as L1 by (unfold s1; csimp; rewrite app_length; cbn; lia).
  destruct (_ || _)%bool.
  - pose proof (kin_trans _ _ _ K2 (kin_hr_put o j (List.length (c_reqs s)) (from data (hs + 2)) (blen (from data (hs + 2))) s2)) as K. split; [apply (fresh_kin s s1 _ F1 K)|]. split; [rewrite (proj1 K); exact L1|]. apply starts_hr_put.
  - assert (kin s1 (fst (start_handler (List.length (c_reqs s)) (set_hrs (put_at j HOver (c_hrs s2)) s2)))) as K by (apply (kin_trans _ _ _ K2); eapply kin_trans; [|apply kin_start]; now apply kin_eq).
    split; [apply (fresh_kin s s1 _ F1 K)|]. split; [rewrite (proj1 K); exact L1|]. apply starts_start.
Qed.

Lemma step_got o s e s' bx i x : conn_step o s e = Some (s', bx) -> In (Got i x) bx -> exists r, nth_error (c_reqs s) i = Some r /\ q_reading r = true.
Proof.
  intros E H. unfold conn_step in E. destruct (c_lost s); [discriminate|]. destruct e.
  - destruct (_ || _); [discriminate|]. destruct d as [|c d]; [discriminate|]. apply pair_some in E as [_ ->]. contradiction.
  - destruct (_ || _); [discriminate|]. apply pair_some in E as [_ ->]. contradiction.
  - apply pair_some in E as [_ ->]. contradiction.
  - exfalso. assert (forall k s0, ~ In (Got i x) (snd (start_handler k s0))) as Ns by (intros k s0; unfold start_handler; cbn [snd]; destruct (nth_error _ k); [intros [X|[]]; discriminate|intros []]).
    assert (forall k rest len s0, ~ In (Got i x) (snd (hr_put o j k rest len s0))) as Np. { intros k rest len s0. unfold hr_put. destruct rest as [|c rest]; [apply Ns|]. destruct (put_round o (o_first o) (c :: rest) s0) as [[rest'|] s1]; [intros []|apply Ns]. }
    destruct (nth_error (c_hrs s) j) as [[d hs|k rest len|]|]; try discriminate.
    + assert (snd (run_hr o j d hs s) = bx) as <- by (destruct (run_hr o j d hs s); cbn; congruence). revert H. unfold run_hr. destruct (frame_head d hs); cbn zeta; cbn [snd]; try tauto. destruct (_ || _); [apply Np|apply Ns].
    + assert (snd (hr_put o j k rest len s) = bx) as <- by (destruct (hr_put o j k rest len s); cbn; congruence). now apply Np in H.
  - destruct (nth_error (c_rcv s) j) as [[w d|rs ln|]|]; try discriminate; [destruct (w_done w s); [|discriminate]|]; apply pair_some in E as [_ ->]; contradiction.
  - exfalso. unfold run_send in E. destruct (c_sending s); [|discriminate]. destruct (c_q1 s) as [|[d|] q]; [discriminate| |].
    + apply pair_some in E as [_ ->]. destruct (c_closing s); [contradiction|]. destruct H as [H|[]]. discriminate.
    + cbn zeta in E. destruct (c_cur (set_q1 q s)) as [k|]; [|apply pair_some in E as [_ ->]; destruct H as [H|[]]; discriminate]. destruct (nth_error _ k) as [r|]; [|discriminate].
      destruct (_ && _); apply pair_some in E as [_ ->]; destruct H as [H|[]]; [destruct (q_cont r)|]; discriminate.
  - exfalso. destruct (live s i0) as [r|]; [|discriminate]. destruct (q_eof r); [apply pair_some in E as [_ ->]; contradiction|]. destruct (_ <? _)%Z; [discriminate|]. destruct (send_continue o r s); [|discriminate]. apply pair_some in E as [_ ->]. contradiction.
  - destruct (live s i0) as [r|] eqn:Lr; [|discriminate]. apply live_some in Lr as [Er _]. destruct (_ && _) eqn:X; [|discriminate]. apply andb_prop in X as [X _].
    assert (i0 = i) as -> by (destruct (c_q0 s) as [|[d|] q]; [discriminate| |]; apply pair_some in E as [_ ->]; destruct H as [H|[]]; congruence). exists r. now split.
  - destruct (live s i0) as [r|]; [|discriminate]. apply pair_some in E as [_ ->]. contradiction.
  - destruct (live s i0) as [r|]; [|discriminate]. apply pair_some in E as [_ ->]. contradiction.
  - destruct (live s i0) as [r|]; [|discriminate]. destruct (send_continue o r s); [|discriminate]. apply pair_some in E as [_ ->]. contradiction.
  - destruct (live s i0) as [r|]; [|discriminate]. apply pair_some in E as [_ ->]. contradiction.
  - destruct (live s i0) as [r|]; [|discriminate]. apply pair_some in E as [_ ->]. contradiction.
  - apply pair_some in E as [_ ->]. contradiction.
Qed.

Section Main.
Context (o : copts) (M : list msg) (Mok : Forall (msg_ok o) M) (Ook : opts_ok o).

Lemma nth_tasks w a l j t : waits w a l -> nth_error l (S j) = Some t -> exists d, t = RWait (WTask (a + j)) d.
Proof. intros W E. destruct (waits_nth w a l j t W E) as (d & -> & _). now exists d. Qed.
(** Only the first of the waiting tasks can run. *)
Lemma rcv_first nc ak rec s b k n j s' bx : common M nc s b k n -> phase M (List.length nc + pending ak s) s b k rec -> bound M rec b -> cont_inv ak s b -> conn_step o s (RunRcv j) = Some (s', bx) -> c_closing s' = false ->
  bx = [] /\ exists k', Inv M nc ak rec s' b /\ k = S k' /\ marks b = rep k' ++ [true].
Proof.
  intros C P B Ci E Cl. unfold conn_step in E. destruct (c_lost s); [discriminate|].
  assert (forall w a l, c_rcv s = repeat ROver a ++ l -> waits w a l -> w_done w s = false -> False) as Bad.
  { intros w a l R W D. destruct (nth_error (c_rcv s) j) as [t|] eqn:Ej; [|discriminate]. rewrite R in Ej. destruct (nth_over _ _ _ _ _ Ej) as [[-> _]|[La El]]; [discriminate|].
    destruct (j - a) as [|i] eqn:Dj.
    - destruct l as [|t' l]; [discriminate|]. injection El as ->. destruct t as [w' d|rs ln|]; [|destruct W|destruct W]. destruct W as (-> & _ & _). rewrite D in E. discriminate.
    - destruct (nth_tasks _ _ _ _ _ W El) as (d & ->). assert (w_done (WTask (a + i)) s = false) as D2; [|rewrite D2 in E; discriminate].
      unfold w_done. rewrite R, nth_error_app2 by (rewrite repeat_length; lia). rewrite repeat_length. replace (a + i - a) with i by lia. destruct (nth_error l i) as [[| |]|] eqn:Ei; try reflexivity. exfalso. now apply (waits_not_over _ _ _ i W). }
  destruct P as [bb h a A1 A2 A3 A4 A5 A6 A7 A8 A9 A10 A11 A12|m rest h a l A1 A2 A3 A4 A5 A6 A7 A8 A9 A10 A11 A12 A13|rest len h a l A1 A2 A3 A4 A5 A6 A7 A8 A9 A10 A11 A12 A13|k' h a l mk A1 A2 A3 A4 A5 A6 A7 A8 A9 A10 A11 A12 A13].
  - exfalso. apply (Bad (WFut 0) a []); [now rewrite app_nil_r|exact I|]. rewrite A4 in E. destruct (nth_error (repeat ROver a) j) as [t|] eqn:Ej; [|discriminate]. apply nth_error_In, repeat_spec in Ej. now subst t.
  - exfalso. apply (Bad (WFut (cf s)) a l A4 A5). exact A12.
  - exfalso. apply (Bad (WFut (cf s)) a l A3 A4). exact A9.
  - subst k. destruct (nth_error (c_rcv s) j) as [t|] eqn:Ej; [|discriminate]. pose proof Ej as Ej'. rewrite A4 in Ej. destruct (nth_over _ _ _ _ _ Ej) as [[-> _]|[La El]]; [discriminate|].
    assert (n = S k') as -> by (rewrite <- (cm_n _ _ _ _ _ _ C); exact A7).
    assert (forall i, j - a = S i -> False) as Later.
    { intros i Dj. assert (forall w m l1, waits w m l1 -> nth_error l1 i = Some t -> forall l0, l = l0 :: l1 -> m = S a -> w = WTask a -> l0 <> ROver -> False) as K.
      { intros w m l1 W Et l0 El0 -> -> N0. assert (exists d, t = RWait (WTask (a + i)) d) as (d & ->).
        { destruct i as [|i]; [destruct l1 as [|t1 l1]; [discriminate|]; injection Et as ->; destruct t as [w' d|rs ln|]; [|destruct W|destruct W]; destruct W as (-> & _ & _); rewrite Nat.add_0_r; now exists d|].
          destruct (nth_tasks _ _ _ _ _ W Et) as (d & ->). exists d. f_equal. f_equal. lia. }
        assert (w_done (WTask (a + i)) s = false) as D2; [|rewrite D2 in E; discriminate]. unfold w_done. rewrite A4, nth_error_app2 by (rewrite repeat_length; lia). rewrite repeat_length. replace (a + i - a) with i by lia. rewrite El0.
        destruct i as [|i]; cbn [nth_error]; [now destruct l0|]. destruct (nth_error l1 i) as [[| |]|] eqn:Ei; try reflexivity. exfalso. now apply (waits_not_over _ _ _ i W). }
      rewrite Dj in El. destruct l as [|l0 l1]; [discriminate|]. cbn [nth_error] in El.
      destruct A6 as [W|[[_ W]|(rs & ln & l' & Eq & _ & W)]].
      - destruct l0 as [w' d|rs ln|]; [|destruct W|destruct W]. destruct W as (_ & _ & W). apply (K _ _ _ W El (RWait w' d)); try reflexivity. discriminate.
      - destruct l0 as [w' d|rs ln|]; [|destruct W|destruct W]. destruct W as (_ & _ & W). apply (K _ _ _ W El (RWait w' d)); try reflexivity. discriminate.
      - injection Eq as -> ->. apply (K _ _ _ W El (RPut rs ln)); try reflexivity. discriminate. }
    destruct (j - a) as [|i] eqn:Dj; [|exfalso; now apply (Later i)]. assert (j = a) as -> by lia. destruct l as [|t' l]; [discriminate|]. injection El as ->.
    destruct A5 as [[X _]|[_ A5]]; [discriminate X|].
    assert (exists rest len, s' = rcv_put o a rest len s /\ bx = [] /\ (t = RPut rest len \/ exists x, t = RWait x rest /\ len = blen rest) /\ waits (WTask a) (S a) l /\ (0 < len)%Z) as (rest & len & Es & Eb & Ht & W & Ln).
    { destruct t as [w d|rs ln|]; [| |discriminate].
      - destruct (w_done w s); [|discriminate]. exists d, (blen d). split; [congruence|]. split; [congruence|]. split; [right; exists w; now split|].
        assert (forall w' a', waits w' a' (RWait w d :: l) -> waits (WTask a') (S a') l /\ (0 < blen d)%Z) as Kw by (intros w' a' (_ & Nd & W); split; [exact W|destruct d; [easy|reflexivity]]).
        destruct A6 as [W|[[_ W]|(rs & ln & l' & Eq & _ & W)]]; [now apply Kw in W|now apply Kw in W|discriminate Eq].
      - exists rs, ln. split; [congruence|]. split; [congruence|]. split; [now left|]. destruct A6 as [W|[[_ W]|(rs' & ln' & l' & Eq & Ln & W)]]; [destruct W|destruct W|]. injection Eq as -> -> ->. split; [exact W|exact Ln]. }
    split; [exact Eb|]. exists k'. split; [|split; [reflexivity|exact A8]]. rewrite Es in Cl.
    destruct (rcv_put_inv o M _ nc s b k' rec rest len h a l t Ook C B A2 A3 A4 Ht A5 W A8 A9 Ln A10 A11 A12 (ex_intro _ mk A13) Cl) as [C1 P1']. rewrite Es. pose proof (kin_rcv_put o a rest len s) as Kin. exists (S k'), (S k'). rewrite (kin_pending ak s _ Kin). split; [exact C1|]. split; [exact P1'|]. split; [exact B|]. rewrite <- (app_nil_r b). apply (cont_same ak s _ b [] Kin); try reflexivity; [intros ? []|exact Ci].
Qed.

Lemma step_inv nc ak rec s b e s' bx : Inv M nc ak rec s b -> conn_step o s e = Some (s', bx) -> c_closing s' = false ->
  (forall d, e = Data d -> bound M (rec ++ d) b) ->
  (forall i keep, e = HClose i keep -> NoDup (nc ++ [i]) /\ forall m, nth_error M i = Some m -> m_has m = true -> read_all i m b) ->
  (forall i m, e = HTake i -> nth_error M i = Some m -> if m_has m then counted m = true \/ got i b <> m_body m else ended b <= i /\ ~ In (Got i (Some [])) b) -> (forall i, e <> HUpgrade i) ->
  (forall i r, e = HRead i \/ e = HContinue i -> In i ak -> nth_error (c_reqs s) i = Some r -> q_cont r = false) ->
  (forall i x, In (Got i x) b -> In i ak) ->
  ((forall kicked, e = RunSend kicked -> In Ended bx -> Forall (fun t => t = ROver) (c_rcv s)) \/
   ((exists j, is_prefix rec (upto_msg M j) /\ j <= S (ended b)) /\ (forall kicked, e = RunSend kicked -> In Ended bx -> forall m, nth_error M (ended b) = Some m -> m_has m = true -> counted m = false -> Forall (fun t => t = ROver) (c_rcv s)))) ->
  Inv M (nc ++ closers [e]) (ak ++ askers [e]) (rec ++ input [e]) s' (b ++ bx).
Proof.
  intros I E Cl Hd Hc Ht Hu Ha Hgot Hs. pose proof E as E'. unfold conn_step in E. destruct (c_lost s) eqn:Lo; [discriminate|].
  assert (NoDup nc) as Nd by (destruct I as (k & n & C & _); apply (cm_nodup _ _ _ _ _ _ C)).
  assert (cont_inv ak s b) as Ci by now destruct I as (k & n & _ & _ & _ & Ci).
  assert (forall f i, e <> HUpgrade i -> closers [e] = [] -> input [e] = [] -> askers [e] = [] -> s' = on_req i f s -> bx = [] -> (forall r, q_head (f r) = q_head r /\ q_info (f r) = q_info r /\ q_upg (f r) = q_upg r /\ q_cont (f r) = q_cont r /\
    q_size (f r) = q_size r /\ q_used (f r) = q_used r /\ q_eof (f r) = q_eof r /\ (q_keep (f r) = true -> q_keep r = true) /\ (q_live (f r) = true -> q_live r = true) /\ q_reading (f r) = q_reading r) -> Inv M (nc ++ closers [e]) (ak ++ askers [e]) (rec ++ input [e]) s' (b ++ bx)) as Kreq.
  { intros f i _ E1 E2 E3 -> -> Hf. rewrite E1, E2, E3, (app_nil_r rec), (app_nil_r ak). destruct (same_on_req i f s) as [R Q]; [intros r; destruct (Hf r) as (? & ? & ? & X & ? & ? & ? & ? & ? & ?); rewrite X; repeat split; tauto|].
    assert (kin s (on_req i f s)) as Kin by (apply kin_on_req; intros r; destruct (Hf r) as (? & ? & ? & ? & ? & ? & X & ? & ? & Y); repeat split; try assumption; congruence).
    apply (inv_same M nc [] ak ak s _ b [] rec R Q quiet_nil); [|now rewrite app_nil_r| |intros j []|exact I]; [|apply (cont_same ak s _ b [] Kin); try reflexivity; [intros ? []|exact Ci]]. rewrite (kin_pending ak s _ Kin). destruct (on_req_misc i f s) as (_ & _ & _ & -> & _). cbn [List.length]. lia. }
  assert (forall i, i < List.length (starts b) -> (In i ak \/ cont s i = false) -> forall f, (forall r, q_head (f r) = q_head r /\ q_info (f r) = q_info r /\ q_upg (f r) = q_upg r /\ q_cont (f r) = q_cont r /\
    q_size (f r) = q_size r /\ q_used (f r) = q_used r /\ q_eof (f r) = q_eof r /\ (q_keep (f r) = true -> q_keep r = true) /\ (q_live (f r) = true -> q_live r = true)) -> Inv M nc (ak ++ [i]) rec (on_req i f s) b) as Kno.
  { intros i Li Hi f Hf. rewrite <- (app_nil_r nc), <- (app_nil_r b). destruct (same_on_req i f s) as [R Q]; [intros r; destruct (Hf r) as (? & ? & ? & X & ? & ? & ? & ? & ?); rewrite X; repeat split; tauto|]. destruct (on_req_misc i f s) as (_ & _ & _ & Q1 & _ & _ & _ & _ & _ & _ & _ & _ & _ & _ & Ln).
    assert (forall j, cont (on_req i f s) j = cont s j) as Kc. { intros j. unfold cont. rewrite on_req_nth. destruct (i =? j)%nat; [|reflexivity]. destruct (nth_error (c_reqs s) j) as [r|]; [|reflexivity]. cbn. apply (Hf r). }
    apply (inv_same M nc [] ak (ak ++ [i]) s _ b [] rec R Q quiet_nil); [|now rewrite app_nil_r| |intros j []|exact I].
    - rewrite pending_again by (rewrite Kc; exact Hi). rewrite (pending_ext ak s (on_req i f s)) by (intros; apply Kc). rewrite Q1. cbn [List.length]. lia.
    - rewrite app_nil_r. apply (cont_ask ak i s _ b Ci Li Ln). intros j r' E1. rewrite on_req_nth in E1. destruct (Nat.eqb_spec i j) as [->|Nj]; [|exists r'; repeat split; tauto]. destruct (nth_error (c_reqs s) j) as [r|]; [|discriminate]. injection E1 as <-. exists r. destruct (Hf r) as (? & ? & ? & ? & ? & ? & X & ?). rewrite X. repeat split; tauto. }
  assert (forall i r f, nth_error (c_reqs s) i = Some r -> q_cont r = true -> ~ In i ak -> i < List.length (starts b) -> (forall r, q_head (f r) = q_head r /\ q_info (f r) = q_info r /\ q_upg (f r) = q_upg r /\ q_cont (f r) = q_cont r /\
    q_size (f r) = q_size r /\ q_used (f r) = q_used r /\ q_eof (f r) = q_eof r /\ (q_keep (f r) = true -> q_keep r = true) /\ (q_live (f r) = true -> q_live r = true)) -> forall x, Inv M nc (ak ++ [i]) rec (on_req i f (put1 None (put1 (Some x) s))) b) as Kask.
  { intros i r f Er Qc Ni Li Hf x. rewrite <- (app_nil_r nc), <- (app_nil_r b). set (s0 := put1 None (put1 (Some x) s)). destruct (same_on_req i f s0) as [R Q]; [intros r'; destruct (Hf r') as (? & ? & ? & X & ? & ? & ? & ? & ?); rewrite X; repeat split; tauto|]. destruct (on_req_misc i f s0) as (_ & _ & _ & Q1 & _ & _ & _ & _ & _ & _ & _ & _ & _ & _ & Ln).
    assert (forall j, cont (on_req i f s0) j = cont s j) as Kc. { intros j. unfold cont. rewrite on_req_nth. unfold s0. csimp. destruct (i =? j)%nat; [|reflexivity]. destruct (nth_error (c_reqs s) j) as [r'|]; [|reflexivity]. cbn. apply (Hf r'). }
    assert (cont s i = true) as Ck by (unfold cont; now rewrite Er).
    assert (pending ak s = 0) as Pz. { apply pending_no. intros j Hj. destruct (cont s j) eqn:X; [|reflexivity]. destruct (asked_active ak s b j Ci Hj X) as [X1 X2]. destruct (ci_cont _ _ _ Ci i r Er Qc) as [Y|[Y _]]; [lia|]. exfalso. apply Ni. replace i with j by congruence. exact Hj. }
    apply (inv_same M nc [] ak (ak ++ [i]) s _ b [] rec); try exact quiet_nil; [exact R|exact Q| |now rewrite app_nil_r| |intros j []|exact I].
    - rewrite Pz, (pending_yes (ak ++ [i]) (on_req i f s0) i); [|apply in_or_app; right; now left|now rewrite Kc]. rewrite Q1. unfold s0. csimp. rewrite !nones_app. cbn. lia.
    - rewrite app_nil_r. apply (cont_ask ak i s _ b Ci Li Ln). intros j r' E1. rewrite on_req_nth in E1. unfold s0 in E1. csimp_in E1. destruct (Nat.eqb_spec i j) as [->|Nj]; [|exists r'; repeat split; tauto]. destruct (nth_error (c_reqs s) j) as [r0|]; [|discriminate]. injection E1 as <-. exists r0. destruct (Hf r0) as (? & ? & ? & ? & ? & ? & X & ?). rewrite X. repeat split; tauto. }
  assert (forall i r, live s i = Some r -> nth_error (c_reqs s) i = Some r /\ i < List.length (starts b)) as Klive.
  { intros i r Lr. apply live_some in Lr as [Er Lr]. split; [exact Er|]. destruct I as (k & n & C & _). rewrite (starts_k M nc s b k n C). now apply (cm_reqs _ _ _ _ _ _ C i r Er). }
  destruct e; try (cbn [closers askers flat_map input map List.concat app] in *; rewrite ?app_nil_r in * ).
  - destruct (c_paused s || c_closing s)%bool; [discriminate|]. destruct d as [|c d]; [discriminate|]. apply pair_some in E as [-> ->]. destruct I as (k & n & C & P & B & _). specialize (Hd _ eq_refl).
    assert (forall x, kin s (data_received o x s)) as Kin by (intros x; apply kin_eq, data_reqs). exists k, n. rewrite (app_nil_r b), (kin_pending ak s _ (Kin _)). split; [now apply common_data|]. split; [now apply (data_inv o M Mok _ nc (c :: d) s b k n)|]. split; [exact Hd|]. rewrite <- (app_nil_r b). apply (cont_same ak s _ b [] (Kin _)); try reflexivity; [intros ? []|exact Ci].
  - destruct (c_paused s || c_closing s)%bool; [discriminate|]. assert (s' = set_closing (put0 None s)) as -> by congruence. discriminate.
  - assert (s' = set_closing s) as -> by congruence. discriminate.
  - destruct I as (k & n & C & P & B & _). pose proof (starts_k M nc s b k n C) as Ls. destruct (nth_error (c_hrs s) j) as [t|] eqn:Ej; [|discriminate].
    assert (forall k0 n0, common M nc s' (b ++ bx) k0 n0 -> phase M (List.length nc + pending ak s) s' (b ++ bx) k0 rec -> pending ak s' = pending ak s -> cont_inv ak s' (b ++ bx) -> Inv M nc ak rec s' (b ++ bx)) as Fin.
    { intros k0 n0 C0 P0' Ep Ci'. exists k0, n0. rewrite Ep. split; [exact C0|]. split; [exact P0'|]. split; [|exact Ci']. apply (bound_mono M rec rec b _ (prefix_refl _)); [rewrite ended_app; lia|exact B]. }
    destruct P as [bb h a A1 A2 A3 A4 A5 A6 A7 A8 A9 A10 A11 A12|m rest h a l A1 A2 A3 A4 A5 A6 A7 A8 A9 A10 A11 A12 A13|rest len h a l A1 A2 A3 A4 A5 A6 A7 A8 A9 A10 A11 A12 A13|k' h a l mk A1 A2 A3 A4 A5 A6 A7 A8 A9 A10 A11 A12 A13].
    + rewrite A3 in Ej. apply nth_error_In, repeat_spec in Ej. subst t. discriminate.
    + rewrite A3 in Ej. destruct (nth_over _ _ _ _ _ Ej) as [[-> _]|[Lj Ej2]]; [discriminate|]. destruct (j - h) as [|x] eqn:Dj; [|destruct x; discriminate]. assert (j = h) as -> by lia. injection Ej2 as <-.
      assert (n = k) as -> by (rewrite <- (cm_n _ _ _ _ _ _ C); exact A8). assert (run_hr o h (m_head m ++ rest) (blen (m_head m) - 2) s = (s', bx)) as Er by congruence.
      destruct (run_hr_inv o M Mok _ nc s b k rec m rest h a l Ook C B A1 A2 A3 A4 A5 A6 A7 A9 A10 A11 A12 A13) as (k' & n' & C' & P'); [now rewrite Er|]. 
      pose proof (proj1 (Forall_forall _ _) Mok m (nth_error_In _ _ A2)) as (p & r & F & L & Lo' & Fr & Rl). destruct (run_hr_fresh o h (m_head m ++ rest) (blen (m_head m) - 2) s r) as (F1 & F2 & F3 & F4 & F5).
      { rewrite <- Fr. replace (blen (m_head m) - 2)%Z with (Z.of_nat p + 2)%Z by (unfold blen; lia). now apply (frame_head_ext m p rest F L). }
      rewrite Er in C', P', F1, F2, F3, F4, F5. cbn [fst snd] in *. apply (Fin k' n' C' P').
      * apply (fresh_pending ak s s' b F1); [lia|lia|exact Ci].
      * apply (cont_start ak s s' b bx F1); try assumption; [lia|lia|rewrite Ls; now apply ended_rep|lia].
    + rewrite A2 in Ej. destruct (nth_over _ _ _ _ _ Ej) as [[-> _]|[Lj Ej2]]; [discriminate|]. destruct (j - h) as [|x] eqn:Dj; [|destruct x; discriminate]. assert (j = h) as -> by lia. injection Ej2 as <-.
      assert (n = S k) as -> by (rewrite <- (cm_n _ _ _ _ _ _ C); exact A6). assert (hr_put o h k rest len s = (s', bx)) as Er by congruence.
      destruct (hr_put_inv o M _ nc s b k rec rest len h _ a l C B (proj1 Ook) A1 A2 A3 A4 A5 A7 A8 A9 A10 A11 A12 A13) as (k' & C' & P'); [now rewrite Er|]. pose proof (kin_hr_put o h k rest len s) as Kin. destruct (starts_hr_put o h k rest len s) as (F3 & F4 & F5).
      rewrite Er in C', P', Kin, F3, F4, F5. cbn [fst snd] in *. apply (Fin k' (S k) C' P'); [now apply kin_pending|].
      apply (cont_start ak s s' b bx (kin_fresh _ _ Kin)); try assumption; [rewrite (proj1 Kin); lia|lia|rewrite Ls; now apply ended_rep|rewrite (proj1 Kin); lia].
    + rewrite A3 in Ej. apply nth_error_In, repeat_spec in Ej. subst t. discriminate.
  - destruct I as (k & n & C & P & B & _). destruct (rcv_first nc ak rec s b k n j s' bx C P B Ci E' Cl) as (-> & k' & R & _). rewrite app_nil_r. exact R.
  - apply (send_inv o M Mok nc ak rec s b kicked s' bx I E Cl Hgot). destruct Hs as [Hs|[Hs1 Hs2]]; [left; apply (Hs kicked eq_refl)|right; split; [exact Hs1|apply (Hs2 kicked eq_refl)]].
  - destruct (live s i) as [r|] eqn:Lr; [|discriminate]. destruct (q_eof r) eqn:Qe.
    + assert (s' = s) as -> by congruence. assert (bx = []) as -> by congruence. rewrite app_nil_r. destruct (Klive i r Lr) as [Er Li]. assert (on_req i (fun r => r) s = s) as X by (unfold on_req; rewrite Er, (put_same _ _ _ Er); now destruct s).
      rewrite <- X. apply Kno; [exact Li|left; apply (ci_read _ _ _ Ci i r Er); now right|]. intros r'. repeat split; tauto.
    + destruct (_ <? _)%Z eqn:Lm; [discriminate|]. destruct (Klive i r Lr) as [Er Li]. unfold send_continue in E. destruct (q_cont r) eqn:Qc.
      * rewrite Lm in E. assert (s' = on_req i set_reading (put1 None (put1 (Some (continue_100 r)) s))) as -> by congruence. assert (bx = []) as -> by congruence. rewrite app_nil_r.
        apply (Kask i r set_reading Er Qc); [|exact Li|]; [|intros r'; repeat split; tauto]. intros Hi. rewrite (Ha i r (or_introl eq_refl) Hi Er) in Qc. discriminate.
      * assert (s' = on_req i set_reading s) as -> by congruence. assert (bx = []) as -> by congruence. rewrite app_nil_r. apply Kno; [exact Li|right; unfold cont; now rewrite Er|]. intros r'. repeat split; tauto.
  - assert (exists m, nth_error M i = Some m) as (m & Em). { destruct (live s i) as [r|] eqn:Lr; [|discriminate]. destruct (Klive i r Lr) as [Er _]. destruct I as (k & n & C & _). destruct (cm_reqs _ _ _ _ _ _ C i r Er) as ((m & Em & _) & _). now exists m. }
    specialize (Ht i m eq_refl Em). destruct (m_has m) eqn:Clm.
    + apply (take_inv o M nc ak rec s b i s' bx I E'). intros m' Em'. assert (m' = m) as -> by congruence. now split.
    + destruct Ht as [X1 X2]. now apply (take_empty o M nc ak rec s b i s' bx m I E').
  - destruct (live s i) as [r|] eqn:Lr; [|discriminate]. assert (s' = put1 (Some d) s) as -> by congruence. assert (bx = []) as -> by congruence.
    assert (kin s (put1 (Some d) s)) as Kin by now apply kin_eq.
    rewrite <- (app_nil_r nc). apply (inv_same M nc [] ak ak s _ b [] rec); try assumption; [repeat split|apply (same_refl s)|apply quiet_nil|rewrite (kin_pending ak s _ Kin); csimp; rewrite nones_app; cbn; lia|now rewrite app_nil_r|apply (cont_same ak s _ b [] Kin); try reflexivity; [intros ? []|exact Ci]|intros j []].
  - destruct (live s i) as [r|] eqn:Lr; [|discriminate]. destruct (Hc i keep eq_refl) as [Nd' Hg]. assert (bx = []) as -> by congruence.
    assert (exists s1, s' = put1 None s1 /\ same_rest s s1 /\ same_reqs s s1 /\ c_q1 s1 = c_q1 s /\ kin s s1) as (s1 & -> & R & Q & Q1 & Kin).
    { destruct keep.
      - exists s. split; [congruence|]. split; [repeat split|]. split; [apply same_refl|]. split; [reflexivity|now apply kin_eq].
      - exists (on_req i (set_keep false) s). split; [congruence|]. destruct (same_on_req i (set_keep false) s) as [R Q]; [intros r'; repeat split; tauto || discriminate|]. split; [exact R|]. split; [exact Q|]. split; [now destruct (on_req_misc i (set_keep false) s) as (_ & _ & _ & -> & _)|]. apply kin_on_req. intros r'. repeat split; tauto. }
    assert (kin s (put1 None s1)) as Kin' by (apply (kin_trans _ _ _ Kin); now apply kin_eq).
    apply (inv_same M nc [i] ak ak s _ b [] rec); try assumption.
    + apply quiet_nil.
    + rewrite (kin_pending ak s _ Kin'). csimp. rewrite nones_app, Q1. cbn. lia.
    + apply (cont_same ak s _ b [] Kin'); try reflexivity; [intros ? []|exact Ci].
    + intros j [<-|[]]. split; [now exists r|exact Hg].
  - destruct (live s i) as [r|] eqn:Lr; [|discriminate]. destruct (Klive i r Lr) as [Er Li]. unfold send_continue in E.
    assert (forall s0, on_req i (fun r => r) s0 = s0) as X by (intros s0; unfold on_req; destruct (nth_error (c_reqs s0) i) as [r0|] eqn:Er0; [rewrite (put_same _ _ _ Er0); now destruct s0|reflexivity]).
    destruct (q_cont r) eqn:Qc.
    + destruct (_ <? _)%Z; [discriminate|]. assert (s' = put1 None (put1 (Some (continue_100 r)) s)) as -> by congruence. assert (bx = []) as -> by congruence. rewrite app_nil_r.
      rewrite <- (X (put1 None _)). destruct (in_dec Nat.eq_dec i ak) as [Hi|Hi].
      * rewrite (Ha i r (or_intror eq_refl) Hi Er) in Qc. discriminate.
      * apply (Kask i r (fun r => r) Er Qc Hi Li). intros r'. repeat split; tauto.
    + assert (s' = s) as -> by congruence. assert (bx = []) as -> by congruence. rewrite app_nil_r, <- (X s). apply Kno; [exact Li|right; unfold cont; now rewrite Er|]. intros r'. repeat split; tauto.
  - exfalso. now apply (Hu i).
  - destruct (live s i) as [r|] eqn:Lr; [|discriminate]. apply (Kreq (set_live false) i (Hu i) eq_refl eq_refl eq_refl); [congruence|congruence|]. intros r'. repeat split; tauto || discriminate.
  - assert (s' = mkC None (c_paused s) true true [] [] (c_futs s) (c_wreq s) (c_wkeep s) (c_wrecv s) [] None [] [] false) as -> by congruence. discriminate.
Qed.

Lemma inv_new : Inv M [] [] [] conn_new [].
Proof.
  exists 0, 0. split; [|split; [|split]].
  - constructor; try reflexivity; try (intros; contradiction).
    + split; [left; split; [discriminate|reflexivity]|cbn; lia].
    + lia.
    + intros [|i] r E; discriminate.
    + intros i m E. split; [apply (prefix_app [] _)|intros []].
    + intros i _. split; [reflexivity|intros []].
    + constructor.
  - apply (P0 _ _ _ _ _ _ [] 0 0); try reflexivity. intros i m L. lia.
  - exists 0. split; [apply prefix_refl|]. intros i m _ L. lia.
  - constructor; try (now intros i []); intros [|i] r E; discriminate.
Qed.

Lemma waits_prefix tr : forall s b, conn_run o conn_new tr = Some (s, b) -> client_waits o M tr -> exists j, is_prefix (input tr) (upto_msg M j) /\ j <= S (ended b).
Proof.
  induction tr as [|e tr IH] using rev_ind; intros s b E H; [exists 0; split; [apply prefix_refl|lia]|].
  rewrite conn_run_app in E. destruct (conn_run o conn_new tr) as [[s1 b1]|] eqn:E1; [|discriminate]. cbn [conn_run] in E. destruct (conn_step o s1 e) as [[s2 b2]|] eqn:E2; [|discriminate]. assert (b = b1 ++ b2) as -> by (rewrite app_nil_r in E; congruence). clear E.
  rewrite input_app, ended_app.
  assert (exists j, is_prefix (input tr) (upto_msg M j) /\ j <= S (ended b1)) as (j & P & L).
  { apply (IH s1 b1 eq_refl). intros pre d post s3 b3 Et. apply (H pre d (post ++ [e]) s3 b3). rewrite Et, <- app_assoc. reflexivity. }
  destruct e; try (cbn [input map List.concat app]; rewrite ?app_nil_r; exists j; split; [exact P|lia]).
  destruct (H tr d [] s1 b1 eq_refl E1) as (j' & P' & L'). exists j'. split; [cbn [input map List.concat]; rewrite app_nil_r; exact P'|lia].
Qed.
Lemma run_both tr : forall s b, conn_run o conn_new tr = Some (s, b) -> c_closing s = false -> client_ok o M tr -> handlers_ok o M tr -> settled o tr \/ (client_waits o M tr /\ calm o M tr) ->
  Inv M (closers tr) (askers tr) (input tr) s b /\ forall i x, In (Got i x) b -> In i (askers tr).
Proof.
  induction tr as [|e tr IH] using rev_ind; intros s b E Cl Hc (Hn & Hb & Ht & Hu & Ha) Hs.
  - injection E as <- <-. split; [apply inv_new|intros i x []].
  - rewrite conn_run_app in E. destruct (conn_run o conn_new tr) as [[s1 b1]|] eqn:E1; [|discriminate]. cbn [conn_run] in E. destruct (conn_step o s1 e) as [[s2 b2]|] eqn:E2; [|discriminate]. assert (s2 = s) as -> by congruence. assert (b = b1 ++ b2) as -> by (rewrite app_nil_r in E; congruence). clear E.
    assert (c_closing s1 = false) as Cl1. { destruct (c_closing s1) eqn:X; [|reflexivity]. rewrite (step_closing _ _ _ _ _ E2 X) in Cl. discriminate. }
    assert (Inv M (closers tr) (askers tr) (input tr) s1 b1 /\ forall i x, In (Got i x) b1 -> In i (askers tr)) as [I1 G1].
    { apply IH; try assumption; try reflexivity.
      - intros pre d post s3 b3 Et. apply (Hc pre d (post ++ [e]) s3 b3). rewrite Et, <- app_assoc. reflexivity.
      - split; [|split; [|split; [|split]]].
        + rewrite closers_app in Hn. now apply nodup_app_l in Hn.
        + intros pre i keep post s3 b3 m Et. apply (Hb pre i keep (post ++ [e]) s3 b3 m). rewrite Et, <- app_assoc. reflexivity.
        + intros pre i post s3 b3 m Et. apply (Ht pre i (post ++ [e]) s3 b3 m). rewrite Et, <- app_assoc. reflexivity.
        + intros i H. apply (Hu i). apply in_or_app. now left.
        + intros pre e0 i post s3 b3 m Et. apply (Ha pre e0 i (post ++ [e]) s3 b3 m). rewrite Et, <- app_assoc. reflexivity.
      - destruct Hs as [Hs|[Hs Hk]]; [left|right; split; [intros pre d post s3 b3 Et; apply (Hs pre d (post ++ [e]) s3 b3); rewrite Et, <- app_assoc; reflexivity|intros pre kicked post s3 b3 s4 b4 m Et; apply (Hk pre kicked (post ++ [e]) s3 b3 s4 b4 m); rewrite Et, <- app_assoc; reflexivity]]. intros pre kicked post s3 b3 s4 b4 Et. apply (Hs pre kicked (post ++ [e]) s3 b3 s4 b4). rewrite Et, <- app_assoc. reflexivity. }
    split; [|intros i x H; rewrite askers_app; apply in_or_app; left; apply in_app_or in H as [H|H]; [now apply (G1 i x)|]; destruct (step_got _ _ _ _ _ _ _ E2 H) as (r & Er & Qr); destruct I1 as (k & n & _ & _ & _ & Ci); apply (ci_read _ _ _ Ci i r Er); now left].
    rewrite closers_app, askers_app, input_app. apply (step_inv _ _ _ s1 b1 e s b2 I1 E2 Cl).
    + intros d ->. destruct (Hc tr d [] s1 b1 eq_refl E1) as (j & P & B). exists j. now split.
    + intros i keep ->. split; [rewrite closers_app in Hn; exact Hn|]. intros m. apply (Hb tr i keep [] s1 b1 m eq_refl E1).
    + intros i m ->. apply (Ht tr i [] s1 b1 m eq_refl E1).
    + intros i ->. apply (Hu i). apply in_or_app. right. now left.
    + intros i r He Hi Er. destruct (q_cont r) eqn:Qc; [|reflexivity]. destruct I1 as (k & n & C & _ & _ & Ci). destruct (cm_reqs _ _ _ _ _ _ C i r Er) as ((m & Em & _ & _ & Pm & _) & _).
      assert (In (Interim i) b1) as X. { apply (Ha tr e i [] s1 b1 m eq_refl E1 He Hi Em). unfold expects. rewrite Pm. now apply (ci_info _ _ _ Ci i r Er). }
      apply (ci_int _ _ _ Ci) in X as [_ X]. unfold cont in X. rewrite Er in X. congruence.
    + exact G1.
    + destruct Hs as [Hs|[Hs Hk]]; [left; intros kicked ->; apply (Hs tr kicked [] s1 b1 s b2 eq_refl E1 E2)|right; split; [|intros kicked -> Hen m; now apply (Hk tr kicked [] s1 b1 s b2 m)]]. apply (waits_prefix tr s1 b1 E1). intros pre d post s3 b3 Et. apply (Hs pre d (post ++ [e]) s3 b3). rewrite Et, <- app_assoc. reflexivity.
Qed.
Lemma run_inv tr s b : conn_run o conn_new tr = Some (s, b) -> c_closing s = false -> client_ok o M tr -> handlers_ok o M tr -> settled o tr \/ (client_waits o M tr /\ calm o M tr) -> Inv M (closers tr) (askers tr) (input tr) s b.
Proof. intros. now apply run_both. Qed.
Lemma got_asked tr s b i x : conn_run o conn_new tr = Some (s, b) -> c_closing s = false -> client_ok o M tr -> handlers_ok o M tr -> settled o tr \/ (client_waits o M tr /\ calm o M tr) -> In (Got i x) b -> In i (askers tr).
Proof. intros R Cl Hc Hh Hs H. now apply (proj2 (run_both tr s b R Cl Hc Hh Hs) i x). Qed.

Lemma alternate_rep k : forall l, alternate true l -> alternate true (rep k ++ l).
Proof. induction k as [|k IH]; intros l A; [exact A|]. rewrite rep_S, <- app_assoc. apply IH. cbn. repeat split. exact A. Qed.
Lemma phase_alternate nc s b k rec : phase M nc s b k rec -> alternate true (marks b).
Proof.
  intros [bb h a A1 A2 A3 A4 A5 A6 A7 A8|m rest h a l A1 A2 A3 A4 A5 A6 A7 A8 A9|rest len h a l A1 A2 A3 A4 A5 A6 A7|k' h a l mk A1 A2 A3 A4 A5 A6 A7 A8].
  - rewrite A8, <- app_nil_r. now apply alternate_rep.
  - rewrite A9, <- app_nil_r. now apply alternate_rep.
  - rewrite A7, <- app_nil_r. now apply alternate_rep.
  - rewrite A8. apply alternate_rep. now split.
Qed.
(** Completeness *)
Lemma complete tr s b nc ak rec : Inv M nc ak rec s b -> nc = closers tr -> c_closing s = false -> quiet o tr s b -> rec = List.concat (map wire M) -> starts b = combine (seq 0 (List.length M)) (map m_head M) /\ ended b = List.length M.
Proof.
  intros (k & n & C & P & B & _) Enc Cl (Q1 & Q2 & Q3 & Q4) Er. pose proof (cm_lost _ _ _ _ _ _ C) as Lo. destruct P as [bb h a A1 A2 A3 A4 A5 A6 A7 A8 A9 A10 A11 A12|m rest h a l A1 A2 A3 A4 A5 A6 A7 A8 A9 A10 A11 A12 A13|rest len h a l A1 A2 A3 A4 A5 A6 A7 A8 A9 A10 A11 A12 A13|k' h a l mk A1 A2 A3 A4 A5 A6 A7 A8 A9 A10 A11 A12 A13].
  - assert (rec = upto_msg M (List.length M)) as Eu by (unfold upto_msg; now rewrite firstn_all). assert (k = List.length M) as Ek.
    { pose proof (cm_k _ _ _ _ _ _ C) as Lk. destruct (Nat.eq_dec k (List.length M)) as [H|H]; [exact H|]. exfalso. destruct (nth_error M k) as [m|] eqn:Em; [|apply nth_error_None in Em; lia].
      destruct (upto_msg_mono M (S k) (List.length M) ltac:(lia)) as [t Et]. rewrite <- Eu, A10, (upto_msg_S M k m Em), <- app_assoc in Et. apply app_inv_head in Et.
      pose proof (proj1 (Forall_forall _ _) Mok m (nth_error_In _ _ Em)) as (p & r & F & _). unfold wire in Et. rewrite <- app_assoc in Et. pose proof (find_app_ext _ _ (m_body m ++ t) p F) as X. rewrite Et, A2 in X. discriminate. }
    split; [rewrite <- Ek; apply (cm_starts _ _ _ _ _ _ C)|]. rewrite <- Ek. now apply ended_rep.
  - exfalso. specialize (Q1 h). unfold conn_step in Q1. rewrite Lo, A3, nth_error_app2, repeat_length, Nat.sub_diag in Q1 by now rewrite repeat_length. discriminate.
  - exfalso. specialize (Q1 h). unfold conn_step in Q1. rewrite Lo, A2, nth_error_app2, repeat_length, Nat.sub_diag in Q1 by now rewrite repeat_length. discriminate.
  - exfalso. subst k. specialize (Q3 false). unfold conn_step, run_send in Q3. rewrite Lo, (cm_sending _ _ _ _ _ _ C) in Q3.
    assert (forall i, i < S k' -> In i nc) as Full.
    { intros i Hi. rewrite Enc. destruct (nth_error M i) as [m|] eqn:Em.
      - apply (Q4 i (m_head m)). assert (In (i, m_head m) (starts b)) as X.
        { rewrite (cm_starts _ _ _ _ _ _ C). apply (nth_error_In _ i). clear -Hi Em. generalize (S k') Hi. clear k' Hi. intros k Hk. assert (forall (L : list msg) j st k, j < k -> nth_error L j = Some m -> nth_error (combine (seq st k) (map m_head L)) j = Some (st + j, m_head m)) as K.
          { induction L as [|x L IH]; intros j st k0 Hj Ej; [now destruct j|]. destruct k0 as [|k0]; [lia|]. cbn [seq map combine]. destruct j as [|j]; [injection Ej as ->; cbn; now rewrite Nat.add_0_r|]. cbn [nth_error]. rewrite (IH j (S st) k0); [f_equal; f_equal; lia|lia|exact Ej]. }
          apply (K M i 0 k Hk Em). }
        unfold starts in X. apply in_flat_map in X as (x & Hx & X). destruct x; cbn in X; try contradiction. destruct X as [X|[]]. injection X as -> ->. exact Hx.
      - apply nth_error_None in Em. pose proof (cm_k _ _ _ _ _ _ C). lia. }
    assert (S k' <= List.length nc) as Ln. { rewrite <- (seq_length (S k') 0). apply NoDup_incl_length; [apply seq_NoDup|]. intros i Hi. apply Full. apply in_seq in Hi. lia. }
    assert (c_cur s = Some k') as Ec by (rewrite (cm_cur _ _ _ _ _ _ C); replace n with (S k'); [reflexivity|rewrite <- (cm_n _ _ _ _ _ _ C); now symmetry]).
    destruct A13 as (m & r & ds & Em & Er' & _). destruct (c_q1 s) as [|[d|] q] eqn:Eq; [cbn in A9; lia|discriminate|]. csimp_in Q3. rewrite Ec, Er' in Q3. destruct (q_keep r && _)%bool; discriminate.
Qed.
End Main.
