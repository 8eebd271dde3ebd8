(** A connection that nobody wants to end stays open (C77). *)
From Verif Require Import PyBytes PyBytesFacts PyInt PyExn M_Parser M_Framing M_Conn S_Conn S_Open P_Parser2 P_Conn P_Conn2 P_Conn3 P_Conn4 P_Conn5 P_Conn6 P_Conn10.

Definition all_keep (s : conn) : Prop := forall i r, nth_error (c_reqs s) i = Some r -> q_keep r = true.
Lemma keep_eq s s' : c_reqs s' = c_reqs s -> all_keep s -> all_keep s'.
Proof. unfold all_keep. now intros ->. Qed.
Lemma keep_on_req i f s : (forall r, q_keep (f r) = q_keep r) -> all_keep s -> all_keep (on_req i f s).
Proof.
  intros F H j r E. rewrite on_req_nth in E. destruct (i =? j)%nat; [|now apply (H j)]. destruct (nth_error (c_reqs s) j) as [r0|] eqn:E0; [|discriminate]. injection E as <-. rewrite F. now apply (H j).
Qed.
Lemma set_done_reqs w s : c_reqs (set_done w s) = c_reqs s /\ c_q0 (set_done w s) = c_q0 s.
Proof. now destruct w. Qed.
Lemma start_keep i s : all_keep s -> all_keep (fst (start_handler i s)).
Proof.
  intros H. unfold start_handler. cbn [fst]. apply keep_on_req; [now intros r|]. apply (keep_eq s); [|exact H]. now rewrite (proj1 (set_done_reqs _ _)), (proj1 (set_done_reqs _ _)).
Qed.
Lemma start_q0 i s : c_q0 (fst (start_handler i s)) = c_q0 s.
Proof. unfold start_handler. cbn [fst]. destruct (on_req_misc i (set_live true) (set_done (c_wkeep s) (set_done (c_wreq s) s))) as (_ & _ & -> & _). now rewrite !(proj2 (set_done_reqs _ _)). Qed.
Lemma put_end_keep o len s : all_keep s ->
  (forall i r, c_cur s = Some i -> nth_error (c_reqs s) i = Some r -> (hmem k_content_length (rq_headers (q_info r)) && (rq_content_length (q_info r) <=? q_size r + len)%Z = true \/ q_size r + len < o_body o)%Z) ->
  all_keep (put_end o len s).
Proof.
  intros H F. unfold put_end. destruct (c_cur s) as [i|]; [|exact H]. destruct (nth_error (c_reqs s) i) as [r|] eqn:Er; [|exact H]. destruct (q_upg r); [exact H|]. cbn zeta.
  assert (all_keep (set_reqs (put_at i (set_size (q_size r + len) r) (c_reqs s)) (Some i) s)) as K.
  { intros j r' E. csimp_in E. rewrite nth_put in E. destruct (i =? j)%nat eqn:Ej; [|now apply (H j)]. apply Nat.eqb_eq in Ej. subst j. rewrite Er in E. injection E as <-. apply (H i r Er). }
  change (q_size (set_size (q_size r + len) r)) with (q_size r + len)%Z.
  destruct (hmem k_content_length (rq_headers (q_info r)) && (rq_content_length (q_info r) <=? q_size r + len)%Z)%bool eqn:A; [exact K|].
  destruct (F i r eq_refl Er) as [X|X]; [congruence|]. apply Z.ltb_lt in X. rewrite X. exact K.
Qed.
Lemma hr_open o j i rest len s : c_closing s = false -> (Z.of_nat (List.length (c_q0 (fst (hr_put o j i rest len s)))) <= o_queue o)%Z -> c_closing (fst (hr_put o j i rest len s)) = false.
Proof.
  intros C Q. unfold hr_put in *. destruct rest as [|c rest]; [rewrite start_closing; csimp; now rewrite put_end_closing|].
  unfold put_round in *. cbn zeta in *. destruct (_ <? _)%Z eqn:L; [|exact C]. exfalso. rewrite start_q0 in Q. csimp_in Q. csimp_in L. lia.
Qed.
Lemma hr_keep o j i rest len s : all_keep s ->
  (rest = [] -> forall i r, c_cur s = Some i -> nth_error (c_reqs s) i = Some r -> (hmem k_content_length (rq_headers (q_info r)) && (rq_content_length (q_info r) <=? q_size r + len)%Z = true \/ q_size r + len < o_body o)%Z) ->
  all_keep (fst (hr_put o j i rest len s)).
Proof.
  intros H F. unfold hr_put. destruct rest as [|c rest].
  - apply start_keep. apply (keep_eq (put_end o len s)); [reflexivity|]. now apply put_end_keep, F.
  - unfold put_round. cbn zeta. destruct (_ <? _)%Z; [apply start_keep|]; exact H.
Qed.
Lemma rcv_open o j rest len s : c_closing s = false -> (Z.of_nat (List.length (c_q0 (rcv_put o j rest len s))) <= o_queue o)%Z -> c_closing (rcv_put o j rest len s) = false.
Proof.
  intros C Q. unfold rcv_put in *. destruct rest as [|c rest]; [now rewrite put_end_closing|].
  unfold put_round in *. cbn zeta in *. destruct (_ <? _)%Z eqn:L; [|exact C]. exfalso. csimp_in Q. csimp_in L. lia.
Qed.
Lemma rcv_keep o j rest len s : all_keep s ->
  (rest = [] -> forall i r, c_cur s = Some i -> nth_error (c_reqs s) i = Some r -> (hmem k_content_length (rq_headers (q_info r)) && (rq_content_length (q_info r) <=? q_size r + len)%Z = true \/ q_size r + len < o_body o)%Z) ->
  all_keep (rcv_put o j rest len s).
Proof.
  intros H F. unfold rcv_put. destruct rest as [|c rest].
  - apply put_end_keep; [exact H|now apply F].
  - unfold put_round. cbn zeta. destruct (_ <? _)%Z; exact H.
Qed.
Lemma refeed_empty o l : Forall (fun x => x = None \/ x = Some []) l -> forall s, refeed o l s = s.
Proof. induction l as [|x l IH]; intros F s; [reflexivity|]. inversion_clear F as [|? ? X F']. cbn [refeed]. rewrite IH by exact F'. now destruct X as [->| ->]. Qed.

Section Open.
Context (o : copts) (M : list msg) (Mok : Forall (msg_ok o) M) (Ook : opts_ok o) (Mfit : Forall (in_limits o) M) (Ob : (0 < o_body o)%Z).

(** The sizes that put_end sees. *)
Lemma size_ok i m r b ds l rec w a len :
  nth_error M i = Some m -> req_ok M i r -> ended b = i -> (exists j, is_prefix rec (upto_msg M j) /\ j <= S (ended b)) ->
  rec = upto_msg M i ++ m_head m ++ got i b ++ List.concat ds ++ [] ++ pend l -> waits w a l -> (q_size r + len + lens l = blen (got i b ++ List.concat ds ++ [] ++ pend l))%Z ->
  (hmem k_content_length (rq_headers (q_info r)) && (rq_content_length (q_info r) <=? q_size r + len)%Z = true \/ q_size r + len < o_body o)%Z.
Proof.
  intros Em (m' & Em' & _ & _ & _ & Rcl & _ & Rlen & Rb) Eb (j & Pj & Lj) Er W Es. rewrite Em in Em'. injection Em' as <-.
  assert (is_prefix (got i b ++ List.concat ds ++ [] ++ pend l) (m_body m)) as P.
  { rewrite Er in Pj. apply (prefix_cancel (m_head m)), (prefix_cancel (upto_msg M i)). apply (prefix_trans _ _ _ Pj). rewrite Eb in Lj. pose proof (upto_msg_mono M j (S i) Lj) as H. rewrite (upto_msg_S M i m Em) in H. exact H. }
  rewrite (waits_lens _ _ _ W) in Es. apply prefix_length in P. pose proof (proj1 (Forall_forall _ _) Mfit m (nth_error_In _ _ Em)) as (_ & Fb & _).
  unfold blen in *. rewrite !app_length in *. cbn [List.length] in *. rewrite Rcl. destruct (counted m) eqn:Mc; cbn [andb].
  - rewrite (proj2 (Rlen eq_refl)). destruct (Z.leb_spec (Z.of_nat (List.length (m_body m))) (q_size r + len)); [now left|right; lia].
  - right. lia.
Qed.

Lemma step_open nc ak rec s b e s' bx : Inv M nc ak rec s b -> all_keep s -> conn_step o s e = Some (s', bx) ->
  (forall d, e = Data d -> exists j, is_prefix (rec ++ d) (upto_msg M j) /\ j <= S (ended b)) ->
  (exists j, is_prefix rec (upto_msg M j) /\ j <= S (ended b)) ->
  match e with Eof | Abort | Lost | RunSend true | HClose _ false | HUpgrade _ => False | _ => True end ->
  (Z.of_nat (List.length (c_q0 s')) <= o_queue o)%Z ->
  c_closing s' = false /\ all_keep s'.
Proof.
  intros I K E Hd Hw He Hq. pose proof I as (k & n & C & P & B & Ci). pose proof (cm_closing _ _ _ _ _ _ C) as Cl. pose proof (phase_k M nc s b k n C) as Lk. pose proof (starts_k M nc s b k n C) as Ls.
  unfold conn_step in E. rewrite (cm_lost _ _ _ _ _ _ C) in E.
  destruct e; try contradiction.
  - (* Data *)
    destruct (c_paused s || c_closing s)%bool; [discriminate|]. destruct d as [|c d]; [discriminate|]. apply pair_some in E as [-> ->]. split; [|apply (keep_eq s); [apply data_reqs|exact K]].
    destruct (Hd _ eq_refl) as (j & Pj & Lj). unfold data_received. destruct (c_hb s) as [bb|] eqn:Eh; [|destruct (match c_wrecv s with Some w => Some w | None => _ end); exact Cl].
    destruct P as [bb' h a A1 A2 A3 A4 A5 A6 A7 A8 A9 A10 A11 A12|m rest h a l A1 _ _ _ _ _ _ _ _ _ _ _ _|rest len h a l A1 _ _ _ _ _ _ _ _ _ _ _ _|k' h a l mk _ A2 _ _ _ _ _ _ _ _ _ _ _]; [|rewrite A1 in Eh; discriminate|rewrite A1 in Eh; discriminate|rewrite A2 in Eh; discriminate].
    rewrite A1 in Eh. injection Eh as ->. rewrite A10, <- app_assoc in Pj. destruct (next_msg M k (bb ++ c :: d) j) as (Lkj & m & Em & t & Pw & _); [now destruct bb|exact Pj|].
    pose proof (proj1 (Forall_forall _ _) Mok m (nth_error_In _ _ Em)) as Mm. pose proof (proj1 (Forall_forall _ _) Mfit m (nth_error_In _ _ Em)) as (Fh & _ & _).
    cbn zeta. destruct (find (CRLF ++ CRLF) (bb ++ c :: d)) as [p|] eqn:Ef.
    + destruct (head_of_prefix o M m (bb ++ c :: d) j k p Mm Em Pj Ef) as (rest & _ & _ & Lp). cbn [pos]. replace ((1 <? Z.of_nat p + 2)%Z && (Z.of_nat p + 2 <=? o_head o)%Z)%bool with true by lia. exact Cl.
    + cbn [pos]. change (-1 + 2)%Z with 1%Z. cbn [Z.ltb Z.compare Pos.compare Pos.compare_cont andb Z.eqb Pos.eqb].
      destruct Mm as (p & r & F & L & Lo & _). assert (List.length (bb ++ c :: d) < List.length (m_head m)) as Ll.
      { destruct (Nat.le_gt_cases (List.length (m_head m)) (List.length (bb ++ c :: d))) as [H|H]; [|exact H]. exfalso. unfold wire in Pw. rewrite <- app_assoc in Pw.
        destruct (prefix_comparable (m_head m) (bb ++ c :: d) _ (prefix_app _ _) Pw H) as [rest Eb]. rewrite <- Eb, (find_app_ext _ _ rest p F) in Ef. discriminate. }
      unfold blen in *. replace (o_head o <? 1)%Z with false by lia. replace (Z.of_nat (List.length (bb ++ c :: d)) <=? o_head o)%Z with true by lia. exact Cl.
  - (* RunHR *)
    destruct (nth_error (c_hrs s) j) as [t|] eqn:Ej; [|discriminate].
    destruct P as [bb h a A1 A2 A3 A4 A5 A6 A7 A8 A9 A10 A11 A12|m rest h a l A1 A2 A3 A4 A5 A6 A7 A8 A9 A10 A11 A12 A13|rest len h a l A1 A2 A3 A4 A5 A6 A7 A8 A9 A10 A11 A12 A13|k' h a l mk A1 A2 A3 A4 A5 A6 A7 A8 A9 A10 A11 A12 A13].
    + rewrite A3 in Ej. apply nth_error_In, repeat_spec in Ej. subst t. discriminate.
    + rewrite A3 in Ej. destruct (nth_over _ _ _ _ _ Ej) as [[-> _]|[Lj Ej2]]; [discriminate|]. destruct (j - h) as [|x] eqn:Dj; [|destruct x; discriminate]. assert (j = h) as -> by lia. injection Ej2 as <-.
      pose proof (proj1 (Forall_forall _ _) Mok m (nth_error_In _ _ A2)) as (p & r & F & L & Lo' & Fr & Rl). pose proof (proj1 (Forall_forall _ _) Mfit m (nth_error_In _ _ A2)) as (_ & Fb & Fk).
      assert (rq_keepalive r = true) as Kr by (apply Fk; unfold parsed; now rewrite F, Fr).
      assert (blen (m_head m) - 2 = Z.of_nat p + 2)%Z as Ep by (unfold blen; lia). assert (run_hr o h (m_head m ++ rest) (blen (m_head m) - 2) s = (s', bx)) as Er by congruence. unfold run_hr in Er. rewrite Ep, (frame_head_ext m p rest F L), Fr in Er. cbn zeta in Er.
      match type of Er with context [if has_body r then ?x else _] => set (s1 := x) in Er end.
      set (s2 := if has_body r then s1 else put0 (Some []) s1) in Er. assert (all_keep s2) as K2.
      { apply (keep_eq s1); [unfold s2; now destruct (has_body r)|]. intros i q Eq. unfold s1 in Eq. csimp_in Eq. apply nth_snoc in Eq as [Eq|[_ ->]]; [now apply (K i)|exact Kr]. }
      assert (c_closing s2 = false) as C2 by (unfold s2; destruct (has_body r); exact Cl).
      destruct (has_body r || _)%bool eqn:Hb.
      * assert (s' = fst (hr_put o h (List.length (c_reqs s)) (from (m_head m ++ rest) (Z.of_nat p + 2 + 2)) (blen (from (m_head m ++ rest) (Z.of_nat p + 2 + 2))) s2)) as -> by now rewrite Er.
        split; [now apply hr_open|]. apply hr_keep; [exact K2|]. intros Er0 i q Ec Eq. rewrite Er0. assert (c_cur s2 = Some (List.length (c_reqs s))) as Ec2 by (unfold s2; destruct (has_body r); reflexivity).
        assert (c_reqs s2 = c_reqs s1) as R2 by (unfold s2; now destruct (has_body r)). rewrite Ec2 in Ec. injection Ec as <-. rewrite R2 in Eq. unfold s1 in Eq. csimp_in Eq. rewrite nth_error_app2, Nat.sub_diag in Eq by lia. injection Eq as <-. cbn [q_size q_info]. right. unfold blen. cbn. exact Ob.
      * assert (s' = fst (start_handler (List.length (c_reqs s)) (set_hrs (put_at h HOver (c_hrs s2)) s2))) as -> by now rewrite Er. split; [rewrite start_closing; exact C2|]. apply start_keep. exact K2.
    + rewrite A2 in Ej. destruct (nth_over _ _ _ _ _ Ej) as [[-> _]|[Lj Ej2]]; [discriminate|]. destruct (j - h) as [|x] eqn:Dj; [|destruct x; discriminate]. assert (j = h) as -> by lia. injection Ej2 as <-.
      assert (s' = fst (hr_put o h k rest len s)) as -> by (assert (hr_put o h k rest len s = (s', bx)) as -> by congruence; reflexivity). split; [now apply hr_open|]. apply hr_keep; [exact K|]. intros -> i r Ec Er.
      destruct A13 as (m & r' & ds & Em & Er' & E0 & Erec & (_ & _ & Is) & _). assert (i = k) as -> by (rewrite (cm_cur _ _ _ _ _ _ C), <- (cm_n _ _ _ _ _ _ C), A6 in Ec; congruence). rewrite Er in Er'. injection Er' as <-.
      apply (size_ok k m r b ds l rec (WFut (cf s)) a len); try assumption; [now apply (cm_reqs _ _ _ _ _ _ C k r Er)|now apply ended_rep].
    + rewrite A3 in Ej. apply nth_error_In, repeat_spec in Ej. subst t. discriminate.
  - (* RunRcv *)
    assert (exists rest len, s' = rcv_put o j rest len s /\ (rest = [] -> exists rs ln, nth_error (c_rcv s) j = Some (RPut rs ln) /\ rs = rest /\ ln = len \/ nth_error (c_rcv s) j = Some (RWait (WFut 0) []) \/ exists w, nth_error (c_rcv s) j = Some (RWait w []))) as (rest & len & -> & Hr).
    { destruct (nth_error (c_rcv s) j) as [[w d|rs ln|]|]; try discriminate.
      - destruct (w_done w s); [|discriminate]. exists d, (blen d). split; [congruence|]. intros ->. exists [], 0%Z. right. right. now exists w.
      - exists rs, ln. split; [congruence|]. intros Ers. exists rs, ln. now left. }
    split; [now apply rcv_open|]. apply rcv_keep; [exact K|]. intros -> i r Ec Er. destruct (Hr eq_refl) as (rs & ln & Hn).
    assert (forall w a l, c_rcv s = repeat ROver a ++ l -> waits w a l -> False) as NoRun.
    { intros w a l R W. assert (forall t, nth_error (c_rcv s) j = Some t -> t = ROver \/ exists w' d, t = RWait w' d /\ d <> []) as Kt.
      { intros t Et. rewrite R in Et. destruct (nth_over _ _ _ _ _ Et) as [[-> _]|[La El]]; [now left|right]. destruct (j - a) as [|x].
        - destruct l as [|t' l]; [discriminate|]. injection El as ->. destruct t as [w' d|? ?|]; [|destruct W|destruct W]. exists w', d. split; [reflexivity|apply W].
        - destruct (waits_nth _ _ _ _ _ W El) as (d & -> & Nd). now exists (WTask (a + x)), d. }
      destruct Hn as [(Hn & _)|[Hn|(w' & Hn)]]; destruct (Kt _ Hn) as [X|(w2 & d2 & X & Nd)]; try discriminate; injection X as _ <-; now apply Nd. }
    destruct P as [bb h a A1 A2 A3 A4 A5 A6 A7 A8 A9 A10 A11 A12|m rest h a l A1 A2 A3 A4 A5 A6 A7 A8 A9 A10 A11 A12 A13|rest len' h a l A1 A2 A3 A4 A5 A6 A7 A8 A9 A10 A11 A12 A13|k' h a l mk A1 A2 A3 A4 A5 A6 A7 A8 A9 A10 A11 A12 A13].
    + exfalso. apply (NoRun (WFut 0) a []); [now rewrite app_nil_r|exact Logic.I].
    + exfalso. apply (NoRun _ a l A4 A5).
    + exfalso. apply (NoRun _ a l A3 A4).
    + subst k. destruct A6 as [W|[[_ W]|(rs' & ln' & l' & El & Ln & W)]]; [exfalso; apply (NoRun _ a l A4 W)|exfalso; apply (NoRun _ a l A4 W)|].
      assert (nth_error (c_rcv s) j = Some (RPut [] len)) as Hn'.
      { destruct Hn as [(Hn & -> & ->)|Hn]; [exact Hn|]. exfalso. assert (exists w, nth_error (c_rcv s) j = Some (RWait w [])) as (w & Hw') by (destruct Hn as [Hn|Hn]; [now exists (WFut 0)|exact Hn]). rewrite A4, El in Hw'.
        destruct (nth_over _ _ _ _ _ Hw') as [[X _]|[La El']]; [discriminate X|]. destruct (j - a) as [|x]; [discriminate El'|]. cbn [nth_error] in El'. destruct x as [|x].
        - destruct l' as [|t l']; [discriminate|]. injection El' as ->. destruct W as (_ & Nd & _). now apply Nd.
        - destruct (waits_nth _ _ _ _ _ W El') as (d & X & Nd). injection X as _ <-. now apply Nd. }
      rewrite A4, El in Hn'. destruct (nth_over _ _ _ _ _ Hn') as [[X _]|[La El']]; [discriminate X|]. destruct (j - a) as [|x].
      * cbn [nth_error] in El'. injection El' as -> ->. destruct A13 as (m & r' & ds & Em & Er' & E0 & Erec & (_ & _ & Is) & _).
        assert (i = k') as -> by (rewrite (cm_cur _ _ _ _ _ _ C), <- (cm_n _ _ _ _ _ _ C), A7 in Ec; congruence). rewrite Er in Er'. injection Er' as <-. rewrite El in Erec, Is. change (pend (RPut [] len :: l')) with (pend l') in Erec, Is. cbn [lens len1] in Is.
        apply (size_ok k' m r b ds l' rec (WTask a) (S a) len); try assumption; [now apply (cm_reqs _ _ _ _ _ _ C k' r Er)|now apply ended_rep1|lia].
      * cbn [nth_error] in El'. exfalso. destruct x as [|x].
        -- destruct l' as [|t l']; [discriminate|]. injection El' as ->. destruct W.
        -- destruct (waits_nth _ _ _ _ _ W El') as (d & X & _). discriminate X.
  - (* RunSend *)
    destruct kicked; [contradiction|]. unfold run_send in E. rewrite (cm_sending _ _ _ _ _ _ C) in E. destruct (c_q1 s) as [|[d|] q] eqn:Eq; [discriminate| |].
    { assert (s' = set_q1 q s) as -> by congruence. split; [exact Cl|exact K]. }
    csimp_in E. assert (nones (c_q1 s) = S (nones q)) as Nq by now rewrite Eq.
    destruct P as [bb h a A1 A2 A3 A4 A5 A6 A7 A8 A9 A10 A11 A12|m rest h a l A1 A2 A3 A4 A5 A6 A7 A8 A9 A10 A11 A12 A13|rest len h a l A1 A2 A3 A4 A5 A6 A7 A8 A9 A10 A11 A12 A13|k' h a l mk A1 A2 A3 A4 A5 A6 A7 A8 A9 A10 A11 A12 A13].
    + exfalso. destruct (pending_one ak s) as (j & Hj & X); [lia|]. destruct (asked_active ak s b j Ci Hj X). pose proof (ended_rep b k A8). lia.
    + exfalso. destruct (pending_one ak s) as (j & Hj & X); [lia|]. destruct (asked_active ak s b j Ci Hj X). pose proof (ended_rep b k A9). lia.
    + exfalso. destruct (pending_one ak s) as (j & Hj & X); [lia|]. destruct (asked_active ak s b j Ci Hj X). pose proof (ended_rep b k A7). lia.
    + subst k. rewrite (cm_cur _ _ _ _ _ _ C), <- (cm_n _ _ _ _ _ _ C), A7 in E. destruct A13 as (m & r & ds & Em & Er & E0 & Erec & (Is1 & Is2 & Is) & Ib). rewrite Er, A2, (K k' r Er) in E. cbn [andb] in E.
      assert (s' = keepalive o false k' r (set_q1 q s)) as -> by congruence. destruct (cm_reqs _ _ _ _ _ _ C k' r Er) as ((m' & Em' & _ & Ru & _ & Rcl & Rhb & _ & Rb) & _). rewrite Em in Em'. injection Em' as <-.
      unfold keepalive. cbn [andb]. rewrite Ru, Rhb. destruct (q_cont r) eqn:Qc.
      * destruct (on_req_misc k' (set_cont false) (set_q1 q s)) as (B1 & _). split; [csimp; rewrite B1; exact Cl|]. apply (keep_eq (on_req k' (set_cont false) (set_q1 q s))); [reflexivity|]. apply keep_on_req; [now intros|exact K].
      * cbn zeta. destruct (on_req_misc k' clear_body (set_q1 q s)) as (B1 & _ & B3 & _). assert (all_keep (on_req k' clear_body (set_q1 q s))) as K2 by (apply keep_on_req; [now intros|exact K]).
        destruct (m_has m) eqn:Mc; [split; [csimp; rewrite B1; exact Cl|exact K2]|]. rewrite refeed_empty; [split; [csimp; rewrite B1; exact Cl|exact K2]|].
        csimp. rewrite B3. csimp. rewrite E0. destruct Ib as (Ig & -> & _). rewrite app_nil_r. apply Forall_map, Forall_forall. intros d Hd'. right. f_equal.
        destruct Hw as (j & Pj & Lj). rewrite (ended_rep1 _ _ A8) in Lj. rewrite Ig in Erec. cbn [app] in Erec. rewrite Erec in Pj.
        assert (is_prefix (List.concat ds ++ pend l) []) as Pn.
        { apply (prefix_cancel (m_head m)), (prefix_cancel (upto_msg M k')). apply (prefix_trans _ _ _ Pj). pose proof (upto_msg_mono M j (S k') Lj) as H. rewrite (upto_msg_S M k' m Em) in H. unfold wire in H. rewrite (Rb eq_refl) in H. exact H. }
        apply prefix_length in Pn. rewrite app_length in Pn. cbn [List.length] in Pn. assert (List.concat ds = []) as Z by (destruct (List.concat ds); [reflexivity|cbn in Pn; lia]).
        apply in_split in Hd' as (x & y & ->). rewrite concat_app in Z. cbn [List.concat] in Z. apply app_eq_nil in Z as [_ Z]. now apply app_eq_nil in Z.
  - (* HRead *)
    destruct (live s i) as [r|]; [|discriminate]. destruct (q_eof r); [assert (s' = s) as -> by congruence; now split|]. destruct (_ <? _)%Z eqn:Lm; [discriminate|]. unfold send_continue in E. destruct (q_cont r); [rewrite Lm in E|].
    + assert (s' = on_req i set_reading (put1 None (put1 (Some (continue_100 r)) s))) as -> by congruence. destruct (on_req_misc i set_reading (put1 None (put1 (Some (continue_100 r)) s))) as (-> & _). split; [exact Cl|]. now apply keep_on_req.
    + assert (s' = on_req i set_reading s) as -> by congruence. destruct (on_req_misc i set_reading s) as (-> & _). split; [exact Cl|]. now apply keep_on_req.
  - (* HTake *)
    destruct (live s i) as [r|]; [|discriminate]. destruct (_ && _)%bool; [|discriminate]. destruct (c_q0 s) as [|[d|] l]; [discriminate| |].
    + assert (s' = on_req i (set_used (q_used r + blen d)) (set_q0 l s)) as -> by congruence. destruct (on_req_misc i (set_used (q_used r + blen d)) (set_q0 l s)) as (-> & _). split; [exact Cl|]. now apply keep_on_req.
    + assert (s' = on_req i set_qeof (set_q0 l s)) as -> by congruence. destruct (on_req_misc i set_qeof (set_q0 l s)) as (-> & _). split; [exact Cl|]. now apply keep_on_req.
  - (* HPut *)
    destruct (live s i) as [r|]; [|discriminate]. assert (s' = put1 (Some d) s) as -> by congruence. now split.
  - (* HClose *)
    destruct keep; [|contradiction]. destruct (live s i) as [r|]; [|discriminate]. assert (s' = put1 None s) as -> by congruence. now split.
  - (* HContinue *)
    destruct (live s i) as [r|]; [|discriminate]. unfold send_continue in E. destruct (q_cont r); [|assert (s' = s) as -> by congruence; now split].
    destruct (_ <? _)%Z; [discriminate|]. assert (s' = put1 None (put1 (Some (continue_100 r)) s)) as -> by congruence. now split.
  - (* HEnd *)
    destruct (live s i) as [r|]; [|discriminate]. assert (s' = on_req i (set_live false) s) as -> by congruence. destruct (on_req_misc i (set_live false) s) as (-> & _). split; [exact Cl|]. now apply keep_on_req.
Qed.

Lemma stays_open tr : forall s b, conn_run o conn_new tr = Some (s, b) -> client_ok o M tr -> client_waits o M tr -> calm o M tr -> handlers_ok o M tr -> wanted tr -> keeps_up o tr ->
  c_closing s = false /\ c_lost s = false /\ all_keep s.
Proof.
  induction tr as [|e tr IH] using rev_ind; intros s b E Hc Hw Hm Hh Hp Hk.
  - injection E as <- <-. split; [reflexivity|]. split; [reflexivity|]. intros [|i] r X; discriminate X.
  - pose proof E as E0. rewrite conn_run_app in E. destruct (conn_run o conn_new tr) as [[s1 b1]|] eqn:E1; [|discriminate]. cbn [conn_run] in E. destruct (conn_step o s1 e) as [[s2 b2]|] eqn:E2; [|discriminate]. assert (s2 = s) as -> by congruence. assert (b = b1 ++ b2) as -> by (rewrite app_nil_r in E; congruence). clear E.
    destruct (prefix_ok o M tr e Hc Hh (or_intror (conj Hw Hm))) as (Hc1 & Hh1 & _). apply Forall_app in Hp as [Hp1 Hp2]. inversion_clear Hp2 as [|? ? He _].
    assert (client_waits o M tr) as Hw1 by (intros pre d post s3 b3 Et; apply (Hw pre d (post ++ [e]) s3 b3); rewrite Et, <- app_assoc; reflexivity).
    assert (calm o M tr) as Hm1 by (intros pre kicked post s3 b3 s4 b4 m Et; apply (Hm pre kicked (post ++ [e]) s3 b3 s4 b4 m); rewrite Et, <- app_assoc; reflexivity).
    assert (keeps_up o tr) as Hk1 by (intros pre post s3 b3 Et; apply (Hk pre (post ++ [e]) s3 b3); rewrite Et, <- app_assoc; reflexivity).
    destruct (IH s1 b1 eq_refl Hc1 Hw1 Hm1 Hh1 Hp1 Hk1) as (Cl & Lo & K).
    pose proof (run_inv o M Mok Ook tr s1 b1 E1 Cl Hc1 Hh1 (or_intror (conj Hw1 Hm1))) as I.
    assert (c_closing s = false /\ all_keep s) as [Cl' K'].
    { apply (step_open (closers tr) (askers tr) (input tr) s1 b1 e s b2 I K E2).
      - intros d ->. exact (Hw tr d [] s1 b1 eq_refl E1).
      - exact (waits_prefix o M tr s1 b1 E1 Hw1).
      - destruct e; try exact He; try exact Logic.I. destruct Hh as (_ & _ & _ & Hu & _). apply (Hu i). apply in_or_app. right. now left.
      - exact (Hk (tr ++ [e]) [] s (b1 ++ b2) (eq_sym (app_nil_r _)) E0). }
    split; [exact Cl'|]. split; [|exact K'].
    assert (Inv M (closers (tr ++ [e])) (askers (tr ++ [e])) (input (tr ++ [e])) s (b1 ++ b2)) as (k & n & C & _) by exact (run_inv o M Mok Ook (tr ++ [e]) s _ E0 Cl' Hc Hh (or_intror (conj Hw Hm))).
    exact (cm_lost _ _ _ _ _ _ C).
Qed.
End Open.
