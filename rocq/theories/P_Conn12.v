(** When the server ends a connection, it does so after a whole response (C83). *)
From Verif Require Import PyBytes PyBytesFacts PyInt PyExn M_Parser M_Framing M_Conn S_Conn S_Open S_Close P_Parser2 P_Conn P_Conn2 P_Conn3 P_Conn4 P_Conn5 P_Conn6 P_Conn7 P_Conn8 P_Conn9 P_Conn10 P_Conn11 P_Exchange T_Conn.

(** Why a request may not be kept. *)
Definition why (P : nat -> hreq -> Prop) (s : conn) : Prop := forall i r, nth_error (c_reqs s) i = Some r -> q_keep r = false -> P i (q_info r).
Lemma why_eq P s s' : c_reqs s' = c_reqs s -> why P s -> why P s'.
Proof. unfold why. now intros ->. Qed.
Lemma why_on_req P i f s : (forall r, q_keep (f r) = q_keep r /\ q_info (f r) = q_info r) -> why P s -> why P (on_req i f s).
Proof.
  intros F H j r E K. rewrite on_req_nth in E. destruct (i =? j)%nat; [|now apply (H j)]. destruct (nth_error (c_reqs s) j) as [r0|] eqn:E0; [|discriminate]. injection E as <-. destruct (F r0) as [F1 F2]. rewrite F2. apply (H j r0 E0). now rewrite <- F1.
Qed.
Lemma start_why P i s : why P s -> why P (fst (start_handler i s)).
Proof.
  intros H. unfold start_handler. cbn [fst]. apply why_on_req; [now intros r|]. apply (why_eq P s); [|exact H]. now rewrite (proj1 (set_done_reqs _ _)), (proj1 (set_done_reqs _ _)).
Qed.
Lemma start_q1 i s : c_q1 (fst (start_handler i s)) = c_q1 s.
Proof. apply (start_work i s). Qed.
Definition size_fine (o : copts) (len : Z) (s : conn) : Prop :=
  forall i r, c_cur s = Some i -> nth_error (c_reqs s) i = Some r -> (hmem k_content_length (rq_headers (q_info r)) && (rq_content_length (q_info r) <=? q_size r + len)%Z = true \/ q_size r + len < o_body o)%Z.
Lemma put_end_why P o len s : why P s -> size_fine o len s -> why P (put_end o len s) /\ c_q1 (put_end o len s) = c_q1 s.
Proof.
  intros H F. unfold put_end. destruct (c_cur s) as [i|] eqn:Ec; [|now split]. destruct (nth_error (c_reqs s) i) as [r|] eqn:Er; [|now split]. destruct (q_upg r); [now split|]. cbn zeta.
  assert (why P (set_reqs (put_at i (set_size (q_size r + len) r) (c_reqs s)) (Some i) s)) as K.
  { intros j r' E. csimp_in E. rewrite nth_put in E. destruct (i =? j)%nat eqn:Ej; [|now apply (H j)]. apply Nat.eqb_eq in Ej. subst j. rewrite Er in E. injection E as <-. apply (H i r Er). }
  change (q_size (set_size (q_size r + len) r)) with (q_size r + len)%Z.
  destruct (hmem k_content_length (rq_headers (q_info r)) && (rq_content_length (q_info r) <=? q_size r + len)%Z)%bool eqn:A; [now split|].
  destruct (F i r Ec Er) as [X|X]; [congruence|]. apply Z.ltb_lt in X. rewrite X. now split.
Qed.
Lemma hr_why P o j i rest len s : why P s -> (rest = [] -> size_fine o len s) -> why P (fst (hr_put o j i rest len s)) /\ c_q1 (fst (hr_put o j i rest len s)) = c_q1 s.
Proof.
  intros H F. unfold hr_put. destruct rest as [|c rest].
  - rewrite start_q1. destruct (put_end_why P o len s H (F eq_refl)) as [A B]. split; [now apply start_why|exact B].
  - unfold put_round. cbn zeta. destruct (_ <? _)%Z; [rewrite start_q1; split; [apply start_why|reflexivity]|split]; trivial.
Qed.
Lemma rcv_why P o j rest len s : why P s -> (rest = [] -> size_fine o len s) -> why P (rcv_put o j rest len s) /\ c_q1 (rcv_put o j rest len s) = c_q1 s.
Proof.
  intros H F. unfold rcv_put. destruct rest as [|c rest].
  - change (c_q1 s) with (c_q1 (set_rcv (put_at j ROver (c_rcv s)) s)). apply put_end_why; [exact H|now apply F].
  - unfold put_round. cbn zeta. destruct (_ <? _)%Z; split; trivial.
Qed.

Section Close.
Context (o : copts) (M : list msg) (Mok : Forall (msg_ok o) M) (Ook : opts_ok o) (Mfit : Forall (sized o) M) (Ob : (0 < o_body o)%Z) (Mex : Forall (fun m => expects m = false) M).

(** The sizes that put_end sees. *)
Lemma size_ok i m r b ds l rec w a len :
  nth_error M i = Some m -> req_ok M i r -> ended b = i -> (exists j, is_prefix rec (upto_msg M j) /\ j <= S (ended b)) ->
  rec = upto_msg M i ++ m_head m ++ got i b ++ List.concat ds ++ [] ++ pend l -> waits w a l -> (q_size r + len + lens l = blen (got i b ++ List.concat ds ++ [] ++ pend l))%Z ->
  (hmem k_content_length (rq_headers (q_info r)) && (rq_content_length (q_info r) <=? q_size r + len)%Z = true \/ q_size r + len < o_body o)%Z.
Proof.
  intros Em (m' & Em' & _ & _ & _ & Rcl & _ & Rlen & Rb) Eb (j & Pj & Lj) Er W Es. rewrite Em in Em'. injection Em' as <-.
  assert (is_prefix (got i b ++ List.concat ds ++ [] ++ pend l) (m_body m)) as P.
  { rewrite Er in Pj. apply (prefix_cancel (m_head m)), (prefix_cancel (upto_msg M i)). apply (prefix_trans _ _ _ Pj). rewrite Eb in Lj. pose proof (upto_msg_mono M j (S i) Lj) as H. rewrite (upto_msg_S M i m Em) in H. exact H. }
  rewrite (waits_lens _ _ _ W) in Es. apply prefix_length in P. pose proof (proj1 (Forall_forall _ _) Mfit m (nth_error_In _ _ Em)) as (_ & Fb).
  unfold blen in *. rewrite !app_length in *. cbn [List.length] in *. rewrite Rcl. destruct (counted m) eqn:Mc; cbn [andb].
  - rewrite (proj2 (Rlen eq_refl)). destruct (Z.leb_spec (Z.of_nat (List.length (m_body m))) (q_size r + len)); [now left|right; lia].
  - right. lia.
Qed.

Lemma no_cont nc ak rec s b i r : Inv M nc ak rec s b -> nth_error (c_reqs s) i = Some r -> q_cont r = false.
Proof.
  intros (k & n & C & _ & _ & Ci) Er. destruct (q_cont r) eqn:Q; [|reflexivity]. destruct (ci_info _ _ _ Ci i r Er) as [X _]. specialize (X Q). destruct (cm_reqs _ _ _ _ _ _ C i r Er) as ((m & Em & _ & _ & Pm & _) & _).
  pose proof (proj1 (Forall_forall _ _) Mex m (nth_error_In _ _ Em)) as E. cbn beta in E. unfold expects in E. rewrite Pm in E. congruence.
Qed.
Lemma no_pending nc ak rec s b : Inv M nc ak rec s b -> pending ak s = 0.
Proof. intros I. apply pending_no. intros i _. unfold cont. destruct (nth_error (c_reqs s) i) as [r|] eqn:E; [|reflexivity]. exact (no_cont nc ak rec s b i r I E). Qed.

(** Only the sender ends the connection. *)
Lemma step_near P nc ak rec s b e s' bx : Inv M nc ak rec s b -> why P s -> conn_step o s e = Some (s', bx) ->
  (forall d, e = Data d -> exists j, is_prefix (rec ++ d) (upto_msg M j) /\ j <= S (ended b)) ->
  (exists j, is_prefix rec (upto_msg M j) /\ j <= S (ended b)) ->
  match e with Eof | Abort | Lost | RunSend _ | HUpgrade _ => False | _ => True end ->
  (Z.of_nat (List.length (c_q0 s')) <= o_queue o)%Z ->
  (forall i r, e = HClose i false -> P i r) -> (forall i r, rq_keepalive r = false -> P i r) ->
  c_closing s' = false /\ why P s' /\ nones (c_q1 s') = nones (c_q1 s) + List.length (closers [e]).
Proof.
  intros I K E Hd Hw He Hq Pc Pk. pose proof I as (k & n & C & P0 & B & Ci). pose proof (cm_closing _ _ _ _ _ _ C) as Cl. pose proof (phase_k M nc s b k n C) as Lk. pose proof (starts_k M nc s b k n C) as Ls.
  unfold conn_step in E. rewrite (cm_lost _ _ _ _ _ _ C) in E.
  destruct e; try contradiction.
  - (* Data *)
    destruct (c_paused s || c_closing s)%bool; [discriminate|]. destruct d as [|c d]; [discriminate|]. apply pair_some in E as [-> ->]. cut (c_closing (data_received o (Some (c :: d)) s) = false); [intros X; split; [exact X|]; split; [apply (why_eq _ s); [apply data_reqs|exact K]|rewrite data_q1; cbn; lia]|].
    destruct (Hd _ eq_refl) as (j & Pj & Lj). unfold data_received. destruct (c_hb s) as [bb|] eqn:Eh; [|destruct (match c_wrecv s with Some w => Some w | None => _ end); exact Cl].
    destruct P0 as [bb' h a A1 A2 A3 A4 A5 A6 A7 A8 A9 A10 A11 A12|m rest h a l A1 _ _ _ _ _ _ _ _ _ _ _ _|rest len h a l A1 _ _ _ _ _ _ _ _ _ _ _ _|k' h a l mk _ A2 _ _ _ _ _ _ _ _ _ _ _]; [|rewrite A1 in Eh; discriminate|rewrite A1 in Eh; discriminate|rewrite A2 in Eh; discriminate].
    rewrite A1 in Eh. injection Eh as ->. rewrite A10, <- app_assoc in Pj. destruct (next_msg M k (bb ++ c :: d) j) as (Lkj & m & Em & t & Pw & _); [now destruct bb|exact Pj|].
    pose proof (proj1 (Forall_forall _ _) Mok m (nth_error_In _ _ Em)) as Mm. pose proof (proj1 (Forall_forall _ _) Mfit m (nth_error_In _ _ Em)) as (Fh & _).
    cbn zeta. destruct (find (CRLF ++ CRLF) (bb ++ c :: d)) as [p|] eqn:Ef.
    + destruct (head_of_prefix o M m (bb ++ c :: d) j k p Mm Em Pj Ef) as (rest & _ & _ & Lp). cbn [pos]. replace ((1 <? Z.of_nat p + 2)%Z && (Z.of_nat p + 2 <=? o_head o)%Z)%bool with true by lia. exact Cl.
    + cbn [pos]. change (-1 + 2)%Z with 1%Z. cbn [Z.ltb Z.compare Pos.compare Pos.compare_cont andb Z.eqb Pos.eqb].
      destruct Mm as (p & r & F & L & Lo & _). assert (List.length (bb ++ c :: d) < List.length (m_head m)) as Ll.
      { destruct (Nat.le_gt_cases (List.length (m_head m)) (List.length (bb ++ c :: d))) as [H|H]; [|exact H]. exfalso. unfold wire in Pw. rewrite <- app_assoc in Pw.
        destruct (prefix_comparable (m_head m) (bb ++ c :: d) _ (prefix_app _ _) Pw H) as [rest Eb]. rewrite <- Eb, (find_app_ext _ _ rest p F) in Ef. discriminate. }
      unfold blen in *. replace (o_head o <? 1)%Z with false by lia. replace (Z.of_nat (List.length (bb ++ c :: d)) <=? o_head o)%Z with true by lia. exact Cl.
  - (* RunHR *)
    destruct (nth_error (c_hrs s) j) as [t|] eqn:Ej; [|discriminate].
    destruct P0 as [bb h a A1 A2 A3 A4 A5 A6 A7 A8 A9 A10 A11 A12|m rest h a l A1 A2 A3 A4 A5 A6 A7 A8 A9 A10 A11 A12 A13|rest len h a l A1 A2 A3 A4 A5 A6 A7 A8 A9 A10 A11 A12 A13|k' h a l mk A1 A2 A3 A4 A5 A6 A7 A8 A9 A10 A11 A12 A13].
    + rewrite A3 in Ej. apply nth_error_In, repeat_spec in Ej. subst t. discriminate.
    + rewrite A3 in Ej. destruct (nth_over _ _ _ _ _ Ej) as [[-> _]|[Lj Ej2]]; [discriminate|]. destruct (j - h) as [|x] eqn:Dj; [|destruct x; discriminate]. assert (j = h) as -> by lia. injection Ej2 as <-.
      pose proof (proj1 (Forall_forall _ _) Mok m (nth_error_In _ _ A2)) as (p & r & F & L & Lo' & Fr & Rl). pose proof (proj1 (Forall_forall _ _) Mfit m (nth_error_In _ _ A2)) as (_ & Fb).
      assert (blen (m_head m) - 2 = Z.of_nat p + 2)%Z as Ep by (unfold blen; lia). assert (run_hr o h (m_head m ++ rest) (blen (m_head m) - 2) s = (s', bx)) as Er by congruence. unfold run_hr in Er. rewrite Ep, (frame_head_ext m p rest F L), Fr in Er. cbn zeta in Er.
      match type of Er with context [if has_body r then ?x else _] => set (s1 := x) in Er end.
      set (s2 := if has_body r then s1 else put0 (Some []) s1) in Er. assert (why P s2) as K2.
      { apply (why_eq _ s1); [unfold s2; now destruct (has_body r)|]. intros i q Eq Kq. unfold s1 in Eq. csimp_in Eq. apply nth_snoc in Eq as [Eq|[_ ->]]; [now apply (K i)|apply Pk; exact Kq]. }
      assert (c_q1 s2 = c_q1 s) as Q2 by (unfold s2; destruct (has_body r); reflexivity).
      assert (c_closing s2 = false) as C2 by (unfold s2; destruct (has_body r); exact Cl).
      destruct (has_body r || _)%bool eqn:Hb.
      * assert (s' = fst (hr_put o h (List.length (c_reqs s)) (from (m_head m ++ rest) (Z.of_nat p + 2 + 2)) (blen (from (m_head m ++ rest) (Z.of_nat p + 2 + 2))) s2)) as -> by now rewrite Er.
        split; [now apply hr_open|]. rewrite <- Q2. cut (why P (fst (hr_put o h (List.length (c_reqs s)) (from (m_head m ++ rest) (Z.of_nat p + 2 + 2)) (blen (from (m_head m ++ rest) (Z.of_nat p + 2 + 2))) s2)) /\ c_q1 (fst (hr_put o h (List.length (c_reqs s)) (from (m_head m ++ rest) (Z.of_nat p + 2 + 2)) (blen (from (m_head m ++ rest) (Z.of_nat p + 2 + 2))) s2)) = c_q1 s2); [intros [X1 X2]; split; [exact X1|rewrite X2; cbn; lia]|]. apply hr_why; [exact K2|]. intros Er0 i q Ec Eq. rewrite Er0. assert (c_cur s2 = Some (List.length (c_reqs s))) as Ec2 by (unfold s2; destruct (has_body r); reflexivity).
        assert (c_reqs s2 = c_reqs s1) as R2 by (unfold s2; now destruct (has_body r)). rewrite Ec2 in Ec. injection Ec as <-. rewrite R2 in Eq. unfold s1 in Eq. csimp_in Eq. rewrite nth_error_app2, Nat.sub_diag in Eq by lia. injection Eq as <-. cbn [q_size q_info]. right. unfold blen. cbn. exact Ob.
      * assert (s' = fst (start_handler (List.length (c_reqs s)) (set_hrs (put_at h HOver (c_hrs s2)) s2))) as -> by now rewrite Er. split; [rewrite start_closing; exact C2|]. split; [apply start_why; exact K2|]. rewrite start_q1. csimp. rewrite Q2. cbn. lia.
    + rewrite A2 in Ej. destruct (nth_over _ _ _ _ _ Ej) as [[-> _]|[Lj Ej2]]; [discriminate|]. destruct (j - h) as [|x] eqn:Dj; [|destruct x; discriminate]. assert (j = h) as -> by lia. injection Ej2 as <-.
      assert (s' = fst (hr_put o h k rest len s)) as -> by (assert (hr_put o h k rest len s = (s', bx)) as -> by congruence; reflexivity). split; [now apply hr_open|]. cut (why P (fst (hr_put o h k rest len s)) /\ c_q1 (fst (hr_put o h k rest len s)) = c_q1 s); [intros [X1 X2]; split; [exact X1|rewrite X2; cbn; lia]|]. apply hr_why; [exact K|]. intros -> i r Ec Er.
      destruct A13 as (m & r' & ds & Em & Er' & E0 & Erec & (_ & _ & Is) & _). assert (i = k) as -> by (rewrite (cm_cur _ _ _ _ _ _ C), <- (cm_n _ _ _ _ _ _ C), A6 in Ec; congruence). rewrite Er in Er'. injection Er' as <-.
      apply (size_ok k m r b ds l rec (WFut (cf s)) a len); try assumption; [now apply (cm_reqs _ _ _ _ _ _ C k r Er)|now apply ended_rep].
    + rewrite A3 in Ej. apply nth_error_In, repeat_spec in Ej. subst t. discriminate.
  - (* RunRcv *)
    assert (exists rest len, s' = rcv_put o j rest len s /\ (rest = [] -> exists rs ln, nth_error (c_rcv s) j = Some (RPut rs ln) /\ rs = rest /\ ln = len \/ nth_error (c_rcv s) j = Some (RWait (WFut 0) []) \/ exists w, nth_error (c_rcv s) j = Some (RWait w []))) as (rest & len & -> & Hr).
    { destruct (nth_error (c_rcv s) j) as [[w d|rs ln|]|]; try discriminate.
      - destruct (w_done w s); [|discriminate]. exists d, (blen d). split; [congruence|]. intros ->. exists [], 0%Z. right. right. now exists w.
      - exists rs, ln. split; [congruence|]. intros Ers. exists rs, ln. now left. }
    split; [now apply rcv_open|]. cut (why P (rcv_put o j rest len s) /\ c_q1 (rcv_put o j rest len s) = c_q1 s); [intros [X1 X2]; split; [exact X1|rewrite X2; cbn; lia]|]. apply rcv_why; [exact K|]. intros -> i r Ec Er. destruct (Hr eq_refl) as (rs & ln & Hn).
    assert (forall w a l, c_rcv s = repeat ROver a ++ l -> waits w a l -> False) as NoRun.
    { intros w a l R W. assert (forall t, nth_error (c_rcv s) j = Some t -> t = ROver \/ exists w' d, t = RWait w' d /\ d <> []) as Kt.
      { intros t Et. rewrite R in Et. destruct (nth_over _ _ _ _ _ Et) as [[-> _]|[La El]]; [now left|right]. destruct (j - a) as [|x].
        - destruct l as [|t' l]; [discriminate|]. injection El as ->. destruct t as [w' d|? ?|]; [|destruct W|destruct W]. exists w', d. split; [reflexivity|apply W].
        - destruct (waits_nth _ _ _ _ _ W El) as (d & -> & Nd). now exists (WTask (a + x)), d. }
      destruct Hn as [(Hn & _)|[Hn|(w' & Hn)]]; destruct (Kt _ Hn) as [X|(w2 & d2 & X & Nd)]; try discriminate; injection X as _ <-; now apply Nd. }
    destruct P0 as [bb h a A1 A2 A3 A4 A5 A6 A7 A8 A9 A10 A11 A12|m rest h a l A1 A2 A3 A4 A5 A6 A7 A8 A9 A10 A11 A12 A13|rest len' h a l A1 A2 A3 A4 A5 A6 A7 A8 A9 A10 A11 A12 A13|k' h a l mk A1 A2 A3 A4 A5 A6 A7 A8 A9 A10 A11 A12 A13].
    + exfalso. apply (NoRun (WFut 0) a []); [now rewrite app_nil_r|exact Logic.I].
    + exfalso. apply (NoRun _ a l A4 A5).
    + exfalso. apply (NoRun _ a l A3 A4).
    + subst k. destruct A6 as [W|[[_ W]|(rs' & ln' & l' & El & Ln & W)]]; [exfalso; apply (NoRun _ a l A4 W)|exfalso; apply (NoRun _ a l A4 W)|].
      assert (nth_error (c_rcv s) j = Some (RPut [] len)) as Hn'.
      { destruct Hn as [(Hn & -> & ->)|Hn]; [exact Hn|]. exfalso. assert (exists w, nth_error (c_rcv s) j = Some (RWait w [])) as (w & Hw') by (destruct Hn as [Hn|Hn]; [now exists (WFut 0)|exact Hn]). rewrite A4, El in Hw'.
        destruct (nth_over _ _ _ _ _ Hw') as [[X _]|[La El']]; [discriminate X|]. destruct (j - a) as [|x]; [discriminate El'|]. cbn [nth_error] in El'. destruct x as [|x].
        - destruct l' as [|t l']; [discriminate|]. injection El' as ->. destruct W as (_ & Nd & _). now apply Nd.
        - destruct (waits_nth _ _ _ _ _ W El') as (d & X & Nd). injection X as _ <-. now apply Nd. }
      rewrite A4, El in Hn'. destruct (nth_over _ _ _ _ _ Hn') as [[X _]|[La El']]; [discriminate X|]. destruct (j - a) as [|x].
      * cbn [nth_error] in El'. injection El' as -> ->. destruct A13 as (m & r' & ds & Em & Er' & E0 & Erec & (_ & _ & Is) & _).
        assert (i = k') as -> by (rewrite (cm_cur _ _ _ _ _ _ C), <- (cm_n _ _ _ _ _ _ C), A7 in Ec; congruence). rewrite Er in Er'. injection Er' as <-. rewrite El in Erec, Is. change (pend (RPut [] len :: l')) with (pend l') in Erec, Is. cbn [lens len1] in Is.
        apply (size_ok k' m r b ds l' rec (WTask a) (S a) len); try assumption; [now apply (cm_reqs _ _ _ _ _ _ C k' r Er)|now apply ended_rep1|lia].
      * cbn [nth_error] in El'. exfalso. destruct x as [|x].
        -- destruct l' as [|t l']; [discriminate|]. injection El' as ->. destruct W.
        -- destruct (waits_nth _ _ _ _ _ W El') as (d & X & _). discriminate X.
  - (* HRead *)
    destruct (live s i) as [r|] eqn:Lr; [|discriminate]. apply live_some in Lr as [Er _]. destruct (q_eof r); [assert (s' = s) as -> by congruence; now repeat split|]. destruct (_ <? _)%Z eqn:Lm; [discriminate|]. unfold send_continue in E. rewrite (no_cont _ _ _ _ _ _ _ I Er) in E.
    assert (s' = on_req i set_reading s) as -> by congruence. destruct (on_req_misc i set_reading s) as (-> & _ & _ & -> & _). split; [exact Cl|]. split; [now apply why_on_req|csimp; change (closers [_]) with (@nil nat); cbn [List.length]; lia].
  - (* HTake *)
    destruct (live s i) as [r|]; [|discriminate]. destruct (_ && _)%bool; [|discriminate]. destruct (c_q0 s) as [|[d|] l]; [discriminate| |].
    + assert (s' = on_req i (set_used (q_used r + blen d)) (set_q0 l s)) as -> by congruence. destruct (on_req_misc i (set_used (q_used r + blen d)) (set_q0 l s)) as (-> & _ & _ & -> & _). split; [exact Cl|]. split; [now apply why_on_req|csimp; change (closers [_]) with (@nil nat); cbn [List.length]; lia].
    + assert (s' = on_req i set_qeof (set_q0 l s)) as -> by congruence. destruct (on_req_misc i set_qeof (set_q0 l s)) as (-> & _ & _ & -> & _). split; [exact Cl|]. split; [now apply why_on_req|csimp; change (closers [_]) with (@nil nat); cbn [List.length]; lia].
  - (* HPut *)
    destruct (live s i) as [r|]; [|discriminate]. assert (s' = put1 (Some d) s) as -> by congruence. split; [exact Cl|]. split; [exact K|]. csimp. rewrite nones_app. cbn. lia.
  - (* HClose *)
    destruct (live s i) as [r|]; [|discriminate]. destruct keep.
    + assert (s' = put1 None s) as -> by congruence. split; [exact Cl|]. split; [exact K|]. csimp. rewrite nones_app. reflexivity.
    + assert (s' = put1 None (on_req i (set_keep false) s)) as -> by congruence. destruct (on_req_misc i (set_keep false) s) as (B1 & _ & _ & B4 & _). csimp. rewrite B1, B4. split; [exact Cl|]. split; [|rewrite nones_app; reflexivity].
      intros j r' Ej Kj. csimp_in Ej. rewrite on_req_nth in Ej. destruct (i =? j)%nat eqn:X; [apply Nat.eqb_eq in X; subst j; now apply Pc|now apply (K j)].
  - (* HContinue *)
    destruct (live s i) as [r|] eqn:Lr; [|discriminate]. apply live_some in Lr as [Er _]. unfold send_continue in E. rewrite (no_cont _ _ _ _ _ _ _ I Er) in E. assert (s' = s) as -> by congruence. now repeat split.
  - (* HEnd *)
    destruct (live s i) as [r|]; [|discriminate]. assert (s' = on_req i (set_live false) s) as -> by congruence. destruct (on_req_misc i (set_live false) s) as (-> & _ & _ & -> & _). split; [exact Cl|]. split; [now apply why_on_req|csimp; change (closers [_]) with (@nil nat); cbn [List.length]; lia].
Qed.

(** The sender either goes on, or ends the connection at the end of a response. *)
Lemma send_step P nc ak rec s b kicked s' bx : Inv M nc ak rec s b -> why P s -> conn_step o s (RunSend kicked) = Some (s', bx) ->
  (exists j, is_prefix rec (upto_msg M j) /\ j <= S (ended b)) ->
  (c_closing s' = false /\ why P s' /\ nones (c_q1 s') + ended bx = nones (c_q1 s)) \/
  (c_closing s' = true /\ bx = [Ended] /\ exists q r, c_q1 s = None :: q /\ List.length (starts b) = S (ended b) /\ nth_error (c_reqs s) (ended b) = Some r /\ (kicked = true \/ P (ended b) (q_info r))).
Proof.
  intros I K E Hw. pose proof (inv_phase M _ _ _ _ _ I) as Ph. pose proof I as (k & n & C & P0 & B & Ci). pose proof (cm_closing _ _ _ _ _ _ C) as Cl. pose proof (starts_k M nc s b k n C) as Ls.
  unfold conn_step in E. rewrite (cm_lost _ _ _ _ _ _ C) in E. unfold run_send in E. rewrite (cm_sending _ _ _ _ _ _ C) in E. destruct (c_q1 s) as [|[d|] q] eqn:Eq; [discriminate| |].
  { rewrite Cl in E. apply pair_some in E as [-> ->]. left. split; [exact Cl|]. split; [exact K|]. csimp. change (nones (Some d :: q)) with (nones q). cbn [ended filter List.length]. unfold ended. cbn. lia. }
  csimp_in E. change (nones (None :: q)) with (S (nones q)) in *.
  destruct Ph as [(P1 & P2 & _)|(P1 & P2 & P3 & P4 & P5 & P6 & r & P7 & P8)].
  { exfalso. pose proof (pigeon nc k (cm_nodup _ _ _ _ _ _ C) (fun j Hj => proj1 (cm_closers _ _ _ _ _ _ C j Hj))) as Ln. rewrite P2 in Ln || idtac. lia. }
  rewrite P3, P7, P2, andb_true_r in E. pose proof (no_cont _ _ _ _ _ _ _ I P7) as Qc. destruct (q_keep r) eqn:Qk.
  2: { apply pair_some in E as [-> ->]. right. split; [reflexivity|]. split; [reflexivity|]. exists q, r. repeat (split; [assumption || reflexivity|]). right. now apply K. }
  rewrite Qc in E. apply pair_some in E as [-> ->]. unfold keepalive. destruct (kicked && _)%bool eqn:Kk.
  { right. split; [reflexivity|]. split; [reflexivity|]. exists q, r. repeat (split; [assumption || reflexivity|]). left. now destruct kicked. }
  left. rewrite Qc. destruct (cm_reqs _ _ _ _ _ _ C _ r P7) as ((m & Em & _ & Ru & _ & Rcl & Rhb & _ & Rb) & _). rewrite Ru, Rhb. cbn zeta.
  destruct (on_req_misc (ended b) clear_body (set_q1 q s)) as (B1 & _ & B3 & B4 & _). assert (why P (on_req (ended b) clear_body (set_q1 q s))) as K2 by (apply why_on_req; [now intros|exact K]).
  assert (ended [Ended] = 1) as -> by reflexivity.
  destruct (m_has m) eqn:Mc; [csimp; rewrite B1, B4; split; [exact Cl|]; split; [exact K2|csimp; lia]|].
  rewrite refeed_empty; [csimp; rewrite B1, B4; split; [exact Cl|]; split; [exact K2|csimp; lia]|].
  destruct P0 as [bb h a A1 A2 A3 A4 A5 A6 A7 A8 A9 A10 A11 A12|m0 rest h a l A1 A2 A3 A4 A5 A6 A7 A8 A9 A10 A11 A12 A13|rest len h a l A1 A2 A3 A4 A5 A6 A7 A8 A9 A10 A11 A12 A13|k' h a l mk A1 A2 A3 A4 A5 A6 A7 A8 A9 A10 A11 A12 A13].
  { pose proof (ended_rep b k A8). lia. } { pose proof (ended_rep b k A9). lia. } { pose proof (ended_rep b k A7). lia. }
  subst k. pose proof (ended_rep1 _ _ A8) as Ek. rewrite Ek in *. destruct A13 as (m' & r' & ds & Em' & Er' & E0 & Erec & (Is1 & Is2 & Is) & Ib). rewrite Em in Em'. injection Em' as <-. rewrite P7 in Er'. injection Er' as <-.
  csimp. rewrite B3. csimp. rewrite E0. rewrite Mc in Ib. destruct Ib as (Ig & -> & _). rewrite app_nil_r. apply Forall_map, Forall_forall. intros d Hd'. right. f_equal.
  destruct Hw as (j & Pj & Lj). rewrite Ig in Erec. cbn [app] in Erec. rewrite Erec in Pj.
  assert (is_prefix (List.concat ds ++ pend l) []) as Pn.
  { apply (prefix_cancel (m_head m)), (prefix_cancel (upto_msg M k')). apply (prefix_trans _ _ _ Pj). pose proof (upto_msg_mono M j (S k') Lj) as H. rewrite (upto_msg_S M k' m Em) in H. unfold wire in H. rewrite (Rb eq_refl) in H. exact H. }
  apply prefix_length in Pn. rewrite app_length in Pn. cbn [List.length] in Pn. assert (List.concat ds = []) as Z by (destruct (List.concat ds); [reflexivity|cbn in Pn; lia]).
  apply in_split in Hd' as (x & y & ->). rewrite concat_app in Z. cbn [List.concat] in Z. apply app_eq_nil in Z as [_ Z]. now apply app_eq_nil in Z.
Qed.

(** Why the connection may end: the request or its handler asked for it. *)
Definition asked_close (tr : list cev) (i : nat) (r : hreq) : Prop := rq_keepalive r = false \/ In (HClose i false) tr.
Lemma why_more tr e s : why (asked_close tr) s -> why (asked_close (tr ++ [e])) s.
Proof. intros H i r E K. destruct (H i r E K) as [X|X]; [now left|right]. apply in_or_app. now left. Qed.
Lemma run_near tr : forall s b, conn_run o conn_new tr = Some (s, b) -> c_closing s = false -> client_ok o M tr -> client_waits o M tr -> calm o M tr -> handlers_ok o M tr -> uncut tr -> keeps_up o tr ->
  why (asked_close tr) s /\ nones (c_q1 s) + ended b = List.length (closers tr).
Proof.
  induction tr as [|e tr IH] using rev_ind; intros s b E Cl' Hc Hw Hm Hh Hp Hk.
  - injection E as <- <-. split; [|reflexivity]. intros [|i] r X; discriminate X.
  - pose proof E as E0. rewrite conn_run_app in E. destruct (conn_run o conn_new tr) as [[s1 b1]|] eqn:E1; [|discriminate]. cbn [conn_run] in E. destruct (conn_step o s1 e) as [[s2 b2]|] eqn:E2; [|discriminate]. assert (s2 = s) as -> by congruence. assert (b = b1 ++ b2) as -> by (rewrite app_nil_r in E; congruence). clear E.
    assert (c_closing s1 = false) as Cl. { destruct (c_closing s1) eqn:X; [|reflexivity]. rewrite (step_closing _ _ _ _ _ E2 X) in Cl'. discriminate. }
    destruct (prefix_ok o M tr e Hc Hh (or_intror (conj Hw Hm))) as (Hc1 & Hh1 & _). apply Forall_app in Hp as [Hp1 Hp2]. inversion_clear Hp2 as [|? ? He _].
    assert (client_waits o M tr) as Hw1 by (intros pre d post s3 b3 Et; apply (Hw pre d (post ++ [e]) s3 b3); rewrite Et, <- app_assoc; reflexivity).
    assert (calm o M tr) as Hm1 by (intros pre kicked post s3 b3 s4 b4 m Et; apply (Hm pre kicked (post ++ [e]) s3 b3 s4 b4 m); rewrite Et, <- app_assoc; reflexivity).
    assert (keeps_up o tr) as Hk1 by (intros pre post s3 b3 Et; apply (Hk pre (post ++ [e]) s3 b3); rewrite Et, <- app_assoc; reflexivity).
    destruct (IH s1 b1 eq_refl Cl Hc1 Hw1 Hm1 Hh1 Hp1 Hk1) as (K & N).
    pose proof (run_inv o M Mok Ook tr s1 b1 E1 Cl Hc1 Hh1 (or_intror (conj Hw1 Hm1))) as I. rewrite ended_app, closers_app, app_length.
    assert ((exists kicked, e = RunSend kicked) \/ match e with Eof | Abort | Lost | RunSend _ | HUpgrade _ => False | _ => True end) as [(kicked & ->)|Ne].
    { destruct e; try (right; exact He); try (right; exact Logic.I); [left; now exists kicked|]. right. destruct Hh as (_ & _ & _ & Hu & _). apply (Hu i). apply in_or_app. right. now left. }
    + destruct (send_step _ _ _ _ _ _ _ _ _ I (why_more tr (RunSend kicked) s1 K) E2 (waits_prefix o M tr s1 b1 E1 Hw1)) as [(_ & A & B)|(A & _)]; [|congruence]. split; [exact A|]. cbn [closers flat_map app List.length]. lia.
    + destruct (step_near (asked_close (tr ++ [e])) _ _ _ _ _ _ _ _ I (why_more tr e s1 K) E2) as (_ & A & B).
      * intros d ->. exact (Hw tr d [] s1 b1 eq_refl E1).
      * exact (waits_prefix o M tr s1 b1 E1 Hw1).
      * exact Ne.
      * exact (Hk (tr ++ [e]) [] s (b1 ++ b2) (eq_sym (app_nil_r _)) E0).
      * intros i r ->. right. apply in_or_app. right. now left.
      * intros i r X. now left.
      * split; [exact A|]. assert (ended b2 = 0) as Z. { destruct (ended b2) eqn:X; [reflexivity|]. destruct (step_sender o s1 e s b2 E2 ltac:(lia)) as (kicked & ->). contradiction. } lia.
Qed.
(** A step that ends the connection: a whole response has been written, and there is a reason. *)
Lemma last_step tr e s b s' bx : conn_run o conn_new tr = Some (s, b) -> c_closing s = false -> client_waits o M (tr ++ [e]) -> calm o M (tr ++ [e]) -> handlers_ok o M (tr ++ [e]) -> uncut (tr ++ [e]) -> keeps_up o (tr ++ [e]) ->
  tidy tr -> conn_step o s e = Some (s', bx) -> c_closing s' = true ->
  bx = [Ended] /\ In (ended b) (closers tr) /\ out (ended b) b = response M (ended b) tr /\ exists m r, nth_error M (ended b) = Some m /\ parsed m = Some r /\ (e = RunSend true \/ asked_close tr (ended b) r).
Proof.
  intros E1 Cl Hw Hm Hh Hp Hk Td E2 Cl'. pose proof (waits_ok _ _ _ Hw) as Hc.
  destruct (prefix_ok o M tr e Hc Hh (or_intror (conj Hw Hm))) as (Hc1 & Hh1 & _). apply Forall_app in Hp as [Hp1 Hp2]. inversion_clear Hp2 as [|? ? He _].
  assert (client_waits o M tr) as Hw1 by (intros pre d post s3 b3 Et; apply (Hw pre d (post ++ [e]) s3 b3); rewrite Et, <- app_assoc; reflexivity).
  assert (calm o M tr) as Hm1 by (intros pre kicked post s3 b3 s4 b4 m Et; apply (Hm pre kicked (post ++ [e]) s3 b3 s4 b4 m); rewrite Et, <- app_assoc; reflexivity).
  assert (keeps_up o tr) as Hk1 by (intros pre post s3 b3 Et; apply (Hk pre (post ++ [e]) s3 b3); rewrite Et, <- app_assoc; reflexivity).
  destruct (run_near tr s b E1 Cl Hc1 Hw1 Hm1 Hh1 Hp1 Hk1) as (K & N).
  pose proof (run_inv o M Mok Ook tr s b E1 Cl Hc1 Hh1 (or_intror (conj Hw1 Hm1))) as I.
  assert ((exists kicked, e = RunSend kicked) \/ match e with Eof | Abort | Lost | RunSend _ | HUpgrade _ => False | _ => True end) as [(kicked & ->)|Ne].
  { destruct e; try (right; exact He); try (right; exact Logic.I); [left; now exists kicked|]. right. destruct Hh as (_ & _ & _ & Hu & _). apply (Hu i). apply in_or_app. right. now left. }
  - destruct (send_step _ _ _ _ _ _ _ _ _ I K E2 (waits_prefix o M tr s b E1 Hw1)) as [(A & _)|(_ & -> & q & r & Eq & Ls & Er & Y)]; [congruence|]. split; [reflexivity|].
    destruct (run_layers o M Mok Ook tr s b E1 Cl Hc1 Hh1 (or_intror (conj Hw1 Hm1))) as (_ & _ & L). specialize (L Td). destruct (lw_cur _ _ _ _ L (ended b) (conj eq_refl Ls)) as (X & Z & E & R); [rewrite (no_pending _ _ _ _ _ I); lia|].
    rewrite (no_pending _ _ _ _ _ I), Eq in E. cbn [repeat app] in E. destruct X as [|x X]; [|discriminate E]. destruct Z as [|z Z]; [|discriminate E]. cbn [map app] in E. unfold ended_by in E. destruct (in_dec Nat.eq_dec (ended b) (closers tr)) as [Hi|]; [|discriminate E].
    split; [exact Hi|]. split; [cbn [List.concat] in R; rewrite !app_nil_r in R; exact R|].
    destruct I as (k & n & C & _). destruct (cm_reqs _ _ _ _ _ _ C _ r Er) as ((m & Em & _ & _ & Pm & _) & _). exists m, (q_info r). split; [exact Em|]. split; [exact Pm|]. destruct Y as [->|Y]; [now left|now right].
  - exfalso. destruct (step_near (asked_close (tr ++ [e])) _ _ _ _ _ _ _ _ I (why_more tr e s K) E2) as (A & _); [| | | | | |congruence].
    + intros d ->. exact (Hw tr d [] s b eq_refl E1).
    + exact (waits_prefix o M tr s b E1 Hw1).
    + exact Ne.
    + apply (Hk (tr ++ [e]) [] s' (b ++ bx) (eq_sym (app_nil_r _))). rewrite conn_run_app, E1. cbn [conn_run]. rewrite E2, app_nil_r. reflexivity.
    + intros i r ->. right. apply in_or_app. right. now left.
    + intros i r X. now left.
Qed.
End Close.
