(** Two more invariants: what was written, and that no one waits for nothing. *)
From Verif Require Import PyBytes PyBytesFacts PyInt PyExn M_Parser M_Framing M_Conn S_Conn P_Parser2 P_Conn P_Conn2 P_Conn3 P_Conn4 P_Conn5 P_Conn6.

Lemma puts_app i a b : puts i (a ++ b) = puts i a ++ puts i b.
Proof. unfold puts. now rewrite map_app, concat_app. Qed.
Lemma out_late b : forall i, ended b < i -> out i b = [].
Proof.
  unfold ended. induction b as [|x b IH]; intros i L; [reflexivity|]. destruct x; cbn [out filter List.length] in *; try (now apply IH).
  - destruct i; [lia|]. apply IH. exact L.
  - destruct i; [lia|]. apply IH. lia.
Qed.
Lemma out_snoc x b : forall i, out i (b ++ [x]) = out i b ++ match x with Wrote d => if (ended b =? i)%nat then d else [] | _ => [] end.
Proof.
  unfold ended. induction b as [|y b IH]; intros i.
  - destruct x, i; cbn; now rewrite ?app_nil_r.
  - destruct y; cbn [app out filter List.length]; try apply IH.
    + destruct i; [rewrite IH, app_assoc; reflexivity|apply IH].
    + destruct i; [now destruct x|]. rewrite IH. destruct x; reflexivity.
Qed.
(** Observations that are not about writing. *)
Definition silent (bx : list obs) : Prop := Forall (fun x => match x with Wrote _ | Ended => False | _ => True end) bx.
Lemma out_silent bx : forall b i, silent bx -> out i (b ++ bx) = out i b.
Proof.
  induction bx as [|x bx IH]; intros b i S; [now rewrite app_nil_r|]. inversion S; subst. replace (b ++ x :: bx) with ((b ++ [x]) ++ bx) by now rewrite <- app_assoc. rewrite IH by assumption. rewrite out_snoc. destruct x; try contradiction; apply app_nil_r.
Qed.
Lemma ended_silent bx b : silent bx -> ended (b ++ bx) = ended b.
Proof. intros S. rewrite ended_app. assert (ended bx = 0); [|lia]. unfold ended. induction bx as [|x bx IH]; [reflexivity|]. inversion S; subst. destruct x; try contradiction; cbn; now apply IH. Qed.

Lemma put_end_q1 o len s : let s' := put_end o len s in
  (c_q1 s' = c_q1 s \/ c_q1 s' = c_q1 s ++ [None]) /\ c_hb s' = c_hb s /\ c_cur s' = c_cur s /\ c_rcv s' = c_rcv s /\
  (forall i r, c_cur s = Some i -> nth_error (c_reqs s) i = Some r -> q_upg r = false -> exists r', nth_error (c_reqs s') i = Some r' /\ q_info r' = q_info r /\
    (hmem k_content_length (rq_headers (q_info r)) = true -> rq_content_length (q_info r) <= q_size r' -> In None (c_q0 s'))%Z /\ (In None (c_q0 s') \/ c_paused s' = false \/ c_q1 s' = c_q1 s ++ [None])).
Proof.
  unfold put_end. destruct (c_cur s) as [i|] eqn:Ec; [|cbn zeta; split; [now left|]; split; [reflexivity|]; split; [assumption|]; split; [reflexivity|]; intros; discriminate].
  destruct (nth_error (c_reqs s) i) as [r|] eqn:Er; [|cbn zeta; split; [now left|]; split; [reflexivity|]; split; [assumption|]; split; [reflexivity|]; intros; congruence].
  destruct (q_upg r) eqn:Eu; cbn zeta. { csimp. split; [now left|]. split; [reflexivity|]. split; [assumption|]. split; [reflexivity|]. intros i' r' X Y Z. assert (i' = i) by congruence. subst. congruence. }
  destruct (hmem k_content_length _ && _) eqn:Eh; [|destruct (_ <? _)%Z eqn:El].
  - csimp. split; [now left|]. split; [reflexivity|]. split; [reflexivity|]. split; [reflexivity|]. intros i' r' X Y Z. assert (i' = i) by congruence. subst. assert (r' = r) by congruence. subst. exists (set_size (q_size r + len) r). rewrite nth_put, Nat.eqb_refl, Er. split; [reflexivity|]. split; [reflexivity|].
    split; [intros _ _|left]; apply in_or_app; right; now left.
  - csimp. split; [now left|]. split; [reflexivity|]. split; [reflexivity|]. split; [reflexivity|]. intros i' r' X Y Z. assert (i' = i) by congruence. subst. assert (r' = r) by congruence. subst. exists (set_size (q_size r + len) r). rewrite nth_put, Nat.eqb_refl, Er. split; [reflexivity|]. split; [reflexivity|].
    split; [|now right; left]. intros H L. rewrite H in Eh. apply Z.leb_le in L. rewrite L in Eh. discriminate.
  - set (s1 := set_reqs (put_at i (set_size (q_size r + len) r) (c_reqs s)) (Some i) s). destruct (on_req_misc i (set_keep false) s1) as (B1 & B2 & B3 & B4 & B5 & B6 & B7 & B8 & B9 & B10 & B11 & B12 & B13 & B14 & B15).
    csimp. rewrite B2, B3, B4, B9, B11. subst s1. csimp. split; [now right|]. split; [reflexivity|]. split; [reflexivity|]. split; [reflexivity|]. intros i' r' X Y Z. assert (i' = i) by congruence. subst. assert (r' = r) by congruence. subst.
    exists (set_keep false (set_size (q_size r + len) r)). rewrite on_req_nth, Nat.eqb_refl. csimp. rewrite nth_put, Nat.eqb_refl, Er. split; [reflexivity|]. split; [reflexivity|].
    split; [|now right; right]. intros H L. rewrite H in Eh. apply Z.leb_le in L. change (q_size (set_keep false (set_size (q_size r + len) r))) with (q_size (set_size (q_size r + len) r)) in L. rewrite L in Eh. discriminate.
Qed.

Definition has_cl (r : creq) : bool := hmem k_content_length (rq_headers (q_info r)).
Definition carries (r : creq) : bool := has_body (q_info r).
Definition body_done (s0 s : conn) (i : nat) : Prop := exists r, nth_error (c_reqs s) i = Some r /\
  (carries r = true -> (has_cl r = true -> (rq_content_length (q_info r) <= q_size r)%Z -> In None (c_q0 s)) /\ (In None (c_q0 s) \/ c_paused s = false \/ c_q1 s = c_q1 s0 ++ [None])).
Definition q1_grows (s0 s : conn) : Prop := c_q1 s = c_q1 s0 \/ c_q1 s = c_q1 s0 ++ [None].

Lemma start_work i s : let s' := fst (start_handler i s) in c_q1 s' = c_q1 s /\ c_hb s' = c_hb s /\ c_q0 s' = c_q0 s /\ c_paused s' = c_paused s /\ c_rcv s' = c_rcv s /\
  (forall k, nth_error (c_reqs s') k = if (i =? k)%nat then option_map (set_live true) (nth_error (c_reqs s) k) else nth_error (c_reqs s) k) /\ silent (snd (start_handler i s)).
Proof.
  unfold start_handler. set (s1 := set_done (c_wkeep s) (set_done (c_wreq s) s)). assert (c_q1 s1 = c_q1 s /\ c_hb s1 = c_hb s /\ c_q0 s1 = c_q0 s /\ c_paused s1 = c_paused s /\ c_rcv s1 = c_rcv s /\ c_reqs s1 = c_reqs s) as (E1 & E2 & E3 & E4 & E5 & E6).
  { unfold s1, set_done. destruct (c_wreq s), (c_wkeep s); repeat split. }
  cbn [fst snd]. destruct (on_req_misc i (set_live true) s1) as (B1 & B2 & B3 & B4 & B5 & B6 & B7 & B8 & B9 & B10 & B11 & B12 & B13 & B14 & B15). rewrite B2, B3, B4, B11, B14. repeat (split; [assumption|]). split.
  - intros k. now rewrite on_req_nth, E6.
  - destruct (nth_error (c_reqs s) i); repeat constructor.
Qed.
Lemma hr_put_work o j i rest len s r : c_cur s = Some i -> nth_error (c_reqs s) i = Some r -> q_upg r = false -> c_closing (fst (hr_put o j i rest len s)) = false ->
  silent (snd (hr_put o j i rest len s)) /\ c_hb (fst (hr_put o j i rest len s)) = c_hb s /\
  ((snd (hr_put o j i rest len s) = [] /\ c_q1 (fst (hr_put o j i rest len s)) = c_q1 s) \/ (q1_grows s (fst (hr_put o j i rest len s)) /\ body_done s (fst (hr_put o j i rest len s)) i)).
Proof.
  intros Ec Er Eu. unfold hr_put. destruct rest as [|c rest].
  - set (s1 := set_hrs (put_at j HOver (c_hrs s)) (put_end o len s)). destruct (start_work i s1) as (S1 & S2 & S3 & S4 & S5 & S6 & S7). intros _. split; [exact S7|].
    destruct (put_end_q1 o len s) as (A1 & A2 & A3 & A4 & A5). split; [rewrite S2; exact A2|]. right. split; [unfold q1_grows; rewrite S1; exact A1|].
    destruct (A5 i r Ec Er Eu) as (r' & B1 & B2 & B3 & B4). exists (set_live true r'). split; [rewrite S6, Nat.eqb_refl; unfold s1; csimp; now rewrite B1|]. unfold carries, has_cl. cbn [set_live q_info q_size]. rewrite B2. intros _. rewrite S1, S3, S4. unfold s1. csimp. split; [exact B3|exact B4].
  - unfold put_round. cbn zeta. destruct (_ <? _)%Z.
    + set (s1 := set_hrs _ _). rewrite start_closing. unfold s1. csimp. discriminate.
    + csimp. intros _. split; [constructor|]. split; [reflexivity|]. left. now split.
Qed.

Section Layers.
Context (o : copts) (M : list msg) (Mok : Forall (msg_ok o) M) (Ook : opts_ok o).

Definition active (b : list obs) (i : nat) : Prop := ended b = i /\ List.length (starts b) = S i.
Lemma inv_phase nc ak rec s b : Inv M nc ak rec s b ->
  (List.length (starts b) = ended b /\ nones (c_q1 s) + ended b = List.length nc /\ pending ak s = 0 /\ forall i, i < ended b -> In i nc) \/
  (List.length (starts b) = S (ended b) /\ c_hb s = None /\ c_cur s = Some (ended b) /\ List.length (c_reqs s) = S (ended b) /\ List.length nc + pending ak s <= nones (c_q1 s) + ended b /\ Forall (fun t => t = HOver) (c_hrs s) /\
   exists r, nth_error (c_reqs s) (ended b) = Some r /\ (q_keep r = true -> List.length nc + pending ak s = nones (c_q1 s) + ended b)).
Proof.
  intros (k & n & C & P & B & Ci). assert (List.length (starts b) = ended b -> pending ak s = 0) as Pz. { intros X. apply pending_no. intros i Hi. destruct (cont s i) eqn:Y; [|reflexivity]. destruct (asked_active ak s b i Ci Hi Y). lia. }
  assert (List.length (starts b) = k) as Lk. { rewrite (cm_starts _ _ _ _ _ _ C), combine_length, seq_length, map_length. pose proof (cm_k _ _ _ _ _ _ C). lia. }
  assert (forall i, In i nc -> i < k) as Hc by (intros i Hi; now apply (cm_closers _ _ _ _ _ _ C)). pose proof (pigeon nc k (cm_nodup _ _ _ _ _ _ C) Hc) as Ln.
  destruct P as [bb h a A1 A2 A3 A4 A5 A6 A7 A8 A9|m rest h a l A1 A2 A3 A4 A5 A6 A7 A8 A9 A10|rest len h a l A1 A2 A3 A4 A5 A6 A7 A8|k' h a l mk A1 A2 A3 A4 A5 A6 A7 A8 A9 A10 A11 A12 A13].
  - left. rewrite (ended_rep b k A8) in *. specialize (Pz Lk). split; [exact Lk|]. split; [lia|]. split; [exact Pz|]. apply (pigeon_full nc k (cm_nodup _ _ _ _ _ _ C) Hc). lia.
  - left. rewrite (ended_rep b k A9) in *. specialize (Pz Lk). split; [exact Lk|]. split; [lia|]. split; [exact Pz|]. apply (pigeon_full nc k (cm_nodup _ _ _ _ _ _ C) Hc). lia.
  - left. rewrite (ended_rep b k A7) in *. specialize (Pz Lk). split; [exact Lk|]. split; [lia|]. split; [exact Pz|]. apply (pigeon_full nc k (cm_nodup _ _ _ _ _ _ C) Hc). lia.
  - right. rewrite (ended_rep1 b k' A8). subst k. split; [exact Lk|]. split; [exact A2|]. split; [rewrite (cm_cur _ _ _ _ _ _ C); replace n with (S k'); [reflexivity|]; rewrite <- (cm_n _ _ _ _ _ _ C); now symmetry|]. split; [exact A7|]. split; [exact A9|].
    split; [rewrite A3; apply Forall_forall; intros t Ht; now apply repeat_spec in Ht|]. destruct A13 as (m & r & ds & _ & Er & _). exists r. split; [exact Er|]. now apply A10.
Qed.

(** What RunHR does. *)
Lemma hr_work nc ak rec s b j s' bx : Inv M nc ak rec s b -> conn_step o s (RunHR j) = Some (s', bx) -> c_closing s' = false ->
  List.length (starts b) = ended b /\ c_hb s = None /\ c_hb s' = None /\ silent bx /\ ((bx = [] /\ c_q1 s' = c_q1 s) \/ (q1_grows s s' /\ body_done s s' (ended b))).
Proof.
  intros I E Cl. pose proof (inv_phase _ _ _ _ _ I) as Ph. destruct I as (k & n & C & P & B & Ci). unfold conn_step in E. destruct (c_lost s); [discriminate|]. destruct (nth_error (c_hrs s) j) as [t|] eqn:Ej; [|discriminate].
  destruct P as [bb h a A1 A2 A3 A4 A5 A6 A7 A8 A9 A10 A11 A12|m rest h a l A1 A2 A3 A4 A5 A6 A7 A8 A9 A10 A11 A12 A13|rest len h a l A1 A2 A3 A4 A5 A6 A7 A8 A9 A10 A11 A12 A13|k' h a l mk A1 A2 A3 A4 A5 A6 A7 A8 A9 A10 A11 A12 A13].
  - rewrite A3 in Ej. apply nth_error_In, repeat_spec in Ej. subst t. discriminate.
  - rewrite A3 in Ej. destruct (nth_over _ _ _ _ _ Ej) as [[-> _]|[Lj Ej2]]; [discriminate|]. destruct (j - h) as [|x] eqn:Dj; [|destruct x; discriminate]. assert (j = h) as -> by lia. injection Ej2 as <-.
    assert (run_hr o h (m_head m ++ rest) (blen (m_head m) - 2) s = (s', bx)) as Er by congruence. rewrite (ended_rep b k A9) in *.
    split; [destruct Ph as [[Ph _]|[Ph _]]; [exact Ph|]; exfalso; rewrite (cm_starts _ _ _ _ _ _ C), combine_length, seq_length, map_length in Ph; lia|]. split; [exact A1|].
    pose proof (proj1 (Forall_forall _ _) Mok m (nth_error_In _ _ A2)) as (p & r & F & L & Lo & Fr & Rl).
    assert (blen (m_head m) - 2 = Z.of_nat p + 2)%Z as Ep by (unfold blen; lia). unfold run_hr in Er. rewrite Ep, (frame_head_ext m p rest F L), Fr in Er. cbn zeta in Er. rewrite A8 in Er.
    set (q := mkRq _ r (rq_keepalive r) (rq_continue r) false 0 0 false false false) in Er. set (s1 := set_reqs (c_reqs s ++ [q]) (Some k) s) in Er. set (s2 := if has_body r then s1 else put0 (Some []) s1) in Er.
    assert (c_q1 s2 = c_q1 s /\ c_hb s2 = c_hb s /\ c_cur s2 = Some k /\ c_reqs s2 = c_reqs s ++ [q]) as (B1 & B2 & B3 & B4) by (unfold s2; destruct (has_body r); repeat split).
    assert (nth_error (c_reqs s2) k = Some q) as Nq by (rewrite B4, nth_error_app2, A8, Nat.sub_diag by lia; reflexivity).
    destruct (has_body r || _) eqn:X.
    + pose proof (hr_put_work o h k (from (m_head m ++ rest) (Z.of_nat p + 2 + 2)) (blen (from (m_head m ++ rest) (Z.of_nat p + 2 + 2))) s2 q B3 Nq eq_refl) as W. rewrite Er in W. cbn [fst snd] in W. destruct (W Cl) as (W1 & W2 & W3). split; [rewrite W2, B2; exact A1|]. split; [exact W1|].
      unfold q1_grows, body_done in *. rewrite B1 in W3. exact W3.
    + apply orb_false_elim in X as [X _]. set (s3 := set_hrs (put_at h HOver (c_hrs s2)) s2) in Er. destruct (start_work k s3) as (S1 & S2 & S3 & S4 & S5 & S6 & S7). rewrite Er in S1, S2, S3, S4, S5, S6, S7. cbn [fst snd] in *.
      split; [rewrite S2; unfold s3; csimp; rewrite B2; exact A1|]. split; [exact S7|]. right. split; [left; rewrite S1; exact B1|]. exists (set_live true q). split; [rewrite S6, Nat.eqb_refl; unfold s3; csimp; now rewrite Nq|].
      unfold carries. cbn [set_live q_info q]. unfold q. cbn [q_info]. rewrite X. discriminate.
  - rewrite A2 in Ej. destruct (nth_over _ _ _ _ _ Ej) as [[-> _]|[Lj Ej2]]; [discriminate|]. destruct (j - h) as [|x] eqn:Dj; [|destruct x; discriminate]. assert (j = h) as -> by lia. injection Ej2 as <-.
    assert (hr_put o h k rest len s = (s', bx)) as Er by congruence. rewrite (ended_rep b k A7) in *.
    split; [destruct Ph as [[Ph _]|[Ph _]]; [exact Ph|]; exfalso; rewrite (cm_starts _ _ _ _ _ _ C), combine_length, seq_length, map_length in Ph; lia|]. split; [exact A1|].
    destruct A13 as (m & r & ds & Em & Err & _). destruct (cm_reqs _ _ _ _ _ _ C k r Err) as ((m' & _ & _ & Ru & _) & _).
    assert (c_cur s = Some k) as Ec by (rewrite (cm_cur _ _ _ _ _ _ C); replace n with (S k); [reflexivity|]; rewrite <- (cm_n _ _ _ _ _ _ C); now symmetry).
    pose proof (hr_put_work o h k rest len s r Ec Err Ru) as W. rewrite Er in W. cbn [fst snd] in W. destruct (W Cl) as (W1 & W2 & W3). split; [rewrite W2; exact A1|]. split; [exact W1|exact W3].
  - rewrite A3 in Ej. apply nth_error_In, repeat_spec in Ej. subst t. discriminate.
Qed.
(** What RunRcv does. *)
Lemma rcv_work nc ak rec s b j s' bx : Inv M nc ak rec s b -> conn_step o s (RunRcv j) = Some (s', bx) -> c_closing s' = false ->
  bx = [] /\ active b (ended b) /\ c_hb s' = None /\
  ((c_q1 s' = c_q1 s /\ c_reqs s' = c_reqs s /\ (exists d, c_q0 s' = c_q0 s ++ [d]) /\ ~ Forall (fun t => t = ROver) (c_rcv s')) \/ (q1_grows s s' /\ body_done s s' (ended b))).
Proof.
  intros I E Cl. pose proof (inv_phase _ _ _ _ _ I) as Ph. pose proof I as (k & n & C & P & B & Ci). destruct (rcv_first o M Ook nc ak rec s b k n j s' bx C P B Ci E Cl) as (-> & k' & _ & -> & Mk). split; [reflexivity|].
  pose proof (ended_rep1 b k' Mk) as Ee. assert (List.length (starts b) = S k') as Lk. { rewrite (cm_starts _ _ _ _ _ _ C), combine_length, seq_length, map_length. pose proof (cm_k _ _ _ _ _ _ C). lia. }
  destruct Ph as [(Ph & _)|(Ph & Ph2 & Ph3 & Ph4 & Ph5 & Ph6 & r & Er & Ph7)]; [lia|]. rewrite Ee in *. split; [now split|].
  destruct (cm_reqs _ _ _ _ _ _ C k' r Er) as ((m' & _ & _ & Ru & _) & _).
  unfold conn_step in E. destruct (c_lost s); [discriminate|]. destruct (nth_error (c_rcv s) j) as [t|] eqn:Ej; [|discriminate].
  assert (exists rest len, s' = rcv_put o j rest len s) as (rest & len & Es).
  { assert (forall a c : conn, Some (a, @nil obs) = Some (c, []) -> c = a) as K by (intros; congruence). destruct t as [w d|rs ln|]; [destruct (w_done w s); [|discriminate]| |discriminate]; do 2 eexists; apply (K _ _ E). }
  rewrite Es in Cl |- *. unfold rcv_put in *. destruct rest as [|c rest].
  - destruct (put_end_q1 o len (set_rcv (put_at j ROver (c_rcv s)) s)) as (A1 & A2 & A3 & A4 & A5). split; [rewrite A2; exact Ph2|]. right. split; [exact A1|]. destruct (A5 k' r Ph3 Er Ru) as (r' & B1 & B2 & B3 & B4). exists r'. split; [exact B1|]. unfold carries, has_cl. rewrite B2. intros _. split; [exact B3|exact B4].
  - unfold put_round in *. cbn zeta in *. destruct (_ <? _)%Z; [discriminate|]. csimp. split; [exact Ph2|]. left. split; [reflexivity|]. split; [reflexivity|]. split; [eexists; reflexivity|]. intros F.
    rewrite Forall_forall in F. specialize (F (RPut (skipn (o_buf o) (c :: rest)) len)). assert (RPut (skipn (o_buf o) (c :: rest)) len = ROver) as X; [|discriminate]. apply F. apply (nth_error_In _ j). rewrite nth_put, Nat.eqb_refl, Ej. reflexivity.
Qed.

(** A marker that is taken while http_continue is set was put by send_continue. *)
Lemma marker_asked nc ak rec s b q i r : Inv M nc ak rec s b -> c_q1 s = None :: q -> c_cur s = Some i -> nth_error (c_reqs s) i = Some r -> q_keep r = true -> q_cont r = true -> (forall i x, In (Got i x) b -> In i ak) -> active b i /\ In i ak.
Proof.
  intros I Eq Ec Er K Qc Hg. pose proof (inv_phase _ _ _ _ _ I) as Ph. destruct I as (k & n & C & P & B & Ci). pose proof (starts_k M nc s b k n C) as Ls. pose proof (phase_k M nc s b k n C) as Lk. assert (nones (c_q1 s) = S (nones q)) as Nq by now rewrite Eq.
  destruct Ph as [(Ph & Ph2 & _)|(Ph & _ & Ph3 & _ & _ & _ & r' & Er' & Ph5)]; [lia|]. assert (i = ended b) as -> by congruence. assert (r' = r) as -> by congruence. specialize (Ph5 K). split; [split; [reflexivity|exact Ph]|].
  destruct (Nat.eq_dec (pending ak s) 0) as [Pz|Pz].
  - assert (In (ended b) nc) as Ink. { apply (pigeon_full nc k); [apply (cm_nodup _ _ _ _ _ _ C)|intros j Hj; now apply (cm_closers _ _ _ _ _ _ C)|lia|lia]. }
    destruct (cm_reqs _ _ _ _ _ _ C _ r Er) as ((m & Em & _ & _ & Pm & _) & Ree & _). destruct (ci_info _ _ _ Ci _ r Er) as [X _]. specialize (X Qc). destruct (m_has m) eqn:Mc; [|rewrite (not_expected o M Mok m (q_info r) (nth_error_In _ _ Em) Mc Pm) in X; discriminate].
    pose proof (proj2 (cm_closers _ _ _ _ _ _ C _ Ink) m Em Mc) as Ra. unfold read_all in Ra. destruct (counted m) eqn:Cm; [now apply (Hg _ None)|]. apply (read_some _ b) in Ra; [destruct Ra as (d & Hd); now apply (Hg _ (Some d))|].
    pose proof (proj1 (Forall_forall _ _) Mok m (nth_error_In _ _ Em)) as (p & r1 & Fd & _ & _ & Fr & Rl). unfold counted, parsed in Cm. rewrite Fd, Fr in Cm. rewrite Mc, Cm in Rl. apply Rl.
  - destruct (pending_one ak s ltac:(lia)) as (j & Hj & X). destruct (asked_active ak s b j Ci Hj X) as [<- _]. exact Hj.
Qed.

(** ** No one waits for nothing *)
Record LD (ak : list nat) (s : conn) (b : list obs) : Prop := {
  ld_pend : pending ak s <= nones (c_q1 s);
  ld_hb : c_hb s <> None -> c_paused s = false;
  ld_body : forall i r, active b i -> nth_error (c_reqs s) i = Some r -> carries r = true -> nones (c_q1 s) <= pending ak s ->
    (has_cl r = true -> (rq_content_length (q_info r) <= q_size r)%Z -> In None (c_q0 s) \/ q_eof r = true) /\
    (In None (c_q0 s) \/ q_eof r = true \/ c_paused s = false \/ ~ Forall (fun t => t = ROver) (c_rcv s)) }.
Lemma ld_new : LD [] conn_new [].
Proof. constructor; [reflexivity|reflexivity|]. intros [|i] r _ E; discriminate. Qed.
Lemma ld_same ak ak' s s' b : c_hb s' = c_hb s -> c_paused s' = c_paused s -> c_q0 s' = c_q0 s -> pending ak' s' + nones (c_q1 s) <= pending ak s + nones (c_q1 s') -> pending ak' s' <= nones (c_q1 s') -> c_rcv s' = c_rcv s ->
  (forall i r', nth_error (c_reqs s') i = Some r' -> exists r, nth_error (c_reqs s) i = Some r /\ q_info r' = q_info r /\ q_size r' = q_size r /\ q_eof r' = q_eof r) -> LD ak s b -> LD ak' s' b.
Proof.
  intros E1 E2 E3 E4 E4' E5 E6 [L0 L1 L2]. constructor; [exact E4'|rewrite E1, E2; exact L1|]. intros i r' A Er H N. destruct (E6 i r' Er) as (r & Er0 & Ei & Es & Ee). unfold has_cl. rewrite E2, E3, E5, Ei, Es, Ee. apply (L2 i r A Er0); [unfold carries in *; now rewrite <- Ei|lia].
Qed.
Lemma cont_on_req i f s j : (forall r, q_cont (f r) = q_cont r) -> cont (on_req i f s) j = cont s j.
Proof. intros H. unfold cont. rewrite on_req_nth. destruct (i =? j)%nat; [|reflexivity]. destruct (nth_error (c_reqs s) j) as [r|]; [apply H|reflexivity]. Qed.
Lemma ld_on_req ak f i s b : (forall r, q_info (f r) = q_info r /\ q_size (f r) = q_size r /\ q_eof (f r) = q_eof r /\ q_cont (f r) = q_cont r) -> LD ak s b -> LD ak (on_req i f s) b.
Proof.
  intros Hf. destruct (on_req_misc i f s) as (B1 & B2 & B3 & B4 & B5 & B6 & B7 & B8 & B9 & B10 & B11 & B12 & B13 & B14 & B15). intros L. assert (pending ak (on_req i f s) = pending ak s) as Ep by (apply pending_ext; intros; apply cont_on_req; apply Hf). apply (ld_same ak ak s); try assumption; [rewrite Ep, B4; lia|rewrite Ep, B4; apply (ld_pend _ _ _ L)|]. intros k r'. rewrite on_req_nth. destruct (i =? k)%nat.
  - destruct (nth_error (c_reqs s) k) as [r|]; [|discriminate]. intros X. injection X as <-. exists r. split; [reflexivity|]. destruct (Hf r) as (? & ? & ? & _). now repeat split.
  - intros X. exists r'. repeat split. exact X.
Qed.
Lemma ld_inactive ak s b : pending ak s <= nones (c_q1 s) -> (c_hb s <> None -> c_paused s = false) -> (forall i, ~ active b i) -> LD ak s b.
Proof. intros Hp H N. constructor; [exact Hp|exact H|]. intros i r A. destruct (N i A). Qed.
Lemma nones_snoc l : nones (l ++ [None]) = S (nones l).
Proof. rewrite nones_app. cbn. lia. Qed.
Lemma starts_silent_len b bx : List.length (starts (b ++ bx)) = List.length (starts b) + List.length (starts bx).
Proof. now rewrite starts_app, app_length. Qed.

Lemma ld_done ak s0 s b : pending ak s0 <= nones (c_q1 s0) -> pending ak s = pending ak s0 -> q1_grows s0 s -> body_done s0 s (ended b) -> c_hb s = None -> LD ak s b.
Proof.
  intros Pl Ep G (r & Er & H) Hb. constructor; [rewrite Ep; destruct G as [-> | ->]; rewrite ?nones_snoc; lia|congruence|]. intros i r' [<- _] Er' Hc N. assert (r' = r) as -> by congruence. destruct (H Hc) as [H1 H2]. split; [intros Hl L; left; now apply H1|]. destruct H2 as [H2|[H2|H2]]; [now left|tauto|]. rewrite H2, nones_snoc, Ep in N. lia.
Qed.
Lemma refeed_q1 l : forall s, c_q1 (refeed o l s) = c_q1 s.
Proof.
  induction l as [|x l IH]; intros s; [reflexivity|]. cbn [refeed]. rewrite IH. unfold data_received. destruct x as [[|c d]|]; [reflexivity| |reflexivity]. destruct (c_hb s); cbn zeta; [destruct (_ && _); [reflexivity|]; destruct (_ || _); reflexivity|].
  destruct (match c_wrecv s with Some w => Some w | None => _ end); reflexivity.
Qed.
Lemma keepalive_work kicked i r s : c_closing (keepalive o kicked i r s) = false -> q_upg r = false -> c_paused (keepalive o kicked i r s) = false /\ c_q1 (keepalive o kicked i r s) = c_q1 s.
Proof.
  unfold keepalive. destruct (kicked && _); [discriminate|]. intros _ ->. destruct (q_cont r); [csimp; split; [reflexivity|]; now destruct (on_req_misc i (set_cont false) s) as (_ & _ & _ & -> & _)|]. csimp. split; [reflexivity|]. destruct (on_req_misc i clear_body s) as (B1 & B2 & B3 & B4 & _). destruct (has_body (q_info r)); [|rewrite refeed_q1]; csimp; exact B4.
Qed.
Lemma keepalive_cont kicked i r s j : c_closing (keepalive o kicked i r s) = false -> q_upg r = false -> nth_error (c_reqs s) i = Some r -> cont (keepalive o kicked i r s) j = (negb (i =? j) && cont s j)%bool.
Proof.
  unfold keepalive. destruct (kicked && _); [discriminate|]. intros _ -> Er. destruct (q_cont r) eqn:Qc.
  - unfold cont. csimp. rewrite on_req_nth. destruct (Nat.eqb_spec i j) as [->|]; [now rewrite Er|reflexivity].
  - assert (cont s i = false) as X by (unfold cont; now rewrite Er). transitivity (cont (on_req i clear_body s) j).
    + unfold cont. csimp. destruct (has_body (q_info r)); rewrite ?refeed_reqs; reflexivity.
    + rewrite cont_on_req by reflexivity. destruct (Nat.eqb_spec i j) as [<-|]; [exact X|reflexivity].
Qed.
Lemma ld_step nc ak rec s b e s' bx : Inv M nc ak rec s b -> Inv M (nc ++ closers [e]) (ak ++ askers [e]) (rec ++ input [e]) s' (b ++ bx) -> LD ak s b -> conn_step o s e = Some (s', bx) -> c_closing s' = false -> (forall i m, e = HTake i -> nth_error M i = Some m -> if m_has m then counted m = true \/ got i b <> m_body m else ended b <= i /\ ~ In (Got i (Some [])) b) -> (forall i, e <> HUpgrade i) -> (forall i x, In (Got i x) b -> In i ak) -> LD (ak ++ askers [e]) s' (b ++ bx).
Proof.
  intros I I' L E Cl Ht Hu Hgot. pose proof (ld_pend _ _ _ L) as Lp.
  assert (forall i r, live s i = Some r -> nth_error (c_reqs s) i = Some r) as Hlive by (intros i r H; now apply live_some in H).
  assert (cont_inv ak s b) as Ci by now destruct I as (k & n & _ & _ & _ & Ci).
  assert (forall i, askers [e] = [i] -> forall f r, nth_error (c_reqs s) i = Some r -> (forall r, q_info (f r) = q_info r /\ q_size (f r) = q_size r /\ q_eof (f r) = q_eof r /\ q_cont (f r) = q_cont r) ->
    forall s0, (s0 = s /\ (q_cont r = false \/ In i ak) \/ exists x, s0 = put1 None (put1 (Some x) s)) -> LD (ak ++ [i]) (on_req i f s0) b) as Kask.
  { intros i _ f r Er Hf s0 H0. assert (LD (ak ++ [i]) s0 b) as L0; [|now apply ld_on_req].
    destruct H0 as [[-> H0]|(x & ->)].
    - apply (ld_same ak _ s); try reflexivity; try (rewrite pending_again; [lia|]; destruct H0 as [H0|H0]; [right; unfold cont; now rewrite Er|now left]); [|exact L]. intros k r' X. exists r'. repeat split. exact X.
    - assert (nones (c_q1 (put1 None (put1 (Some x) s))) = S (nones (c_q1 s))) as Nn by (csimp; rewrite !nones_app; cbn; lia). pose proof (pending_le (ak ++ [i]) (put1 None (put1 (Some x) s))).
      apply (ld_same ak _ s); try reflexivity; [rewrite Nn; lia|rewrite Nn; lia| |exact L]. intros k r' X. exists r'. repeat split. exact X. }
  destruct e; try (exfalso; now apply (Hu i)); cbn [askers flat_map app] in *; rewrite ?app_nil_r in *.
  - unfold conn_step in E. destruct (c_lost s); [discriminate|]. destruct (c_paused s || c_closing s)%bool eqn:Pc; [discriminate|]. apply orb_false_elim in Pc as [Pz Cz]. destruct d as [|c d]; [discriminate|]. apply pair_some in E as [-> ->]. rewrite app_nil_r.
    pose proof (inv_phase _ _ _ _ _ I) as Ph. assert (forall i, active b i -> c_hb s = None) as Ha. { intros i [A1 A2]. destruct Ph as [(Ph & _)|(_ & Ph & _)]; [lia|exact Ph]. }
    destruct (data_misc o (c :: d) s _ eq_refl Cl) as (B1 & B2 & B3 & B4 & B5 & B6 & B7 & B8 & B9 & B10). destruct (c_hb s) as [hb|] eqn:Eh.
    + apply ld_inactive; [now rewrite (kin_pending ak s _ (kin_eq _ _ (data_reqs o _ s))), B10| |intros i A; now specialize (Ha i A)]. revert Cl. unfold data_received. rewrite Eh. cbn zeta. destruct (_ && _); [csimp; congruence|]. destruct (_ || _); [discriminate|]. csimp. intros _ _. exact Pz.
    + destruct I as (k & n & C & P & B & _). rewrite (data_none o (c :: d) s Eh (cm_waiters _ _ _ _ _ _ C) ltac:(discriminate)). constructor; csimp; [exact Lp|congruence|]. intros i r A Er Hc N. destruct (ld_body _ _ _ L i r A Er Hc N) as [L1 L2]. split; [exact L1|]. right. right. right. intros F. apply Forall_app in F as [_ F]. inversion F; discriminate.
  - unfold conn_step in E. destruct (c_lost s); [discriminate|]. destruct (c_paused s || c_closing s)%bool; [discriminate|]. assert (s' = set_closing (put0 None s)) as -> by congruence. discriminate.
  - unfold conn_step in E. destruct (c_lost s); [discriminate|]. assert (s' = set_closing s) as -> by congruence. discriminate.
  - pose proof I' as (_ & _ & _ & _ & _ & Ci'). destruct (hr_work _ _ _ _ _ _ _ _ I E Cl) as (W1 & W2 & W3 & W4 & [[-> W5]|[W5 W6]]).
    + rewrite app_nil_r. apply ld_inactive; [|congruence|intros i [A1 A2]; lia]. destruct (inv_phase _ _ _ _ _ I') as [(_ & _ & -> & _)|(X & _)]; [lia|]. rewrite app_nil_r in X. lia.
    + assert (pending ak s = 0) as Pz by (destruct (inv_phase _ _ _ _ _ I) as [(_ & _ & X & _)|(X & _)]; [exact X|lia]).
      assert (pending ak s' = 0) as Pz'. { apply pending_no. intros i Hi. destruct (cont s' i) eqn:X; [|reflexivity]. destruct (asked_active _ _ _ _ Ci' Hi X) as [Y _]. rewrite ended_silent in Y by exact W4. pose proof (ci_ask _ _ _ Ci i Hi). lia. }
      apply (ld_done ak s); [lia|lia|exact W5| |exact W3]. now rewrite ended_silent.
  - destruct (rcv_work _ _ _ _ _ _ _ _ I E Cl) as (-> & W1 & W2 & [(W3 & W4 & (d & W5) & W6)|[W5 W6]]); rewrite app_nil_r.
    + assert (pending ak s' = pending ak s) as Ep by (apply kin_pending; now apply kin_eq). constructor; [now rewrite W3, Ep|congruence|]. intros i r A Er Hc N. rewrite W4 in Er. rewrite W3, Ep in N. destruct (ld_body _ _ _ L i r A Er Hc N) as [L1 L2]. split; [|tauto]. intros Hl X. destruct (L1 Hl X) as [Y|Y]; [left; rewrite W5; apply in_or_app; now left|now right].
    + apply (ld_done ak s); try assumption. apply kin_pending. clear -E. unfold conn_step in E. destruct (c_lost s); [discriminate|]. destruct (nth_error (c_rcv s) j) as [[w d|rs ln|]|]; try discriminate; [destruct (w_done w s); [|discriminate]|]; apply pair_some in E as [-> _]; apply kin_rcv_put.
  - unfold conn_step in E. destruct (c_lost s); [discriminate|]. pose proof (inv_phase _ _ _ _ _ I) as Ph. unfold run_send in E. destruct (c_sending s); [|discriminate]. destruct (c_q1 s) as [|[d|] q] eqn:Eq; [discriminate| |].
    + assert (s' = set_q1 q s) as -> by congruence. assert (bx = if c_closing s then [] else [Wrote d]) as -> by congruence.
      assert (ended (b ++ (if c_closing s then [] else [Wrote d])) = ended b /\ List.length (starts (b ++ (if c_closing s then [] else [Wrote d]))) = List.length (starts b)) as [Q1 Q2]. { rewrite ended_app, starts_app. destruct (c_closing s); rewrite app_length; cbn; lia. }
      assert (pending ak (set_q1 q s) = pending ak s) as Ep by (apply kin_pending; now apply kin_eq).
      constructor; csimp; [rewrite Ep; exact Lp|apply (ld_hb _ _ _ L)|]. intros i r [A1 A2] Er Hc N. rewrite Ep in N. apply (ld_body _ _ _ L i r); try assumption; [split; congruence|]. rewrite Eq. exact N.
    + csimp_in E. destruct (c_cur s) as [i|] eqn:Ec; [|assert (s' = set_sending false (set_closing (set_q1 q s))) as -> by congruence; discriminate].
      destruct (nth_error (c_reqs s) i) as [r|] eqn:Er; [|discriminate]. destruct (q_keep r && _)%bool eqn:K; [|assert (s' = set_sending false (set_closing (on_req i clear_body (set_q1 q s)))) as -> by congruence; discriminate].
      assert (s' = keepalive o kicked i r (set_q1 q s)) as -> by congruence. assert (bx = [if q_cont r then Interim i else Ended]) as -> by congruence. apply andb_prop in K as [K _]. pose proof (fun Qc => marker_asked _ _ _ _ _ _ _ _ I Eq Ec Er K Qc Hgot) as Mk.
      destruct I as (k & n & C & _). destruct (cm_reqs _ _ _ _ _ _ C i r Er) as ((m & _ & _ & Ru & _) & _).
      destruct (keepalive_work _ _ _ _ Cl Ru) as [Kp Kq]. csimp_in Kq. pose proof (fun j => keepalive_cont kicked i r (set_q1 q s) j Cl Ru Er) as Kc.
      assert (i = ended b) as Ei. { destruct Ph as [(Ph & Ph2 & _)|(_ & _ & Ph3 & _)]; [|congruence]. pose proof (starts_k M _ s b k n C). pose proof (phase_k M _ s b k n C). cbn [nones filter List.length] in Ph2. lia. }
      assert (pending ak (keepalive o kicked i r (set_q1 q s)) = 0) as Pz.
      { apply pending_no. intros j Hj. rewrite Kc. destruct (Nat.eqb_spec i j) as [->|Nj]; [reflexivity|]. cbn [negb andb]. destruct (cont (set_q1 q s) j) eqn:X; [|reflexivity]. destruct (asked_active ak s b j Ci Hj X). lia. }
      destruct (q_cont r) eqn:Qc.
      * destruct (Mk eq_refl) as [[Ac1 Ac2] Hi]. constructor; [lia|intros _; exact Kp|]. intros j r' [A1 A2] Er' Hc N. rewrite ended_app in A1. rewrite starts_app, app_length in A2. cbn [ended filter List.length starts flat_map] in A1, A2. rewrite Nat.add_0_r in A1. assert (j = i) as -> by congruence.
        split; [|right; right; left; exact Kp]. rewrite Pz, Kq in N. unfold keepalive in *. destruct (kicked && _)%bool; [discriminate|]. rewrite Ru, Qc in *. csimp_in Er'. rewrite on_req_nth, Nat.eqb_refl in Er'. csimp_in Er'. rewrite Er in Er'. injection Er' as <-.
        destruct (on_req_misc i (set_cont false) (set_q1 q s)) as (_ & _ & B3 & _). csimp. rewrite B3. csimp. cbn [set_cont q_info q_size q_eof].
        destruct (ld_body _ _ _ L i r (conj Ac1 Ac2) Er Hc) as [L1 _]; [|exact L1]. rewrite Eq, (pending_yes ak s i Hi) by (unfold cont; now rewrite Er). unfold nones in *. cbn [filter List.length] in *. lia.
      * apply ld_inactive; [lia|intros _; exact Kp|]. intros j [A1 A2]. rewrite ended_app in A1. rewrite starts_app, app_length in A2. cbn in A1, A2. destruct Ph as [(Ph & _)|(Ph & _)]; lia.
  - unfold conn_step in E. destruct (c_lost s); [discriminate|]. destruct (live s i) as [r|] eqn:Lr; [|discriminate]. pose proof (Hlive i r Lr) as Er. destruct (q_eof r) eqn:Qe.
    + assert (s' = s) as -> by congruence. assert (bx = []) as -> by congruence. rewrite app_nil_r. assert (on_req i (fun r => r) s = s) as X by (unfold on_req; rewrite Er, (put_same _ _ _ Er); now destruct s).
      rewrite <- X. apply (Kask i eq_refl (fun r => r) r Er); [repeat split|]. left. split; [reflexivity|]. right. apply (ci_read _ _ _ Ci i r Er). now right.
    + destruct (_ <? _)%Z eqn:Lm; [discriminate|]. unfold send_continue in E. destruct (q_cont r) eqn:Qc; [rewrite Lm in E|]; apply pair_some in E as [-> ->]; rewrite app_nil_r; apply (Kask i eq_refl set_reading r Er); try (intros; repeat split); [right; eexists; reflexivity|left; split; [reflexivity|now left]].
  - unfold conn_step in E. destruct (c_lost s); [discriminate|]. destruct (live s i) as [r|] eqn:Lr; [|discriminate]. pose proof (Hlive i r Lr) as Er. destruct (q_reading r && negb (q_eof r)) eqn:Re; [|discriminate]. apply andb_prop in Re as [_ Re]. apply negb_true_iff in Re.
    destruct (c_q0 s) as [|x q] eqn:Eq; [discriminate|].
    assert (exists f, s' = on_req i f (set_q0 q s) /\ (forall r0, q_info (f r0) = q_info r0 /\ q_size (f r0) = q_size r0 /\ q_cont (f r0) = q_cont r0) /\ ended (b ++ bx) = ended b /\ starts (b ++ bx) = starts b /\ (x = None /\ f = set_qeof \/ (x <> None /\ forall r0, q_eof (f r0) = q_eof r0))) as (f & -> & Hf & Q1 & Q2 & Hx).
    { rewrite ended_app, starts_app. destruct x as [d|]; (apply pair_some in E as [-> ->]); cbn; rewrite app_nil_r, Nat.add_0_r; [exists (set_used (q_used r + blen d))|exists set_qeof]; repeat split; [right; split; [discriminate|reflexivity]|now left]. }
    destruct (on_req_misc i f (set_q0 q s)) as (B1 & B2 & B3 & B4 & B5 & B6 & B7 & B8 & B9 & B10 & B11 & B12 & B13 & B14 & B15). assert (pending ak (on_req i f (set_q0 q s)) = pending ak s) as Ep by (apply pending_ext; intros j _; rewrite cont_on_req by (intros; apply Hf); reflexivity).
    constructor; [now rewrite Ep, B4|rewrite B2, B14; exact (ld_hb _ _ _ L)|].
    intros k r' [A1 A2] Ek Hc N. rewrite Q1 in A1. rewrite Q2 in A2. rewrite B3, B11, B14. rewrite B4, Ep in N. csimp. csimp_in N. rewrite on_req_nth in Ek. csimp_in Ek. destruct (Nat.eqb_spec i k) as [->|Nik].
    + rewrite Er in Ek. injection Ek as <-. destruct (Hf r) as (F1 & F2 & _). unfold carries in Hc. unfold has_cl. rewrite F1 in Hc |- *. rewrite F2. destruct (ld_body _ _ _ L k r (conj A1 A2) Er Hc N) as [L1 L2]. rewrite Eq in L1, L2.
      destruct Hx as [[-> ->]|[Hx Hq]]; [split; [right; reflexivity|right; left; reflexivity]|]. rewrite Hq. split.
      * intros Hl X. destruct (L1 Hl X) as [[Y|Y]|Y]; [congruence|now left|now right].
      * destruct L2 as [[Y|Y]|Y]; [congruence|now left|tauto].
    + exfalso. destruct I as (kk & n & C & P & B & _). destruct (cm_reqs _ _ _ _ _ _ C i r Er) as ((m & Em & _) & Ree & Rl). apply live_some in Lr as [_ Lr]. specialize (Rl Lr).       assert (List.length (starts b) = kk) as Lk. { rewrite (cm_starts _ _ _ _ _ _ C), combine_length, seq_length, map_length. pose proof (cm_k _ _ _ _ _ _ C). lia. } assert (i < k) as Lik by lia.
      specialize (Ht i m eq_refl Em). destruct (m_has m) eqn:Clm; [|destruct Ht; lia].
      assert (read_all i m b) as G. { destruct P as [bb h a P1' P2' P3' P4' P5' P6' P7' P8'|m0 rs h a l P1' P2' P3' P4' P5' P6' P7' P8' P9'|rs ln h a l P1' P2' P3' P4' P5' P6' P7'|k1 h a l mk P1' P2' P3' P4' P5' P6' P7' P8' P9' P10' P11' P12'].
        - pose proof (ended_rep b kk P8'). lia. - pose proof (ended_rep b kk P9'). lia. - pose proof (ended_rep b kk P7'). lia. - apply (P12' i m); try assumption. lia. }
      unfold read_all in G. destruct (counted m); [apply Ree in G; congruence|]. now destruct Ht.
  - unfold conn_step in E. destruct (c_lost s); [discriminate|]. destruct (live s i) as [r|] eqn:Lr; [|discriminate]. assert (s' = put1 (Some d) s) as -> by congruence. assert (bx = []) as -> by congruence. rewrite app_nil_r.
    assert (pending ak (put1 (Some d) s) = pending ak s) as Ep by (apply kin_pending; now apply kin_eq). apply (ld_same ak ak s); try reflexivity; [rewrite Ep; csimp; rewrite nones_app; lia|rewrite Ep; csimp; rewrite nones_app; lia| |exact L]. intros k r' X. exists r'. repeat split. exact X.
  - unfold conn_step in E. destruct (c_lost s); [discriminate|]. destruct (live s i) as [r|] eqn:Lr; [|discriminate]. assert (bx = []) as -> by congruence. rewrite app_nil_r.
    assert (s' = put1 None (if keep then s else on_req i (set_keep false) s)) as -> by congruence. set (s1 := if keep then s else on_req i (set_keep false) s). assert (LD ak s1 b) as L' by (unfold s1; destruct keep; [exact L|apply ld_on_req; [intros; repeat split|exact L]]).
    assert (pending ak (put1 None s1) = pending ak s1) as Ep by (apply kin_pending; now apply kin_eq). pose proof (ld_pend _ _ _ L'). apply (ld_same ak ak s1); try reflexivity; [rewrite Ep; csimp; rewrite nones_app; lia|rewrite Ep; csimp; rewrite nones_app; lia| |exact L']. intros k r' X. exists r'. repeat split. exact X.
  - unfold conn_step in E. destruct (c_lost s); [discriminate|]. destruct (live s i) as [r|] eqn:Lr; [|discriminate]. pose proof (Hlive i r Lr) as Er. unfold send_continue in E.
    assert (forall s0, on_req i (fun r => r) s0 = s0) as X by (intros s0; unfold on_req; destruct (nth_error (c_reqs s0) i) as [r0|] eqn:Er0; [rewrite (put_same _ _ _ Er0); now destruct s0|reflexivity]).
    destruct (q_cont r) eqn:Qc; [destruct (_ <? _)%Z; [discriminate|]|]; apply pair_some in E as [-> ->]; rewrite app_nil_r; [rewrite <- (X (put1 None _))|rewrite <- (X s)]; apply (Kask i eq_refl (fun r => r) r Er); try (intros; repeat split); [right; eexists; reflexivity|left; split; [reflexivity|now left]].
  - unfold conn_step in E. destruct (c_lost s); [discriminate|]. destruct (live s i) as [r|] eqn:Lr; [|discriminate]. assert (s' = on_req i (set_live false) s) as -> by congruence. assert (bx = []) as -> by congruence. rewrite app_nil_r. apply ld_on_req; [intros; repeat split|exact L].
  - unfold conn_step in E. destruct (c_lost s); [discriminate|]. assert (s' = mkC None (c_paused s) true true [] [] (c_futs s) (c_wreq s) (c_wkeep s) (c_wrecv s) [] None [] [] false) as -> by congruence. discriminate.
Qed.
End Layers.
