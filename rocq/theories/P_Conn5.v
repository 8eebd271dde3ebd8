From Verif Require Import PyBytes PyBytesFacts PyInt PyExn M_Parser M_Framing M_Conn S_Conn P_Parser2 P_Conn P_Conn2 P_Conn3 P_Conn4.

Lemma pigeon (l : list nat) k : NoDup l -> (forall i, In i l -> i < k) -> List.length l <= k.
Proof. intros N H. rewrite <- (seq_length k 0). apply (NoDup_incl_length N). intros i Hi. apply in_seq. specialize (H i Hi). lia. Qed.
Lemma pigeon_full (l : list nat) k : NoDup l -> (forall i, In i l -> i < k) -> k <= List.length l -> forall i, i < k -> In i l.
Proof.
  intros N H L i Hi. assert (incl (seq 0 k) l) as X; [|apply X, in_seq; lia]. apply NoDup_length_incl; [exact N|rewrite seq_length; exact L|]. intros j Hj. apply in_seq. specialize (H j Hj). lia.
Qed.
Lemma live_some s i r : live s i = Some r -> nth_error (c_reqs s) i = Some r /\ q_live r = true.
Proof. unfold live. destruct (nth_error (c_reqs s) i) as [r'|]; [|discriminate]. destruct (q_live r') eqn:E; [|discriminate]. intros X. injection X as <-. now split. Qed.

(** Requests that a step keeps. *)
Definition kept (r r' : creq) : Prop := q_info r' = q_info r /\ q_cont r' = q_cont r /\ (q_reading r' = true -> q_reading r = true) /\ (q_eof r' = true -> q_eof r = true).
Definition kin (s s' : conn) : Prop := List.length (c_reqs s') = List.length (c_reqs s) /\ forall i r', nth_error (c_reqs s') i = Some r' -> exists r, nth_error (c_reqs s) i = Some r /\ kept r r'.
Lemma kept_refl r : kept r r.
Proof. repeat split; tauto. Qed.
Lemma kin_eq s s' : c_reqs s' = c_reqs s -> kin s s'.
Proof. intros E. unfold kin. rewrite E. split; [reflexivity|]. intros i r H. exists r. split; [exact H|apply kept_refl]. Qed.
Lemma kin_trans s s1 s2 : kin s s1 -> kin s1 s2 -> kin s s2.
Proof.
  intros [L1 K1] [L2 K2]. split; [congruence|]. intros i r2 E2. destruct (K2 i r2 E2) as (r1 & E1 & A1 & A2 & A3 & A4). destruct (K1 i r1 E1) as (r & E & B1 & B2 & B3 & B4). exists r. split; [exact E|]. repeat split; try congruence; tauto.
Qed.
Lemma kin_on_req i f s : (forall r, kept r (f r)) -> kin s (on_req i f s).
Proof.
  intros F. destruct (on_req_misc i f s) as (_ & _ & _ & _ & _ & _ & _ & _ & _ & _ & _ & _ & _ & _ & L). split; [exact L|]. intros j r' E. rewrite on_req_nth in E. destruct (i =? j)%nat.
  - destruct (nth_error (c_reqs s) j) as [r|]; [|discriminate]. injection E as <-. exists r. split; [reflexivity|apply F].
  - exists r'. split; [exact E|apply kept_refl].
Qed.
Lemma kin_put_end o len s : kin s (put_end o len s).
Proof.
  unfold put_end. destruct (c_cur s) as [k|]; [|now apply kin_eq]. destruct (nth_error (c_reqs s) k) as [r|] eqn:Er; [|now apply kin_eq]. destruct (q_upg r); [now apply kin_eq|]. cbn zeta.
  assert (kin s (set_reqs (put_at k (set_size (q_size r + len) r) (c_reqs s)) (Some k) s)) as K.
  { split; [csimp; apply put_length|]. intros i r' E. csimp_in E. rewrite nth_put in E. destruct (Nat.eqb_spec k i) as [<-|]; [rewrite Er in E; injection E as <-; exists r; split; [exact Er|repeat split; tauto]|exists r'; split; [exact E|apply kept_refl]]. }
  set (s1 := set_reqs (put_at k (set_size (q_size r + len) r) (c_reqs s)) (Some k) s) in *. destruct (_ && _); [apply (kin_trans s s1 _ K); now apply kin_eq|]. destruct (_ <? _)%Z; [apply (kin_trans s s1 _ K); now apply kin_eq|].
  apply (kin_trans s s1 _ K). apply (kin_trans s1 (on_req k (set_keep false) s1)); [apply kin_on_req; intros; repeat split; tauto|now apply kin_eq].
Qed.
Lemma kin_start k s : kin s (fst (start_handler k s)).
Proof.
  unfold start_handler. cbn [fst]. apply (kin_trans s (set_done (c_wkeep s) (set_done (c_wreq s) s))); [apply kin_eq; unfold set_done; destruct (c_wkeep s), (c_wreq s); reflexivity|]. apply kin_on_req. intros; repeat split; tauto.
Qed.
Lemma kin_put_round o n rest s : kin s (snd (put_round o n rest s)).
Proof. unfold put_round. cbn zeta. destruct (_ <? _)%Z; now apply kin_eq. Qed.
Lemma kin_hr_put o j k rest len s : kin s (fst (hr_put o j k rest len s)).
Proof.
  unfold hr_put. destruct rest as [|c rest]; [apply (kin_trans s (put_end o len s) _ (kin_put_end o len s)); eapply kin_trans; [|apply kin_start]; now apply kin_eq|].
  pose proof (kin_put_round o (o_first o) (c :: rest) s) as W. destruct (put_round o (o_first o) (c :: rest) s) as [[rest'|] s1]; cbn [snd] in W; apply (kin_trans s s1 _ W); [now apply kin_eq|]. eapply kin_trans; [|apply kin_start]. now apply kin_eq.
Qed.
Lemma kin_rcv_put o j rest len s : kin s (rcv_put o j rest len s).
Proof.
  unfold rcv_put. destruct rest as [|c rest]; [eapply kin_trans; [|apply kin_put_end]; now apply kin_eq|]. pose proof (kin_put_round o (o_buf o) (c :: rest) s) as W.
  destruct (put_round o (o_buf o) (c :: rest) s) as [[rest'|] s1]; cbn [snd] in W; apply (kin_trans s s1 _ W); now apply kin_eq.
Qed.
Lemma data_reqs o x s : c_reqs (data_received o x s) = c_reqs s.
Proof.
  unfold data_received. destruct x as [[|c d]|]; [reflexivity| |reflexivity]. destruct (c_hb s); cbn zeta; [destruct (_ && _); [reflexivity|]; destruct (_ || _); reflexivity|].
  destruct (match c_wrecv s with Some w => Some w | None => _ end); reflexivity.
Qed.
Lemma refeed_reqs o l : forall s, c_reqs (refeed o l s) = c_reqs s.
Proof. induction l as [|x l IH]; intros s; [reflexivity|]. cbn [refeed]. now rewrite IH, data_reqs. Qed.

(** ** Expect: 100-continue *)
Definition cont (s : conn) (i : nat) : bool := match nth_error (c_reqs s) i with Some r => q_cont r | None => false end.
(** The interim response was put, and its end marker is not taken. *)
Definition pending (ak : list nat) (s : conn) : nat := if existsb (cont s) ak then 1 else 0.
Record cont_inv (ak : list nat) (s : conn) (b : list obs) : Prop := {
  ci_ask : forall i, In i ak -> i < List.length (starts b);
  ci_read : forall i r, nth_error (c_reqs s) i = Some r -> q_reading r = true \/ q_eof r = true -> In i ak;
  ci_cont : forall i r, nth_error (c_reqs s) i = Some r -> q_cont r = true -> List.length (starts b) <= i \/ (ended b = i /\ List.length (starts b) = S i);
  ci_info : forall i r, nth_error (c_reqs s) i = Some r -> (q_cont r = true -> rq_continue (q_info r) = true) /\ (~ In i ak -> q_cont r = rq_continue (q_info r));
  ci_int : forall i, In (Interim i) b -> i < List.length (c_reqs s) /\ cont s i = false }.
Lemma kin_cont s s' i : kin s s' -> cont s' i = cont s i.
Proof.
  intros [L K]. unfold cont. destruct (nth_error (c_reqs s') i) as [r'|] eqn:E'; [destruct (K i r' E') as (r & -> & _ & X & _); exact X|].
  apply nth_error_None in E'. rewrite L in E'. apply nth_error_None in E'. now rewrite E'.
Qed.
Lemma pending_ext ak s s' : (forall i, In i ak -> cont s' i = cont s i) -> pending ak s' = pending ak s.
Proof.
  intros H. unfold pending. assert (existsb (cont s') ak = existsb (cont s) ak) as ->; [|reflexivity]. induction ak as [|x ak IH]; [reflexivity|]. cbn. rewrite (H x (or_introl eq_refl)), IH; [reflexivity|]. intros i Hi. apply H. now right.
Qed.
Lemma kin_pending ak s s' : kin s s' -> pending ak s' = pending ak s.
Proof. intros K. apply pending_ext. intros i _. now apply kin_cont. Qed.
Lemma pending_le ak s : pending ak s <= 1.
Proof. unfold pending. destruct (existsb _ _); lia. Qed.
Lemma pending_one ak s : 0 < pending ak s -> exists i, In i ak /\ cont s i = true.
Proof. unfold pending. destruct (existsb _ _) eqn:E; [|lia]. intros _. apply existsb_exists in E as (i & Hi & H). now exists i. Qed.
Lemma pending_yes ak s i : In i ak -> cont s i = true -> pending ak s = 1.
Proof. intros Hi H. unfold pending. assert (existsb (cont s) ak = true) as ->; [|reflexivity]. apply existsb_exists. now exists i. Qed.
Lemma pending_no ak s : (forall i, In i ak -> cont s i = false) -> pending ak s = 0.
Proof. intros H. pose proof (pending_le ak s). destruct (pending ak s) eqn:E; [reflexivity|]. destruct (pending_one ak s ltac:(lia)) as (i & Hi & X). now rewrite (H i Hi) in X. Qed.
Lemma cont_some s i : cont s i = true -> exists r, nth_error (c_reqs s) i = Some r /\ q_cont r = true.
Proof. unfold cont. destruct (nth_error (c_reqs s) i) as [r|]; [|discriminate]. intros H. now exists r. Qed.
(** One that was asked is the current one. *)
Lemma asked_active ak s b i : cont_inv ak s b -> In i ak -> cont s i = true -> ended b = i /\ List.length (starts b) = S i.
Proof. intros C Hi H. destruct (cont_some s i H) as (r & E & Q). pose proof (ci_ask _ _ _ C i Hi). destruct (ci_cont _ _ _ C i r E Q) as [X|X]; [lia|exact X]. Qed.
Lemma cont_same ak s s' b bx : kin s s' -> starts bx = [] -> ended bx = 0 -> (forall i, ~ In (Interim i) bx) -> cont_inv ak s b -> cont_inv ak s' (b ++ bx).
Proof.
  intros KK Es Ee Nx [C1 C2 C3 C4 C5]. pose proof KK as [L K]. constructor; rewrite ?starts_app, ?ended_app, ?Es, ?Ee, ?app_nil_r, ?Nat.add_0_r.
  - exact C1.
  - intros i r' E H. destruct (K i r' E) as (r & Er & _ & _ & H1 & H2). apply (C2 i r Er). tauto.
  - intros i r' E H. destruct (K i r' E) as (r & Er & _ & H1 & _). apply (C3 i r Er). congruence.
  - intros i r' E. destruct (K i r' E) as (r & Er & H0 & H1 & _). rewrite H0, H1. now apply (C4 i r Er).
  - intros i Hi. rewrite (kin_cont s s' i KK), L. apply C5. apply in_app_or in Hi as [Hi|Hi]; [exact Hi|now apply Nx in Hi].
Qed.
(** A handler asks. *)
Lemma cont_ask ak i s s' b : cont_inv ak s b -> i < List.length (starts b) -> List.length (c_reqs s') = List.length (c_reqs s) ->
  (forall j r', nth_error (c_reqs s') j = Some r' -> exists r, nth_error (c_reqs s) j = Some r /\ q_info r' = q_info r /\ q_cont r' = q_cont r /\ (q_reading r' = true -> q_reading r = true \/ j = i) /\ (q_eof r' = true -> q_eof r = true)) -> cont_inv (ak ++ [i]) s' b.
Proof.
  intros [C1 C2 C3 C4 C5] Li Lr K. constructor.
  - intros j Hj. apply in_app_or in Hj as [Hj|[<-|[]]]; [now apply C1|exact Li].
  - intros j r' E H. apply in_or_app. destruct (K j r' E) as (r & Er & _ & _ & H1 & H2). destruct H as [H|H]; [destruct (H1 H) as [X| ->]; [left; apply (C2 j r Er); now left|right; now left]|left; apply (C2 j r Er); right; now apply H2].
  - intros j r' E H. destruct (K j r' E) as (r & Er & _ & H1 & _). apply (C3 j r Er). congruence.
  - intros j r' E. destruct (K j r' E) as (r & Er & H0 & H1 & _). rewrite H0, H1. destruct (C4 j r Er) as [X Y]. split; [exact X|]. intros N. apply Y. intros H. apply N, in_or_app. now left.
  - intros j Hj. rewrite Lr. destruct (C5 j Hj) as [X Y]. split; [exact X|]. unfold cont in *. destruct (nth_error (c_reqs s') j) as [r'|] eqn:E; [|reflexivity]. destruct (K j r' E) as (r & Er & _ & -> & _). now rewrite Er in Y.
Qed.
(** A request is made, or a handler starts. *)
Definition fresh_or_kept (s s' : conn) : Prop := forall i r', nth_error (c_reqs s') i = Some r' -> (exists r, nth_error (c_reqs s) i = Some r /\ kept r r') \/ (i = List.length (c_reqs s) /\ q_cont r' = rq_continue (q_info r') /\ q_reading r' = false /\ q_eof r' = false).
Lemma cont_start ak s s' b bx : fresh_or_kept s s' -> List.length (c_reqs s') <= S (List.length (starts b)) -> List.length (starts b) <= List.length (c_reqs s) -> ended b = List.length (starts b) -> ended bx = 0 -> List.length (starts bx) <= 1 -> (forall i, ~ In (Interim i) bx) -> List.length (c_reqs s) <= List.length (c_reqs s') -> cont_inv ak s b -> cont_inv ak s' (b ++ bx).
Proof.
  intros K Ls Lb Eb Ee Lx Nx Lr [C1 C2 C3 C4 C5]. constructor; rewrite ?starts_app, ?app_length, ?ended_app, ?Ee, ?Nat.add_0_r.
  - intros i Hi. apply C1 in Hi. lia.
  - intros i r' E H. destruct (K i r' E) as [(r & Er & _ & _ & H1 & H2)|(_ & _ & H1 & H2)]; [apply (C2 i r Er); tauto|]. destruct H; congruence.
  - intros i r' E H. assert (i < List.length (c_reqs s')) as Li by (apply nth_error_Some; congruence). assert (List.length (starts b) <= i) as Ge.
    { destruct (K i r' E) as [(r & Er & _ & H1 & _)|(-> & _)]; [|lia]. destruct (C3 i r Er) as [X|[X Y]]; [congruence|exact X|lia]. }
    destruct (List.length (starts bx)) as [|[|x]] eqn:Ex; [left; lia|right; split; lia|lia].
  - intros i r' E. destruct (K i r' E) as [(r & Er & H0 & H1 & _)|(_ & H & _)]; [rewrite H0, H1; now apply (C4 i r Er)|]. rewrite H. split; [now intros|reflexivity].
  - intros i Hi. apply in_app_or in Hi as [Hi|Hi]; [|now apply Nx in Hi]. destruct (C5 i Hi) as [X Y]. split; [lia|]. unfold cont in *. destruct (nth_error (c_reqs s') i) as [r'|] eqn:E; [|reflexivity]. destruct (K i r' E) as [(r & Er & _ & -> & _)|(-> & _)]; [now rewrite Er in Y|lia].
Qed.
Lemma fresh_pending ak s s' b : fresh_or_kept s s' -> List.length (c_reqs s) <= List.length (c_reqs s') -> List.length (starts b) <= List.length (c_reqs s) -> cont_inv ak s b -> pending ak s' = pending ak s.
Proof.
  intros K L Lb C. apply pending_ext. intros i Hi. apply (ci_ask _ _ _ C) in Hi. unfold cont. destruct (nth_error (c_reqs s') i) as [r'|] eqn:E'; [|apply nth_error_None in E'; lia].
  destruct (K i r' E') as [(r & -> & _ & X & _)|(-> & _)]; [exact X|lia].
Qed.
Lemma kin_fresh s s' : kin s s' -> fresh_or_kept s s'.
Proof. intros [_ K] i r' E. left. now apply K. Qed.

Section Steps.
Context (o : copts) (M : list msg) (Mok : Forall (msg_ok o) M) (Ook : opts_ok o).

Lemma not_expected m r : In m M -> m_has m = false -> parsed m = Some r -> rq_continue r = false.
Proof.
  intros Hm Mc Pm. pose proof (proj1 (Forall_forall _ _) Mok m Hm) as (p & r' & F & _ & _ & Fr & Rl). rewrite Mc in Rl. destruct Rl as [Rl _]. unfold parsed in Pm. rewrite F, Fr in Pm. injection Pm as <-. clear F. revert Fr. unfold frame_head. cbn zeta. destruct (is_request _); [|discriminate].
  destruct (request_init _) as [r0|] eqn:Ei; [|discriminate]. destruct (frame r0) as [r1|] eqn:Ef; [|discriminate]. intros X. injection X as <-. revert Ef. unfold frame, bind. destruct (keepalive_of r0); [|discriminate]. destruct (has_body r0) eqn:Hb.
  - destruct (transfer_encoding_of r0) as [te|]; [|discriminate]. destruct (content_length_of r0 te); [|discriminate]. destruct (continue_of r0); [|discriminate]. intros X. injection X as <-. unfold has_body in Rl, Hb. cbn [rq_headers] in Rl. congruence.
  - intros X. injection X as <-. cbn [rq_continue]. revert Ei. unfold request_init, bind. destruct (as_bytes _); [|discriminate]. destruct (as_bytes _); [|discriminate]. destruct (partition _ _) as [[? ?] ?]. intros X. injection X as <-. reflexivity.
Qed.

(** Without Content-Length there is no limit to trim to. *)
Lemma no_length m r : parsed m = Some r -> counted m = false -> has_body r = true -> rq_content_length r = (-1)%Z.
Proof.
  intros Pm Cm Hb. unfold counted in Cm. rewrite Pm in Cm. unfold parsed in Pm. destruct (find _ (m_head m)) as [p|]; [|discriminate]. revert Pm. unfold frame_head. cbn zeta. destruct (is_request _); [|discriminate].
  destruct (request_init _) as [r0|] eqn:Ei; [|discriminate]. destruct (frame r0) as [r1|] eqn:Ef; [|discriminate]. intros X. injection X as ->. revert Ef. unfold frame, bind. destruct (keepalive_of r0); [|discriminate]. destruct (has_body r0) eqn:Hb0.
  - destruct (transfer_encoding_of r0) as [te|]; [|discriminate]. destruct (content_length_of r0 te) as [z|] eqn:Ez; [|discriminate]. destruct (continue_of r0); [|discriminate]. intros X. injection X as <-. cbn [rq_headers rq_content_length] in *.
    unfold content_length_of in Ez. rewrite hmem_hget in Cm. destruct (hget k_content_length (rq_headers r0)); [discriminate|]. destruct (beqb _ _); [discriminate|]. assert (z = rq_content_length r0) as -> by congruence.
    revert Ei. unfold request_init, bind. destruct (as_bytes _); [|discriminate]. destruct (as_bytes _); [|discriminate]. destruct (partition _ _) as [[? ?] ?]. intros X. injection X as <-. reflexivity.
  - intros X. injection X as <-. unfold has_body in Hb, Hb0. cbn [rq_headers] in Hb. congruence.
Qed.

Definition Inv (nc ak : list nat) (rec : bytes) (s : conn) (b : list obs) : Prop :=
  exists k n, common M nc s b k n /\ phase M (List.length nc + pending ak s) s b k rec /\ bound M rec b /\ cont_inv ak s b.

Lemma inv_same nc i' ak ak' s s' b bx rec : same_rest s s' -> same_reqs s s' -> quiet_obs bx -> pending ak s + nones (c_q1 s') = List.length i' + pending ak' s' + nones (c_q1 s) -> NoDup (nc ++ i') -> cont_inv ak' s' (b ++ bx) ->
  (forall i, In i i' -> (exists r, live s i = Some r) /\ forall m, nth_error M i = Some m -> m_has m = true -> read_all i m b) -> Inv nc ak rec s b -> Inv (nc ++ i') ak' rec s' (b ++ bx).
Proof.
  intros R Q O N Nd Ci Hc (k & n & C & P & B & _). exists k, n. split; [|split; [|split; [|exact Ci]]].
  - apply (common_same M nc _ s s'); try assumption. intros i Hi. apply in_app_or in Hi as [Hi|Hi]; [now apply (cm_closers _ _ _ _ _ _ C)|]. destruct (Hc i Hi) as [(r & Lr) H]. split; [|exact H]. apply live_some in Lr as [Er Lr]. now apply (cm_reqs _ _ _ _ _ _ C i r Er).
  - rewrite app_length. apply (phase_same M (List.length nc + pending ak s) _ s s'); try assumption. lia.
  - apply (bound_mono M rec rec b); [apply prefix_refl| |exact B]. rewrite ended_app. lia.
Qed.

(** *** The loop of the send task: reset *)
Lemma phase_k nc s b k n : common M nc s b k n -> List.length nc <= k.
Proof. intros C. apply (pigeon nc k (cm_nodup _ _ _ _ _ _ C)). intros i Hi. now apply (cm_closers _ _ _ _ _ _ C). Qed.
Lemma read_some i b x : got i b = x -> x <> [] -> exists d, In (Got i (Some d)) b.
Proof.
  intros <-. unfold got. induction b as [|y b IH]; [easy|]. cbn [map List.concat]. destruct y as [| j [d|] | | |]; cbn [app]; try (intros H; destruct (IH H) as (d' & X); exists d'; now right). destruct (Nat.eqb_spec i j) as [<-|]; [exists d; now left|]. intros H. destruct (IH H) as (d' & X). exists d'. now right.
Qed.
Lemma waits_all_over w a l : Forall (fun t => t = ROver) l -> waits w a l -> l = [].
Proof. intros F W. destruct l as [|t l]; [reflexivity|]. inversion F; subst. destruct W. Qed.

Lemma starts_k nc s b k n : common M nc s b k n -> List.length (starts b) = k.
Proof. intros C. rewrite (cm_starts _ _ _ _ _ _ C), combine_length, seq_length, map_length. pose proof (cm_k _ _ _ _ _ _ C). lia. Qed.
Lemma send_inv nc ak rec s b kicked s' bx : Inv nc ak rec s b -> run_send o kicked s = Some (s', bx) -> c_closing s' = false -> (forall i x, In (Got i x) b -> In i ak) ->
  ((In Ended bx -> Forall (fun t => t = ROver) (c_rcv s)) \/
   ((exists j, is_prefix rec (upto_msg M j) /\ j <= S (ended b)) /\ (In Ended bx -> forall m, nth_error M (ended b) = Some m -> m_has m = true -> counted m = false -> Forall (fun t => t = ROver) (c_rcv s)))) -> Inv nc ak rec s' (b ++ bx).
Proof.
  intros I E Cl Hg St. unfold run_send in E. destruct (c_sending s); [|discriminate]. destruct (c_q1 s) as [|[d|] q] eqn:Eq; [discriminate| |].
  - assert (s' = set_q1 q s) as -> by congruence. assert (quiet_obs bx) as Qx. { assert (bx = if c_closing s then [] else [Wrote d]) as -> by congruence. destruct (c_closing s); repeat split; intros; cbn; intuition discriminate. }
    rewrite <- (app_nil_r nc). apply (inv_same nc [] ak ak s _ b bx rec); try assumption.
    + repeat split.
    + apply (same_refl s).
    + csimp. rewrite Eq. reflexivity.
    + rewrite app_nil_r. destruct I as (k & n & C & _). apply (cm_nodup _ _ _ _ _ _ C).
    + apply (cont_same ak s); [now apply kin_eq|apply Qx|rewrite ended_marks; destruct Qx as [-> _]; reflexivity|intros i; assert (bx = if c_closing s then [] else [Wrote d]) as -> by congruence; destruct (c_closing s); cbn; intuition discriminate|]. now destruct I as (k & n & _ & _ & _ & Ci).
    + intros i [].
  - pose proof I as Iall. destruct I as (k & n & C & P & B & Ci). pose proof (phase_k _ _ _ _ _ C) as Lk. pose proof (starts_k _ _ _ _ _ C) as Ls. csimp_in E. destruct (c_cur s) as [i|] eqn:Ec; [|assert (s' = set_sending false (set_closing (set_q1 q s))) as -> by congruence; discriminate].
    destruct (nth_error (c_reqs s) i) as [r|] eqn:Er; [|discriminate].
    destruct (q_keep r && _)%bool eqn:K; [|assert (s' = set_sending false (set_closing (on_req i clear_body (set_q1 q s)))) as -> by congruence; discriminate].
    apply andb_prop in K as [K Hb]. assert (nones (c_q1 s) = S (nones q)) as Nq by now rewrite Eq.
    destruct P as [bb h a A1 A2 A3 A4 A5 A6 A7 A8 A9 A10 A11 A12|m rest h a l A1 A2 A3 A4 A5 A6 A7 A8 A9 A10 A11 A12 A13|rest len h a l A1 A2 A3 A4 A5 A6 A7 A8 A9 A10 A11 A12 A13|k' h a l mk A1 A2 A3 A4 A5 A6 A7 A8 A9 A10 A11 A12 A13]; [rewrite A1 in Hb; discriminate| | |].
    + exfalso. destruct (pending_one ak s) as (j & Hj & X); [lia|]. destruct (asked_active ak s b j Ci Hj X). pose proof (ended_rep b k A9). lia.
    + exfalso. destruct (pending_one ak s) as (j & Hj & X); [lia|]. destruct (asked_active ak s b j Ci Hj X). pose proof (ended_rep b k A7). lia.
    + subst k. assert (n = S k') as -> by (rewrite <- (cm_n _ _ _ _ _ _ C); exact A7). assert (i = k') as -> by (rewrite (cm_cur _ _ _ _ _ _ C) in Ec; congruence).
      pose proof (A10 r Er K) as Nc. assert (forall j, In j ak -> cont s j = true -> j = k') as Act by (intros j Hj X; destruct (asked_active ak s b j Ci Hj X); lia).
      destruct (cm_reqs _ _ _ _ _ _ C k' r Er) as ((m0 & Em0 & _ & _ & Pm0 & _) & Ree0 & _).
      destruct (q_cont r && existsb (Nat.eqb k') ak)%bool eqn:Ask.
      { apply andb_prop in Ask as [Qc Ask]. apply existsb_exists in Ask as (j & Hj & Ej). apply Nat.eqb_eq in Ej. subst j. assert (cont s k' = true) as Ck by (unfold cont; now rewrite Er).
        assert (s' = keepalive o kicked k' r (set_q1 q s)) as Es by congruence. assert (bx = [Interim k']) as -> by (rewrite Qc in E; congruence). clear E. unfold keepalive in Es. destruct (kicked && _)%bool; [subst s'; discriminate|]. rewrite Qc in Es.
        assert (forall j r', nth_error (c_reqs s') j = Some r' -> exists r0, nth_error (c_reqs s) j = Some r0 /\ r' = if (k' =? j)%nat then set_cont false r0 else r0) as Kr.
        { intros j r' Ej. rewrite Es in Ej. csimp_in Ej. rewrite on_req_nth in Ej. csimp_in Ej. destruct (k' =? j)%nat; [|now exists r']. destruct (nth_error (c_reqs s) j) as [r0|]; [|discriminate]. injection Ej as <-. now exists r0. }
        assert (pending ak s' = 0) as P0'.
        { apply pending_no. intros j Hj'. destruct (cont s' j) eqn:X; [|reflexivity]. exfalso. apply cont_some in X as (r' & Ej & X). destruct (Kr j r' Ej) as (r0 & Er0 & ->). destruct (Nat.eqb_spec k' j) as [->|Nj]; [discriminate X|]. apply Nj. symmetry. apply Act; [exact Hj'|]. unfold cont. now rewrite Er0. }
        destruct (on_req_misc k' (set_cont false) (set_q1 q s)) as (B1 & B2 & B3 & B4 & B5 & B6 & B7 & B8 & B9 & B10 & B11 & B12 & B13 & B14 & B15). csimp_in B15.
        assert (List.length (c_reqs s') = List.length (c_reqs s)) as Lr by (rewrite Es; csimp; exact B15).
        rewrite <- (app_nil_r nc). apply (inv_same nc [] ak ak s _ b [Interim k'] rec); try assumption.
        - rewrite Es. repeat split; csimp; assumption.
        - split; [exact Lr|]. intros j r' Ej. destruct (Kr j r' Ej) as (r0 & Er0 & ->). exists r0. split; [exact Er0|]. destruct (k' =? j)%nat; repeat split; intros; try assumption. discriminate.
        - repeat split; intros; cbn; intuition discriminate.
        - rewrite P0', (pending_yes ak s k' Hj Ck), Nq. cbn [List.length]. assert (c_q1 s' = q) as ->; [|lia]. rewrite Es. csimp. exact B4.
        - rewrite app_nil_r. apply (cm_nodup _ _ _ _ _ _ C).
        - destruct Ci as [C1 C2 C3 C4 C5]. constructor; rewrite ?starts_app, ?ended_app, ?app_nil_r; cbn [starts flat_map app ended filter List.length]; rewrite ?app_nil_r, ?Nat.add_0_r.
          + exact C1.
          + intros j r' Ej H. destruct (Kr j r' Ej) as (r0 & Er0 & ->). apply (C2 j r0 Er0). destruct (k' =? j)%nat; exact H.
          + intros j r' Ej H. destruct (Kr j r' Ej) as (r0 & Er0 & ->). apply (C3 j r0 Er0). destruct (k' =? j)%nat; [discriminate|exact H].
          + intros j r' Ej. destruct (Kr j r' Ej) as (r0 & Er0 & ->). destruct (C4 j r0 Er0) as [X Y]. destruct (Nat.eqb_spec k' j) as [<-|]; [|now split]. split; [discriminate|]. intros N. now destruct N.
          + intros j Hj'. apply in_app_or in Hj' as [Hj'|[Hj'|[]]].
            * rewrite Lr. destruct (C5 j Hj') as [X Y]. split; [exact X|]. unfold cont in *. destruct (nth_error (c_reqs s') j) as [r'|] eqn:Ej; [|reflexivity]. destruct (Kr j r' Ej) as (r0 & Er0 & ->). rewrite Er0 in Y. now destruct (k' =? j)%nat.
            * injection Hj' as <-. rewrite Lr. split; [apply nth_error_Some; congruence|]. unfold cont. destruct (nth_error (c_reqs s') k') as [r'|] eqn:Ej; [|reflexivity]. destruct (Kr k' r' Ej) as (r0 & Er0 & ->). now rewrite Nat.eqb_refl.
        - intros j []. }
      assert (pending ak s = 0) as Pz.
      { apply pending_no. intros j Hj. destruct (cont s j) eqn:X; [|reflexivity]. exfalso. pose proof (Act j Hj X) as ->. unfold cont in X. rewrite Er in X. rewrite X in Ask. cbn [andb] in Ask. assert (existsb (Nat.eqb k') ak = true) as Y by (apply existsb_exists; exists k'; split; [exact Hj|apply Nat.eqb_refl]). congruence. }
      assert (nones q = 0) as Nq0 by lia.
      assert (In k' nc) as Ink. { apply (pigeon_full nc (S k')); try lia; [apply (cm_nodup _ _ _ _ _ _ C)|]. intros i Hi. now apply (cm_closers _ _ _ _ _ _ C). }
      destruct A13 as (m & r' & ds & Em & Er' & E0 & Erec & (Is1 & Is2 & I2) & I). rewrite Er in Er'. injection Er' as <-.
      destruct (cm_reqs _ _ _ _ _ _ C k' r Er) as ((m' & Em' & Rh & Ru & Rpm & Rcl & Rhb & Rlen & Rb) & Ree & _). rewrite Em in Em'. injection Em' as <-.
      assert (q_cont r = false) as Rcn.
      { destruct (q_cont r) eqn:Qc; [|reflexivity]. exfalso. cbn [andb] in Ask. destruct (ci_info _ _ _ Ci k' r Er) as [X _]. specialize (X Qc). destruct (m_has m) eqn:Mc; [|rewrite (not_expected m (q_info r) (nth_error_In _ _ Em) Mc Rpm) in X; discriminate].
        assert (In k' ak) as Hk.
        { pose proof (proj2 (cm_closers _ _ _ _ _ _ C k' Ink) m Em Mc) as Ra. unfold read_all in Ra. destruct (counted m) eqn:Cm; [now apply (Hg k' None)|]. apply (read_some k' b) in Ra; [destruct Ra as (d & Hd); now apply (Hg k' (Some d))|].
          pose proof (proj1 (Forall_forall _ _) Mok m (nth_error_In _ _ Em)) as (p & r1 & Fd & _ & _ & Fr & Rl). unfold counted, parsed in Cm. rewrite Fd, Fr in Cm. rewrite Mc, Cm in Rl. apply Rl. }
        assert (existsb (Nat.eqb k') ak = true) as Y by (apply existsb_exists; exists k'; split; [exact Hk|apply Nat.eqb_refl]). congruence. }
      assert (bx = [Ended]) as Ebx by (rewrite Rcn in E; congruence). assert (In Ended bx) as Hen by (rewrite Ebx; now left).
      assert (l = []) as ->.
      { assert (Forall (fun t => t = ROver) (c_rcv s) -> l = []) as Lo.
        { intros Fo. rewrite A4 in Fo. apply Forall_app in Fo as [_ Fo].
          destruct A6 as [W|[[_ W]|(rs & ln & l' & -> & _)]]; [now apply (waits_all_over _ _ _ Fo W)|now apply (waits_all_over _ _ _ Fo W)|]. inversion Fo; discriminate. }
        destruct St as [St|((j & Pj & Lj) & St)].
        - apply Lo, (St Hen).
        - destruct (m_has m) eqn:Clm.
          + destruct (counted m) eqn:Cm; [|apply Lo; apply (St Hen m); try assumption; now rewrite (ended_rep1 _ _ A8)].
            destruct I as (I1 & _ & _ & I3 & I4). apply I3. right. apply Ree. pose proof (proj2 (cm_closers _ _ _ _ _ _ C k' Ink) m Em Clm) as Ra. unfold read_all in Ra. now rewrite Cm in Ra.
          + rewrite (ended_rep1 _ _ A8) in Lj. destruct I as [Ig _]. rewrite Ig in *. cbn [app] in *.
            assert (is_prefix (List.concat ds ++ pend l) []) as Pn.
            { rewrite Erec in Pj. apply (prefix_cancel (m_head m)), (prefix_cancel (upto_msg M k')). apply (prefix_trans _ _ _ Pj). pose proof (upto_msg_mono M j (S k') Lj) as H. rewrite (upto_msg_S M k' m Em) in H. unfold wire in H. rewrite (Rb eq_refl) in H. exact H. }
            apply prefix_length in Pn. unfold blen in I2. cbn [List.length] in Pn. assert (lens l <= 0)%Z as Ll by lia.
            destruct A6 as [W|[[_ W]|(rs & ln & l' & -> & Ln & W)]]; [apply (waits_lens_nil _ _ _ W); rewrite (waits_lens _ _ _ W) in *; unfold blen in *; lia|apply (waits_lens_nil _ _ _ W); rewrite (waits_lens _ _ _ W) in *; unfold blen in *; lia|].
            exfalso. cbn [lens len1] in Ll. rewrite (waits_lens _ _ _ W) in Ll. unfold blen in Ll. lia. }
      assert (s' = keepalive o kicked k' r (set_q1 q s)) as Es by congruence. subst bx. clear E. unfold keepalive in Es. destruct (kicked && _)%bool; [subst s'; discriminate|]. rewrite Rcn, Ru, Rhb in Es. cbn zeta in Es.
      set (s0 := on_req k' clear_body (set_q1 q s)) in Es. destruct (on_req_misc k' clear_body (set_q1 q s)) as (B1 & B2 & B3 & B4 & B5 & B6 & B7 & B8 & B9 & B10 & B11 & B12 & B13 & B14 & B15).
      pose proof (fun i => on_req_nth k' clear_body (set_q1 q s) i) as Ern. fold s0 in B1, B2, B3, B4, B5, B6, B7, B8, B9, B10, B11, B12, B13, B14, B15, Ern. csimp_in B1. csimp_in B2. csimp_in B3. csimp_in B4. csimp_in B5. csimp_in B6. csimp_in B7. csimp_in B8. csimp_in B9. csimp_in B10. csimp_in B11. csimp_in B12. csimp_in B13. csimp_in B15. csimp_in Ern. clearbody s0.
      set (s2 := set_waiters None (Some (List.length (c_futs s0))) None (set_futs (c_futs s0 ++ [false]) (set_hb (Some []) s0))).
      assert (s' = set_paused false (if m_has m then s2 else refeed o (c_q0 s2) (set_q0 [] s2))) as Es'.
      { rewrite Es. csimp. unfold s2. csimp. reflexivity. }
      assert (forall i, got i (b ++ [Ended]) = got i b) as Gb by (intros i; rewrite got_app; cbn; now rewrite app_nil_r).
      assert (forall i, In (Got i None) (b ++ [Ended]) <-> In (Got i None) b) as Nb by (intros i; rewrite in_app_iff; cbn; intuition discriminate).
      assert (forall i m, read_all i m b -> read_all i m (b ++ [Ended])) as Ab by (intros i m1; unfold read_all; rewrite Gb; destruct (counted m1); [apply Nb|tauto]).
      assert (bound M rec (b ++ [Ended])) as B' by (apply (bound_mono M rec rec b _ (prefix_refl _)); [rewrite ended_app; lia|exact B]).
      assert (forall s3, c_hb s3 = Some [] -> c_closing s3 = c_closing s0 -> c_lost s3 = c_lost s0 -> c_sending s3 = c_sending s0 -> c_reqs s3 = c_reqs s0 -> c_cur s3 = c_cur s0 -> c_futs s3 = c_futs s0 ++ [false] -> c_wreq s3 = None -> c_wkeep s3 = Some (List.length (c_futs s0)) -> c_wrecv s3 = None ->
        c_hrs s3 = c_hrs s0 -> c_rcv s3 = c_rcv s0 -> c_q0 s3 = [] -> c_q1 s3 = c_q1 s0 -> common M nc s3 (b ++ [Ended]) (S k') (S k') /\ phase M (List.length nc + 0) s3 (b ++ [Ended]) (S k') (upto_msg M (S k'))) as K3.
      { intros s3 D1 D2 D3 D4 D5 D6 D7 D8 D9 D10 D11 D12 D13 D14. assert (cf s3 = List.length (c_futs s0)) as Ecf by (unfold cf; now rewrite D8, D9). split.
        - destruct C. constructor; rewrite ?D2, ?D3, ?D4, ?D5, ?D6, ?B1, ?B9, ?B12, ?B13, ?B15; try assumption.
          + split; [right; split; [exact D8|rewrite D9; discriminate]|]. rewrite Ecf, D7, app_length. cbn [List.length]. lia.
          + rewrite starts_app. cbn. now rewrite app_nil_r.
          + intros j r2 E. rewrite Ern in E. rewrite Nb. destruct (Nat.eqb_spec k' j) as [<-|].
            * rewrite Er in E. injection E as <-. destruct (cm_reqs k' r Er) as (X1 & X2 & X3). split; [exact X1|]. split; assumption.
            * now apply cm_reqs.
          + intros j m2 E. rewrite Nb, Gb. now apply cm_got.
          + intros j Hj. rewrite Nb, Gb. now apply cm_new.
          + intros j Hj. destruct (cm_closers j Hj) as [X1 X2]. split; [exact X1|]. intros m2 E C'. apply Ab. now apply (X2 m2).
        - apply (P0 _ _ _ _ _ _ [] h a); try assumption; try reflexivity.
          + now rewrite D11, B10.
          + rewrite D12, B11, A4. apply app_nil_r.
          + rewrite D5, B15. exact A7.
          + rewrite marks_app, A8, rep_S, <- app_assoc. reflexivity.
          + rewrite D14, B4. lia.
          + now rewrite app_nil_r.
          + rewrite Ecf, D7, app_nth2, Nat.sub_diag by lia. reflexivity.
          + intros j m2 L E C'. apply Ab. destruct (Nat.eq_dec j k') as [->|Nj]; [|apply (A12 j m2); try assumption; lia]. apply (cm_closers _ _ _ _ _ _ C k' Ink) with (m := m2); assumption. }
      assert (kin s s') as Kin.
      { apply (kin_trans s s0).
        - split; [exact B15|]. intros j r' Ej. rewrite Ern in Ej. destruct (k' =? j)%nat; [|exists r'; split; [exact Ej|apply kept_refl]]. destruct (nth_error (c_reqs s) j) as [r0|]; [|discriminate]. injection Ej as <-. exists r0. split; [reflexivity|repeat split; tauto].
        - apply kin_eq. rewrite Es'. csimp. destruct (m_has m); [|rewrite refeed_reqs]; reflexivity. }
      assert (pending ak s' = 0) as Pz' by (now rewrite (kin_pending ak s s' Kin)).
      assert (cont_inv ak s' (b ++ [Ended])) as Ci'.
      { pose proof Kin as [Lr Kr]. pose proof Ci as [C1 C2 C3 C4 C5]. constructor; rewrite ?starts_app, ?ended_app, ?app_nil_r; cbn [starts flat_map app ended filter List.length]; rewrite ?app_nil_r.
        - exact C1.
        - intros j r' Ej H. destruct (Kr j r' Ej) as (r0 & Er0 & _ & _ & X1 & X2). apply (C2 j r0 Er0). tauto.
        - intros j r' Ej H. destruct (Kr j r' Ej) as (r0 & Er0 & _ & X & _). destruct (C3 j r0 Er0) as [Y|[Y1 Y2]]; [congruence|now left|]. exfalso. assert (j = k') as -> by lia. congruence.
        - intros j r' Ej. destruct (Kr j r' Ej) as (r0 & Er0 & X0 & X & _). rewrite X0, X. now apply (C4 j r0).
        - intros j Hj. rewrite (kin_cont s s' j Kin), Lr. apply C5. apply in_app_or in Hj as [Hj|[Hj|[]]]; [exact Hj|discriminate]. }
      destruct (m_has m) eqn:Clm.
      * destruct I as (I1 & Ic & In0 & I3 & I4). pose proof (proj2 (cm_closers _ _ _ _ _ _ C k' Ink) m Em Clm) as Ra. unfold read_all in Ra.
        assert (ds = [] /\ mk = false /\ got k' b = m_body m) as (-> & -> & X).
        { destruct (counted m) eqn:Cm.
          - assert (q_eof r = true) as Ee by now apply Ree. destruct (I4 Ee) as [-> ->]. destruct (I3 (or_intror Ee)) as [X _]. cbn [List.concat] in X. rewrite app_nil_r in X. now repeat split.
          - assert (mk = false) as -> by (destruct mk; [discriminate (Ic eq_refl)|reflexivity]). split; [|split; [reflexivity|exact Ra]]. destruct ds as [|d ds]; [reflexivity|]. exfalso. pose proof B as Bd. rewrite Erec in Bd.
            apply (body_bound M k' m _ b Em Clm (ended_rep1 _ _ A8)) in Bd. apply prefix_length in Bd. rewrite Ra in Bd. cbn [List.concat] in Bd. rewrite !app_length in Bd. inversion In0 as [|? ? Hd _]; subst. destruct d; [easy|]. cbn [List.length] in Bd. lia. }
        cbn [map app] in E0.
        assert (rec = upto_msg M (S k')) as ->. { rewrite Erec, (upto_msg_S M k' m Em). unfold wire. cbn [List.concat app pend map]. rewrite X. now rewrite !app_nil_r. }
        destruct (K3 s') as [K1 K2]; try (rewrite Es'; unfold s2; csimp; reflexivity).
        -- rewrite Es'. unfold s2. csimp. now rewrite B3.
        -- exists (S k'), (S k'). rewrite Pz'. split; [exact K1|]. split; [exact K2|]. split; [exact B'|exact Ci'].
      * destruct I as (Ig & -> & _). rewrite app_nil_r in E0. assert (rec = upto_msg M (S k') ++ List.concat ds) as Rec.
        { rewrite Erec, (upto_msg_S M k' m Em), Ig. unfold wire. rewrite (Rb eq_refl). cbn [app pend map List.concat]. now rewrite !app_nil_r, <- app_assoc. }
        destruct (K3 (set_q0 [] s2)) as [K1 K2]; try reflexivity. assert (c_q0 s2 = map Some ds) as Q2 by (unfold s2; csimp; now rewrite B3). rewrite Q2 in Es'. rewrite Rec in B'.
        destruct (refeed_inv o M Mok _ nc ds (set_q0 [] s2) (b ++ [Ended]) (S k') (S k') (upto_msg M (S k')) K1 K2 B') as [F1 F2]; [rewrite Es' in Cl; exact Cl|].
        rewrite Rec. exists (S k'), (S k'). rewrite Pz'. rewrite Es' in Ci' |- *. split; [|split; [|split; [exact B'|exact Ci']]].
        -- destruct F1. constructor; assumption.
        -- destruct F2 as [bb1 h1 a1 A1' A2' A3' A4' A5' A6' A7' A8' A9' A10' A11' A12'|m1 rest1 h1 a1 l1 A1' A2' A3' A4' A5' A6' A7' A8' A9' A10' A11' A12' A13'|rest1 len1 h1 a1 l1 A1' A2' A3' A4' A5' A6' A7' A8' A9' A10' A11' A12' A13'|k1 h1 a1 l1 mk1 A1' A2' A3' A4' A5' A6' A7' A8' A9' A10' A11' A12' A13'];
             [apply (P0 _ _ _ _ _ _ bb1 h1 a1)|apply (P1 _ _ _ _ _ _ m1 rest1 h1 a1 l1)|apply (P2 _ _ _ _ _ _ rest1 len1 h1 a1 l1)|apply (P3 _ _ _ _ _ _ k1 h1 a1 l1 mk1)]; assumption.
Qed.

Lemma put_same {A} (l : list A) : forall i x, nth_error l i = Some x -> put_at i x l = l.
Proof. induction l as [|y l IH]; intros [|i] x E; try discriminate; cbn in *; [now injection E as ->|now rewrite IH]. Qed.

Lemma pair_some {A B} (a c : A) (b d : B) : Some (a, b) = Some (c, d) -> c = a /\ d = b.
Proof. intros E. split; congruence. Qed.
(** *** A handler takes the empty item that is there for a request without a body *)
Lemma take_empty nc ak rec s b i s' bx m : Inv nc ak rec s b -> conn_step o s (HTake i) = Some (s', bx) -> nth_error M i = Some m -> m_has m = false -> ended b <= i -> ~ In (Got i (Some [])) b ->
  Inv nc ak rec s' (b ++ bx) /\ exists q, c_q0 s = Some [] :: q /\ s' = set_q0 q s /\ bx = [Got i (Some [])].
Proof.
  intros I E Em Hm Le Ng. pose proof I as (k & n & C & P & B & Ci). unfold conn_step in E. destruct (c_lost s); [discriminate|]. destruct (live s i) as [r|] eqn:Lr; [|discriminate]. apply live_some in Lr as [Er Lr]. destruct (cm_reqs _ _ _ _ _ _ C i r Er) as (_ & _ & Rk). specialize (Rk Lr).
  destruct (q_reading r && negb (q_eof r))%bool; [|discriminate].
  destruct P as [bb h a A1 A2 A3 A4 A5 A6 A7 A8 A9 A10 A11 A12|m0 rest h a l A1 A2 A3 A4 A5 A6 A7 A8 A9 A10 A11 A12 A13|rest len h a l A1 A2 A3 A4 A5 A6 A7 A8 A9 A10 A11 A12 A13|k' h a l mk A1 A2 A3 A4 A5 A6 A7 A8 A9 A10 A11 A12 A13].
  { pose proof (ended_rep _ _ A8). lia. } { pose proof (ended_rep _ _ A9). lia. } { pose proof (ended_rep _ _ A7). lia. }
  subst k. pose proof (ended_rep1 _ _ A8) as Ee. assert (i = k') as -> by lia.
  destruct A13 as (m' & r' & ds & Em' & Er' & E0 & Erec & Is & Ib). rewrite Em in Em'. injection Em' as <-. rewrite Er in Er'. injection Er' as <-. rewrite Hm in Ib. destruct Ib as (Ig & -> & In1). destruct (In1 Ng) as (ds1 & ->).
  rewrite app_nil_r in E0. cbn [map] in E0. rewrite E0 in E. cbn [List.concat app] in Erec, Is.
  assert (trimmed r [] = []) as T by (unfold trimmed; destruct (_ && _)%bool; [unfold upto; now rewrite firstn_nil|reflexivity]). rewrite T in E.
  assert (on_req k' (set_used (q_used r + blen [])) (set_q0 (map Some ds1) s) = set_q0 (map Some ds1) s) as X.
  { unfold on_req. csimp. rewrite Er. assert (set_used (q_used r + blen []) r = r) as -> by (unfold set_used, blen; cbn [List.length Z.of_nat]; rewrite Z.add_0_r; now destruct r). rewrite (put_same _ _ _ Er). now destruct s. }
  apply pair_some in E as [Es ->]. assert (s' = set_q0 (map Some ds1) s) as -> by (rewrite Es; exact X). clear Es. split; [|exists (map Some ds1); now repeat split].
  assert (quiet_obs [Got k' (Some [])]) as Q.
  { split; [reflexivity|]. split; [reflexivity|]. split; [intros j; unfold got; cbn [map List.concat]; now destruct (j =? k')%nat|]. intros j [H|[]]. discriminate. }
  rewrite <- (app_nil_r nc). assert (kin s (set_q0 (map Some ds1) s)) as Kin by now apply kin_eq.
  exists (S k'), n. rewrite (kin_pending ak s _ Kin), app_nil_r. split; [|split; [|split]].
  - destruct C. constructor; try assumption.
    + now rewrite starts_app, app_nil_r.
    + intros j r2 E2. rewrite (none_quiet _ _ _ Q). now apply cm_reqs.
    + intros j m2 E2. rewrite (none_quiet _ _ _ Q), (got_quiet _ _ _ Q). now apply cm_got.
    + intros j Hj. rewrite (none_quiet _ _ _ Q), (got_quiet _ _ _ Q). now apply cm_new.
    + intros j Hj. destruct (cm_closers j Hj) as [X1 X2]. split; [exact X1|]. intros m2 E2 C2. apply all_quiet; [exact Q|]. now apply (X2 m2).
  - apply (P3 _ _ _ _ _ _ k' h a l false); csimp; try assumption; try reflexivity.
    + now rewrite (marks_quiet _ _ Q).
    + now apply olds_quiet.
    + exists m, r, ds1. csimp. rewrite Hm, (got_quiet _ _ _ Q). split; [exact Em|]. split; [exact Er|]. split; [now rewrite app_nil_r|]. split; [exact Erec|]. split; [exact Is|]. split; [exact Ig|]. split; [reflexivity|]. intros H. exfalso. apply H, in_or_app. right. now left.
  - apply (bound_mono M rec rec b); [apply prefix_refl| |exact B]. rewrite ended_app. lia.
  - apply (cont_same ak s _ b [Got k' (Some [])] Kin); try reflexivity; [intros j [H|[]]; discriminate|exact Ci].
Qed.

(** *** A handler takes an item of the body *)
Lemma take_inv nc ak rec s b i s' bx : Inv nc ak rec s b -> conn_step o s (HTake i) = Some (s', bx) -> (forall m, nth_error M i = Some m -> m_has m = true /\ (counted m = true \/ got i b <> m_body m)) -> Inv nc ak rec s' (b ++ bx).
Proof.
  intros (k & n & C & P & B & Ci) E Hm. unfold conn_step in E. destruct (c_lost s); [discriminate|]. destruct (live s i) as [r|] eqn:Lr; [|discriminate]. apply live_some in Lr as [Er Lr]. destruct (cm_reqs _ _ _ _ _ _ C i r Er) as ((m & Em & Rh & Ru & Rcn & Rcl & Rhb & Rlen & Rb) & Ree & Rk).
  specialize (Rk Lr). destruct (Hm m Em) as [Hm' Hq]. clear Hm. rename Hm' into Hm. destruct (q_reading r && negb (q_eof r))%bool eqn:X; [|discriminate]. apply andb_prop in X as [Rdg X]. apply negb_true_iff in X.
  assert (forall j, olds M j b -> i < j -> False) as No. { intros j O L. specialize (O i m L Em Hm). unfold read_all in O. destruct (counted m); [apply Ree in O; congruence|]. now destruct Hq. }
  destruct P as [bb h a A1 A2 A3 A4 A5 A6 A7 A8 A9 A10 A11 A12|m0 rest h a l A1 A2 A3 A4 A5 A6 A7 A8 A9 A10 A11 A12 A13|rest len h a l A1 A2 A3 A4 A5 A6 A7 A8 A9 A10 A11 A12 A13|k' h a l mk A1 A2 A3 A4 A5 A6 A7 A8 A9 A10 A11 A12 A13]; try (exfalso; eapply No; eassumption).
  subst k. assert (n = S k') as -> by (rewrite <- (cm_n _ _ _ _ _ _ C); exact A7). assert (i = k') as ->. { destruct (Nat.eq_dec i k') as [->|Ni]; [reflexivity|]. exfalso. apply (No k' A12). lia. }
  destruct A13 as (m' & r' & ds & Em' & Er' & E0 & Erec & (Is1 & Is2 & I2) & I). rewrite Em in Em'. injection Em' as <-. rewrite Er in Er'. injection Er' as <-. rewrite Hm in I. destruct I as (I1 & Ic & In0 & I3 & I4).
  pose proof B as Bd. rewrite Erec in Bd. apply (body_bound M k' m _ b Em Hm (ended_rep1 _ _ A8)) in Bd.
  assert (exists ds' (mk' : bool) f g, s' = on_req k' f (set_q0 (map Some ds' ++ (if mk' then [None] else [])) s) /\ bx = [Got k' g] /\ (forall q, q_head (f q) = q_head q /\ q_info (f q) = q_info q /\ q_upg (f q) = q_upg q /\ q_cont (f q) = q_cont q /\ q_size (f q) = q_size q /\ q_keep (f q) = q_keep q /\ q_live (f q) = q_live q /\ q_reading (f q) = q_reading q) /\
    got k' (b ++ bx) ++ List.concat ds' = got k' b ++ List.concat ds /\ is_prefix (got k' (b ++ bx)) (m_body m) /\ q_used (f r) = blen (got k' (b ++ bx)) /\ (q_eof (f r) = true <-> g = None) /\ (g = None -> ds' = [] /\ mk' = false /\ got k' (b ++ bx) = m_body m) /\
    (mk' = true \/ q_eof (f r) = true -> mk = true) /\ Forall (fun d => d <> []) ds') as (ds' & mk' & f & g & Es & Ebx & Ff & F1 & F2 & F3 & F4 & F5 & F6 & F7).
  { destruct (c_q0 s) as [|[d|] q] eqn:Q; [discriminate| |].
    - destruct ds as [|d0 ds]; [destruct mk; discriminate E0|]. cbn [map app] in E0. assert (d0 = d) as -> by congruence. assert (q = map Some ds ++ (if mk then [None] else [])) as -> by congruence.
      assert (trimmed r d = d) as T.
      { unfold trimmed. destruct (counted m) eqn:Cm; [|rewrite Hm in Rhb; now rewrite (no_length m (q_info r) Rcn Cm Rhb)]. rewrite (proj2 (Rlen eq_refl)), I1. pose proof (prefix_length _ _ Bd) as L. cbn [List.concat app] in L. rewrite !app_length in L. replace (blen (m_body m) <? blen (got k' b) + blen d)%Z with false; [now rewrite andb_false_r|]. symmetry. apply Z.ltb_ge. unfold blen. lia. }
      rewrite T in E. exists ds, mk, (set_used (q_used r + blen d)), (Some d). split; [congruence|]. assert (bx = [Got k' (Some d)]) as -> by congruence. split; [reflexivity|].
      assert (got k' (b ++ [Got k' (Some d)]) = got k' b ++ d) as G by (rewrite got_app; unfold got at 2; cbn [map List.concat]; now rewrite Nat.eqb_refl, app_nil_r). rewrite G.
      split; [intros q; repeat split|]. split; [cbn [List.concat]; now rewrite <- app_assoc|]. split; [|split; [|split; [|split; [|split]]]].
      + cbn [List.concat app] in Bd. rewrite <- app_assoc in Bd. rewrite app_assoc in Bd. apply (prefix_trans _ _ _ (prefix_app _ _) Bd).
      + cbn [q_used set_used]. rewrite I1. unfold blen. rewrite app_length. lia.
      + cbn [q_eof set_used]. rewrite X. split; discriminate.
      + discriminate.
      + cbn [q_eof set_used]. rewrite X. intros [H|H]; [exact H|discriminate].
      + now inversion In0.
    - destruct ds as [|d0 ds]; [|discriminate E0]. cbn [map app] in E0. destruct mk; [|discriminate E0]. assert (q = []) as -> by congruence.
      exists [], false, set_qeof, None. split; [cbn [map app]; congruence|]. assert (bx = [Got k' None]) as -> by congruence. split; [reflexivity|].
      assert (got k' (b ++ [Got k' None]) = got k' b) as G by (rewrite got_app; unfold got at 2; cbn [map List.concat]; now rewrite app_nil_r). rewrite G. destruct (I3 (or_introl eq_refl)) as (J1 & J2 & J3). cbn [List.concat] in J1. rewrite app_nil_r in J1.
      split; [intros q; repeat split|]. split; [reflexivity|]. split; [rewrite J1; apply prefix_refl|]. split; [exact I1|]. split; [split; reflexivity|]. split; [intros _; repeat split; exact J1|]. split; [reflexivity|constructor]. }
  clear E. destruct (on_req_misc k' f (set_q0 (map Some ds' ++ (if mk' then [None] else [])) s)) as (B1 & B2 & B3 & B4 & B5 & B6 & B7 & B8 & B9 & B10 & B11 & B12 & B13 & B14 & B15).
  pose proof (fun i => on_req_nth k' f (set_q0 (map Some ds' ++ (if mk' then [None] else [])) s) i) as Ern. rewrite <- Es in *. csimp_in B1. csimp_in B2. csimp_in B3. csimp_in B4. csimp_in B5. csimp_in B6. csimp_in B7. csimp_in B8. csimp_in B9. csimp_in B10. csimp_in B11. csimp_in B12. csimp_in B13. csimp_in B15. csimp_in Ern. clear Es.
  assert (cf s' = cf s) as Ecf by (unfold cf; now rewrite B6, B7).
  assert (forall j, j <> k' -> got j (b ++ bx) = got j b) as Gj. { intros j Nj. rewrite got_app, Ebx. unfold got at 2. cbn [map List.concat]. apply Nat.eqb_neq in Nj. rewrite Nj. destruct g; apply app_nil_r. }
  assert (forall j, In (Got j None) (b ++ bx) <-> In (Got j None) b \/ (j = k' /\ g = None)) as Nj. { intros j. rewrite in_app_iff, Ebx. cbn. split; [intros [H|[H|[]]]; [now left|right; split; congruence]|intros [H|[-> ->]]; [now left|right; now left]]. }
  assert (forall j m2, nth_error M j = Some m2 -> read_all j m2 b -> read_all j m2 (b ++ bx)) as Ab.
  { intros j m2 Ej. unfold read_all. destruct (counted m2) eqn:C2; [intros H; apply Nj; now left|]. destruct (Nat.eq_dec j k') as [->|Nk]; [|now rewrite (Gj j Nk)]. rewrite Em in Ej. injection Ej as <-. destruct Hq as [Hq|Hq]; [congruence|]. now intros. }
  assert (starts bx = [] /\ marks bx = [] /\ ended bx = 0) as (Sx & Mx & Ex) by (rewrite Ebx; repeat split).
  assert (~ In (Got k' None) b) as NI by (intros H; apply Ree in H; congruence).
  assert (forall j r2, nth_error (c_reqs s') j = Some r2 -> exists r1, nth_error (c_reqs s) j = Some r1 /\ q_info r2 = q_info r1 /\ q_cont r2 = q_cont r1 /\ q_reading r2 = q_reading r1 /\ (q_eof r2 = true -> q_eof r1 = true \/ j = k')) as Kr.
  { intros j r2 E. rewrite Ern in E. destruct (Nat.eqb_spec k' j) as [<-|Nk]; [|exists r2; repeat split; [exact E|now left]]. rewrite Er in E. injection E as <-. exists r. destruct (Ff r) as (H1 & H2 & H3 & H4 & H5 & H6 & H7 & H8). repeat split; try assumption. now right. }
  assert (pending ak s' = pending ak s) as Ep.
  { apply pending_ext. intros j _. unfold cont. destruct (nth_error (c_reqs s') j) as [r2|] eqn:E2; [destruct (Kr j r2 E2) as (r1 & -> & _ & X2 & _); exact X2|]. apply nth_error_None in E2. rewrite B15 in E2. apply nth_error_None in E2. now rewrite E2. }
  assert (cont_inv ak s' (b ++ bx)) as Ci'.
  { destruct Ci as [C1 C2 C3 C4 C5]. constructor; rewrite ?starts_app, ?ended_app, ?Sx, ?Ex, ?app_nil_r, ?Nat.add_0_r.
    - exact C1.
    - intros j r2 E2 H. destruct (Kr j r2 E2) as (r1 & E1 & _ & _ & H3 & H4). rewrite H3 in H. destruct H as [H|H]; [apply (C2 j r1 E1); now left|]. destruct (H4 H) as [Y| ->]; [apply (C2 j r1 E1); now right|]. apply (C2 k' r Er). now left.
    - intros j r2 E2 H. destruct (Kr j r2 E2) as (r1 & E1 & _ & H2 & _). apply (C3 j r1 E1). congruence.
    - intros j r2 E2. destruct (Kr j r2 E2) as (r1 & E1 & H1 & H2 & _). rewrite H1, H2. now apply (C4 j r1).
    - intros j Hj. rewrite B15. destruct (C5 j) as [Y1 Y2]; [apply in_app_or in Hj as [Hj|Hj]; [exact Hj|rewrite Ebx in Hj; destruct Hj as [Hj|[]]; discriminate]|]. split; [exact Y1|]. unfold cont in *. destruct (nth_error (c_reqs s') j) as [r2|] eqn:E2; [|reflexivity]. destruct (Kr j r2 E2) as (r1 & E1 & _ & -> & _). now rewrite E1 in Y2. }
  exists (S k'), (S k'). rewrite Ep. split; [|split; [|split; [|exact Ci']]].
  - destruct C. constructor; rewrite ?B1, ?B9, ?B12, ?B13, ?B15; try assumption.
    + destruct cm_waiters as [W1 W2]. split; [rewrite B6, B7; exact W1|now rewrite Ecf, B5].
    + now rewrite starts_app, Sx, app_nil_r.
    + intros j r2 E. rewrite Ern in E. destruct (Nat.eqb_spec k' j) as [<-|Nk].
      * rewrite Er in E. injection E as <-. destruct (Ff r) as (H1 & H2 & H3 & H4 & H5 & H6 & H7 & _). split; [exists m; rewrite H1, H2, H3; repeat (split; [assumption|]); assumption|]. rewrite Nj, F4, H7. split; [|intros _; lia]. split; [intros H; right; now split|intros [H|[_ H]]; [now apply NI in H|exact H]].
      * destruct (cm_reqs j r2 E) as (X1 & X2 & X3). split; [exact X1|]. rewrite Nj. split; [|exact X3]. rewrite X2. split; [now left|intros [H|[H _]]; [exact H|congruence]].
    + intros j m2 E. destruct (Nat.eq_dec j k') as [->|Nk].
      * rewrite Em in E. injection E as <-. split; [exact F2|]. rewrite Nj. intros [H|[_ H]]; [now apply NI in H|]. now apply F5.
      * rewrite (Gj j Nk), Nj. destruct (cm_got j m2 E) as [X1 X2]. split; [exact X1|]. intros [H|[H _]]; [now apply X2|congruence].
    + intros j Hj. assert (j <> k') as Nk by lia. rewrite (Gj j Nk), Nj. destruct (cm_new j Hj) as [X1 X2]. split; [exact X1|]. intros [H|[H _]]; [now apply X2|congruence].
    + intros j Hj. destruct (cm_closers j Hj) as [X1 X2]. split; [exact X1|]. intros m2 E C'. apply (Ab j m2 E). now apply (X2 m2).
  - apply (P3 _ _ _ _ _ _ k' h a l mk'); rewrite ?Ecf, ?B2, ?B4, ?B5, ?B8, ?B10, ?B11, ?B15; try assumption; try reflexivity.
    + now rewrite marks_app, Mx, app_nil_r.
    + intros r2 E Kp. rewrite Ern, Nat.eqb_refl, Er in E. injection E as <-. apply (A10 r Er). destruct (Ff r) as (_ & _ & _ & _ & _ & H6 & _). now rewrite <- H6.
    + intros j m2 L E C'. apply (Ab j m2 E). now apply (A12 j m2).
    + destruct (Ff r) as (_ & _ & _ & _ & H5 & _). assert (got k' (b ++ bx) ++ List.concat ds' ++ [] ++ pend l = got k' b ++ List.concat ds ++ [] ++ pend l) as T by (cbn [app]; now rewrite app_assoc, F1, <- app_assoc).
      exists m, (f r), ds'. rewrite Ern, Nat.eqb_refl, Er, B3, Hm, H5, T. split; [exact Em|]. split; [reflexivity|]. split; [reflexivity|]. split; [exact Erec|]. split; [lia|]. split; [exact F3|]. split; [intros H; apply Ic, F6; now left|]. split; [exact F7|]. split.
      * intros H. rewrite F1. apply I3. left. now apply F6.
      * intros H. apply F4 in H. destruct (F5 H) as (Y1 & Y2 & _). now split.
  - apply (bound_mono M rec rec b); [apply prefix_refl| |exact B]. rewrite ended_app. lia.
Qed.
End Steps.
