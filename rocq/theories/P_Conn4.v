From Verif Require Import PyBytes PyBytesFacts PyInt PyExn M_Parser M_Framing M_Conn S_Conn P_Parser2 P_Conn P_Conn2 P_Conn3.

Lemma upto_app_len {A} (a b : list A) z : z = Z.of_nat (List.length a) -> upto (a ++ b) z = a.
Proof. intros ->. rewrite upto_nonneg, Nat2Z.id, firstn_app, Nat.sub_diag, firstn_all by lia. apply app_nil_r. Qed.
Lemma from_app_len {A} (a b : list A) z : z = Z.of_nat (List.length a) -> from (a ++ b) z = b.
Proof. intros ->. rewrite from_nonneg, Nat2Z.id, skipn_app, Nat.sub_diag, skipn_all by lia. reflexivity. Qed.
Lemma nth_snoc {A} (l : list A) x i y : nth_error (l ++ [x]) i = Some y -> nth_error l i = Some y \/ i = List.length l /\ y = x.
Proof.
  intros E. destruct (Nat.lt_ge_cases i (List.length l)) as [L|L]; [left; now rewrite nth_error_app1 in E|]. right. rewrite nth_error_app2 in E by lia. destruct (i - List.length l) as [|n] eqn:D; [injection E as <-; split; [lia|reflexivity]|]. cbn in E. now destruct n.
Qed.
Lemma nones_app a b : nones (a ++ b) = nones a + nones b.
Proof. unfold nones. now rewrite filter_app, app_length. Qed.
Lemma combine_seq_S {A} (L : list A) : forall k st h, nth_error L k = Some h -> combine (seq st (S k)) L = combine (seq st k) L ++ [(st + k, h)].
Proof.
  induction L as [|x L IH]; intros k st h E; [now destruct k|]. destruct k as [|k].
  - injection E as ->. cbn. now rewrite Nat.add_0_r.
  - cbn [nth_error] in E. specialize (IH k (S st) h E). change (seq st (S (S k))) with (st :: seq (S st) (S k)). change (seq st (S k)) with (st :: seq (S st) k). cbn [combine app]. rewrite IH. replace (st + S k) with (S st + k) by lia. reflexivity.
Qed.
Lemma repeat_snoc {A} (x : A) n : repeat x n ++ [x] = repeat x (S n).
Proof. induction n as [|n IH]; [reflexivity|]. cbn [repeat app]. now rewrite IH. Qed.
Lemma nth_over {A} (x : A) n l j y : nth_error (repeat x n ++ l) j = Some y -> (y = x /\ j < n) \/ (n <= j /\ nth_error l (j - n) = Some y).
Proof.
  intros E. destruct (Nat.lt_ge_cases j n) as [L|L].
  - left. split; [|exact L]. rewrite nth_error_app1 in E by now rewrite repeat_length. apply nth_error_In, repeat_spec in E. exact E.
  - right. split; [exact L|]. rewrite nth_error_app2 in E by (rewrite repeat_length; lia). now rewrite repeat_length in E.
Qed.

Section Steps.
Context (o : copts) (M : list msg) (Mok : Forall (msg_ok o) M).

(** ** put_end *)
Definition same_ids (s s' : conn) : Prop := List.length (c_reqs s') = List.length (c_reqs s) /\
  forall i r', nth_error (c_reqs s') i = Some r' -> exists r, nth_error (c_reqs s) i = Some r /\ q_head r' = q_head r /\ q_info r' = q_info r /\ q_upg r' = q_upg r /\ q_cont r' = q_cont r /\
    q_eof r' = q_eof r /\ (q_keep r' = true -> q_keep r = true) /\ q_live r' = q_live r.
Definition same_conn (s s' : conn) : Prop := c_hb s' = c_hb s /\ c_hrs s' = c_hrs s /\ c_rcv s' = c_rcv s /\ c_wrecv s' = c_wrecv s /\ c_wreq s' = c_wreq s /\ c_wkeep s' = c_wkeep s /\ c_futs s' = c_futs s /\
  c_closing s' = c_closing s /\ c_lost s' = c_lost s /\ c_sending s' = c_sending s /\ c_cur s' = c_cur s.
Lemma same_conn_cf s s' : same_conn s s' -> cf s' = cf s.
Proof. intros (_ & _ & _ & _ & A & B & _). unfold cf. now rewrite A, B. Qed.
Lemma common_ids nc s s' b k n : same_conn s s' -> same_ids s s' -> common M nc s b k n -> common M nc s' b k n.
Proof.
  intros R (L & Q) C. pose proof (same_conn_cf _ _ R) as Ecf. destruct R as (R1 & R2 & R3 & R4 & R5 & R6 & R7 & R9 & R10 & R11 & R12). destruct C. constructor; rewrite ?R9, ?R10, ?R11, ?R12, ?L; try assumption.
  - destruct cm_waiters as [A B]. split; [|rewrite Ecf, R7; exact B]. rewrite R5, R6. exact A.
  - intros i r' E. destruct (Q i r' E) as (r & Er & H1 & H2 & H3 & H4 & H7 & _ & H9). destruct (cm_reqs i r Er) as (B1 & B2 & B3). rewrite H7, H9. repeat split; try tauto. unfold req_ok in *. rewrite H1, H2, H3. exact B1.
Qed.

Lemma put_end_inv i s b len l rec w a r : c_cur s = Some i -> nth_error (c_reqs s) i = Some r -> (forall m, nth_error M i = Some m -> m_has m = true -> q_eof r = false) -> req_ok M i r -> ended b = i -> bound M rec b -> waits w a l ->
  body_inv M i false s b [] len l rec ->
  (exists mk, body_inv M i mk (put_end o len s) b [] 0 l rec) /\ same_conn s (put_end o len s) /\ same_ids s (put_end o len s) /\
  (nones (c_q1 (put_end o len s)) = nones (c_q1 s) \/ nones (c_q1 (put_end o len s)) = S (nones (c_q1 s)) /\ forall r', nth_error (c_reqs (put_end o len s)) i = Some r' -> q_keep r' = false).
Proof.
  intros Ec Er Ee (m & Em & Rh & Ru & Rc & Rcl & Rhb & Rlen & Rb) Eb B W (m' & r2 & ds & Em' & Er' & E0 & Erec & (Is1 & Is2 & I2) & I). rewrite Em in Em'. injection Em' as <-. rewrite Er in Er'. injection Er' as <-.
  unfold put_end. rewrite Ec, Er, Ru. cbn zeta.
  assert (forall r1, q_size r1 = (q_size r + len)%Z -> q_used r1 = q_used r -> q_eof r1 = q_eof r -> forall s1 (mk : bool), nth_error (c_reqs s1) i = Some r1 -> c_q0 s1 = c_q0 s ++ (if mk then [None] else []) ->
    (mk = true -> m_has m = true /\ counted m = true /\ (blen (m_body m) <= q_size r1)%Z) -> body_inv M i mk s1 b [] 0 l rec) as K.
  { intros r1 S1 S2 S3 s1 mk N1 Q1 Mk. exists m, r1, ds. rewrite N1, Q1, E0. split; [exact Em|]. split; [reflexivity|]. split; [cbn [app]; now rewrite app_nil_r|]. split; [exact Erec|]. rewrite S2, S3. split; [rewrite S1; lia|]. destruct (m_has m) eqn:Cl.
    - specialize (Ee m Em Cl). destruct I as (I1 & Ic & In0 & I3 & I4). cbn [app] in *. split; [exact I1|]. split; [intros H; now apply Mk|]. split; [exact In0|]. split.
      + intros [H|H]; [|congruence]. destruct (Mk H) as (_ & _ & L). rewrite Erec in B. pose proof (body_bound M i m _ b Em Cl Eb B) as P. pose proof (prefix_length _ _ P) as Lp. rewrite (waits_lens _ _ _ W) in I2. cbn [app] in *.
        unfold blen in *. rewrite !app_length in *. assert (List.length (pend l) = 0) as Z0 by lia. split; [|split; [reflexivity|]].
        * apply prefix_full; [|rewrite app_length; lia]. apply (prefix_trans _ (got i b ++ List.concat ds ++ pend l)); [rewrite app_assoc; apply prefix_app|exact P].
        * apply (waits_lens_nil w a); [exact W|]. rewrite (waits_lens _ _ _ W). unfold blen. now rewrite Z0.
      + intros H. congruence.
    - destruct I as (I1 & _ & I3). split; [exact I1|]. split; [|exact I3]. destruct mk; [|reflexivity]. destruct (Mk eq_refl) as [X _]. discriminate. }
  assert (forall r1, q_head r1 = q_head r -> q_info r1 = q_info r -> q_upg r1 = q_upg r -> q_cont r1 = q_cont r -> q_eof r1 = q_eof r -> (q_keep r1 = true -> q_keep r = true) -> q_live r1 = q_live r ->
    forall s1, List.length (c_reqs s1) = List.length (c_reqs s) -> (forall k, nth_error (c_reqs s1) k = if (i =? k)%nat then (match nth_error (c_reqs s) k with Some _ => Some r1 | None => None end) else nth_error (c_reqs s) k) -> same_ids s s1) as K2.
  { intros r1 H1 H2 H3 H4 H5 H6 H7 s1 L N. split; [exact L|]. intros k r' E. rewrite N in E. destruct (Nat.eqb_spec i k) as [<-|].
    - rewrite Er in E. injection E as <-. exists r. split; [exact Er|]. repeat split; assumption.
    - exists r'. split; [exact E|]. repeat split; tauto. }
  rewrite Rcl. destruct (counted m && _)%bool eqn:X.
  - apply andb_prop in X as [X1 X2]. destruct (Rlen X1) as [X0 Rl]. rewrite Rl in X2. split; [exists true; apply (K (set_size (q_size r + len) r)); try reflexivity|].
    + csimp. now rewrite nth_put, Nat.eqb_refl, Er.
    + intros _. split; [exact X0|]. split; [exact X1|]. cbn [q_size set_size] in *. now apply Z.leb_le.
    + split; [now repeat split|]. split; [|left; reflexivity]. apply (K2 (set_size (q_size r + len) r)); try reflexivity; try tauto; csimp; [apply put_length|]. intros k. apply nth_put.
  - destruct (_ <? _)%Z.
    + split; [exists false; apply (K (set_size (q_size r + len) r)); try reflexivity|].
      * csimp. now rewrite nth_put, Nat.eqb_refl, Er.
      * csimp. now rewrite app_nil_r.
      * discriminate.
      * split; [now repeat split|]. split; [|left; reflexivity]. apply (K2 (set_size (q_size r + len) r)); try reflexivity; try tauto; csimp; [apply put_length|]. intros k. apply nth_put.
    + set (s1 := set_reqs (put_at i (set_size (q_size r + len) r) (c_reqs s)) (Some i) s). destruct (on_req_misc i (set_keep false) s1) as (A1 & A2 & A3 & A4 & A5 & A6 & A7 & A8 & A9 & A10 & A11 & A12 & A13 & A14 & A15).
      assert (nth_error (c_reqs s1) i = Some (set_size (q_size r + len) r)) as E1 by (unfold s1; csimp; now rewrite nth_put, Nat.eqb_refl, Er).
      assert (nth_error (c_reqs (on_req i (set_keep false) s1)) i = Some (set_keep false (set_size (q_size r + len) r))) as E2 by (now rewrite on_req_nth, Nat.eqb_refl, E1).
      split; [exists false; apply (K (set_keep false (set_size (q_size r + len) r))); try reflexivity|].
      * csimp. exact E2.
      * csimp. rewrite A3. unfold s1. csimp. now rewrite app_nil_r.
      * discriminate.
      * split; [unfold same_conn; csimp; rewrite A1, A2, A5, A6, A7, A8, A9, A10, A11, A12, A13; unfold s1; now repeat split|]. split.
        -- apply (K2 (set_keep false (set_size (q_size r + len) r))); try reflexivity; try discriminate.
           ++ csimp. rewrite A15. unfold s1. csimp. apply put_length.
           ++ intros k. csimp. rewrite on_req_nth. unfold s1. csimp. rewrite nth_put. destruct (Nat.eqb_spec i k) as [<-|]; [now rewrite Er|reflexivity].
        -- right. csimp. rewrite A4. split; [unfold s1; csimp; rewrite nones_app; apply Nat.add_1_r|]. intros r' E. rewrite E2 in E. now injection E as <-.
Qed.

(** ** The start of a handler *)
Lemma set_done_both s : waiters_ok s -> set_done (c_wkeep s) (set_done (c_wreq s) s) = set_futs (put_at (cf s) true (c_futs s)) s.
Proof.
  intros [[[A B]|[A B]] L]; unfold cf in *.
  - rewrite B. destruct (c_wreq s); [reflexivity|easy].
  - rewrite A. destruct (c_wkeep s); [reflexivity|easy].
Qed.
Lemma nth_put_true l i : i < List.length l -> nth i (put_at i true l) false = true.
Proof. revert i. induction l as [|x l IH]; intros [|i] L; cbn in *; try lia; try reflexivity. apply IH. lia. Qed.
Lemma start_inv N nc s b k rec h a l mk : common M nc s b k (S k) -> c_hb s = None -> c_hrs s = repeat HOver h -> c_rcv s = repeat ROver a ++ l -> waits (WFut (cf s)) a l -> wr s a l ->
  marks b = rep k -> N <= nones (c_q1 s) + k -> (forall r, nth_error (c_reqs s) k = Some r -> q_keep r = true -> N = nones (c_q1 s) + k) -> olds M k b -> body_inv M k mk s b [] 0 l rec ->
  common M nc (fst (start_handler k s)) (b ++ snd (start_handler k s)) (S k) (S k) /\ phase M (N) (fst (start_handler k s)) (b ++ snd (start_handler k s)) (S k) rec.
Proof.
  intros C A1 A2 A3 A4 A5 A6 A7 A8 A9 A10. unfold start_handler. cbn zeta. rewrite (set_done_both s (cm_waiters _ _ _ _ _ _ C)). set (s1 := set_futs (put_at (cf s) true (c_futs s)) s).
  destruct A10 as (m & r & ds & Em & Er & E0 & Erec & Is & I). rewrite Er. cbn [fst snd].
  destruct (on_req_misc k (set_live true) s1) as (B1 & B2 & B3 & B4 & B5 & B6 & B7 & B8 & B9 & B10 & B11 & B12 & B13 & B14 & B15).
  assert (nth_error (c_reqs (on_req k (set_live true) s1)) k = Some (set_live true r)) as Er1 by (rewrite on_req_nth, Nat.eqb_refl; unfold s1; csimp; now rewrite Er).
  assert (forall i, nth_error (c_reqs (on_req k (set_live true) s1)) i = if (k =? i)%nat then option_map (set_live true) (nth_error (c_reqs s) i) else nth_error (c_reqs s) i) as Ern by (intros i; rewrite on_req_nth; reflexivity).
  set (s' := on_req k (set_live true) s1) in *. unfold s1 in B1, B2, B3, B4, B5, B6, B7, B8, B9, B10, B11, B12, B13, B14, B15. csimp_in B1. csimp_in B2. csimp_in B3. csimp_in B4. csimp_in B5. csimp_in B6. csimp_in B7. csimp_in B8. csimp_in B9. csimp_in B10. csimp_in B11. csimp_in B12. csimp_in B13. csimp_in B15. clearbody s'. clear s1.
  assert (cf s' = cf s) as Ecf by (unfold cf; now rewrite B6, B7).
  destruct C. pose proof (cm_reqs k r Er) as ((m' & Em' & Rh & _) & _). rewrite Em in Em'. injection Em' as <-.
  assert (forall i, got i (b ++ [Started k (q_head r)]) = got i b) as Gb by (intros i; rewrite got_app; cbn; now rewrite app_nil_r).
  assert (forall i, In (Got i None) (b ++ [Started k (q_head r)]) <-> In (Got i None) b) as Nb by (intros i; rewrite in_app_iff; cbn; intuition discriminate).
  assert (forall i m, read_all i m b -> read_all i m (b ++ [Started k (q_head r)])) as Ab by (intros i m1; unfold read_all; rewrite Gb; destruct (counted m1); [apply Nb|tauto]).
  split.
  - constructor; rewrite ?B1, ?B9, ?B12, ?B13, ?B15; try assumption.
    + destruct cm_waiters as [W1 W2]. split; [rewrite B6, B7; exact W1|]. rewrite Ecf, B5. now rewrite put_length.
    + assert (k < List.length M) by (apply nth_error_Some; congruence). lia.
    + rewrite starts_app, cm_starts, (combine_seq_S (map m_head M) k 0 (m_head m)) by (now rewrite nth_error_map, Em). cbn. now rewrite Rh.
    + intros i r' E. rewrite Ern in E. rewrite Nb. destruct (Nat.eqb_spec k i) as [<-|].
      * rewrite Er in E. injection E as <-. destruct (cm_reqs k r Er) as (X1 & X2 & X3). repeat split; try tauto; try lia.
      * destruct (cm_reqs i r' E) as (X1 & X2 & X3). repeat split; try tauto. intros X. apply X3 in X. lia.
    + intros i m' E. rewrite Nb, Gb. now apply cm_got.
    + intros i Hi. rewrite Nb, Gb. now apply cm_new.
    + intros i Hi. destruct (cm_closers i Hi) as [X1 X2]. split; [lia|]. intros m' E C'. apply Ab. now apply (X2 m').
  - apply (P3 _ _ _ _ _ _ k h a l mk); rewrite ?Ecf, ?B2, ?B4, ?B5, ?B8, ?B10, ?B11, ?B15; try assumption; try reflexivity.
    + unfold wr in A5. destruct l as [|t l]; [left; split; [reflexivity|now left]|right; split; [discriminate|exact A5]].
    + now left.
    + rewrite marks_app, A6. reflexivity.
    + intros r' E Kp. rewrite Er1 in E. injection E as <-. apply (A8 r Er Kp).
    + apply nth_put_true. apply cm_waiters.
    + intros i m' L E C'. apply Ab. now apply (A9 i m').
    + exists m, (set_live true r), ds. rewrite Er1, B3, Gb. split; [exact Em|]. split; [reflexivity|]. split; [exact E0|]. split; [exact Erec|]. split; [exact Is|]. destruct (m_has m); [exact I|]. destruct I as (I1 & I2 & I3). split; [exact I1|]. split; [exact I2|]. intros N1. apply I3. intros H. apply N1, in_or_app. now left.
Qed.

(** ** _handle_request *)
Lemma hr_put_inv N nc s b k rec rest len h x a l : common M nc s b k (S k) -> bound M rec b -> 0 < o_first o -> c_hb s = None -> c_hrs s = repeat HOver h ++ [x] -> c_rcv s = repeat ROver a ++ l -> waits (WFut (cf s)) a l -> wr s a l ->
  marks b = rep k -> nones (c_q1 s) + k = N -> nth (cf s) (c_futs s) false = false -> olds M k b -> got k b = [] -> ~ In (Got k None) b -> body_inv M k false s b rest len l rec ->
  c_closing (fst (hr_put o h k rest len s)) = false ->
  exists k', common M nc (fst (hr_put o h k rest len s)) (b ++ snd (hr_put o h k rest len s)) k' (S k) /\ phase M (N) (fst (hr_put o h k rest len s)) (b ++ snd (hr_put o h k rest len s)) k' rec.
Proof.
  intros C Bd Lf A1 A2 A3 A4 A5 A6 A7 A8 A9 A10 A11 A12. unfold hr_put. destruct rest as [|c rest].
  - intros _. exists (S k). pose proof A12 as (m & r & ds & Em & Er & _). pose proof (cm_reqs _ _ _ _ _ _ C k r Er) as (Rok & Ree & _).
    assert (forall m, nth_error M k = Some m -> m_has m = true -> q_eof r = false) as Ee. { intros _ _ _. destruct (q_eof r); [|reflexivity]. exfalso. now apply A11, Ree. }
    assert (c_cur s = Some k) as Ecur by (apply (cm_cur _ _ _ _ _ _ C)).
    destruct (put_end_inv k s b len l rec _ a r Ecur Er Ee Rok (ended_rep _ _ A6) Bd A4 A12) as ((mk & Bi) & Sc & Si & Nn).
    set (s1 := put_end o len s) in *. pose proof (same_conn_cf _ _ Sc) as Ecf. pose proof (common_ids nc s s1 b k (S k) Sc Si C) as C1. pose proof Sc as (R1 & R2 & R3 & R4 & R5 & R6 & R7 & R8 & R9 & R10 & R11).
    set (s2 := set_hrs (put_at h HOver (c_hrs s)) s1).
    assert (common M nc s2 b k (S k)) as C2 by (destruct C1; constructor; assumption).
    apply (start_inv N nc s2 b k rec (S h) a l mk); try assumption; unfold s2; csimp.
    + now rewrite R1.
    + rewrite A2. pose proof (put_app (repeat HOver h) HOver x) as P. rewrite repeat_length in P. rewrite P. apply repeat_snoc.
    + now rewrite R3.
    + change (cf (set_hrs (put_at h HOver (c_hrs s)) s1)) with (cf s1). now rewrite Ecf.
    + unfold wr in *. csimp. now rewrite R4.
    + lia.
    + intros r' Er' Kp. destruct Nn as [Nn|[_ Nn]]; [lia|]. rewrite (Nn r' Er') in Kp. discriminate.
  - unfold put_round. cbn zeta. destruct (_ <? _)%Z eqn:Q; [rewrite start_closing; csimp; discriminate|]. intros _. exists k. cbn [fst snd]. rewrite app_nil_r. split; [destruct C; constructor; assumption|].
    apply (P2 _ _ _ _ _ _ (skipn (o_first o) (c :: rest)) len (h) a l); csimp; try assumption.
    + rewrite A2. pose proof (put_app (repeat HOver h) (HMore k (skipn (o_first o) (c :: rest)) len) x) as P. rewrite repeat_length in P. exact P.
    + apply (cm_n _ _ _ _ _ _ C).
    + destruct A12 as (m & r & ds & Em & Er & E0 & Erec & Is & I). exists m, r, (ds ++ [firstn (o_first o) (c :: rest)]). csimp. rewrite E0. cbn [app]. rewrite app_nil_r.
      assert (forall t, List.concat (ds ++ [firstn (o_first o) (c :: rest)]) ++ skipn (o_first o) (c :: rest) ++ t = List.concat ds ++ (c :: rest) ++ t) as Ke.
      { intros t. rewrite concat_app. cbn [List.concat]. rewrite app_nil_r, <- app_assoc, app_assoc with (l := firstn _ _), firstn_skipn. reflexivity. }
      rewrite !Ke. split; [exact Em|]. split; [exact Er|]. split; [now rewrite map_app, app_nil_r|]. split; [exact Erec|]. split; [exact Is|]. destruct (m_has m); [|destruct I as (I1 & I2 & I3); split; [exact I1|]; split; [exact I2|]; intros N1; destruct (I3 N1) as (ds1 & ->); now eexists]. destruct I as (I1 & Ic & In0 & I3 & I4). split; [exact I1|]. split; [exact Ic|]. split; [apply Forall_app; split; [exact In0|]; constructor; [|constructor]; destruct (o_first o); [lia|discriminate]|]. split; [|intros X; destruct (cm_reqs _ _ _ _ _ _ C k r Er) as (_ & Y & _); exfalso; now apply A11, Y].
      intros [X|X]; [discriminate|]. destruct (cm_reqs _ _ _ _ _ _ C k r Er) as (_ & Y & _). exfalso. now apply A11, Y.
Qed.

Lemma run_hr_inv N nc s b k rec m rest h a l : opts_ok o -> common M nc s b k k -> bound M rec b -> c_hb s = None -> nth_error M k = Some m -> c_hrs s = repeat HOver h ++ [HStart (m_head m ++ rest) (blen (m_head m) - 2)] ->
  c_rcv s = repeat ROver a ++ l -> waits (WFut (cf s)) a l -> wr s a l -> c_q0 s = [] -> marks b = rep k -> nones (c_q1 s) + k = N -> rec = upto_msg M k ++ m_head m ++ rest ++ pend l -> nth (cf s) (c_futs s) false = false -> olds M k b ->
  c_closing (fst (run_hr o h (m_head m ++ rest) (blen (m_head m) - 2) s)) = false ->
  exists k' n', common M nc (fst (run_hr o h (m_head m ++ rest) (blen (m_head m) - 2) s)) (b ++ snd (run_hr o h (m_head m ++ rest) (blen (m_head m) - 2) s)) k' n' /\ phase M (N) (fst (run_hr o h (m_head m ++ rest) (blen (m_head m) - 2) s)) (b ++ snd (run_hr o h (m_head m ++ rest) (blen (m_head m) - 2) s)) k' rec.
Proof.
  intros [Of Ob] C Bd A1 A2 A3 A4 A5 A6 A7 A8 A9 A10 A11 A12. pose proof (proj1 (Forall_forall _ _) Mok m (nth_error_In _ _ A2)) as (p & r & F & L & Lo & Fr & Rl).
  assert (blen (m_head m) - 2 = Z.of_nat p + 2)%Z as Ep by (unfold blen; lia). unfold run_hr. rewrite Ep, (frame_head_ext m p rest F L), Fr. cbn zeta.
  assert (Z.of_nat p + 2 + 2 = Z.of_nat (List.length (m_head m)))%Z as E2 by lia. rewrite (upto_app_len _ _ _ E2), (from_app_len _ _ _ E2).
  assert (List.length (c_reqs s) = k) as Ek by apply (cm_n _ _ _ _ _ _ C). rewrite Ek.
  set (q := mkRq (m_head m) r (rq_keepalive r) (rq_continue r) false 0 0 false false false).
  set (s1 := set_reqs (c_reqs s ++ [q]) (Some k) s). set (s2 := if has_body r then s1 else put0 (Some []) s1).
  destruct (cm_new _ _ _ _ _ _ C k (le_n k)) as [Gk Nk].
  assert (parsed m = Some r) as Pm by (unfold parsed; now rewrite F, Fr).
  assert (hmem k_content_length (rq_headers r) = counted m) as Hm by (unfold counted; now rewrite Pm).
  assert (has_body r = m_has m /\ (counted m = true -> m_has m = true /\ rq_content_length r = blen (m_body m)) /\ (m_has m = false -> m_body m = [])) as (Hb & Hl0 & Hn).
  { rewrite Hm in Rl. destruct (m_has m); [|destruct Rl as [Rl1 Rl2]; split; [exact Rl1|]; split; [|now intros]; unfold has_body in Rl1; apply orb_false_elim in Rl1 as [Rl1 _]; intros; congruence].
    destruct (counted m); [split; [unfold has_body; now rewrite Hm|]; split; [now split|discriminate]|]. split; [apply Rl|]. split; discriminate. }
  assert (req_ok M k q) as Rq.
  { exists m. repeat split; try assumption; now apply Hl0. }
  assert (same_conn s1 s2) as S12 by (unfold s2; destruct (has_body r); repeat split).
  assert (c_reqs s2 = c_reqs s ++ [q] /\ c_q1 s2 = c_q1 s) as [R2 Q12] by (unfold s2; destruct (has_body r); split; reflexivity).
  assert (same_conn s (set_reqs (c_reqs s) (c_cur s) s)) as _ by (repeat split).
  assert (cf s2 = cf s) as Ecf by (unfold s2; destruct (has_body r); reflexivity).
  assert (List.length (c_reqs s2) = S k) as Ln by (rewrite R2, app_length, Ek; apply Nat.add_1_r).
  assert (nth_error (c_reqs s2) k = Some q) as Nq by (rewrite R2, nth_error_app2, Ek, Nat.sub_diag by lia; reflexivity).
  destruct S12 as (T1 & T2 & T3 & T4 & T5 & T6 & T7 & T8 & T9 & T10 & T11). unfold s1 in T1, T2, T3, T4, T5, T6, T7, T8, T9, T10, T11. csimp_in T1. csimp_in T2. csimp_in T3. csimp_in T4. csimp_in T5. csimp_in T6. csimp_in T7. csimp_in T8. csimp_in T9. csimp_in T10. csimp_in T11.
  assert (exists ds, c_q0 s2 = map Some ds /\ List.concat ds = [] /\ (m_has m = false -> ds = [[]]) /\ (m_has m = true -> ds = [])) as (ds & Q0 & Cd & Dn & Dy).
  { unfold s2. rewrite <- Hb. destruct (has_body r); unfold s1; csimp; rewrite A7; [now exists []|now exists [[]]]. }
  assert (common M nc s2 b k (S k)) as C2.
  { destruct C. constructor; rewrite ?T8, ?T9, ?T10, ?T11; try assumption; try reflexivity.
    - destruct cm_waiters as [W1 W2]. split; [rewrite T5, T6; exact W1|rewrite Ecf, T7; exact W2].
    - intros i r' E. rewrite R2 in E. apply nth_snoc in E as [E|[-> ->]]; [now apply cm_reqs|]. rewrite Ek. split; [exact Rq|]. cbn [q_eof q_live q]. unfold q. cbn [q_eof q_live]. split; [split; [discriminate|intros X; now apply Nk in X]|discriminate].
    - intros i Hi. apply cm_new. lia. }
  assert (forall rs len, (rs = rest) -> len = blen rest \/ (rest = [] /\ len = 0%Z) -> body_inv M k false s2 b rs len l rec) as Bi.
  { intros rs len -> Hl. exists m, q, ds. rewrite Q0, app_nil_r, Gk, Cd. cbn [app]. split; [exact A2|]. split; [exact Nq|]. split; [reflexivity|]. split; [exact A10|]. split; [|destruct (m_has m); [|split; [reflexivity|]; split; [reflexivity|]; intros _; rewrite (Dn eq_refl); now eexists]; split; [reflexivity|]; split; [discriminate|]; split; [rewrite (Dy eq_refl); constructor|]; split; [intros [X|X]; discriminate X|discriminate]].
    unfold q. cbn [q_size]. rewrite (waits_lens _ _ _ A5). unfold blen in *. rewrite app_length. destruct Hl as [->|[-> ->]]; cbn [List.length]; repeat split; lia. }
  destruct (has_body r || _) eqn:X.
  - intros Cl. destruct (hr_put_inv N nc s2 b k rec rest (blen rest) h (HStart (m_head m ++ rest) (blen (m_head m) - 2)) a l) as (k' & K1 & K2); try assumption.
    + now rewrite T1.
    + now rewrite T2.
    + now rewrite T3.
    + now rewrite Ecf.
    + unfold wr. now rewrite T4.
    + now rewrite Q12.
    + now rewrite Ecf, T7.
    + apply Bi; [reflexivity|now left].
    + exists k', (S k). split; assumption.
  - intros _. apply orb_false_elim in X as [X1 X2]. assert (rest = []) as Rn.
    { destruct rest as [|c t]; [reflexivity|]. exfalso. apply Z.ltb_ge in X2. unfold blen in X2. rewrite app_length in X2. cbn [List.length] in X2. lia. }
    set (s3 := set_hrs (put_at h HOver (c_hrs s2)) s2). exists (S k), (S k).
    assert (common M nc s3 b k (S k)) as C3 by (destruct C2; constructor; assumption).
    apply (start_inv N nc s3 b k rec (S h) a l false); try assumption; unfold s3; csimp.
    + now rewrite T1.
    + rewrite T2, A3. pose proof (put_app (repeat HOver h) HOver (HStart (m_head m ++ rest) (blen (m_head m) - 2))) as P. rewrite repeat_length in P. rewrite P. apply repeat_snoc.
    + now rewrite T3.
    + change (cf (set_hrs (put_at h HOver (c_hrs s2)) s2)) with (cf s2). now rewrite Ecf.
    + unfold wr in *. csimp. now rewrite T4.
    + rewrite Q12. lia.
    + intros r' _ _. rewrite Q12. lia.
    + apply (Bi [] 0%Z); [now symmetry|now right].
Qed.
(** ** _receive_data *)
Lemma rcv_put_inv N nc s b k' rec rest len h a l w : opts_ok o -> common M nc s b (S k') (S k') -> bound M rec b -> c_hb s = None -> c_hrs s = repeat HOver h -> c_rcv s = repeat ROver a ++ w :: l ->
  (w = RPut rest len \/ exists x, w = RWait x rest /\ len = blen rest) -> c_wrecv s = Some (WTask (a + List.length (w :: l) - 1)) -> waits (WTask a) (S a) l -> marks b = rep k' ++ [true] -> N <= nones (c_q1 s) + k' ->
  (0 < len)%Z -> (forall r, nth_error (c_reqs s) k' = Some r -> q_keep r = true -> N = nones (c_q1 s) + k') -> nth (cf s) (c_futs s) false = true -> olds M k' b -> (exists mk, body_inv M k' mk s b [] 0 (w :: l) rec) ->
  c_closing (rcv_put o a rest len s) = false -> common M nc (rcv_put o a rest len s) b (S k') (S k') /\ phase M (N) (rcv_put o a rest len s) b (S k') rec.
Proof.
  intros [Of Ob] C Bd A1 A2 A3 A4 A5 A6 A7 A8 Ln A9 A10 A11 (mk & A12). destruct A12 as (m & r & ds & Em & Er & E0 & Erec & (Is1 & Is2 & I2) & I). pose proof (cm_reqs _ _ _ _ _ _ C k' r Er) as (Rok & Ree & _).
  pose proof (fun x => put_mid (repeat ROver a) x w l) as Pm. rewrite repeat_length in Pm.
  assert (pend (w :: l) = rest ++ pend l) as Pw by (destruct A4 as [->|(x & -> & _)]; reflexivity).
  assert (lens (w :: l) = (len + lens l)%Z) as Lw by (destruct A4 as [->|(x & -> & ->)]; reflexivity).
  assert (mk = false) as ->. { destruct mk; [|reflexivity]. destruct (m_has m); [|now destruct I as (_ & I & _)]. destruct I as (_ & _ & _ & I & _). destruct (I (or_introl eq_refl)) as (_ & _ & X). discriminate. }
  unfold rcv_put. destruct rest as [|c rest].
  - intros _. set (s1 := set_rcv (put_at a ROver (c_rcv s)) s).
    assert (c_rcv s1 = repeat ROver (S a) ++ l) as R1 by (unfold s1; csimp; rewrite A3, Pm, <- repeat_snoc, <- app_assoc; reflexivity).
    assert (common M nc s1 b (S k') (S k')) as C1 by (destruct C; constructor; assumption).
    assert (forall m, nth_error M k' = Some m -> m_has m = true -> q_eof r = false) as Ee. { intros m' Em' X. rewrite Em in Em'. injection Em' as <-. rewrite X in I. destruct I as (_ & _ & _ & I & _). destruct (q_eof r); [|reflexivity]. destruct (I (or_intror eq_refl)) as (_ & _ & Y). discriminate. }
    assert (body_inv M k' false s1 b [] len l rec) as B1.
    { exists m, r, ds. unfold s1. csimp. rewrite Pw in Erec. rewrite Pw, Lw in I2. cbn [app] in *. split; [exact Em|]. split; [exact Er|]. split; [exact E0|]. split; [exact Erec|]. split; [lia|]. destruct (m_has m) eqn:Cl; [|exact I]. destruct I as (I1 & Ic & In0 & I3 & I4). split; [exact I1|]. split; [exact Ic|]. split; [exact In0|]. split; [|exact I4].
      intros X. destruct (I3 X) as (_ & _ & Y). discriminate. }
    assert (c_cur s1 = Some k') as Ecur by apply (cm_cur _ _ _ _ _ _ C).
    destruct (put_end_inv k' s1 b len l rec _ (S a) r Ecur Er Ee Rok (ended_rep1 _ _ A7) Bd A6 B1) as ((mk & Bi) & Sc & Si & Nn).
    set (s2 := put_end o len s1) in *. pose proof (same_conn_cf _ _ Sc) as Ecf. pose proof (common_ids nc s1 s2 b (S k') (S k') Sc Si C1) as C2. split; [exact C2|]. destruct Sc as (T1 & T2 & T3 & T4 & T5 & T6 & T7 & T8 & T9 & T10 & T11). change (c_q1 s1) with (c_q1 s) in Nn.
    apply (P3 _ _ _ _ _ _ k' h (S a) l mk); try assumption; try reflexivity.
    + now rewrite T1.
    + now rewrite T2.
    + now rewrite T3.
    + rewrite T4. change (c_wrecv s1) with (c_wrecv s). rewrite A5. destruct l as [|t l]; [left; split; [reflexivity|]; right; split; [lia|]|right; split; [discriminate|]]; cbn [List.length]; do 2 f_equal; lia.
    + right. left. split; [lia|]. now rewrite Nat.sub_succ, Nat.sub_0_r.
    + apply (cm_n _ _ _ _ _ _ C2).
    + lia.
    + intros r' Er' Kp. destruct Nn as [Nn|[_ Nn]]; [|rewrite (Nn r' Er') in Kp; discriminate]. rewrite Nn. destruct Si as [_ Si]. destruct (Si k' r' Er') as (r0 & Er0 & _ & _ & _ & _ & _ & Kk & _). apply (A9 r0 Er0). now apply Kk.
    + rewrite Ecf, T7. exact A10.
  - unfold put_round. cbn zeta. destruct (_ <? _)%Z eqn:Q; [csimp; discriminate|]. intros _. split; [destruct C; constructor; assumption|].
    apply (P3 _ _ _ _ _ _ k' h a (RPut (skipn (o_buf o) (c :: rest)) len :: l) false); csimp; try assumption; try reflexivity.
    + rewrite A3. apply Pm.
    + right. split; [discriminate|exact A5].
    + right. right. exists (skipn (o_buf o) (c :: rest)), len, l. split; [reflexivity|]. split; [exact Ln|exact A6].
    + apply (cm_n _ _ _ _ _ _ C).
    + exists m, r, (ds ++ [firstn (o_buf o) (c :: rest)]). csimp. rewrite E0. change (pend (RPut (skipn (o_buf o) (c :: rest)) len :: l)) with (skipn (o_buf o) (c :: rest) ++ pend l). change (lens (RPut (skipn (o_buf o) (c :: rest)) len :: l)) with (len + lens l)%Z.
      rewrite Pw in Erec, I2. rewrite Lw in I2. cbn [app] in *.
      assert (forall t, List.concat (ds ++ [firstn (o_buf o) (c :: rest)]) ++ skipn (o_buf o) (c :: rest) ++ t = List.concat ds ++ (c :: rest) ++ t) as Ke.
      { intros t. rewrite concat_app. cbn [List.concat]. rewrite app_nil_r, <- app_assoc, app_assoc with (l := firstn _ _), firstn_skipn. reflexivity. }
      rewrite !Ke. split; [exact Em|]. split; [exact Er|]. split; [now rewrite map_app, !app_nil_r|]. split; [exact Erec|]. split; [split; [exact Is1|]; split; [lia|exact I2]|]. destruct (m_has m); [|destruct I as (I1 & I3 & I4); split; [exact I1|]; split; [exact I3|]; intros N'; destruct (I4 N') as (ds1 & ->); now eexists]. destruct I as (I1 & Ic & In0 & I3 & I4). split; [exact I1|]. split; [discriminate|]. split; [apply Forall_app; split; [exact In0|]; constructor; [|constructor]; destruct (o_buf o); [lia|discriminate]|]. split.
      * intros [X|X]; [discriminate|]. destruct (I3 (or_intror X)) as (_ & _ & Y). discriminate.
      * intros X. destruct (I3 (or_intror X)) as (_ & _ & Y). discriminate.
Qed.
End Steps.
