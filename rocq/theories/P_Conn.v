From Verif Require Import PyBytes PyBytesFacts PyInt PyExn M_Parser M_Framing M_Conn S_Head P_Parser2 P_Head5 S_Conn.
From Coq Require Import ZifyBool ZifyNat ZifyN.

Ltac csimp := cbn [c_hb c_paused c_closing c_lost c_q0 c_q1 c_futs c_wreq c_wkeep c_wrecv c_reqs c_cur c_hrs c_rcv c_sending
  set_hb set_paused set_closing set_q0 set_q1 set_futs set_waiters set_reqs set_hrs set_rcv set_sending put0 put1 fst snd].
Ltac csimp_in H := cbn [c_hb c_paused c_closing c_lost c_q0 c_q1 c_futs c_wreq c_wkeep c_wrecv c_reqs c_cur c_hrs c_rcv c_sending
  set_hb set_paused set_closing set_q0 set_q1 set_futs set_waiters set_reqs set_hrs set_rcv set_sending put0 put1 fst snd] in H.

Lemma nth_put {A} (l : list A) : forall i k x, nth_error (put_at i x l) k = if (i =? k)%nat then (match nth_error l k with Some _ => Some x | None => None end) else nth_error l k.
Proof. induction l as [|y l IH]; intros i k x; [destruct i, k; now cbn; try destruct (Nat.eqb _ _)|]. destruct i, k; cbn [put_at nth_error Nat.eqb]; try reflexivity. apply IH. Qed.
Lemma put_length {A} (l : list A) : forall i x, List.length (put_at i x l) = List.length l.
Proof. induction l as [|y l IH]; intros [|i] x; cbn [put_at List.length]; auto. Qed.
Lemma put_app {A} (l : list A) x y : put_at (List.length l) x (l ++ [y]) = l ++ [x].
Proof. induction l; cbn; congruence. Qed.
Lemma put_mid {A} (l : list A) x y r : put_at (List.length l) x (l ++ y :: r) = l ++ x :: r.
Proof. induction l; cbn; congruence. Qed.

Lemma conn_run_app o es1 : forall s es2,
  conn_run o s (es1 ++ es2) = match conn_run o s es1 with Some (s1, b1) => match conn_run o s1 es2 with Some (s2, b2) => Some (s2, b1 ++ b2) | None => None end | None => None end.
Proof.
  induction es1 as [|e es1 IH]; intros s es2; cbn [app conn_run].
  - destruct (conn_run o s es2) as [[s2 b2]|]; reflexivity.
  - destruct (conn_step o s e) as [[s1 b1]|]; [|reflexivity]. rewrite IH. destruct (conn_run o s1 es1) as [[s2 b2]|]; [|reflexivity]. destruct (conn_run o s2 es2) as [[s3 b3]|]; [|reflexivity]. now rewrite app_assoc.
Qed.

(** A connection that is closing stays so. *)
Lemma on_req_misc i f s : c_closing (on_req i f s) = c_closing s /\ c_hb (on_req i f s) = c_hb s /\ c_q0 (on_req i f s) = c_q0 s /\ c_q1 (on_req i f s) = c_q1 s /\
  c_futs (on_req i f s) = c_futs s /\ c_wreq (on_req i f s) = c_wreq s /\ c_wkeep (on_req i f s) = c_wkeep s /\ c_wrecv (on_req i f s) = c_wrecv s /\ c_cur (on_req i f s) = c_cur s /\
  c_hrs (on_req i f s) = c_hrs s /\ c_rcv (on_req i f s) = c_rcv s /\ c_sending (on_req i f s) = c_sending s /\ c_lost (on_req i f s) = c_lost s /\ c_paused (on_req i f s) = c_paused s /\
  List.length (c_reqs (on_req i f s)) = List.length (c_reqs s).
Proof. unfold on_req. destruct (nth_error (c_reqs s) i); csimp; rewrite ?put_length; repeat split. Qed.
Lemma on_req_nth i f s k : nth_error (c_reqs (on_req i f s)) k = if (i =? k)%nat then option_map f (nth_error (c_reqs s) k) else nth_error (c_reqs s) k.
Proof.
  unfold on_req. destruct (nth_error (c_reqs s) i) as [r|] eqn:E.
  - csimp. rewrite nth_put. destruct (Nat.eqb_spec i k) as [->|]; [now rewrite E|reflexivity].
  - destruct (Nat.eqb_spec i k) as [->|]; [now rewrite E|reflexivity].
Qed.
Lemma data_closing o x s : c_closing s = true -> c_closing (data_received o x s) = true.
Proof.
  intros C. unfold data_received. destruct x as [[|c d]|]; try exact C. destruct (c_hb s).
  - destruct (_ && _); [exact C|]. destruct (_ || _); [reflexivity|exact C].
  - destruct (match c_wrecv s with Some w => Some w | None => _ end); exact C.
Qed.
Lemma refeed_closing o l : forall s, c_closing s = true -> c_closing (refeed o l s) = true.
Proof. induction l as [|x l IH]; intros s C; cbn [refeed]; [exact C|]. now apply IH, data_closing. Qed.
Lemma put_end_closing o len s : c_closing (put_end o len s) = c_closing s.
Proof.
  unfold put_end. destruct (c_cur s) as [i|]; [|reflexivity]. destruct (nth_error (c_reqs s) i) as [r|]; [|reflexivity]. destruct (q_upg r); [reflexivity|]. cbn zeta.
  destruct (_ && _); [reflexivity|]. destruct (_ <? _)%Z; [reflexivity|]. csimp. now rewrite (proj1 (on_req_misc _ _ _)).
Qed.
Lemma set_done_closing w s : c_closing (set_done w s) = c_closing s.
Proof. now destruct w. Qed.
Lemma start_closing i s : c_closing (fst (start_handler i s)) = c_closing s.
Proof. unfold start_handler. csimp. now rewrite (proj1 (on_req_misc _ _ _)), !set_done_closing. Qed.
Lemma put_round_closing o n rest s : c_closing s = true -> c_closing (snd (put_round o n rest s)) = true.
Proof. intros C. unfold put_round. cbn zeta. destruct (_ <? _)%Z; [reflexivity|exact C]. Qed.
Lemma hr_put_closing o j i rest len s : c_closing s = true -> c_closing (fst (hr_put o j i rest len s)) = true.
Proof.
  intros C. unfold hr_put. destruct rest as [|c rest]; [rewrite start_closing; csimp; now rewrite put_end_closing|]. pose proof (put_round_closing o (o_first o) (c :: rest) s C) as K.
  destruct (put_round o (o_first o) (c :: rest) s) as [[r'|] s1]; csimp_in K; [exact K|]. rewrite start_closing. exact K.
Qed.
Lemma step_closing o s e s' b : conn_step o s e = Some (s', b) -> c_closing s = true -> c_closing s' = true.
Proof.
  intros E C. unfold conn_step in E. destruct (c_lost s); [discriminate|]. destruct e.
  - rewrite C, orb_true_r in E. discriminate.
  - rewrite C, orb_true_r in E. discriminate.
  - now injection E as <- <-.
  - destruct (nth_error (c_hrs s) j) as [[data hs|i rest len|]|]; try discriminate.
    + injection E as E. assert (s' = fst (run_hr o j data hs s)) as -> by now rewrite E. unfold run_hr. destruct (frame_head data hs); csimp; try exact C. destruct (_ || _).
      * apply hr_put_closing. destruct (has_body r); exact C.
      * rewrite start_closing. destruct (has_body r); exact C.
    + injection E as E. assert (s' = fst (hr_put o j i rest len s)) as -> by now rewrite E. now apply hr_put_closing.
  - assert (forall rest len, c_closing (rcv_put o j rest len s) = true) as K.
    { intros rest len. unfold rcv_put. destruct rest as [|c rest]; [now rewrite put_end_closing|]. pose proof (put_round_closing o (o_buf o) (c :: rest) s C) as K. now destruct (put_round o (o_buf o) (c :: rest) s) as [[r'|] s1]. }
    destruct (nth_error (c_rcv s) j) as [[w d|rest len|]|]; try discriminate; [destruct (w_done w s); [|discriminate]|]; injection E as <- <-; apply K.
  - unfold run_send in E. destruct (c_sending s); [|discriminate]. destruct (c_q1 s) as [|[d|] l]; [discriminate|injection E as <- <-; exact C|]. csimp_in E. destruct (c_cur s) as [i|]; [|now injection E as <- <-]. destruct (nth_error (c_reqs s) i) as [r|]; [|discriminate].
    destruct (q_keep r && _); [|now injection E as <- <-]. injection E as <- <-. unfold keepalive. destruct (kicked && _); [reflexivity|]. csimp. destruct (q_cont r); [now rewrite (proj1 (on_req_misc _ _ _))|].
    destruct (q_upg r); [destruct (c_wreq s); [exact C|reflexivity]|]. cbn zeta.
    assert (c_closing (on_req i clear_body (set_q1 l s)) = true) as K by (rewrite (proj1 (on_req_misc _ _ _)); exact C). destruct (has_body (q_info r)); [exact K|]. apply refeed_closing. exact K.
  - destruct (live s i) as [r|]; [|discriminate]. destruct (q_eof r); [now injection E as <- <-|]. destruct (_ <? _)%Z; [discriminate|]. unfold send_continue in E. destruct (q_cont r); [destruct (_ <? _)%Z; [discriminate|]|]; injection E as <- <-; now rewrite (proj1 (on_req_misc _ _ _)).
  - destruct (live s i) as [r|]; [|discriminate]. destruct (_ && _); [|discriminate]. destruct (c_q0 s) as [|[d|] l]; [discriminate| |]; injection E as <- <-; now rewrite (proj1 (on_req_misc _ _ _)).
  - destruct (live s i) as [r|]; [|discriminate]. now injection E as <- <-.
  - destruct (live s i) as [r|]; [|discriminate]. injection E as <- <-. destruct keep; csimp; [exact C|]. now rewrite (proj1 (on_req_misc _ _ _)).
  - destruct (live s i) as [r|]; [|discriminate]. unfold send_continue in E. destruct (q_cont r); [destruct (_ <? _)%Z; [discriminate|]|]; now injection E as <- <-.
  - destruct (live s i) as [r|]; [|discriminate]. injection E as <- <-. now rewrite (proj1 (on_req_misc _ _ _)).
  - destruct (live s i) as [r|]; [|discriminate]. injection E as <- <-. now rewrite (proj1 (on_req_misc _ _ _)).
  - now injection E as <- <-.
Qed.

(** Heads: the parser does not see what follows them. *)
Lemma frame_head_ext m p rest : find (CRLF ++ CRLF) (m_head m) = Some p -> List.length (m_head m) = p + 4 -> frame_head (m_head m ++ rest) (Z.of_nat p + 2) = frame_head (m_head m) (Z.of_nat p + 2).
Proof.
  intros F L. unfold frame_head. cbn zeta. pose proof (c02_main (m_head m) rest [] p (Z.of_nat p + 2) 65536 [bs "proxy"] 100 8190 F L (or_intror eq_refl)) as H. cbn zeta in H. rewrite app_nil_r in H.
  destruct H as (A & _ & B & _ & C & _). rewrite A.
  assert (forall h1 h2, headers h1 = headers h2 -> is_valid_request h1 = is_valid_request h2 -> request_init h1 = request_init h2) as K.
  { intros h1 h2 H1 H2. unfold request_init, getmethod, geturl, getversion, init_host, gethost. now rewrite H1, H2. }
  now rewrite (K _ _ C B).
Qed.
