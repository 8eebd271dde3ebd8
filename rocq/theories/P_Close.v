(** Proofs about exchanges that the server ends (C83). *)
From Verif Require Import PyBytes PyBytesFacts PyInt PyExn M_Parser M_Framing M_Conn M_Response M_Stack
  S_Head S_Response S_Calls S_Conn S_Site S_AsgiSite S_Stack S_Open S_Keep S_Bare S_Close P_Conn P_Conn2 P_Conn3 P_Conn5 P_Conn6 P_Conn7 P_Conn8 P_Conn9 P_Conn10 P_Conn11 P_Conn12 P_Site3 P_Exchange P_Stack2 P_Keep P_Bare T_Conn.

(** After the decision to close, nothing is written any more. *)
Lemma closed_silent o tr : forall s s' b, conn_run o s tr = Some (s', b) -> c_closing s = true -> c_closing s' = true /\ written b = [].
Proof.
  induction tr as [|e tr IH]; intros s s' b E C; cbn [conn_run] in E; [injection E as <- <-; now split|].
  destruct (conn_step o s e) as [[s1 b1]|] eqn:E1; [|discriminate]. destruct (conn_run o s1 tr) as [[s2 b2]|] eqn:E2; [|discriminate]. injection E as <- <-.
  destruct (IH s1 s2 b2 E2 (step_closing _ _ _ _ _ E1 C)) as [C2 W]. split; [exact C2|]. unfold written in *. rewrite map_app, concat_app, W, app_nil_r.
  assert (forall d, ~ In (Wrote d) b1) as N by (intros d H; destruct (step_wrote _ _ _ _ _ _ E1 H) as (_ & _ & X); congruence).
  clear -N. induction b1 as [|x b1 IH]; [reflexivity|]. cbn [map List.concat]. rewrite IH by (intros d H; apply (N d); now right). destruct x; try reflexivity. destruct (N d). now left.
Qed.

Section Run.
Context {A : Type} (fine : bytes -> A -> Prop) (right : call -> A -> Prop).
Context (o : copts) (reqs : list call) (tr : list cev) (e : cev) (s s' : conn) (b bx : list obs).
Let M := map msg_of reqs.
Hypothesis (Ook : opts_ok o) (Obk : (0 < o_body o)%Z) (Rok : Forall (sound_call o) reqs) (Lok : Forall (small o) reqs).
Hypothesis (Hrun : conn_run o conn_new tr = Some (s, b)) (Hop : c_closing s = false) (Hstep : conn_step o s e = Some (s', bx)) (Hcl : c_closing s' = true).
Hypothesis (Hw : client_waits o M (tr ++ [e])) (Hh : handlers_ok o M (tr ++ [e])) (Hu : uncut (tr ++ [e])) (Hk : keeps_up o (tr ++ [e])).
Hypothesis (Hans : forall i c, nth_error reqs i = Some c -> In i (closers tr) ->
  exists items, did i tr = map Some items ++ [None] /\ exists x, fine (List.concat items) x /\ right c x).

Lemma all_sized : Forall (sized o) M.
Proof.
  apply Forall_map, Forall_forall. intros c Hc. destruct (proj1 (Forall_forall _ _) Lok c Hc) as [L1 L2]. pose proof (proj1 (Forall_forall _ _) Rok c Hc) as G. split; [exact L1|].
  destruct (counted (msg_of c)) eqn:Cm; [exact L2|]. assert (m_has (msg_of c) = false) as Hn by (destruct (m_has (msg_of c)) eqn:X; [rewrite (call_counted o c G X) in Cm; discriminate|reflexivity]). unfold m_has, msg_of in Hn. cbn [m_body msg_of]. unfold body_of. destruct (k_body c); [discriminate|exact Obk].
Qed.
Lemma none_expects : Forall (fun m => expects m = false) M.
Proof. apply Forall_map. eapply Forall_impl; [|exact Rok]. intros c. apply call_expects. Qed.
Lemma closing_step :
  bx = [Ended] /\ In (ended b) (closers tr) /\ out (ended b) b = response M (ended b) tr /\ List.length (starts b) = S (ended b) /\
  (exists l, Forall2 fine (map (fun i => out i b) (List.seq 0 (S (ended b)))) l /\ Forall2 right (firstn (S (ended b)) reqs) l) /\
  exists c r, nth_error reqs (ended b) = Some c /\ In (Started (ended b) (m_head (msg_of c))) b /\ frame_head (m_head (msg_of c)) (blen (m_head (msg_of c)) - 2) = Framed r /\ (e = RunSend true \/ rq_keepalive r = false \/ In (HClose (ended b) false) tr).
Proof.
  pose proof (all_ok o reqs Rok) as Mo. pose proof (waits_ok _ _ _ Hw) as Hc.
  assert (calm o M (tr ++ [e])) as Hm by (apply counted_calm, Forall_map; eapply Forall_impl; [|exact Rok]; intros c; apply call_counted).
  destruct (prefix_ok o M tr e Hc Hh (or_intror (conj Hw Hm))) as (Hc1 & Hh1 & Hs1).
  assert (client_waits o M tr) as Hw1 by (intros pre d post s3 b3 Et; apply (Hw pre d (post ++ [e]) s3 b3); rewrite Et, <- app_assoc; reflexivity).
  assert (forall i c, nth_error reqs i = Some c -> In i (closers tr) -> exists items, did i tr = map Some items ++ [None] /\ (i < ended b -> exists x, fine (List.concat items) x /\ right c x)) as Ha.
  { intros i c Ei Hi. destruct (Hans i c Ei Hi) as (items & Dd & X). exists items. split; [exact Dd|]. intros _. exact X. }
  pose proof (is_tidy fine right o reqs tr s b Ook Rok Hrun Hop Hc1 (or_intror Hw1) Hh1 Ha) as Td.
  destruct (last_step o M Mo Ook all_sized Obk none_expects tr e s b s' bx Hrun Hop Hw Hm Hh Hu Hk Td Hstep Hcl) as (-> & Hi & Eo & m & r & Em & Pm & Why).
  split; [reflexivity|]. split; [exact Hi|]. split; [exact Eo|].
  destruct (closed_call o reqs tr s b Ook Rok Hrun Hop Hc1 (or_intror Hw1) Hh1 _ Hi) as (c & Ei). destruct (closed_read o reqs tr s b Ook Rok Hrun Hop Hc1 (or_intror Hw1) Hh1 _ c Ei Hi) as (St & _ & G).
  assert (nth_error M (ended b) = Some (msg_of c)) as Em' by (unfold M; rewrite nth_error_map, Ei; reflexivity). assert (m = msg_of c) as -> by congruence.
  split; [|split].
  - pose proof (run_inv o M Mo Ook tr s b Hrun Hop Hc1 Hh1 Hs1) as Iv. pose proof (inv_phase M _ _ _ _ _ Iv) as Ph. destruct Ph as [(P1 & _)|(P1 & _)]; [|exact P1]. exfalso.
    destruct Iv as (k & n & C & _). assert (List.length (starts b) = k) as Lk. { rewrite (cm_starts _ _ _ _ _ _ C), combine_length, seq_length, map_length. pose proof (cm_k _ _ _ _ _ _ C). lia. }
    destruct (cm_closers _ _ _ _ _ _ C _ Hi) as [Hj _]. lia.
  - destruct (answers_upto fine right o reqs tr s b Ook Rok Hrun Hop Hc1 (or_intror Hw1) Hh1 Ha (ended b) (le_n _)) as (l & F & B). destruct (Hans _ c Ei Hi) as (items & Dd & x & Rd & Ra). exists (l ++ [x]). split.
    + rewrite seq_S, map_app. apply Forall2_app; [exact F|]. constructor; [|constructor]. cbn [Nat.add]. rewrite Eo. unfold response. rewrite Em', (call_expects o c G), answer_puts, puts_did, Dd, somes_items. exact Rd.
    + assert (firstn (S (ended b)) reqs = firstn (ended b) reqs ++ [c]) as ->.
      { clear -Ei. revert Ei. generalize (ended b) as n. induction reqs as [|y ys IH]; intros [|n] E; try discriminate; cbn [firstn app]; [injection E as ->; reflexivity|]. f_equal. now apply IH. }
      apply Forall2_app; [exact B|]. constructor; [exact Ra|constructor].
  - exists c, r. split; [exact Ei|]. split; [exact St|]. split; [|exact Why].
    destruct (proj1 (Forall_forall _ _) Mo (msg_of c) (in_map _ _ _ (nth_error_In _ _ Ei))) as (p & r2 & F & L & _ & F2 & _). unfold parsed in Pm. rewrite F, F2 in Pm. injection Pm as ->. assert (blen (m_head (msg_of c)) - 2 = Z.of_nat p + 2)%Z as -> by (unfold blen; lia). exact F2.
Qed.
End Run.

(** ** Handlers and middlewares *)
Lemma app_page o ap paths reqs date tr s b : opts_ok o -> soft_app ap paths -> Forall (sound_call o) reqs -> (forall i, one_line (date i)) ->
  conn_run o conn_new tr = Some (s, b) -> c_closing s = false -> client_ok o (map msg_of reqs) tr -> client_waits o (map msg_of reqs) tr -> handlers_ok o (map msg_of reqs) tr -> performs_app ap date tr b ->
  forall i c, nth_error reqs i = Some c -> In i (closers tr) -> exists items, did i tr = map Some items ++ [None] /\ exists x, fine_pair (List.concat items) x /\ right_pair ap paths c x.
Proof.
  intros Oo Ao Ro Do Run Op Hc Hw Hh Hp i c Ei Hi. destruct (closed_read o reqs tr s b Oo Ro Run Op Hc (or_intror Hw) Hh i c Ei Hi) as (St & Gb & G).
  destruct (stack_any o ap paths c (date i) Ao G (Do i)) as (r & z & w & x & Fr & Ez & (items & Oi & Ew) & Rd & Ra & _).
  exists items. split; [|exists (method_of c, x); split; [rewrite Ew; exact Rd|split; [reflexivity|exact Ra]]].
  rewrite (Hp i _ r St Hi Fr), Gb, Ez. exact Oi.
Qed.
Lemma starts_app a b : starts (a ++ b) = starts a ++ starts b.
Proof. apply flat_map_app. Qed.
Lemma app_closed o ap paths reqs date tr e s b s' bx :
  opts_ok o -> (0 < o_body o)%Z -> soft_app ap paths -> Forall (sound_call o) reqs -> Forall (small o) reqs -> (forall i, one_line (date i)) ->
  conn_run o conn_new tr = Some (s, b) -> c_closing s = false -> conn_step o s e = Some (s', bx) -> c_closing s' = true ->
  client_waits o (map msg_of reqs) (tr ++ [e]) -> handlers_ok o (map msg_of reqs) (tr ++ [e]) -> uncut (tr ++ [e]) -> keeps_up o (tr ++ [e]) ->
  performs_app ap date tr b -> closes_app ap date tr b ->
  let n := ended (b ++ bx) in
  (exists answers, read_answers_to (map method_of (firstn n reqs)) (written (b ++ bx)) = Some (answers, []) /\ Forall2 (right_page_to ap paths) (firstn n reqs) answers) /\
  List.length (starts (b ++ bx)) = n /\
  (full_streams ap -> e = RunSend true \/ exists i c, n = S i /\ nth_error reqs i = Some c /\ bids_close c) /\ exists i, n = S i.
Proof.
  intros Oo Ob Ao Ro Lo Do Run Op St Cl Hw Hh Hu Hk Hp Hq. cbv zeta.
  assert (client_waits o (map msg_of reqs) tr) as Hw1 by (intros pre d post s3 b3 Et; apply (Hw pre d (post ++ [e]) s3 b3); rewrite Et, <- app_assoc; reflexivity).
  assert (calm o (map msg_of reqs) (tr ++ [e])) as Hm by (apply counted_calm, Forall_map; eapply Forall_impl; [|exact Ro]; intros c; apply call_counted).
  destruct (prefix_ok o (map msg_of reqs) tr e (waits_ok _ _ _ Hw) Hh (or_intror (conj Hw Hm))) as (Hc1 & Hh1 & _).
  destruct (closing_step fine_pair (right_pair ap paths) o reqs tr e s s' b bx Oo Ob Ro Lo Run Op St Cl Hw Hh Hu Hk (app_page o ap paths reqs date tr s b Oo Ao Ro Do Run Op Hc1 Hw1 Hh1 Hp)) as (-> & Hi & _ & Ls & (l & F & B) & c & r & Ei & Sc & Fr & Why).
  assert (ended (b ++ [Ended]) = S (ended b)) as En by (rewrite ended_app; cbn; lia). rewrite En. split; [|split].
  - exists (map snd l). split.
    + replace (map method_of (firstn (S (ended b)) reqs)) with (map fst l).
      * assert (written (b ++ [Ended]) = List.concat (map (fun i => out i b) (List.seq 0 (S (ended b)))) ++ []) as ->.
        { unfold written. rewrite map_app, concat_app. cbn [map List.concat]. fold (written b). rewrite (written_out b), seq_S, map_app, concat_app. cbn [map List.concat Nat.add]. now rewrite !app_nil_r. }
        now apply read_all_to.
      * clear -B. induction B as [|c x cs l [E _] F IH]; [reflexivity|]. cbn [map]. now rewrite E, IH.
    + clear -B. induction B as [|c x cs l [_ R] F IH]; [constructor|]. cbn [map]. now constructor.
  - rewrite starts_app, app_length, Ls. cbn. lia.
  - split; [|now exists (ended b)]. intros Fs. destruct Why as [->|Why]; [now left|right]. exists (ended b), c. split; [reflexivity|]. split; [exact Ei|]. pose proof (proj1 (Forall_forall _ _) Ro c (nth_error_In _ _ Ei)) as G.
    destruct (call_framed o c G) as (r' & Fr' & _ & _ & _ & _ & Ka & _). rewrite Fr in Fr'. injection Fr' as <-. apply Ka. destruct Why as [W|W]; [exact W|].
    destruct (rq_keepalive r) eqn:Kr; [|reflexivity]. pose proof (Hq _ _ r false Sc W Fr) as X. rewrite (bare_keeps o ap paths c (date (ended b)) r _ Ao Fs G) in X; [discriminate| |apply Do|exact Fr]. intros Bc. apply Ka in Bc. congruence.
Qed.
(** While the connection is open, no request that was answered has asked to close it. *)
Lemma app_obeys o ap paths reqs date tr s b :
  opts_ok o -> soft_app ap paths -> full_streams ap -> Forall (sound_call o) reqs -> (forall i, one_line (date i)) ->
  conn_run o conn_new tr = Some (s, b) -> c_closing s = false ->
  client_ok o (map msg_of reqs) tr -> S_Conn.settled o tr \/ client_waits o (map msg_of reqs) tr -> handlers_ok o (map msg_of reqs) tr -> closes_app ap date tr b ->
  Forall (fun c => ~ bids_close c) (firstn (ended b) reqs).
Proof.
  intros Oo Ao Fs Ro Do Run Op Hc Hs Hh Hq. apply Forall_forall. intros c Hc' Bc. apply In_nth_error in Hc' as (i & Ei).
  assert (i < ended b) as Li by (assert (nth_error (firstn (ended b) reqs) i <> None) as X by congruence; apply nth_error_Some in X; rewrite firstn_length in X; lia).
  assert (nth_error reqs i = Some c) as Er. { clear -Ei Li. revert i Ei Li. generalize (ended b) as n. induction reqs as [|y ys IH]; intros [|n] [|i] E L; try lia; try discriminate; cbn [firstn nth_error] in *; [exact E|]. apply (IH n); [exact E|lia]. }
  pose proof (ended_closed o reqs tr s b Oo Ro Run Op Hc Hs Hh i Li) as Hi. destruct (closed_read o reqs tr s b Oo Ro Run Op Hc Hs Hh i c Er Hi) as (St & Gb & G).
  apply in_flat_map in Hi as (x & Hx & Hi). destruct x; try contradiction. destruct Hi as [->|[]].
  pose proof (run_kept o (map msg_of reqs) (all_ok o reqs Ro) Oo tr s b Run Op Hc Hh (seemly o reqs tr Ro Hs) i keep Li Hx) as ->.
  destruct (stack_any o ap paths c (date i) Ao G (Do i)) as (r & z & w & x & Fr & Ez & _ & _ & _ & Ke & _). pose proof (Hq i _ r true St Hx Fr) as X. rewrite Gb, Ez, (Ke Fs) in X.
  destruct (call_framed o c G) as (r' & Fr' & _ & _ & _ & _ & Ka & _). rewrite Fr in Fr'. injection Fr' as <-. apply Ka in Bc. congruence.
Qed.
