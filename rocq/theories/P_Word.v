(** Proofs about the Connection lines in an exchange (C86). *)
From Verif Require Import PyBytes PyBytesFacts PyBytesFacts2 PyInt PyIntFacts PyExn M_Parser M_Framing M_Route M_Conn M_Response M_Server M_Site M_Stack M_Fault
  S_Head S_Num S_Scope S_Route S_Response S_Calls S_Chunked S_Conn S_Site S_AsgiSite S_Stack S_Open S_Keep S_Bare S_Told S_Close S_Fault S_Word
  P_Framing P_Conn P_Conn2 P_Conn3 P_Conn5 P_Conn6 P_Conn7 P_Conn8 P_Conn9 P_Conn10 P_Conn11 P_Conn12 P_Site P_Site2 P_Site3 P_Site4 P_Exchange P_AsgiSite P_Stack P_Stack2 P_Keep P_Bare P_Close P_Fault T_Conn.

Definition word_pair (fa : faulty) (paths : list bytes) (c : S_Site.call) (p : bytes * answer) : Prop := fst p = method_of c /\ right_reply fa paths c (snd p) /\ right_word fa paths c (snd p).
Lemma word_read fa paths cs l : Forall2 (word_pair fa paths) cs l -> map method_of cs = map fst l /\ Forall2 (right_reply fa paths) cs (map snd l) /\ Forall2 (right_word fa paths) cs (map snd l).
Proof.
  induction 1 as [|c x cs l (E & R & W) F (IH1 & IH2 & IH3)]; [split; [reflexivity|split; constructor]|]. cbn [map]. split; [now rewrite E, IH1|]. split; constructor; assumption.
Qed.
(** A request and its response. *)
Lemma word_any o fa paths c date : soft_app (f_app fa) paths -> leaves_connection (f_app fa) -> sound_faults fa -> sound_call o c -> one_line date ->
  exists r z items y, frame_head (m_head (msg_of c)) (blen (m_head (msg_of c)) - 2) = Framed r /\ snd (fault_serve date fa r (body_of c)) = z /\
    r_out z = map Some items ++ [None] /\ fine_to (method_of c) (List.concat items) y /\ right_reply fa paths c y /\ right_word fa paths c y.
Proof.
  intros A Lc Sf G OD. destruct (fault_any o fa paths c date A Sf G OD) as (r & z & w & y & Fr & Ez & (items & Oi & Ew) & Fi & Ri & _ & _ & Dec & Wd).
  exists r, z, items, y. split; [exact Fr|]. split; [exact Ez|]. split; [exact Oi|]. split; [rewrite Ew; exact Fi|]. split; [exact Ri|]. destruct (Wd Lc) as [Wf Wn].
  destruct (call_framed o c G) as (r' & Fr' & _ & _ & _ & _ & Ka & _). rewrite Fr in Fr'. injection Fr' as <-. split.
  - intros [B|F]; [|now apply Wf]. destruct Dec as [F|F]; [now apply Wf|]. apply Ka in B. specialize (Wn F). now rewrite B in Wn.
  - intros B F. specialize (Wn F). destruct (rq_keepalive r); [exact Wn|]. exfalso. now apply B, Ka.
Qed.

Section Run.
Context (o : copts) (fa : faulty) (paths : list bytes) (reqs : list S_Site.call) (date : nat -> bytes) (tr : list cev) (s : conn) (b : list obs).
Let M := map msg_of reqs.
Hypothesis (Ook : opts_ok o) (Aok : soft_app (f_app fa) paths) (Lok : leaves_connection (f_app fa)) (Fok : sound_faults fa) (Rok : Forall (sound_call o) reqs) (Dok : forall i, one_line (date i)).
Hypothesis (Hrun : conn_run o conn_new tr = Some (s, b)) (Hop : c_closing s = false).
Hypothesis (Hc : client_ok o M tr) (Hs : S_Conn.settled o tr \/ client_waits o M tr) (Hh : handlers_ok o M tr) (Hp : performs_faulty fa date tr b).

Lemma word_page i c : nth_error reqs i = Some c -> In i (closers tr) ->
  exists items, did i tr = map Some items ++ [None] /\ exists x, fine_pair (List.concat items) x /\ word_pair fa paths c x.
Proof.
  intros Ei Hi. destruct (closed_read o reqs tr s b Ook Rok Hrun Hop Hc Hs Hh i c Ei Hi) as (St & Gb & G).
  destruct (word_any o fa paths c (date i) Aok Lok Fok G (Dok i)) as (r & z & items & x & Fr & Ez & Oi & Rd & Ra & Rw).
  exists items. split; [|exists (method_of c, x); split; [exact Rd|split; [reflexivity|now split]]].
  rewrite (Hp i _ r St Hi Fr), Gb, Ez. exact Oi.
Qed.
Lemma word_exchange : exists l rest, read_answers_to (map method_of (firstn (ended b) reqs)) (written b) = Some (l, rest) /\ Forall2 (right_reply fa paths) (firstn (ended b) reqs) l /\ Forall2 (right_word fa paths) (firstn (ended b) reqs) l.
Proof.
  assert (forall i c, nth_error reqs i = Some c -> In i (closers tr) -> exists items, did i tr = map Some items ++ [None] /\ (i < ended b -> exists x, fine_pair (List.concat items) x /\ word_pair fa paths c x)) as Ha.
  { intros i c Ei Hi. destruct (word_page i c Ei Hi) as (items & Dd & X). exists items. split; [exact Dd|]. intros _. exact X. }
  destruct (answers_upto fine_pair (word_pair fa paths) o reqs tr s b Ook Rok Hrun Hop Hc Hs Hh Ha (ended b) (le_n _)) as (l & A & B). destruct (word_read _ _ _ _ B) as (B1 & B2 & B3).
  exists (map snd l), (out (ended b) b). split; [|now split]. rewrite written_out, B1. now apply read_all_to.
Qed.
End Run.
Lemma words_open fa paths cs l : Forall2 (right_word fa paths) cs l -> Forall (fun c => ~ fails fa paths c /\ ~ bids_close c) cs -> Forall says_open l.
Proof. induction 1 as [|c y cs l [_ W] F IH]; intros N; [constructor|]. inversion_clear N as [|? ? [N1 N2] N3]. constructor; [now apply W|now apply IH]. Qed.
Lemma word_closed o fa paths reqs date tr e s b s' bx :
  opts_ok o -> (0 < o_body o)%Z -> soft_app (f_app fa) paths -> full_streams (f_app fa) -> leaves_connection (f_app fa) -> sound_faults fa -> Forall (sound_call o) reqs -> Forall (small o) reqs -> (forall i, one_line (date i)) ->
  conn_run o conn_new tr = Some (s, b) -> c_closing s = false -> conn_step o s e = Some (s', bx) -> c_closing s' = true ->
  client_waits o (map msg_of reqs) (tr ++ [e]) -> handlers_ok o (map msg_of reqs) (tr ++ [e]) -> uncut (tr ++ [e]) -> keeps_up o (tr ++ [e]) ->
  performs_faulty fa date tr b -> closes_faulty fa date tr b ->
  exists n init last, ended (b ++ bx) = S n /\ read_answers_to (map method_of (firstn (S n) reqs)) (written (b ++ bx)) = Some (init ++ [last], []) /\ Forall2 (right_reply fa paths) (firstn (S n) reqs) (init ++ [last]) /\
    List.length init = n /\ Forall says_open init /\ (says_close last \/ e = RunSend true).
Proof.
  intros Oo Ob Ao Fs Lo Fo Ro Sm Do Run Op St Cl Hw Hh Hu Hk Hp Hq.
  assert (client_waits o (map msg_of reqs) tr) as Hw1 by (intros pre d post s3 b3 Et; apply (Hw pre d (post ++ [e]) s3 b3); rewrite Et, <- app_assoc; reflexivity).
  assert (calm o (map msg_of reqs) (tr ++ [e])) as Hm by (apply counted_calm, Forall_map; eapply Forall_impl; [|exact Ro]; intros c; apply call_counted).
  destruct (prefix_ok o (map msg_of reqs) tr e (waits_ok _ _ _ Hw) Hh (or_intror (conj Hw Hm))) as (Hc1 & Hh1 & _).
  destruct (closing_step fine_pair (word_pair fa paths) o reqs tr e s s' b bx Oo Ob Ro Sm Run Op St Cl Hw Hh Hu Hk
    (word_page o fa paths reqs date tr s b Oo Ao Lo Fo Ro Do Run Op Hc1 (or_intror Hw1) Hh1 Hp)) as (Ex & Hi & _ & Ls & (l & F & B) & c & r & Ei & Sc & Fr & Why).
  destruct (fault_closed o fa paths reqs date tr e s b s' bx Oo Ob Ao Fo Ro Sm Do Run Op St Cl Hw Hh Hu Hk Hp Hq) as (n & En & _ & _ & _ & Wn). specialize (Wn Fs). subst bx.
  assert (n = ended b) as -> by (rewrite ended_app in En; cbn in En; lia).
  destruct (word_read _ _ _ _ B) as (B1 & B2 & B3).
  assert (firstn (S (ended b)) reqs = firstn (ended b) reqs ++ [c]) as Ef.
  { clear -Ei. revert Ei. generalize (ended b) as n. induction reqs as [|y ys IH]; intros [|n] E; try discriminate; cbn [firstn app]; [injection E as ->; reflexivity|]. f_equal. now apply IH. }
  rewrite Ef in B3. apply Forall2_app_inv_l in B3 as (init & l2 & B3 & B4 & El). inversion B4 as [|c0 last cs0 l3 W B5 E4 E5]. subst c0 cs0 l2. inversion B5. subst l3.
  exists (ended b), init, last. rewrite <- El. split; [exact En|]. split; [|split; [exact B2|split; [|split]]].
  - assert (written (b ++ [Ended]) = List.concat (map (fun i => out i b) (List.seq 0 (S (ended b)))) ++ []) as ->.
    { unfold written. rewrite map_app, concat_app. cbn [map List.concat]. fold (written b). rewrite (written_out b), seq_S, map_app, concat_app. cbn [map List.concat Nat.add]. now rewrite !app_nil_r. }
    rewrite B1. now apply read_all_to.
  - rewrite <- (f2_length _ _ _ B3), firstn_length. assert (nth_error reqs (ended b) <> None) as X by congruence. apply nth_error_Some in X. lia.
  - apply (words_open fa paths (firstn (ended b) reqs)); [exact B3|]. pose proof (fault_obeys o fa paths reqs date tr s b Oo Ao Fo Ro Do Run Op Hc1 (or_intror Hw1) Hh1 Hq) as X. eapply Forall_impl; [|exact X]. intros c' [X1 X2]. split; [exact X1|now apply X2].
  - destruct Wn as [->|(c' & Ei' & Wy)]; [now right|left]. assert (c' = c) as -> by congruence. now apply W.
Qed.
