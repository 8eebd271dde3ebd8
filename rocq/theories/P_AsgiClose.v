(** Proofs about exchanges with ASGI applications that end the connection (C83). *)
From Verif Require Import PyBytes PyBytesFacts PyInt PyExn M_Parser M_Framing M_Conn M_Response M_Scope M_Asgi M_AsgiSite
  S_Head S_Response S_Calls S_Scope S_Asgi S_Conn S_Site S_AsgiSite S_Told S_Open S_Keep S_Bare S_Close S_AsgiClose P_Conn P_Conn2 P_Conn3 P_Conn5 P_Conn6 P_Conn7 P_Conn8 P_Conn9 P_Conn10 P_Conn11 P_Conn12 P_Site3 P_Exchange P_AsgiSite P_Keep P_Bare P_Close T_Conn.

Section Run.
Context (o : copts) (y : asite) (reqs : list call) (date : nat -> bytes) (ch : nat -> option bool) (tr : list cev) (s : conn) (b : list obs).
Let M := map msg_of reqs.
Hypothesis (Ook : opts_ok o) (Aok : app_ok y) (Sok : steady y) (Rok : Forall (good_call o) reqs) (Tok : Forall (fun c => exists sc, told y c sc) reqs) (Dok : forall i, one_line (date i)).
Hypothesis (Hrun : conn_run o conn_new tr = Some (s, b)) (Hop : c_closing s = false).
Hypothesis (Hc : client_ok o M tr) (Hs : settled o tr \/ client_waits o M tr) (Hh : handlers_ok o M tr) (Hp : performs_asgi y date ch tr b).

Lemma mode_ok : exists length, (forall sc x, wants (bs "content-length") (y_headers (y_app y sc x)) = length) /\
  forall i, (forall j, j < i -> In j (closers tr)) -> ch i <> Some true /\ (length = false -> ch i = None).
Proof.
  destruct Sok as (length & Hl). exists length. split; [exact Hl|]. induction i as [|i IH]; intros H; destruct Hp as (P0 & P); [rewrite P0; split; [discriminate|reflexivity]|].
  destruct (IH (fun j Hj => H j ltac:(lia))) as [I1 I2]. pose proof (H i ltac:(lia)) as Hi.
  destruct (closed_call o reqs tr s b Ook (all_sound _ _ Rok) Hrun Hop Hc Hs Hh i Hi) as (c & Ei). destruct (closed_read o reqs tr s b Ook (all_sound _ _ Rok) Hrun Hop Hc Hs Hh i c Ei Hi) as (St & Gb & G).
  destruct (call_framed o c G) as (r & Fr & _). destruct (P i _ r St Hi Fr) as (_ & _ & ->). split; [now apply serve_chunked|]. intros El. rewrite serve_mode; [now apply I2|]. intros sc. rewrite Hl. exact El.
Qed.
Lemma whole_reply i c : nth_error reqs i = Some c -> In i (closers tr) ->
  (exists items, did i tr = map Some items ++ [None] /\ exists x, fine (List.concat items) x /\ right_reply y c x /\ right_word_asgi y c x) /\
  forall keep, In (HClose i keep) tr -> (keep = false <-> leaves y c).
Proof.
  intros Ei Hi. destruct (closed_read o reqs tr s b Ook (all_sound _ _ Rok) Hrun Hop Hc Hs Hh i c Ei Hi) as (St & Gb & Gs). pose proof (nth_good _ _ _ _ Rok Ei) as G. destruct (call_framed o c Gs) as (r & Fr & _).
  destruct mode_ok as (length & Hl & Mo). destruct (Mo i) as [N1 N2].
  { intros j L. apply (ended_closed o reqs tr s b Ook (all_sound _ _ Rok) Hrun Hop Hc Hs Hh). exact (closed_after o reqs tr s b Ook (all_sound _ _ Rok) Hrun Hop Hc Hs Hh i j Hi L). }
  pose proof (proj1 (Forall_forall _ _) Tok c (nth_error_In _ _ Ei)) as T.
  destruct (serve_reply o y c (date i) (ch i) r Aok (Dok i) G T N1 Fr) as (items & Oi & Rx & _ & Rk).
  destruct Hp as (_ & P). destruct (P i _ r St Hi Fr) as (Ed & Ek & _). rewrite Gb in Ed, Ek. split.
  - exists items. split; [now rewrite Ed|]. destruct Rx as (x & Fx & Rr & Wx); [right; destruct length; [left; intros sc _; apply Hl|right; now apply N2]|]. exists x. split; [exact Fx|]. split; [exact Rr|].
    split; [intros (sc & Ts & Wc); specialize (Wx sc Ts); rewrite Wc in Wx; exact Wx|]. intros Nl. destruct T as (sc & Ts). specialize (Wx sc Ts). destruct (wants_close _) eqn:Wc; [exfalso; apply Nl; now exists sc|]. destruct (_ =? 426)%Z; [now right|now left].
  - intros keep He. rewrite (Ek keep He). assert (forall sc, wants (bs "content-length") (y_headers (y_app y sc (body_of c))) = true \/ ch i = None) as N by (intros sc; rewrite Hl; destruct length; [now left|right; now apply N2]).
    split; [intros Hk; destruct T as (sc & Ts); exists sc; split; [exact Ts|]|intros (sc & Ts & Wc)]; rewrite (Rk sc Ts (N sc)) in *; [now destruct (wants_close _)|now rewrite Wc].
Qed.
(** While the connection is open, the application has not asked to close it in any response that was given. *)
Lemma asgi_obeys : Forall (fun c => ~ leaves y c) (firstn (ended b) reqs).
Proof.
  apply Forall_forall. intros c Hc' Bc. apply In_nth_error in Hc' as (i & Ei).
  assert (i < ended b) as Li by (assert (nth_error (firstn (ended b) reqs) i <> None) as X by congruence; apply nth_error_Some in X; rewrite firstn_length in X; lia).
  assert (nth_error reqs i = Some c) as Er. { clear -Ei Li. revert i Ei Li. generalize (ended b) as n. induction reqs as [|z ys IH]; intros [|n] [|i] E L; try lia; try discriminate; cbn [firstn nth_error] in *; [exact E|]. apply (IH n); [exact E|lia]. }
  pose proof (ended_closed o reqs tr s b Ook (all_sound _ _ Rok) Hrun Hop Hc Hs Hh i Li) as Hi. destruct (whole_reply i c Er Hi) as [_ K].
  apply in_flat_map in Hi as (x & Hx & Hi). destruct x; try contradiction. destruct Hi as [->|[]].
  pose proof (run_kept o M (all_ok o reqs (all_sound _ _ Rok)) Ook tr s b Hrun Hop Hc Hh (seemly o reqs tr (all_sound _ _ Rok) Hs) i keep Li Hx) as ->.
  now apply (K true Hx) in Bc.
Qed.
End Run.

Lemma asgi_closed o y reqs date ch tr e s b s' bx :
  opts_ok o -> (0 < o_body o)%Z -> app_ok y -> steady y -> Forall (good_call o) reqs -> Forall (small o) reqs -> Forall (fun c => exists sc, told y c sc) reqs -> (forall i, one_line (date i)) ->
  conn_run o conn_new tr = Some (s, b) -> c_closing s = false -> conn_step o s e = Some (s', bx) -> c_closing s' = true ->
  client_waits o (map msg_of reqs) (tr ++ [e]) -> handlers_ok o (map msg_of reqs) (tr ++ [e]) -> uncut (tr ++ [e]) -> keeps_up o (tr ++ [e]) -> performs_asgi y date ch tr b ->
  let n := ended b in
  bx = [Ended] /\ List.length (starts b) = S n /\
  (exists answers, read_answers (S n) (written b) = Some (answers, []) /\ Forall2 (fun c x => right_reply y c x /\ right_word_asgi y c x) (firstn (S n) reqs) answers) /\
  (e = RunSend true \/ exists c, nth_error reqs n = Some c /\ leaves y c).
Proof.
  intros Oo Ob Ao So Ro Lo To Do Run Op St Cl Hw Hh Hu Hk Hp. cbv zeta. pose proof (all_sound _ _ Ro) as Rs.
  assert (client_waits o (map msg_of reqs) tr) as Hw1 by (intros pre d post s3 b3 Et; apply (Hw pre d (post ++ [e]) s3 b3); rewrite Et, <- app_assoc; reflexivity).
  assert (calm o (map msg_of reqs) (tr ++ [e])) as Hm by (apply counted_calm, Forall_map; eapply Forall_impl; [|exact Rs]; intros c; apply call_counted).
  destruct (prefix_ok o (map msg_of reqs) tr e (waits_ok _ _ _ Hw) Hh (or_intror (conj Hw Hm))) as (Hc1 & Hh1 & _).
  pose proof (whole_reply o y reqs date ch tr s b Oo Ao So Ro To Do Run Op Hc1 (or_intror Hw1) Hh1 Hp) as Wr.
  destruct (closing_step fine (fun c x => right_reply y c x /\ right_word_asgi y c x) o reqs tr e s s' b bx Oo Ob Rs Lo Run Op St Cl Hw Hh Hu Hk (fun i c Ei Hi => proj1 (Wr i c Ei Hi))) as (-> & Hi & _ & Ls & (l & F & B) & c & r & Ei & Sc & Fr & Why).
  split; [reflexivity|]. split; [exact Ls|]. split.
  - exists l. split; [|exact B]. assert (List.length l = S (ended b)) as E by (pose proof (f2_length _ _ _ F) as X; rewrite map_length, seq_length in X; now symmetry).
    assert (written b = List.concat (map (fun i => out i b) (List.seq 0 (S (ended b)))) ++ []) as -> by (rewrite written_out, seq_S, map_app, concat_app; cbn [map List.concat Nat.add]; now rewrite !app_nil_r).
    rewrite <- E at 1. now apply read_all.
  - destruct Why as [->|[Why|Why]]; [now left|exfalso|right].
    + destruct (call_framed o c (good_sound _ _ (nth_good _ _ _ _ Ro Ei))) as (r' & Fr' & _ & _ & _ & _ & Ka & _). rewrite Fr in Fr'. injection Fr' as <-. apply (good_keeps o c _ (nth_good _ _ _ _ Ro Ei)) in Ka. congruence.
    + exists c. split; [exact Ei|]. now apply (proj2 (Wr _ c Ei Hi) false Why).
Qed.
(** The last response says that the connection is closed, the others that it goes on. *)
Lemma words_last (y : asite) n : forall reqs l, Forall2 (fun c x => right_reply y c x /\ right_word_asgi y c x) (firstn (S n) reqs) l -> Forall (fun c => ~ leaves y c) (firstn n reqs) -> n < List.length reqs ->
  exists init last c, l = init ++ [last] /\ List.length init = n /\ Forall says_open init /\ nth_error reqs n = Some c /\ right_word_asgi y c last.
Proof.
  induction n as [|n IH]; intros [|c reqs] l F N L; cbn [List.length] in L; try lia; cbn [firstn] in F, N.
  - inversion_clear F as [|? x ? ? [_ W] F']. inversion_clear F'. exists [], x, c. split; [reflexivity|]. split; [reflexivity|]. split; [constructor|]. now split.
  - inversion_clear F as [|? x ? ? [_ W] F']. inversion_clear N as [|? ? N1 N2]. destruct (IH reqs _ F' N2 ltac:(lia)) as (init & last & c' & -> & Li & Oi & En & Wl). exists (x :: init), last, c'.
    split; [reflexivity|]. split; [cbn [List.length]; now rewrite Li|]. split; [constructor; [now apply W|exact Oi]|]. now split.
Qed.
