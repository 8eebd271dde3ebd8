(** Proofs about responses that are cut off (C85). *)
From Verif Require Import PyBytes PyBytesFacts PyInt PyExn M_Parser M_Framing M_Conn M_Response M_Server M_Stack M_Fault
  S_Head S_Route S_Response S_Calls S_Chunked S_Conn S_Site S_AsgiSite S_Stack S_Bare S_Fault S_Cut P_Parser2 P_Conn P_Conn2 P_Conn3 P_Conn5 P_Conn6 P_Conn8 P_Conn9 P_Conn10 P_Conn12 P_Conn13 P_Site P_Site2 P_Site3 P_Site4 P_Exchange P_AsgiSite P_Bare P_Close P_Fault.

(** ** A client that has read a response reads the same when more comes *)
Lemma firstn_more {A} n (l t : list A) : n <= List.length l -> firstn n (l ++ t) = firstn n l.
Proof. intros L. rewrite firstn_app. replace (n - List.length l) with 0 by lia. now rewrite app_nil_r. Qed.
Lemma skipn_more {A} n (l t : list A) : n <= List.length l -> skipn n (l ++ t) = skipn n l ++ t.
Proof. intros L. rewrite skipn_app. now replace (n - List.length l) with 0 by lia. Qed.
Lemma find_len w i : find CRLF w = Some i -> i + 2 <= List.length w.
Proof. intros F. apply find_some in F as [F _]. exact F. Qed.
Lemma head_more n : forall n' w t ls rest, n <= n' -> read_head n w = Some (ls, rest) -> read_head n' (w ++ t) = Some (ls, rest ++ t).
Proof.
  induction n as [|n IH]; intros [|n'] w t ls rest L E; try discriminate; [lia|]. cbn [read_head] in *. destruct (find CRLF w) as [i|] eqn:F; [|discriminate]. pose proof (find_len _ _ F) as Le. rewrite (find_app_ext _ _ t _ F).
  destruct i as [|i].
  - assert (ls = [] /\ rest = skipn 2 w) as [-> ->] by (split; congruence). now rewrite skipn_more by lia.
  - destruct (read_head n (skipn (S i + 2) w)) as [[ls1 r1]|] eqn:E1; [|discriminate]. assert (ls = firstn (S i) w :: ls1 /\ rest = r1) as [-> ->] by (split; congruence).
    rewrite skipn_more by lia. rewrite (IH n' _ t _ _ ltac:(lia) E1). now rewrite firstn_more by lia.
Qed.
Lemma chunks_more n : forall n' w t d rest, n <= n' -> read_chunks n w = Some (d, rest) -> read_chunks n' (w ++ t) = Some (d, rest ++ t).
Proof.
  induction n as [|n IH]; intros [|n'] w t d rest L E; try discriminate; [lia|]. cbn [read_chunks] in *. destruct (find CRLF w) as [i|] eqn:F; [|discriminate]. pose proof (find_len _ _ F) as Le. rewrite (find_app_ext _ _ t _ F).
  rewrite firstn_more, skipn_more by lia. cbv zeta in *. set (digits := match find _ _ with Some j => _ | None => _ end) in *. set (w2 := skipn (i + 2) w) in *. destruct digits as [|c ds]; [discriminate|].
  destruct (hex_value 0 (c :: ds)) as [size|]; [|discriminate]. destruct (size =? 0)%N.
  - destruct (startswith CRLF w2) eqn:Sw; [|discriminate]. rewrite (startswith_app_ext _ _ t Sw). apply startswith_spec in Sw as (q & Eq). assert (d = [] /\ rest = skipn 2 w2) as [-> ->] by (split; congruence).
    rewrite skipn_more by (rewrite Eq, app_length; cbn; lia). reflexivity.
  - destruct (Nat.leb_spec (N.to_nat size) (List.length w2)) as [Lk|]; [|discriminate]. cbn [andb] in E. destruct (startswith CRLF (skipn (N.to_nat size) w2)) eqn:Sw; [|discriminate].
    assert (N.to_nat size + 2 <= List.length w2) as L2. { apply startswith_spec in Sw as (q & Eq). assert (2 <= List.length (skipn (N.to_nat size) w2)) as X by (rewrite Eq, app_length; change (List.length CRLF) with 2; lia). rewrite skipn_length in X. lia. }
    destruct (Nat.leb_spec (N.to_nat size) (List.length (w2 ++ t))) as [_|B]; [|rewrite app_length in B; lia]. rewrite skipn_more by lia. rewrite (startswith_app_ext _ _ t Sw). cbn [andb].
    destruct (read_chunks n (skipn (N.to_nat size + 2) w2)) as [[d1 r1]|] eqn:E1; [|discriminate]. assert (d = firstn (N.to_nat size) w2 ++ d1 /\ rest = r1) as [-> ->] by (split; congruence).
    rewrite skipn_more by lia. rewrite (IH n' _ t _ _ ltac:(lia) E1). now rewrite firstn_more by lia.
Qed.
Lemma answer_more w t x rest : read_answer w = Some (x, rest) -> read_answer (w ++ t) = Some (x, rest ++ t).
Proof.
  unfold read_answer. intros E. destruct (read_head (S (List.length w)) w) as [[[|first lines] r]|] eqn:Eh; try discriminate. rewrite (head_more (S (List.length w)) (S (List.length (w ++ t))) w t _ _ ltac:(rewrite app_length; lia) Eh).
  destruct (existsb _ lines).
  - destruct (read_chunks (S (List.length r)) r) as [[d r1]|] eqn:Ec; [|discriminate]. rewrite (chunks_more (S (List.length r)) (S (List.length (r ++ t))) r t _ _ ltac:(rewrite app_length; lia) Ec). now injection E as <- <-.
  - destruct (map field_text _) as [|y ys]; [discriminate|]. destruct (if forallb (beqb y) ys then number y else None) as [n|]; [|discriminate]. destruct (Nat.leb_spec n (List.length r)) as [L|]; [|discriminate].
    destruct (Nat.leb_spec n (List.length (r ++ t))) as [_|B]; [|rewrite app_length in B; lia]. rewrite firstn_more, skipn_more by lia. now injection E as <- <-.
Qed.
Lemma answer_to_more m w t x rest : read_answer_to m w = Some (x, rest) -> read_answer_to m (w ++ t) = Some (x, rest ++ t).
Proof.
  unfold read_answer_to. intros E. destruct (read_head (S (List.length w)) w) as [[[|first lines] r]|] eqn:Eh; try discriminate. rewrite (head_more (S (List.length w)) (S (List.length (w ++ t))) w t _ _ ltac:(rewrite app_length; lia) Eh).
  destruct (_ || _); [now injection E as <- <-|now apply answer_more].
Qed.
Lemma answers_to_more ms : forall w t l rest, read_answers_to ms w = Some (l, rest) -> read_answers_to ms (w ++ t) = Some (l, rest ++ t).
Proof.
  induction ms as [|m ms IH]; intros w t l rest E; cbn [read_answers_to] in *; [now injection E as <- <-|]. destruct (read_answer_to m w) as [[x r]|] eqn:E1; [|discriminate]. rewrite (answer_to_more _ _ t _ _ E1).
  destruct (read_answers_to ms r) as [[l1 r1]|] eqn:E2; [|discriminate]. rewrite (IH _ t _ _ E2). now injection E as <- <-.
Qed.
Lemma nothing_read m : read_answer_to m [] = None.
Proof. reflexivity. Qed.
(** A beginning of a response is read as this response only if it is all of it. *)
Lemma whole_only m w x cur y r : fine_to m w x -> is_prefix cur w -> read_answer_to m cur = Some (y, r) -> y = x /\ r = [] /\ cur = w.
Proof.
  intros F (t & <-) E. pose proof (answer_to_more _ _ t _ _ E) as E2. pose proof (F []) as F0. rewrite app_nil_r in F0. rewrite E2 in F0. assert (y = x /\ r ++ t = []) as [-> X] by (split; congruence).
  apply app_eq_nil in X as [-> ->]. now rewrite app_nil_r.
Qed.
Section Reads.
Context (right : S_Site.call -> bytes * answer -> Prop) (Hm : forall c p, right c p -> fst p = method_of c).
Lemma cut_reads cs : forall ws l tl cur, Forall2 fine_pair ws l -> Forall2 right cs l ->
  (cur = [] \/ exists c tl' w p, tl = c :: tl' /\ is_prefix cur w /\ fine_pair w p /\ right c p) ->
  forall k answers rest, k <= List.length (cs ++ tl) -> read_answers_to (map method_of (firstn k (cs ++ tl))) (List.concat ws ++ cur) = Some (answers, rest) ->
  Forall2 (fun c y => right c (method_of c, y)) (firstn k (cs ++ tl)) answers /\ (k <= List.length cs \/ (k = S (List.length cs) /\ cur <> [])).
Proof.
  induction cs as [|c cs IH]; intros ws l tl cur F R Hc k answers rest Lk E; inversion R as [|? p ? l' Rp Rl]; subst.
  - inversion F; subst. cbn [List.concat app] in *. destruct k as [|k]; [cbn [firstn map read_answers_to] in E; assert (answers = []) as -> by congruence; split; [constructor|left; lia]|].
    destruct tl as [|c tl]; [cbn in Lk; lia|]. cbn [firstn map read_answers_to] in E. destruct (read_answer_to (method_of c) cur) as [[y r]|] eqn:Ey; [|discriminate].
    destruct Hc as [->|(c' & tl' & w & p & Et & Pw & Fw & Rw)]; [rewrite nothing_read in Ey; discriminate|]. assert (c' = c /\ tl' = tl) as [-> ->] by (split; congruence). clear Et. pose proof (Hm _ _ Rw) as Ep. unfold fine_pair in Fw. rewrite Ep in Fw.
    destruct (whole_only _ _ _ _ _ _ Fw Pw Ey) as (-> & -> & ->). destruct p as [m y]. cbn [fst snd] in *. subst m.
    destruct k as [|k]; [|destruct tl as [|c2 tl]; [cbn in Lk; lia|]; cbn [firstn map read_answers_to] in E; rewrite nothing_read in E; discriminate].
    cbn [firstn map read_answers_to] in *. assert (answers = [y]) as -> by congruence. split; [constructor; [exact Rw|constructor]|right; split; [reflexivity|]]. intros ->. rewrite nothing_read in Ey. discriminate.
  - inversion F as [|w ? ws' ? Fw Fl]; subst. destruct k as [|k]; [cbn [firstn map read_answers_to] in E; assert (answers = []) as -> by congruence; split; [constructor|left; lia]|].
    cbn [firstn app map read_answers_to List.concat] in *. rewrite <- app_assoc in E. pose proof (Hm _ _ Rp) as Ep. unfold fine_pair in Fw. rewrite Ep in Fw. rewrite (Fw _) in E.
    destruct (read_answers_to _ (List.concat ws' ++ cur)) as [[l1 r1]|] eqn:E1; [|discriminate]. assert (answers = snd p :: l1) as -> by congruence. cbn [List.length app] in Lk.
    destruct (IH ws' l' tl cur Fl Rl Hc k l1 r1 ltac:(lia) E1) as [A B]. split; [|cbn [List.length]; destruct B as [B|[B1 B2]]; [left; lia|right; split; [lia|exact B2]]]. constructor; [|exact A]. destruct p as [m y]. cbn [fst snd] in *. now subst m.
Qed.
End Reads.

(** ** The exchange *)
Lemma prefix_none items (l : list (option bytes)) : is_prefix l (map Some items ++ [None]) -> In None l -> l = map Some items ++ [None].
Proof.
  intros (t & E) H. revert items E. induction l as [|x l IH]; intros items E; [destruct H|]. destruct items as [|y ys]; cbn [map app] in *.
  - injection E as -> X. apply app_eq_nil in X as [-> _]. reflexivity.
  - injection E as -> X. destruct H as [H|H]; [discriminate|]. f_equal. now apply IH.
Qed.
Lemma prefix_somes items (l : list (option bytes)) : is_prefix l (map Some items ++ [None]) -> is_prefix (somes l) (List.concat items).
Proof. intros (t & E). exists (somes t). rewrite <- (somes_items items), <- E. unfold somes. now rewrite map_app, concat_app. Qed.
Lemma closers_none i tr : In i (closers tr) -> In None (did i tr).
Proof. apply closers_did. Qed.

Section Run.
Context (o : copts) (fa : faulty) (paths : list bytes) (reqs : list S_Site.call) (date : nat -> bytes) (tr : list cev) (s : conn) (b : list obs).
Let M := map msg_of reqs.
Hypothesis (Ook : opts_ok o) (Aok : soft_app (f_app fa) paths) (Fok : sound_faults fa) (Rok : Forall (sound_call o) reqs) (Dok : forall i, one_line (date i)).
Hypothesis (Hrun : conn_run o conn_new tr = Some (s, b)) (Hop : c_closing s = false).
Hypothesis (Hc : client_ok o M tr) (Hs : S_Conn.settled o tr \/ client_waits o M tr) (Hh : handlers_ok o M tr) (Hb : begins_faulty fa date reqs tr b).

Lemma part_page i c : nth_error reqs i = Some c -> In (Started i (m_head (msg_of c))) b -> exists items, is_prefix (did i tr) (map Some items ++ [None]) /\ exists x, fine_pair (List.concat items) x /\ reply_pair fa paths c x.
Proof.
  intros Ei St. assert (sound_call o c) as G by (rewrite Forall_forall in Rok; apply Rok; now apply nth_error_In in Ei).
  destruct (fault_any o fa paths c (date i) Aok Fok G (Dok i)) as (r & z & w & x & Fr & Ez & (items & Oi & Ew) & Rd & Ra & _).
  exists items. split; [|exists (method_of c, x); split; [rewrite Ew; exact Rd|split; [reflexivity|exact Ra]]]. rewrite <- Oi, <- Ez. exact (Hb i c r Ei St Fr).
Qed.
Lemma whole_page i c : nth_error reqs i = Some c -> In i (closers tr) -> exists items, did i tr = map Some items ++ [None] /\ (i < ended b -> exists x, fine_pair (List.concat items) x /\ reply_pair fa paths c x).
Proof.
  intros Ei Hi. destruct (closed_read o reqs tr s b Ook Rok Hrun Hop Hc Hs Hh i c Ei Hi) as (St & _ & _). destruct (part_page i c Ei St) as (items & P & X). exists items. split; [|intros _; exact X]. apply prefix_none; [exact P|now apply closers_none].
Qed.
Lemma cut_exchange k answers rest : k <= List.length reqs -> read_answers_to (map method_of (firstn k reqs)) (written b) = Some (answers, rest) ->
  Forall2 (right_reply fa paths) (firstn k reqs) answers /\ k <= List.length (starts b).
Proof.
  intros Lk E. pose proof (is_tidy fine_pair (reply_pair fa paths) o reqs tr s b Ook Rok Hrun Hop Hc Hs Hh whole_page) as Td.
  destruct (answers_upto fine_pair (reply_pair fa paths) o reqs tr s b Ook Rok Hrun Hop Hc Hs Hh whole_page (ended b) (le_n _)) as (l & F & B).
  pose proof (run_cut o M (all_ok o reqs Rok) Ook (none_expects o reqs Rok) tr s b Hrun Hop Hc Hh (seemly o reqs tr Rok Hs) Td) as Cu.
  pose proof (run_inv o M (all_ok o reqs Rok) Ook tr s b Hrun Hop Hc Hh (seemly o reqs tr Rok Hs)) as (k0 & n & C & _).
  assert (List.length (starts b) = k0) as Ls. { rewrite (cm_starts _ _ _ _ _ _ C), combine_length, seq_length, map_length. pose proof (cm_k _ _ _ _ _ _ C). lia. }
  pose proof (cm_k _ _ _ _ _ _ C) as Lm. unfold M in Lm. rewrite map_length in Lm.
  assert (Forall2 (fun c y => reply_pair fa paths c (method_of c, y)) (firstn k reqs) answers /\ (k <= ended b \/ (k = S (ended b) /\ out (ended b) b <> []))) as [A K].
  { assert (List.length (firstn (ended b) reqs) = ended b) as Le by (rewrite firstn_length; destruct Cu as [[_ X]|[X _]]; lia).
    rewrite written_out in E. pose proof (fun Hcur => cut_reads (reply_pair fa paths) (fun c p H => proj1 H) _ _ l (skipn (ended b) reqs) (out (ended b) b) F B Hcur k answers rest) as X. rewrite firstn_skipn, Le in X. apply X; [|exact Lk|exact E]. clear X.
    destruct Cu as [[-> _]|[P1 P2]]; [now left|right].
    destruct (nth_error reqs (ended b)) as [c|] eqn:Ei; [|apply nth_error_None in Ei; lia].
    assert (nth_error M (ended b) = Some (msg_of c)) as Em by (unfold M; rewrite nth_error_map, Ei; reflexivity).
    assert (In (Started (ended b) (m_head (msg_of c))) b) as St by (apply (k_started M b k0 _ _ (cm_starts _ _ _ _ _ _ C)); [lia|exact Em]).
    assert (sound_call o c) as G by (rewrite Forall_forall in Rok; apply Rok; now apply nth_error_In in Ei).
    destruct (part_page _ c Ei St) as (items & Pd & x & Fx & Rx). exists c, (skipn (S (ended b)) reqs), (List.concat items), x. split; [|split; [|now split]].
    - clear -Ei. revert Ei. generalize (ended b) as n. induction reqs as [|y ys IH]; intros [|n] E; try discriminate; cbn [skipn nth_error] in *; [congruence|now apply IH].
    - unfold response in P2. rewrite Em, (call_expects o c G), answer_puts, puts_did in P2. destruct (prefix_somes _ _ Pd) as (t & Et). destruct P2 as (t2 & Et2). exists (t2 ++ t). now rewrite app_assoc, Et2. }
  split; [clear -A; induction A as [|c y cs ys [_ H] A IH]; constructor; assumption|].
  destruct Cu as [[X1 X2]|[X1 _]]; destruct K as [K|[K1 K2]]; try lia. contradiction.
Qed.
End Run.
