(** Proofs about responses of ASGI applications that are cut off (C85). *)
From Verif Require Import PyBytes PyBytesFacts PyInt PyExn M_Parser M_Framing M_Conn M_Response M_Scope M_Asgi M_AsgiSite
  S_Head S_Response S_Calls S_Scope S_Asgi S_Conn S_Site S_AsgiSite S_Told S_Cut S_AsgiCut P_Conn P_Conn2 P_Conn3 P_Conn5 P_Conn6 P_Conn8 P_Conn9 P_Conn10 P_Conn12 P_Conn13 P_Asgi3 P_Site P_Site3 P_Exchange P_AsgiSite P_Keep P_Close P_Cut.

(** ** The client *)
Lemma answers_more n : forall w t l rest, read_answers n w = Some (l, rest) -> read_answers n (w ++ t) = Some (l, rest ++ t).
Proof.
  induction n as [|n IH]; intros w t l rest E; cbn [read_answers] in *; [now injection E as <- <-|]. destruct (read_answer w) as [[x r]|] eqn:E1; [|discriminate]. rewrite (answer_more _ t _ _ E1).
  destruct (read_answers n r) as [[l1 r1]|] eqn:E2; [|discriminate]. rewrite (IH _ t _ _ E2). now injection E as <- <-.
Qed.
Lemma none_read : read_answer [] = None.
Proof. reflexivity. Qed.
Lemma asgi_reads (right : call -> answer -> Prop) cs : forall ws l tl cur, Forall2 fine ws l -> Forall2 right cs l ->
  (cur = [] \/ exists c tl' w, tl = c :: tl' /\ is_prefix cur w /\ forall x r, read_answer w = Some (x, r) -> r = [] /\ right c x) ->
  forall k answers rest, k <= List.length (cs ++ tl) -> read_answers k (List.concat ws ++ cur) = Some (answers, rest) ->
  Forall2 right (firstn k (cs ++ tl)) answers /\ (k <= List.length cs \/ (k = S (List.length cs) /\ cur <> [])).
Proof.
  induction cs as [|c cs IH]; intros ws l tl cur F R Hc k answers rest Lk E; inversion R as [|? p ? l' Rp Rl]; subst.
  - inversion F; subst. cbn [List.concat app] in *. destruct k as [|k]; [cbn [firstn read_answers] in E; assert (answers = []) as -> by congruence; split; [constructor|left; lia]|].
    destruct tl as [|c tl]; [cbn in Lk; lia|]. cbn [read_answers] in E. destruct (read_answer cur) as [[x r]|] eqn:Ex; [|discriminate].
    destruct Hc as [->|(c' & tl' & w & Et & (t & Pw) & Rw)]; [rewrite none_read in Ex; discriminate|]. assert (c' = c /\ tl' = tl) as [-> ->] by (split; congruence). clear Et.
    pose proof (answer_more _ t _ _ Ex) as E2. rewrite Pw in E2. destruct (Rw _ _ E2) as [Er Rx]. apply app_eq_nil in Er as [-> _].
    destruct k as [|k]; [|cbn [read_answers] in E; rewrite none_read in E; discriminate]. cbn [firstn read_answers] in *. assert (answers = [x]) as -> by congruence.
    split; [constructor; [exact Rx|constructor]|right; split; [reflexivity|]]. intros ->. rewrite none_read in Ex. discriminate.
  - inversion F as [|w ? ws' ? Fw Fl]; subst. destruct k as [|k]; [cbn [firstn read_answers] in E; assert (answers = []) as -> by congruence; split; [constructor|left; lia]|].
    cbn [firstn app read_answers List.concat] in *. rewrite <- app_assoc in E. rewrite (Fw _) in E.
    destruct (read_answers k (List.concat ws' ++ cur)) as [[l1 r1]|] eqn:E1; [|discriminate]. assert (answers = p :: l1) as -> by congruence. cbn [List.length app] in Lk.
    destruct (IH ws' l' tl cur Fl Rl Hc k l1 r1 ltac:(lia) E1) as [A B]. split; [constructor; assumption|cbn [List.length]; destruct B as [B|[B1 B2]]; [left; lia|right; split; [lia|exact B2]]].
Qed.

(** ** A response is read as the right one, or not at all *)
Lemma serve_only o y c date ch r : app_ok y -> one_line date -> good_call o c -> (exists sc, told y c sc) -> ch <> Some true ->
  frame_head (m_head (msg_of c)) (blen (m_head (msg_of c)) - 2) = Framed r ->
  let a := asgi_serve date y (m_head (msg_of c)) r (body_of c) ch in
  exists items, r_out (a_rsp a) = map Some items ++ [None] /\ forall x w, read_answer (List.concat items) = Some (x, w) -> w = [] /\ right_reply y c x.
Proof.
  intros Ao Od G T Nc Fr a. destruct (serve_reply o y c date ch r Ao Od G T Nc Fr) as (items & Oi & Rx & _). exists items. split; [exact Oi|].
  assert ((exists x, fine (List.concat items) x /\ right_reply y c x) \/ read_answer (List.concat items) = None) as [(x & Fx & Rr)|X].
  2:{ intros x1 w E. specialize (Fx []). rewrite app_nil_r in Fx. rewrite Fx in E. assert (x1 = x /\ w = []) as [-> ->] by (split; congruence). now split. }
  2:{ intros x w E. rewrite X in E. discriminate. }
  destruct T as (sc & Ts). destruct (call_scope o c y sc r G Fr Ts) as [Es Ew]. assert (forall sc', told y c sc' -> sc' = sc) as Un by (intros sc' T'; destruct (call_scope o c y sc' r G Fr T') as [E' _]; congruence).
  set (x := y_app y sc (body_of c)) in *. destruct (wants (bs "content-length") (y_headers x)) eqn:Wl.
  { left. destruct Rx as (z & Fz & Rz & _); [right; left; intros sc' T'; rewrite (Un sc' T'); exact Wl|]. now exists z. }
  destruct ch as [[|]|]; [easy| |]. 2:{ left. destruct Rx as (z & Fz & Rz & _); [now right; right|]. now exists z. }
  right. destruct Ao as (B1 & B2 & Ap). destruct (call_framed o c (good_sound _ _ G)) as (r' & Fr' & _ & Em & _ & Ev & _). rewrite Fr in Fr'. injection Fr' as <-.
  subst a. unfold asgi_serve in Oi. rewrite Es, Ew in Oi. unfold events_of in Oi. fold x in Oi. destruct (Ap sc (body_of c)) as ((p & Ep & Op) & Nb & F1 & F2 & Cl). fold x in Ep, Nb, F1, F2, Cl.
  set (e := mkEnv _ _ _ _) in Oi.
  destruct (response_main e (y_phrase y) (y_text y) (y_buf y) Od B2 B1 (y_status x) p (y_headers x) (y_more x) (y_last x) (rq_keepalive r) (Some false) true Ep Op F1 F2) as (lines & its & Eo & O1 & (Gl & _ & _ & Gt) & Sh & _ & _ & Ln & _).
  { unfold bodyless in *. unfold e. cbn [e_method]. rewrite Em. destruct G as (_ & _ & _ & Nh & _). intros [H|H]; [contradiction|apply Nb; now right]. }
  { discriminate. }
  rewrite Eo in Oi. rewrite andb_false_r in Sh. destruct Sh as [Te _].
  assert (items = head_of (status_line e (y_status x, p) :: lines) :: its) as ->.
  { clear -Oi. change (Some (head_of (status_line e (y_status x, p) :: lines)) :: map Some its ++ [None]) with (map Some (head_of (status_line e (y_status x, p) :: lines) :: its) ++ [None]) in Oi.
    apply app_inj_tail in Oi as [Oi _]. symmetry. revert Oi. generalize (head_of (status_line e (y_status x, p) :: lines) :: its) as l. intros l. revert items. induction l as [|h l IH]; intros [|h' l'] E; try discriminate; [reflexivity|]. cbn [map] in E. f_equal; [congruence|]. apply IH. congruence. }
  assert (~ In [] lines) as Ne.
  { intros I. pose proof (proj1 (Ln [] [] (not_in_own [] eq_refl)) (conj I eq_refl)) as J. unfold app_lines in J. apply in_map_iff in J as ((n & v) & J & _). cbn [fst snd] in J. apply app_eq_nil in J as [_ J]. discriminate. }
  assert (status_line e (y_status x, p) <> []) as N0 by discriminate.
  cbn [List.concat]. unfold read_answer. rewrite read_head_of; [|constructor; assumption|intros [H|H]; [now apply N0|contradiction]|].
  2:{ pose proof (head_of_length (status_line e (y_status x, p) :: lines)). rewrite app_length. lia. }
  assert (existsb (fun l => beqb (field_name l) (bs "transfer-encoding") && beqb l (bs "Transfer-Encoding: chunked")) lines = false) as ->.
  { destruct (existsb _ lines) eqn:E; [|reflexivity]. apply existsb_exists in E as (l & I & E). apply andb_prop in E as [E _]. apply beqb_eq in E. now destruct (Te l I). }
  assert (filter (fun l => beqb (field_name l) (bs "content-length")) lines = []) as ->; [|reflexivity].
  destruct (filter _ lines) as [|l ls] eqn:E; [reflexivity|exfalso]. assert (In l (filter (fun l => beqb (field_name l) (bs "content-length")) lines)) as I by (rewrite E; now left). apply filter_In in I as [I B]. apply beqb_eq in B.
  pose proof (proj1 (Ln (bs "content-length") l (not_in_own (bs "content-length") eq_refl)) (conj I B)) as J. unfold app_lines in J. apply in_map_iff in J as (h & _ & J). apply filter_In in J as [J1 J2].
  assert (wants (bs "content-length") (y_headers x) = true) as Wt; [|congruence]. unfold wants. apply existsb_exists. now exists h.
Qed.

(** ** The exchange *)
Section Run.
Context (o : copts) (y : asite) (reqs : list call) (date : nat -> bytes) (ch : nat -> option bool) (tr : list cev) (s : conn) (b : list obs).
Let M := map msg_of reqs.
Hypothesis (Ook : opts_ok o) (Aok : app_ok y) (Rok : Forall (good_call o) reqs) (Tok : Forall (fun c => exists sc, told y c sc) reqs) (Dok : forall i, one_line (date i)).
Hypothesis (Hrun : conn_run o conn_new tr = Some (s, b)) (Hop : c_closing s = false).
Hypothesis (Hc : client_ok o M tr) (Hs : settled o tr \/ client_waits o M tr) (Hh : handlers_ok o M tr) (Hp : performs_asgi y date ch tr b) (Hb : begins_asgi y date ch reqs tr b).

Lemma part_reply i c : nth_error reqs i = Some c -> In (Started i (m_head (msg_of c))) b -> (forall j, j < i -> In j (closers tr)) ->
  exists items, is_prefix (did i tr) (map Some items ++ [None]) /\ forall x w, read_answer (List.concat items) = Some (x, w) -> w = [] /\ right_reply y c x.
Proof.
  intros Ei St Bf. pose proof (nth_good _ _ _ _ Rok Ei) as G. destruct (call_framed o c (good_sound _ _ G)) as (r & Fr & _).
  pose proof (ch_ok o y reqs date ch tr s b Ook Rok Dok Hrun Hop Hc Hs Hh Hp i Bf) as Nc.
  destruct (serve_only o y c (date i) (ch i) r Aok (Dok i) G (proj1 (Forall_forall _ _) Tok c (nth_error_In _ _ Ei)) Nc Fr) as (items & Oi & Rx). exists items. split; [|exact Rx].
  destruct (in_dec Nat.eq_dec i (closers tr)) as [Hi|Hi]; [|rewrite <- Oi; exact (Hb i c r Ei St Hi Fr)].
  destruct (closed_read o reqs tr s b Ook (all_sound _ _ Rok) Hrun Hop Hc Hs Hh i c Ei Hi) as (_ & Gb & _). destruct Hp as (_ & P). destruct (P i _ r St Hi Fr) as (Ed & _). rewrite Gb, Oi in Ed. rewrite Ed. exists []. apply app_nil_r.
Qed.
Lemma asgi_cut k answers rest : k <= List.length reqs -> read_answers k (written b) = Some (answers, rest) -> Forall2 (right_reply y) (firstn k reqs) answers /\ k <= List.length (starts b).
Proof.
  intros Lk E. pose proof (all_sound _ _ Rok) as Rs.
  assert (forall i c, nth_error reqs i = Some c -> In i (closers tr) -> exists items, did i tr = map Some items ++ [None] /\ (i < ended b -> exists x, fine (List.concat items) x /\ right_reply y c x)) as Wp.
  { intros i c Ei Hi. destruct (closed_reply o y reqs date ch tr s b Ook Aok Rok Tok Dok Hrun Hop Hc Hs Hh Hp i c Ei Hi) as (items & Dd & X). exists items. split; [exact Dd|]. intros L. destruct (X L) as (x & F & R & _). now exists x. }
  pose proof (is_tidy fine (right_reply y) o reqs tr s b Ook Rs Hrun Hop Hc Hs Hh Wp) as Td.
  destruct (answers_upto fine (right_reply y) o reqs tr s b Ook Rs Hrun Hop Hc Hs Hh Wp (ended b) (le_n _)) as (l & F & B).
  pose proof (run_cut o M (all_ok o reqs Rs) Ook (none_expects o reqs Rs) tr s b Hrun Hop Hc Hh (seemly o reqs tr Rs Hs) Td) as Cu.
  pose proof (run_inv o M (all_ok o reqs Rs) Ook tr s b Hrun Hop Hc Hh (seemly o reqs tr Rs Hs)) as (k0 & n & C & _).
  assert (List.length (starts b) = k0) as Ls. { rewrite (cm_starts _ _ _ _ _ _ C), combine_length, seq_length, map_length. pose proof (cm_k _ _ _ _ _ _ C). lia. }
  pose proof (cm_k _ _ _ _ _ _ C) as Lm. unfold M in Lm. rewrite map_length in Lm.
  assert (Forall2 (right_reply y) (firstn k reqs) answers /\ (k <= ended b \/ (k = S (ended b) /\ out (ended b) b <> []))) as [A K].
  { assert (List.length (firstn (ended b) reqs) = ended b) as Le by (rewrite firstn_length; destruct Cu as [[_ X]|[X _]]; lia).
    rewrite written_out in E. pose proof (fun Hcur => asgi_reads (right_reply y) _ _ l (skipn (ended b) reqs) (out (ended b) b) F B Hcur k answers rest) as X. rewrite firstn_skipn, Le in X. apply X; [|exact Lk|exact E]. clear X.
    destruct Cu as [[-> _]|[P1 P2]]; [now left|right].
    destruct (nth_error reqs (ended b)) as [c|] eqn:Ei; [|apply nth_error_None in Ei; lia].
    assert (nth_error M (ended b) = Some (msg_of c)) as Em by (unfold M; rewrite nth_error_map, Ei; reflexivity).
    assert (In (Started (ended b) (m_head (msg_of c))) b) as St by (apply (k_started M b k0 _ _ (cm_starts _ _ _ _ _ _ C)); [lia|exact Em]).
    destruct (part_reply _ c Ei St (fun j L => ended_closed o reqs tr s b Ook Rs Hrun Hop Hc Hs Hh j L)) as (items & Pd & Rx). exists c, (skipn (S (ended b)) reqs), (List.concat items). split; [|split; [|exact Rx]].
    - clear -Ei. revert Ei. generalize (ended b) as n. induction reqs as [|z ys IH]; intros [|n] E; try discriminate; cbn [skipn nth_error] in *; [congruence|now apply IH].
    - unfold response in P2. rewrite Em, (call_expects o c (good_sound _ _ (nth_good _ _ _ _ Rok Ei))), answer_puts, puts_did in P2. destruct (prefix_somes _ _ Pd) as (t & Et). destruct P2 as (t2 & Et2). exists (t2 ++ t). now rewrite app_assoc, Et2. }
  split; [exact A|]. destruct Cu as [[X1 X2]|[X1 _]]; destruct K as [K|[K1 K2]]; try lia. contradiction.
Qed.
End Run.
