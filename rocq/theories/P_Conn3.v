From Verif Require Import PyBytes PyBytesFacts PyInt PyExn M_Parser M_Framing M_Conn S_Conn P_Conn P_Conn2.
From Coq Require Import ZifyBool ZifyNat ZifyN.

Definition cf (s : conn) : nat := match c_wreq s with Some n => n | None => match c_wkeep s with Some n => n | None => 0 end end.
Definition waiters_ok (s : conn) : Prop := ((c_wreq s <> None /\ c_wkeep s = None) \/ (c_wreq s = None /\ c_wkeep s <> None)) /\ cf s < List.length (c_futs s).
Definition rep (k : nat) : list bool := List.concat (repeat [true; false] k).
Definition nones (l : list (option bytes)) : nat := List.length (filter (fun x => match x with None => true | _ => false end) l).

Section Inv.
Context (o : copts) (M : list msg).

Definition req_ok (i : nat) (r : creq) : Prop := exists m, nth_error M i = Some m /\ q_head r = m_head m /\ q_upg r = false /\ parsed m = Some (q_info r) /\
  hmem k_content_length (rq_headers (q_info r)) = counted m /\ has_body (q_info r) = m_has m /\ (counted m = true -> m_has m = true /\ rq_content_length (q_info r) = blen (m_body m)) /\ (m_has m = false -> m_body m = []).
Definition bound (rec : bytes) (b : list obs) : Prop :=
  exists j, is_prefix rec (upto_msg M j) /\ forall i m, ended b <= i -> S i < j -> nth_error M i = Some m -> m_has m = false.
(** Requests before the k-th: their bodies have been read. *)
Definition olds (k : nat) (b : list obs) : Prop := forall i m, i < k -> nth_error M i = Some m -> m_has m = true -> read_all i m b.

Record common (nc : list nat) (s : conn) (b : list obs) (k n : nat) : Prop := {
  cm_closing : c_closing s = false; cm_lost : c_lost s = false; cm_sending : c_sending s = true; cm_waiters : waiters_ok s;
  cm_n : List.length (c_reqs s) = n; cm_cur : c_cur s = match n with O => None | S n' => Some n' end;
  cm_k : k <= List.length M; cm_starts : starts b = combine (seq 0 k) (map m_head M);
  cm_reqs : forall i r, nth_error (c_reqs s) i = Some r -> req_ok i r /\ (q_eof r = true <-> In (Got i None) b) /\ (q_live r = true -> i < k);
  cm_got : forall i m, nth_error M i = Some m -> is_prefix (got i b) (m_body m) /\ (In (Got i None) b -> got i b = m_body m);
  cm_new : forall i, n <= i -> got i b = [] /\ ~ In (Got i None) b;
  cm_closers : forall i, In i nc -> i < k /\ (forall m, nth_error M i = Some m -> m_has m = true -> read_all i m b);
  cm_nodup : NoDup nc
}.

(** What has been received of the current request, and where it is. *)
Definition body_inv (i : nat) (mk : bool) (s : conn) (b : list obs) (rest : bytes) (len : Z) (l : list rcv) (rec : bytes) : Prop :=
  exists m r ds, nth_error M i = Some m /\ nth_error (c_reqs s) i = Some r /\
    c_q0 s = map Some ds ++ (if mk then [None] else []) /\
    rec = upto_msg M i ++ m_head m ++ got i b ++ List.concat ds ++ rest ++ pend l /\
    (0 <= q_size r /\ 0 <= len /\ q_size r + len + lens l = blen (got i b ++ List.concat ds ++ rest ++ pend l))%Z /\
    (if m_has m then
       q_used r = blen (got i b) /\ (mk = true -> counted m = true) /\ Forall (fun d => d <> []) ds /\
       (mk = true \/ q_eof r = true -> got i b ++ List.concat ds = m_body m /\ len = 0%Z /\ l = []) /\ (q_eof r = true -> ds = [] /\ mk = false)
     else got i b = [] /\ mk = false /\ (~ In (Got i (Some [])) b -> exists ds1, ds = [] :: ds1)).

Definition wr (s : conn) (a : nat) (l : list rcv) : Prop := c_wrecv s = match l with [] => None | _ => Some (WTask (a + List.length l - 1)) end.
Inductive phase (nc : nat) (s : conn) (b : list obs) (k : nat) (rec : bytes) : Prop :=
| P0 bb h a : c_hb s = Some bb -> find (CRLF ++ CRLF) bb = None -> c_hrs s = repeat HOver h -> c_rcv s = repeat ROver a -> c_wrecv s = None -> c_q0 s = [] ->
    List.length (c_reqs s) = k -> marks b = rep k -> nones (c_q1 s) + k = nc -> rec = upto_msg M k ++ bb -> nth (cf s) (c_futs s) false = false -> olds k b -> phase nc s b k rec
| P1 m rest h a l : c_hb s = None -> nth_error M k = Some m -> c_hrs s = repeat HOver h ++ [HStart (m_head m ++ rest) (blen (m_head m) - 2)] ->
    c_rcv s = repeat ROver a ++ l -> waits (WFut (cf s)) a l -> wr s a l -> c_q0 s = [] ->
    List.length (c_reqs s) = k -> marks b = rep k -> nones (c_q1 s) + k = nc -> rec = upto_msg M k ++ m_head m ++ rest ++ pend l -> nth (cf s) (c_futs s) false = false -> olds k b -> phase nc s b k rec
| P2 rest len h a l : c_hb s = None -> c_hrs s = repeat HOver h ++ [HMore k rest len] ->
    c_rcv s = repeat ROver a ++ l -> waits (WFut (cf s)) a l -> wr s a l ->
    List.length (c_reqs s) = S k -> marks b = rep k -> nones (c_q1 s) + k = nc -> nth (cf s) (c_futs s) false = false -> olds k b ->
    got k b = [] -> ~ In (Got k None) b -> body_inv k false s b rest len l rec -> phase nc s b k rec
| P3 k' h a l mk : k = S k' -> c_hb s = None -> c_hrs s = repeat HOver h ->
    c_rcv s = repeat ROver a ++ l ->
    ((l = [] /\ (c_wrecv s = None \/ 0 < a /\ c_wrecv s = Some (WTask (a - 1)))) \/
     (l <> [] /\ c_wrecv s = Some (WTask (a + List.length l - 1)))) ->
    (waits (WFut (cf s)) a l \/ (0 < a /\ waits (WTask (a - 1)) a l) \/ exists rest len l', l = RPut rest len :: l' /\ (0 < len)%Z /\ waits (WTask a) (S a) l') ->
    List.length (c_reqs s) = k -> marks b = rep k' ++ [true] -> nc <= nones (c_q1 s) + k' ->
    (forall r, nth_error (c_reqs s) k' = Some r -> q_keep r = true -> nc = nones (c_q1 s) + k') ->
    nth (cf s) (c_futs s) false = true -> olds k' b -> body_inv k' mk s b [] 0 l rec -> phase nc s b k rec.

Lemma rep_S k : rep (S k) = rep k ++ [true; false].
Proof. unfold rep. induction k as [|k IH]; [reflexivity|]. cbn [repeat List.concat app] in *. now rewrite IH. Qed.
Lemma ended_marks b : ended b = List.length (filter negb (marks b)).
Proof. unfold ended, marks. induction b as [|x b IH]; [reflexivity|]. destruct x; cbn in *; try exact IH; now rewrite IH. Qed.
Lemma rep_ended k : List.length (filter negb (rep k)) = k.
Proof. induction k as [|k IH]; [reflexivity|]. rewrite rep_S, filter_app, app_length, IH. cbn. lia. Qed.
Lemma ended_rep b k : marks b = rep k -> ended b = k.
Proof. intros E. now rewrite ended_marks, E, rep_ended. Qed.
Lemma ended_rep1 b k : marks b = rep k ++ [true] -> ended b = k.
Proof. intros E. rewrite ended_marks, E, filter_app, app_length, rep_ended. cbn. lia. Qed.

Lemma upto_ge j k : List.length M <= k -> upto_msg M k = upto_msg M (List.length M) /\ is_prefix (upto_msg M j) (upto_msg M k).
Proof.
  intros L. assert (upto_msg M k = upto_msg M (List.length M)) as E by (unfold upto_msg; now rewrite !firstn_all2 by lia). split; [exact E|]. rewrite E. destruct (Nat.le_gt_cases j (List.length M)) as [H|H]; [now apply upto_msg_mono|].
  unfold upto_msg. rewrite !firstn_all2 by lia. apply prefix_refl.
Qed.
(** Bytes beyond the first k requests belong to the next one. *)
Lemma next_msg k x j : x <> [] -> is_prefix (upto_msg M k ++ x) (upto_msg M j) -> k < j /\ exists m, nth_error M k = Some m /\ exists t, is_prefix x (wire m ++ t) /\ upto_msg M j = upto_msg M k ++ wire m ++ t.
Proof.
  intros N P. pose proof (prefix_length _ _ P) as L. rewrite app_length in L. assert (0 < List.length x) as Lx by (destruct x; [easy|cbn; lia]).
  assert (k < j) as Lj. { destruct (Nat.le_gt_cases j k) as [H|H]; [|exact H]. pose proof (prefix_length _ _ (upto_msg_mono M j k H)). lia. }
  split; [exact Lj|]. destruct (nth_error M k) as [m|] eqn:E.
  - exists m. split; [reflexivity|]. destruct (upto_msg_mono M (S k) j Lj) as [t Et]. rewrite (upto_msg_S M k m E), <- app_assoc in Et. exists t. split; [|now symmetry]. rewrite <- Et in P. now apply prefix_cancel in P.
  - apply nth_error_None in E. destruct (upto_ge j k E) as [_ H]. pose proof (prefix_length _ _ H). lia.
Qed.
Lemma head_of_prefix m bb j k p : msg_ok o m -> nth_error M k = Some m -> is_prefix (upto_msg M k ++ bb) (upto_msg M j) -> find (CRLF ++ CRLF) bb = Some p ->
  exists rest, bb = m_head m ++ rest /\ Z.of_nat p = (blen (m_head m) - 4)%Z /\ (Z.of_nat p + 2 <= o_head o)%Z.
Proof.
  intros (p' & r & F & L & Lo & _) E P Fb. assert (bb <> []) as N by (intros ->; discriminate). destruct (next_msg k bb j N P) as (_ & m' & E' & t & Pw & _). rewrite E in E'. injection E' as <-. unfold wire in Pw. rewrite <- app_assoc in Pw.
  destruct (Nat.le_gt_cases (List.length (m_head m)) (List.length bb)) as [H|H].
  - destruct (prefix_comparable (m_head m) bb _ (prefix_app _ _) Pw H) as [rest <-]. exists rest. split; [reflexivity|]. rewrite (find_app_ext _ _ rest p' F) in Fb. injection Fb as <-. unfold blen. lia.
  - destruct (prefix_comparable bb (m_head m) _ Pw (prefix_app _ _) ltac:(lia)) as [t' Et']. pose proof (find_app_ext _ _ t' p Fb) as X. rewrite Et', F in X. injection X as <-. apply find_some in Fb.
    destruct Fb as [Fb _]. exfalso. cbn [List.length CRLF app] in Fb. lia.
Qed.
(** The bytes received for a request with a body are a prefix of that body. *)
Lemma body_bound k m x b : nth_error M k = Some m -> m_has m = true -> ended b = k -> bound (upto_msg M k ++ m_head m ++ x) b -> is_prefix x (m_body m).
Proof.
  intros E Em Eb (j & P & B). assert (j <= S k) as L. { destruct (Nat.le_gt_cases j (S k)) as [H|H]; [exact H|]. rewrite (B k m) in Em; [discriminate|lia|lia|exact E]. }
  apply (prefix_cancel (m_head m)), (prefix_cancel (upto_msg M k)). apply (prefix_trans _ _ _ P). pose proof (upto_msg_mono M j (S k) L) as H. rewrite (upto_msg_S M k m E) in H. exact H.
Qed.
Lemma bound_mono rec rec' b b' : is_prefix rec' rec -> ended b <= ended b' -> bound rec b -> bound rec' b'.
Proof. intros P L (j & Pj & B). exists j. split; [now apply (prefix_trans _ rec)|]. intros i m Hi. apply B. lia. Qed.

(** ** What a step that only touches handlers and the response queue keeps *)
Definition quiet_obs (bx : list obs) : Prop := marks bx = [] /\ starts bx = [] /\ (forall i, got i bx = []) /\ (forall i, ~ In (Got i None) bx).
Definition same_reqs (s s' : conn) : Prop := List.length (c_reqs s') = List.length (c_reqs s) /\
  forall i r', nth_error (c_reqs s') i = Some r' -> exists r, nth_error (c_reqs s) i = Some r /\ q_head r' = q_head r /\ q_info r' = q_info r /\ q_upg r' = q_upg r /\ (q_cont r' = true -> q_cont r = true) /\
    q_size r' = q_size r /\ q_used r' = q_used r /\ q_eof r' = q_eof r /\ (q_keep r' = true -> q_keep r = true) /\ (q_live r' = true -> q_live r = true).
Definition same_rest (s s' : conn) : Prop := c_hb s' = c_hb s /\ c_hrs s' = c_hrs s /\ c_rcv s' = c_rcv s /\ c_wrecv s' = c_wrecv s /\ c_wreq s' = c_wreq s /\ c_wkeep s' = c_wkeep s /\ c_futs s' = c_futs s /\
  c_q0 s' = c_q0 s /\ c_closing s' = c_closing s /\ c_lost s' = c_lost s /\ c_sending s' = c_sending s /\ c_cur s' = c_cur s.

Lemma got_quiet i b bx : quiet_obs bx -> got i (b ++ bx) = got i b.
Proof. intros (_ & _ & G & _). now rewrite got_app, G, app_nil_r. Qed.
Lemma none_quiet i b bx : quiet_obs bx -> In (Got i None) (b ++ bx) <-> In (Got i None) b.
Proof. intros (_ & _ & _ & N). rewrite in_app_iff. split; [|tauto]. intros [H|H]; [exact H|]. now apply N in H. Qed.
Lemma all_quiet i m b bx : quiet_obs bx -> read_all i m b -> read_all i m (b ++ bx).
Proof. intros Q. unfold read_all. rewrite (got_quiet i b bx Q). destruct (counted m); [|tauto]. intros H. apply in_or_app. now left. Qed.
Lemma marks_quiet b bx : quiet_obs bx -> marks (b ++ bx) = marks b.
Proof. intros (G & _). now rewrite marks_app, G, app_nil_r. Qed.
Lemma olds_quiet k b bx : quiet_obs bx -> olds k b -> olds k (b ++ bx).
Proof. intros Q O i m L E C. apply all_quiet; [exact Q|]. now apply (O i m). Qed.
Lemma cf_same s s' : same_rest s s' -> cf s' = cf s.
Proof. intros (_ & _ & _ & _ & A & B & _). unfold cf. now rewrite A, B. Qed.
Lemma body_same i mk s s' b bx rest len l rec : same_rest s s' -> same_reqs s s' -> quiet_obs bx -> i < List.length (c_reqs s) -> body_inv i mk s b rest len l rec -> body_inv i mk s' (b ++ bx) rest len l rec.
Proof.
  intros R (L & Q) O Li (m & r & ds & Em & Er & E0 & Ec & Bs & B). destruct (nth_error (c_reqs s') i) as [r'|] eqn:Er'; [|apply nth_error_None in Er'; lia]. destruct (Q i r' Er') as (r2 & E2 & _ & _ & _ & _ & S1 & S2 & S3 & _). rewrite Er in E2. injection E2 as <-.
  exists m, r', ds. rewrite (got_quiet i b bx O), S1, S2, S3. destruct R as (_ & _ & _ & _ & _ & _ & _ & R0 & _). rewrite R0. split; [exact Em|]. split; [exact Er'|]. split; [exact E0|]. split; [exact Ec|]. split; [exact Bs|]. destruct (m_has m); [exact B|]. destruct B as (B1 & B2 & B3). split; [exact B1|]. split; [exact B2|]. intros N. apply B3. intros H. apply N, in_or_app. now left.
Qed.
Lemma phase_same nc nc' s s' b bx k rec : same_rest s s' -> same_reqs s s' -> quiet_obs bx -> nc + nones (c_q1 s') = nc' + nones (c_q1 s) -> phase nc s b k rec -> phase nc' s' (b ++ bx) k rec.
Proof.
  intros R Q O N P. pose proof (cf_same _ _ R) as Ecf. pose proof R as (R1 & R2 & R3 & R4 & R5 & R6 & R7 & R8 & _). pose proof Q as (L & Q').
  destruct P as [bb h a A1 A2 A3 A4 A5 A6 A7 A8 A9 A10 A11 A12|m rest h a l A1 A2 A3 A4 A5 A6 A7 A8 A9 A10 A11 A12 A13|rest len h a l A1 A2 A3 A4 A5 A6 A7 A8 A9 A10 A11 A12 A13|k' h a l mk A1 A2 A3 A4 A5 A6 A7 A8 A9 A10 A11 A12 A13].
  - apply (P0 _ _ _ _ _ bb h a); rewrite ?R1, ?R2, ?R3, ?R4, ?R7, ?R8, ?Ecf, ?L, ?(marks_quiet _ _ O); try assumption; [lia|now apply olds_quiet].
  - apply (P1 _ _ _ _ _ m rest h a l); unfold wr; rewrite ?R1, ?R2, ?R3, ?R4, ?R7, ?R8, ?Ecf, ?L, ?(marks_quiet _ _ O); try assumption; [lia|now apply olds_quiet].
  - apply (P2 _ _ _ _ _ rest len h a l); unfold wr; rewrite ?R1, ?R2, ?R3, ?R4, ?R7, ?R8, ?Ecf, ?L, ?(marks_quiet _ _ O), ?(got_quiet _ _ _ O); try assumption; [lia|now apply olds_quiet| |].
    + rewrite (none_quiet _ _ _ O). exact A12.
    + apply (body_same k false s s' b bx); try assumption. lia.
  - apply (P3 _ _ _ _ _ k' h a l mk); rewrite ?R1, ?R2, ?R3, ?R4, ?R7, ?R8, ?Ecf, ?L, ?(marks_quiet _ _ O); try assumption; [lia| |now apply olds_quiet|].
    + intros r' Er' K. destruct (Q' k' r' Er') as (r & Er & _ & _ & _ & _ & _ & _ & _ & Kk & _). pose proof (A10 r Er (Kk K)). lia.
    + apply (body_same k' mk s s' b bx); try assumption. lia.
Qed.
Lemma common_same nc nc' s s' b bx k n : same_rest s s' -> same_reqs s s' -> quiet_obs bx -> NoDup nc' ->
  (forall i, In i nc' -> i < k /\ (forall m, nth_error M i = Some m -> m_has m = true -> read_all i m b)) -> common nc s b k n -> common nc' s' (b ++ bx) k n.
Proof.
  intros R Q O Nd C' C. pose proof (cf_same _ _ R) as Ecf. pose proof R as (R1 & R2 & R3 & R4 & R5 & R6 & R7 & R8 & R9 & R10 & R11 & R12). pose proof Q as (L & Q'). destruct C. constructor; rewrite ?R9, ?R10, ?R11, ?R12, ?L; try assumption.
  - destruct cm_waiters0 as [A B]. split; [|rewrite Ecf, R7; exact B]. rewrite R5, R6. exact A.
  - destruct O as (_ & O & _). rewrite starts_app, O, app_nil_r. exact cm_starts0.
  - intros i r' E. destruct (Q' i r' E) as (r & Er & H1 & H2 & H3 & H4 & _ & _ & H7 & _ & H9). destruct (cm_reqs0 i r Er) as (B1 & B2 & B3). rewrite H7, (none_quiet _ _ _ O). repeat split; try tauto. unfold req_ok in *. rewrite H1, H2, H3. exact B1.
  - intros i m E. rewrite (none_quiet _ _ _ O), (got_quiet _ _ _ O). now apply cm_got0.
  - intros i H. rewrite (none_quiet _ _ _ O), (got_quiet _ _ _ O). now apply cm_new0.
  - intros i H. destruct (C' i H) as [A B]. split; [exact A|]. intros m E Em. apply all_quiet; [exact O|]. now apply (B m).
Qed.
Lemma same_on_req i f s : (forall r, q_head (f r) = q_head r /\ q_info (f r) = q_info r /\ q_upg (f r) = q_upg r /\ (q_cont (f r) = true -> q_cont r = true) /\
    q_size (f r) = q_size r /\ q_used (f r) = q_used r /\ q_eof (f r) = q_eof r /\ (q_keep (f r) = true -> q_keep r = true) /\ (q_live (f r) = true -> q_live r = true)) -> same_rest s (on_req i f s) /\ same_reqs s (on_req i f s).
Proof.
  intros F. destruct (on_req_misc i f s) as (A1 & A2 & A3 & A4 & A5 & A6 & A7 & A8 & A9 & A10 & A11 & A12 & A13 & A14 & A15). split; [repeat split; assumption|]. split; [exact A15|]. intros j r' E. rewrite on_req_nth in E. destruct (Nat.eqb_spec i j) as [->|N].
  - destruct (nth_error (c_reqs s) j) as [r|]; [|discriminate]. cbn in E. injection E as <-. exists r. split; [reflexivity|]. apply F.
  - exists r'. split; [exact E|]. repeat split; tauto.
Qed.
Lemma same_refl s : same_reqs s s.
Proof. split; [reflexivity|]. intros i r E. exists r. split; [exact E|]. repeat split; tauto. Qed.
Lemma quiet_nil : quiet_obs [].
Proof. repeat split; intros; intros []. Qed.

(** ** Data that comes in, from the network or from the queue *)
Lemma data_misc (d : bytes) s s' : data_received o (Some d) s = s' -> c_closing s' = false ->
  c_closing s = false /\ c_lost s' = c_lost s /\ c_sending s' = c_sending s /\ c_reqs s' = c_reqs s /\ c_cur s' = c_cur s /\ c_futs s' = c_futs s /\ c_wreq s' = c_wreq s /\ c_wkeep s' = c_wkeep s /\ c_q0 s' = c_q0 s /\ c_q1 s' = c_q1 s.
Proof.
  intros <-. unfold data_received. destruct d as [|c d]; [intros; repeat split; assumption|]. destruct (c_hb s); cbn zeta.
  - destruct (_ && _); [intros; repeat split; assumption|]. destruct (_ || _); [discriminate|intros; repeat split; assumption].
  - destruct (match c_wrecv s with Some w => Some w | None => _ end); intros; repeat split; assumption.
Qed.
Lemma common_data nc (d : bytes) s b k n : common nc s b k n -> c_closing (data_received o (Some d) s) = false -> common nc (data_received o (Some d) s) b k n.
Proof.
  intros C Cl. destruct (data_misc d s _ eq_refl Cl) as (A1 & A2 & A3 & A4 & A5 & A6 & A7 & A8 & A9 & A10). destruct C. constructor; rewrite ?A2, ?A3, ?A4, ?A5; try assumption.
  unfold waiters_ok, cf. rewrite A6, A7, A8. exact cm_waiters0.
Qed.
Lemma data_none (d : bytes) s : c_hb s = None -> waiters_ok s -> d <> [] ->
  data_received o (Some d) s = set_waiters (c_wreq s) (c_wkeep s) (Some (WTask (List.length (c_rcv s)))) (set_rcv (c_rcv s ++ [RWait (match c_wrecv s with Some w => w | None => WFut (cf s) end) d]) (set_paused true s)).
Proof.
  intros H W N. unfold data_received. destruct d as [|c d]; [easy|]. rewrite H. destruct (c_wrecv s) as [w|]; [reflexivity|]. unfold cf. destruct W as [[[W1 W2]|[W1 W2]] _].
  - destruct (c_wreq s); [reflexivity|easy].
  - rewrite W1. destruct (c_wkeep s); [reflexivity|easy].
Qed.
Context (Mok : Forall (msg_ok o) M).
Lemma body_data i mk s s' b l w d rest len rec : c_q0 s' = c_q0 s -> c_reqs s' = c_reqs s -> ended b = i -> d <> [] -> bound (rec ++ d) b ->
  body_inv i mk s b rest len l rec -> body_inv i mk s' b rest len (l ++ [RWait w d]) (rec ++ d).
Proof.
  intros E0 Er Eb Nd B (m & r & ds & Em & Erq & Eq0 & Ec & (Is1 & Is2 & I2) & I). assert (rec ++ d = upto_msg M i ++ m_head m ++ got i b ++ List.concat ds ++ rest ++ pend (l ++ [RWait w d])) as Erec.
  { rewrite Ec, pend_app. cbn [pend map pend1 List.concat]. rewrite app_nil_r. now repeat rewrite <- app_assoc. }
  exists m, r, ds. rewrite E0, Er. split; [exact Em|]. split; [exact Erq|]. split; [exact Eq0|]. split; [exact Erec|]. split; [split; [exact Is1|split; [exact Is2|]]|].
  - rewrite lens_app, pend_app. cbn [pend map pend1 List.concat lens len1]. rewrite app_nil_r. unfold blen in *. rewrite !app_length in *. lia.
  - destruct (m_has m) eqn:Cl; [|exact I]. destruct I as (I1 & Ic & In0 & I3 & I4). split; [exact I1|]. split; [exact Ic|]. split; [exact In0|]. split; [|exact I4]. intros H. destruct (I3 H) as (J1 & J2 & J3). exfalso. rewrite Erec in B. pose proof (prefix_length _ _ (body_bound _ _ _ _ Em Cl Eb B)) as L. subst l. rewrite app_assoc, J1, !app_length in L. unfold pend in L. cbn [app map pend1 List.concat] in L. rewrite app_nil_r in L. destruct d; [easy|]. cbn [List.length] in L. lia.
Qed.
Lemma data_inv N nc (d : bytes) s b k n rec : common nc s b k n -> phase N s b k rec -> bound (rec ++ d) b -> c_closing (data_received o (Some d) s) = false -> phase N (data_received o (Some d) s) b k (rec ++ d).
Proof.
  intros C P B Cl. destruct d as [|c d0] eqn:Ed; [now rewrite app_nil_r|]. rewrite <- Ed in *. assert (d <> []) as Nd by now rewrite Ed. clear c d0 Ed. destruct (data_misc d s _ eq_refl Cl) as (M1 & M2 & M3 & M4 & M5 & M6 & M7 & M8 & M9 & M10).
  assert (cf (data_received o (Some d) s) = cf s) as Ecf by (unfold cf; now rewrite M7, M8).
  destruct P as [bb h a A1 A2 A3 A4 A5 A6 A7 A8 A9 A10 A11 A12|m rest h a l A1 A2 A3 A4 A5 A6 A7 A8 A9 A10 A11 A12 A13|rest len h a l A1 A2 A3 A4 A5 A6 A7 A8 A9 A10 A11 A12 A13|k' h a l mk A1 A2 A3 A4 A5 A6 A7 A8 A9 A10 A11 A12 A13].
  - subst rec. rewrite <- app_assoc in *. assert (bb ++ d <> []) as Nb by (now destruct bb). destruct B as (j & Pj & _). destruct (next_msg k _ j Nb Pj) as (_ & m & Em & _).
    pose proof (proj1 (Forall_forall _ _) Mok m (nth_error_In _ _ Em)) as Om. revert Cl Ecf M4 M6 M9 M10. unfold data_received. destruct d as [|c d]; [easy|]. rewrite A1. cbn zeta.
    destruct (find (CRLF ++ CRLF) (bb ++ c :: d)) as [p|] eqn:F; cbn [pos].
    + destruct (head_of_prefix m _ j k p Om Em Pj F) as (rest & Er & Ep & Lo). replace (1 <? Z.of_nat p + 2)%Z with true by lia. replace (Z.of_nat p + 2 <=? o_head o)%Z with true by lia. cbn [andb]. intros _ Ecf _ _ _ _.
      apply (P1 _ _ _ _ _ m rest h a []); rewrite ?Ecf; csimp; try assumption; try reflexivity; [|now rewrite A4, app_nil_r|now rewrite app_nil_r, Er].
      rewrite A3, Er. replace (blen (m_head m) - 2)%Z with (Z.of_nat p + 2)%Z by lia. reflexivity.
    + destruct ((1 <? -1 + 2) && _)%Z eqn:X; [discriminate X|]. destruct (_ || _) eqn:Y; [discriminate|]. intros _ Ecf _ _ _ _. apply (P0 _ _ _ _ _ (bb ++ c :: d) h a); rewrite ?Ecf; csimp; try assumption; reflexivity.
  - pose proof (data_none d s A1 (cm_waiters _ _ _ _ _ C) Nd) as E. rewrite E in *. clear E. csimp_in Ecf. rewrite A4, app_length, repeat_length.
    apply (P1 _ _ _ _ _ m rest h a (l ++ [RWait (match c_wrecv s with Some w => w | None => WFut (cf s) end) d])); unfold wr; csimp; rewrite ?Ecf; try assumption.
    + now rewrite app_assoc.
    + rewrite A6. pose proof (waits_app _ _ _ d A5 Nd) as W. now destruct l.
    + rewrite app_length. cbn [List.length]. replace (a + (List.length l + 1) - 1) with (a + List.length l) by lia. now destruct l.
    + rewrite A11, pend_app. cbn [pend map pend1 List.concat]. rewrite app_nil_r. now repeat rewrite <- app_assoc.
  - pose proof (data_none d s A1 (cm_waiters _ _ _ _ _ C) Nd) as E. rewrite E in *. clear E. csimp_in Ecf. rewrite A3, app_length, repeat_length.
    apply (P2 _ _ _ _ _ rest len h a (l ++ [RWait (match c_wrecv s with Some w => w | None => WFut (cf s) end) d])); unfold wr; csimp; rewrite ?Ecf; try assumption.
    + now rewrite app_assoc.
    + rewrite A5. pose proof (waits_app _ _ _ d A4 Nd) as W. now destruct l.
    + rewrite app_length. cbn [List.length]. replace (a + (List.length l + 1) - 1) with (a + List.length l) by lia. now destruct l.
    + apply (body_data _ _ s); try assumption; try reflexivity. now apply ended_rep.
  - pose proof (data_none d s A2 (cm_waiters _ _ _ _ _ C) Nd) as E. rewrite E in *. clear E. csimp_in Ecf. rewrite A4, app_length, repeat_length.
    apply (P3 _ _ _ _ _ k' h a (l ++ [RWait (match c_wrecv s with Some w => w | None => WFut (cf s) end) d]) mk); csimp; rewrite ?Ecf; try assumption.
    + now rewrite app_assoc.
    + right. split; [now destruct l|]. rewrite app_length. cbn [List.length]. now replace (a + (List.length l + 1) - 1) with (a + List.length l) by lia.
    + destruct A5 as [[-> A5]|[Nl A5]].
      * cbn [app]. destruct A5 as [A5|[La A5]]; rewrite A5; [left|right; left]; [|split; [exact La|]]; cbn [waits]; repeat split; exact Nd.
      * rewrite A5. destruct A6 as [W|[[La W]|(rest & len & l' & -> & Ln & W)]].
        -- left. pose proof (waits_app _ _ _ d W Nd) as X. now destruct l.
        -- right. left. split; [exact La|]. pose proof (waits_app _ _ _ d W Nd) as X. now destruct l.
        -- right. right. exists rest, len. eexists. split; [reflexivity|]. split; [exact Ln|]. pose proof (waits_app _ _ _ d W Nd) as X. cbn [List.length]. destruct l'; [cbn [List.length]; replace (a + 1 - 1) with a by lia; exact X|].
           replace (a + S (List.length (r :: l')) - 1) with (S a + List.length (r :: l') - 1) by lia. exact X.
    + apply (body_data _ _ s); try assumption; try reflexivity. now apply ended_rep1.
Qed.
(** The loop of _handle_keepalive *)
Lemma refeed_inv N nc ds : forall s b k n rec, common nc s b k n -> phase N s b k rec -> bound (rec ++ List.concat ds) b -> c_closing (refeed o (map Some ds) s) = false ->
  common nc (refeed o (map Some ds) s) b k n /\ phase N (refeed o (map Some ds) s) b k (rec ++ List.concat ds).
Proof.
  induction ds as [|d ds IH]; intros s b k n rec C P B Cl; cbn [map refeed List.concat] in *; [rewrite app_nil_r; split; assumption|].
  destruct (c_closing (data_received o (Some d) s)) eqn:X; [rewrite (refeed_closing o _ _ X) in Cl; discriminate|].
  rewrite app_assoc in *. assert (bound (rec ++ d) b) as B' by (apply (bound_mono _ _ b b (prefix_app _ _) (le_n _) B)). apply IH; [now apply common_data|now apply (data_inv N nc d s b k n)|exact B|exact Cl].
Qed.
End Inv.
