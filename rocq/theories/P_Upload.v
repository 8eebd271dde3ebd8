(** Proofs about queueing (C20, C21) and uploads (C19). *)
From Verif Require Import PyBytes PyBytesFacts PyExn Trans M_Upload P_Parser P_Parser2 P_Stream.
From Coq Require Import ZifyBool ZifyNat.
Local Open Scope Z_scope.

(** ** C19 *)
Definition total (l : list bytes) : Z := blen (concat l).
Lemma total_app a b : total (a ++ b) = total a + total b.
Proof. unfold total. now rewrite concat_app, blen_app. Qed.
Lemma total_one d : total [d] = blen d.
Proof. unfold total. cbn [concat]. now rewrite app_nil_r. Qed.

Definition under (o : uopts) (z : Z) : Prop := z < u_max o /\ match u_cl o with Some n => z < n | None => True end.
Lemma account_resume o z : account o z = UResume <-> under o z.
Proof.
  unfold account, under. destruct (u_cl o) as [n|].
  - destruct (Z.leb_spec n z); [split; [easy|lia]|]. destruct (Z.ltb_spec z (u_max o)); split; (easy || lia || auto).
  - destruct (Z.ltb_spec z (u_max o)); split; (easy || lia || auto).
Qed.

(** [k]: pieces that may be accepted beyond the accounting; 0, or 1 once the 100 response has
    resumed reading. *)
Definition slack (e0 : bool) (s : ustate) : nat := if e0 && negb (u_expect s) then 1 else 0.
Definition u_inv (o : uopts) (e0 : bool) (s : ustate) : Prop :=
  let k := slack e0 s in
  (u_expect s = true -> e0 = true) /\
  (exists processed, u_pieces s = processed ++ u_pending s /\ total processed = u_body_size s) /\
  (List.length (u_pending s) <= (if u_reading s then k else S k))%nat /\
  (exists ps q, u_pieces s = ps ++ q /\ (List.length q <= (if u_reading s && negb (u_closing s) then k else S k))%nat /\ (ps = [] \/ under o (total ps))).

Lemma c19_inv o first e0 evs s : run (ustep o) (ustart first e0) evs = Some s -> u_inv o e0 s.
Proof.
  intros R. refine (run_invariant (ustep o) (u_inv o e0) _ evs (ustart first e0) s _ R); clear.
  - intros s e s' (He & (pr & Epr & Tpr) & Lp & ps & q & Eps & Lq & Hps) E. unfold ustep in E. destruct (u_closing s) eqn:C; [discriminate|].
    destruct e as [x| | |].
    + destruct (u_reading s) eqn:R; [|discriminate]. injection E as <-. unfold u_inv. cbn [u_expect u_pieces u_body_size u_pending u_reading u_closing andb negb] in *.
      change (slack e0 (mkU (u_pieces s ++ [x]) (u_pending s ++ [x]) (u_body_size s) false false (u_expect s) (u_ends s))) with (slack e0 s).
      split; [exact He|]. split; [exists pr; rewrite Epr, <- app_assoc; now split|]. split; [rewrite app_length; cbn [List.length]; lia|].
      exists ps, (q ++ [x]). rewrite Eps, <- app_assoc. split; [reflexivity|]. split; [rewrite app_length; cbn [List.length]; lia|exact Hps].
    + destruct (u_pending s) as [|y l] eqn:P; [discriminate|]. pose proof (account_resume o (u_body_size s + blen y)) as AR.
      assert (exists processed, u_pieces s = processed ++ l /\ total processed = u_body_size s + blen y) as X.
      { exists (pr ++ [y]). rewrite Epr, <- app_assoc. split; [reflexivity|]. rewrite total_app, total_one. lia. }
      cbn [List.length] in Lp.
      destruct (account o (u_body_size s + blen y)) eqn:A; injection E as <-; unfold u_inv; cbn [u_expect u_pieces u_body_size u_pending u_reading u_closing].
      * change (slack e0 (mkU (u_pieces s) l (u_body_size s + blen y) (u_reading s) false (u_expect s) (S (u_ends s)))) with (slack e0 s).
        split; [exact He|]. split; [exact X|]. split; [destruct (u_reading s); lia|]. exists ps, q. now repeat split.
      * change (slack e0 (mkU (u_pieces s) l (u_body_size s + blen y) true false (u_expect s) (u_ends s))) with (slack e0 s).
        split; [exact He|]. split; [exact X|]. split; [destruct (u_reading s); lia|]. destruct X as (pr2 & E2 & T2). exists pr2, l.
        split; [exact E2|]. cbn [andb negb]. split; [destruct (u_reading s); lia|]. right. rewrite T2. now apply AR.
      * change (slack e0 (mkU (u_pieces s) l (u_body_size s + blen y) (u_reading s) true (u_expect s) (u_ends s))) with (slack e0 s).
        split; [exact He|]. split; [exact X|]. split; [destruct (u_reading s); lia|]. exists ps, q. split; [exact Eps|]. rewrite andb_false_r. split; [|exact Hps].
        destruct (u_reading s); cbn [andb negb] in Lq; lia.
    + destruct (u_pending s) as [|y l] eqn:P; [discriminate|]. injection E as <-. unfold u_inv. cbn [u_expect u_pieces u_body_size u_pending u_reading u_closing].
      change (slack e0 (mkU (u_pieces s) (y :: l) (u_body_size s) (u_reading s) true (u_expect s) (u_ends s))) with (slack e0 s).
      split; [exact He|]. split; [eauto|]. split; [exact Lp|]. exists ps, q. split; [exact Eps|]. rewrite andb_false_r. split; [|exact Hps].
      destruct (u_reading s); cbn [andb negb] in Lq; lia.
    + destruct (u_expect s) eqn:X; [|discriminate]. injection E as <-. unfold u_inv, slack in *. cbn [u_expect u_pieces u_body_size u_pending u_reading u_closing] in *.
      rewrite X in *. rewrite (He eq_refl) in *. cbn [andb negb] in *. split; [easy|]. split; [eauto|]. split; [destruct (u_reading s); lia|].
      exists ps, q. split; [exact Eps|]. split; [destruct (u_reading s); cbn [andb] in Lq; lia|exact Hps].
  - unfold u_inv, slack, ustart. cbn [u_expect u_pieces u_body_size u_pending u_reading u_closing andb negb]. split; [auto|].
    split; [exists []; now split|]. split; [destruct e0; cbn; lia|]. exists [], [first]. split; [reflexivity|]. split; [destruct e0; cbn; lia|now left].
Qed.

(** All the pieces accepted but the last one stay under the limits. *)
Lemma c19_main o first evs s : run (ustep o) (ustart first false) evs = Some s ->
  exists ps d, u_pieces s = ps ++ [d] /\ (ps = [] \/ under o (total ps)).
Proof.
  intros R. destruct (c19_inv o first false evs s R) as (_ & _ & _ & ps & q & E & L & H).
  assert (u_pieces s <> []) as N.
  { refine (run_invariant (ustep o) (fun s => u_pieces s <> []) _ evs (ustart first false) s _ R); [|discriminate]. clear.
    intros s e s' N E. unfold ustep in E. destruct (u_closing s); [discriminate|]. destruct e; [|destruct (u_pending s); [discriminate|]| |].
    - destruct (u_reading s); [|discriminate]. injection E as <-. cbn [u_pieces]. now destruct (u_pieces s).
    - destruct (account _ _); injection E as <-; exact N.
    - destruct (u_pending s); [discriminate|]. injection E as <-; exact N.
    - destruct (u_expect s); [|discriminate]. injection E as <-; exact N. }
  unfold slack in L. cbn [andb] in L. destruct q as [|d [|d2 q]]; [|exists ps, d; now split|cbn [List.length] in L; destruct (_ && _); lia].
  rewrite app_nil_r in E. destruct (exists_last N) as (ps' & d & E'). exists ps', d. split; [exact E'|]. destruct H as [->|[H1 H2]]; [congruence|].
  right. unfold under. rewrite E in E'. rewrite E', total_app, total_one in *. pose proof (blen_nonneg d). split; [lia|]. destruct (u_cl o); [lia|exact I].
Qed.

Lemma c19_expect o first e0 evs s : run (ustep o) (ustart first e0) evs = Some s ->
  exists ps q, u_pieces s = ps ++ q /\ (List.length q <= 2)%nat /\ (ps = [] \/ under o (total ps)).
Proof.
  intros R. destruct (c19_inv o first e0 evs s R) as (_ & _ & _ & ps & q & E & L & H). exists ps, q. split; [exact E|]. split; [|exact H].
  unfold slack in L. destruct (e0 && _), (u_reading s && _); lia.
Qed.

(** ** C20, C21 *)
Definition stopped (p : putter) : bool := match p_phase p with PAborted => true | _ => false end.
Definition nstopped (l : list putter) : nat := List.length (filter stopped l).

Lemma set_nth_length {A} (l : list A) : forall i x, List.length (set_nth l i x) = List.length l.
Proof. induction l as [|y l IH]; intros [|i] x; cbn [set_nth List.length]; auto. Qed.

Lemma nstopped_set l : forall i p p', nth_error l i = Some p -> stopped p = false ->
  nstopped (set_nth l i p') = (nstopped l + (if stopped p' then 1 else 0))%nat.
Proof.
  unfold nstopped. induction l as [|y l IH]; intros [|i] p p' E S; cbn [nth_error] in E; try discriminate E; cbn [set_nth filter].
  - injection E as ->. rewrite S. destruct (stopped p'); cbn [List.length]; lia.
  - specialize (IH i p p' E S). destruct (stopped y); cbn [List.length]; lia.
Qed.

Lemma nth_set {A} (l : list A) : forall i j x, nth_error (set_nth l i x) j =
  if (i =? j)%nat then (match nth_error l i with Some _ => Some x | None => None end) else nth_error l j.
Proof.
  induction l as [|y l IH]; intros [|i] [|j] x; cbn [set_nth nth_error Nat.eqb]; try reflexivity.
  - now destruct (i =? j)%nat.
  - apply IH.
Qed.

Lemma put_turn_loop o q p q' p' ab : put_turn o q p = Some (q', p', ab) -> p_phase p = PLoop.
Proof. unfold put_turn. now destruct (p_phase p). Qed.

Lemma bput_length q x : (List.length (bq (bput q x)) <= S (List.length (bq q)))%nat.
Proof. unfold bput. destruct (bwait q); cbn [bq]; [lia|rewrite app_length; cbn; lia]. Qed.

(** With N writers a queue holds at most max_queue_size + N items. *)
Lemma c20_bound o : forall evs s s', 0 <= p_max o ->
  Z.of_nat (List.length (bq (ps_q s))) <= p_max o + Z.of_nat (nstopped (ps_putters s)) ->
  run (pstep o) s evs = Some s' ->
  Z.of_nat (List.length (bq (ps_q s'))) <= p_max o + Z.of_nat (nstopped (ps_putters s')) /\
  List.length (ps_putters s') = List.length (ps_putters s).
Proof.
  intros evs s s' Hm H0 R.
  refine (run_invariant (pstep o) (fun t => Z.of_nat (List.length (bq (ps_q t))) <= p_max o + Z.of_nat (nstopped (ps_putters t)) /\
     List.length (ps_putters t) = List.length (ps_putters s)) _ evs s s' (conj H0 eq_refl) R). clear - Hm.
  intros t e t' [H L] E. destruct e as [i|]; cbn [pstep] in E.
  - destruct (nth_error (ps_putters t) i) as [p|] eqn:N; [|discriminate]. destruct (put_turn o (ps_q t) p) as [[[q' p'] ab]|] eqn:T; [|discriminate].
    injection E as <-. cbn [ps_q ps_putters]. rewrite set_nth_length. split; [|exact L].
    pose proof (put_turn_loop _ _ _ _ _ _ T) as PL. rewrite (nstopped_set _ _ p p' N) by (unfold stopped; now rewrite PL).
    unfold put_turn in T. rewrite PL in T. destruct (p_rest p) as [|b rest]; [injection T as <- <- <-; cbn [stopped p_phase]; lia|].
    set (x := upto (b :: rest) (p_buf o)) in T. pose proof (bput_length (ps_q t) x) as BL. destruct (Z.ltb_spec (p_max o) (Z.of_nat (List.length (bq (bput (ps_q t) x))))) as [O|O].
    + injection T as <- <- <-. cbn [stopped p_phase]. lia.
    + injection T as <- <- <-. cbn [stopped p_phase]. lia.
  - injection E as <-. cbn [ps_q ps_putters]. split; [|exact L]. unfold bget. destruct (bq (ps_q t)) as [|x l]; cbn [bq List.length] in *; lia.
Qed.

Lemma filter_length_le {A} (f : A -> bool) l : (List.length (filter f l) <= List.length l)%nat.
Proof. induction l as [|x l IH]; cbn [filter List.length]; [lia|]. destruct (f x); cbn [List.length]; lia. Qed.

Lemma c20_max o q0 datas evs s : 0 <= p_max o -> Z.of_nat (List.length (bq q0)) <= p_max o ->
  run (pstep o) (mkPsys q0 (map start_put datas) false) evs = Some s ->
  Z.of_nat (List.length (bq (ps_q s))) <= p_max o + Z.of_nat (List.length datas).
Proof.
  intros Hm H0 R. destruct (c20_bound o evs (mkPsys q0 (map start_put datas) false) s Hm ltac:(cbn [ps_q]; lia) R) as [B L]. cbn [ps_putters] in L. rewrite map_length in L.
  unfold nstopped in B. pose proof (filter_length_le stopped (ps_putters s)) as F. lia.
Qed.

(** One writer: what is queued, in order. *)
Definition log (q : bqueue) : list bytes := taken q ++ bq q.
Definition waits_empty (q : bqueue) : Prop := bwait q = true -> bq q = [].

Lemma bput_log q x : waits_empty q -> log (bput q x) = log q ++ [x] /\ waits_empty (bput q x).
Proof.
  intros W. unfold log, bput, waits_empty in *. destruct (bwait q) eqn:B; cbn [bq taken bwait].
  - rewrite (W eq_refl), !app_nil_r. now split.
  - rewrite app_assoc. now split.
Qed.
Lemma bget_log q : waits_empty q -> log (bget q) = log q /\ waits_empty (bget q).
Proof.
  intros W. unfold log, bget, waits_empty in *. destruct (bq q) as [|x l] eqn:B; cbn [bq taken bwait].
  - now split.
  - rewrite <- app_assoc. split; [reflexivity|]. intros Wt. specialize (W Wt). discriminate.
Qed.

Definition one_writer (buf : Z) (d : bytes) (ps : list bytes) (p : putter) : Prop :=
  Forall (fun x => 0 < blen x <= buf) ps /\
  match p_phase p with
  | PLoop => concat ps ++ p_rest p = d
  | POver => concat ps = d
  | PAborted => exists t, d = concat ps ++ t
  end.

Lemma c20_one o q0 d evs s : 0 < p_buf o -> waits_empty q0 ->
  run (pstep o) (mkPsys q0 [start_put d] false) evs = Some s ->
  exists p ps, ps_putters s = [p] /\ log (ps_q s) = log q0 ++ ps /\ one_writer (p_buf o) d ps p /\
    (ps_aborted s = true <-> p_phase p = PAborted).
Proof.
  intros Hb W0 R.
  enough (waits_empty (ps_q s) /\ exists p ps, ps_putters s = [p] /\ log (ps_q s) = log q0 ++ ps /\ one_writer (p_buf o) d ps p /\
    (ps_aborted s = true <-> p_phase p = PAborted)) as [_ H] by exact H.
  refine (run_invariant (pstep o) (fun t => waits_empty (ps_q t) /\ exists p ps, ps_putters t = [p] /\ log (ps_q t) = log q0 ++ ps /\ one_writer (p_buf o) d ps p /\
    (ps_aborted t = true <-> p_phase p = PAborted)) _ evs _ s _ R); clear R s.
  - intros t e t' (W & p & ps & EP & EL & (F & PH) & AB) E. destruct e as [i|]; cbn [pstep] in E.
    + rewrite EP in E. destruct i as [|i]; [|destruct i; discriminate E]. cbn [nth_error] in E.
      destruct (put_turn o (ps_q t) p) as [[[q' p'] ab]|] eqn:T; [|discriminate]. injection E as <-. cbn [ps_q ps_putters ps_aborted set_nth].
      pose proof (put_turn_loop _ _ _ _ _ _ T) as PL. rewrite PL in PH, AB. unfold put_turn in T. rewrite PL in T.
      assert (ps_aborted t = false) as NA by (destruct (ps_aborted t); [destruct AB as [AB _]; specialize (AB eq_refl); discriminate|reflexivity]). rewrite NA.
      destruct (p_rest p) as [|b rest] eqn:PR.
      * injection T as <- <- <-. split; [exact W|]. eexists. exists ps. split; [reflexivity|]. split; [exact EL|]. unfold one_writer. cbn [p_phase].
        rewrite app_nil_r in PH. split; [now split|]. split; discriminate.
      * set (x := upto (b :: rest) (p_buf o)) in T. destruct (bput_log (ps_q t) x W) as [LG W'].
        assert (x ++ from (b :: rest) (p_buf o) = b :: rest) as XR by (unfold x; rewrite upto_nonneg, from_nonneg by lia; apply firstn_skipn).
        assert (0 < blen x <= p_buf o) as LX.
        { unfold x. rewrite upto_nonneg by lia. unfold blen. rewrite firstn_length. cbn [List.length]. lia. }
        assert (Forall (fun x => 0 < blen x <= p_buf o) (ps ++ [x])) as F' by (apply Forall_app; split; [exact F|now constructor]).
        assert (concat (ps ++ [x]) ++ from (b :: rest) (p_buf o) = d) as CD.
        { rewrite concat_app. cbn [concat]. rewrite app_nil_r, <- app_assoc, XR. exact PH. }
        destruct (p_max o <? _); injection T as <- <- <-; (split; [exact W'|]); eexists; exists (ps ++ [x]); (split; [reflexivity|]);
          (split; [rewrite LG, EL, app_assoc; reflexivity|]); unfold one_writer; cbn [p_phase p_rest orb]; (split; [split; [exact F'|]|]).
        -- eexists. symmetry. exact CD.
        -- now split.
        -- exact CD.
        -- split; discriminate.
    + injection E as <-. cbn [ps_q ps_putters ps_aborted]. destruct (bget_log _ W) as [LG W']. split; [exact W'|]. exists p, ps. rewrite LG. now repeat split; try apply AB.
  - cbn [ps_q ps_putters ps_aborted]. split; [exact W0|]. eexists. exists []. split; [reflexivity|]. split; [now rewrite app_nil_r|]. split; [split; [constructor|reflexivity]|].
    split; discriminate.
Qed.

(** Sleeping: any number of writers. *)
Lemma sleep_enough rate qs n : (0 < rate)%Q -> 0 < n -> (inject_Z n / rate <= sleep_time rate qs n)%Q.
Proof.
  intros Hr Hn. unfold sleep_time. set (m := Z.max qs 1). assert (1 <= m) as Hm by (subst m; lia). clearbody m.
  assert (~ rate == 0)%Q as R0 by (intros E; rewrite E in Hr; now apply Qlt_irrefl in Hr).
  assert (~ inject_Z m == 0)%Q as M0 by (intros E; unfold Qeq in E; cbn [inject_Z Qnum Qden] in E; lia).
  assert (~ inject_Z n == 0)%Q as N0 by (intros E; unfold Qeq in E; cbn [inject_Z Qnum Qden] in E; lia).
  assert (1 / (rate / inject_Z m / inject_Z n) == inject_Z m * (inject_Z n / rate))%Q as -> by (field; auto).
  rewrite <- (Qmult_1_l (inject_Z n / rate)) at 1. apply Qmult_le_compat_r.
  - change 1%Q with (inject_Z 1). rewrite <- Zle_Qle. exact Hm.
  - apply Qle_shift_div_l; [exact Hr|]. rewrite Qmult_0_l. change 0%Q with (inject_Z 0). rewrite <- Zle_Qle. lia.
Qed.

Definition slept_enough (o : popts) (d : bytes) (p : putter) : Prop :=
  (inject_Z (blen d - blen (p_rest p)) / p_rate o <= p_slept p)%Q /\ (p_phase p = POver -> p_rest p = []).

Lemma turn_sleep o q p q' p' ab d : (0 < p_rate o)%Q -> 0 < p_buf o -> put_turn o q p = Some (q', p', ab) ->
  slept_enough o d p -> slept_enough o d p'.
Proof.
  intros Hr Hb T [H _]. pose proof (put_turn_loop _ _ _ _ _ _ T) as PL. unfold put_turn in T. rewrite PL in T.
  destruct (p_rest p) as [|b rest] eqn:PR; [injection T as <- <- <-; split; [exact H|reflexivity]|].
  set (x := upto (b :: rest) (p_buf o)) in T. destruct (_ <? _); injection T as <- <- <-; (split; [|discriminate]); cbn [p_rest p_slept]; [exact H|].
  set (qs := Z.of_nat _). assert (blen (b :: rest) = blen x + blen (from (b :: rest) (p_buf o))) as BL.
  { rewrite <- blen_app. f_equal. unfold x. rewrite upto_nonneg, from_nonneg by lia. symmetry. apply firstn_skipn. }
  assert (0 < blen x) as LX. { unfold x. rewrite upto_nonneg by lia. unfold blen. rewrite firstn_length. cbn [List.length]. lia. }
  replace (blen d - blen (from (b :: rest) (p_buf o))) with ((blen d - blen (b :: rest)) + blen x) by lia.
  rewrite inject_Z_plus. unfold Qdiv. rewrite Qmult_plus_distr_l. apply Qplus_le_compat; [exact H|]. now apply sleep_enough.
Qed.

Lemma c21_main o q0 datas evs s i p d : (0 < p_rate o)%Q -> 0 < p_buf o ->
  run (pstep o) (mkPsys q0 (map start_put datas) false) evs = Some s ->
  nth_error (ps_putters s) i = Some p -> nth_error datas i = Some d -> p_phase p = POver ->
  (inject_Z (blen d) / p_rate o <= p_slept p)%Q.
Proof.
  intros Hr Hb R N D PO.
  assert (forall i p d, nth_error (ps_putters s) i = Some p -> nth_error datas i = Some d -> slept_enough o d p) as INV.
  { refine (run_invariant (pstep o) (fun t => forall i p d, nth_error (ps_putters t) i = Some p -> nth_error datas i = Some d -> slept_enough o d p) _ evs _ s _ R).
    - clear - Hr Hb. intros t e t' H E j p d N D. destruct e as [i|]; cbn [pstep] in E; [|injection E as <-; now apply (H j)].
      destruct (nth_error (ps_putters t) i) as [p0|] eqn:N0; [|discriminate]. destruct (put_turn o (ps_q t) p0) as [[[q' p'] ab]|] eqn:T; [|discriminate].
      injection E as <-. cbn [ps_putters] in N. rewrite nth_set in N. destruct (Nat.eqb_spec i j) as [->|NE].
      + rewrite N0 in N. injection N as <-. eapply turn_sleep; eauto.
      + now apply (H j).
    - clear - Hr. intros i p d N D. cbn [ps_putters] in N. rewrite nth_error_map, D in N. injection N as <-. unfold slept_enough, start_put. cbn [p_rest p_slept p_phase].
      split; [|discriminate]. rewrite Z.sub_diag. change (inject_Z 0) with 0%Q. unfold Qdiv. rewrite Qmult_0_l. apply Qle_refl. }
  destruct (INV i p d N D) as [H1 H2]. rewrite (H2 PO) in H1. change (blen []) with 0 in H1. now rewrite Z.sub_0_r in H1.
Qed.
