(** C58: supervision of the workers. *)
From Verif Require Import PyBytes Trans M_Super P_Super.

(** n workers were started, and each sent its pid; only the last one's pipe end is still held by the supervisor (tremolo.py:686-724). *)
Definition started (n : nat) : sup :=
  mkSup (map (fun i => mkW i true true true 0 (S i =? n)%nat []) (seq 0 n)) n (Check 0).

(** The pid of worker k. *)
Definition pid_of (s : sup) (k : nat) : option nat := option_map w_pid (nth_error (s_workers s) k).
Definition supervising (s : sup) : Prop := match s_pc s with Check _ | Boot _ | Ping _ | Sleep _ => True | _ => False end.

Lemma started_ok n : pids_ok (started n).
Proof. unfold pids_ok, started. cbn. apply Forall_forall. intros w I. apply in_map_iff in I as (i & <- & I). apply in_seq in I. cbn. lia. Qed.
Lemma started_length n : List.length (s_workers (started n)) = n.
Proof. cbn. now rewrite map_length, seq_length. Qed.
Lemma run_loop tr : forall s s', pids_ok s -> in_loop (List.length (s_workers s)) (s_pc s) -> run sup_step s tr = Some s' -> in_loop (List.length (s_workers s')) (s_pc s').
Proof.
  induction tr as [|ev tr IH]; intros s s' I L R; cbn [run] in R; [now injection R as <-|]. destruct (sup_step s ev) as [s1|] eqn:E; [|discriminate].
  destruct (step_pid s ev s1 I E) as (L1 & I1 & _). apply (IH s1 s' I1); [|exact R]. rewrite L1. now apply (step_pc s ev).
Qed.

(** Whatever happens, the number of workers is the one that was asked for, and no two of them have the same pid. *)
Theorem c58_count : forall n tr s, run sup_step (started n) tr = Some s ->
  List.length (s_workers s) = n /\ forall j k p, pid_of s j = Some p -> pid_of s k = Some p -> j = k.
Proof.
  intros n tr s R. destruct (run_pids tr _ s (started_ok n) R) as (L & _ & _). rewrite started_length in L. split; [exact L|].
  assert (forall tr s0 s1, pids_ok s0 -> (forall j k p, pid_at j s0 = Some p -> pid_at k s0 = Some p -> j = k) -> run sup_step s0 tr = Some s1 -> forall j k p, pid_at j s1 = Some p -> pid_at k s1 = Some p -> j = k) as K.
  { clear. induction tr as [|ev tr IH]; intros s0 s1 I D R; cbn [run] in R; [now injection R as <-|]. destruct (sup_step s0 ev) as [s2|] eqn:E; [|discriminate]. destruct (step_pid s0 ev s2 I E) as (_ & I2 & K). apply (IH s2 s1 I2); [|exact R].
    assert (forall j p, pid_at j s0 = Some p -> (p < s_next s0)%nat) as B.
    { intros j p P. unfold pid_at in P. destruct (nth_error (s_workers s0) j) as [w|] eqn:Ew; [|discriminate]. injection P as <-. unfold pids_ok in I. rewrite Forall_forall in I. apply I. now apply nth_error_In in Ew. }
    intros j k p J1 J2. destruct (K j) as [[X _]|(_ & Y1 & _ & X & _)], (K k) as [[X2 _]|(_ & Y2 & _ & X2 & _)].
    - apply (D j k p); congruence.
    - exfalso. specialize (B j p ltac:(congruence)). rewrite X2 in J2. injection J2 as <-. lia.
    - exfalso. specialize (B k p ltac:(congruence)). rewrite X in J1. injection J1 as <-. lia.
    - congruence. }
  apply (K tr (started n) s (started_ok n)); [|exact R]. intros j k p. unfold pid_at, started. cbn. rewrite !nth_error_map.
  assert (forall i, nth_error (seq 0 n) i = if (i <? n)%nat then Some i else None) as Kn.
  { intros i. destruct (Nat.ltb_spec i n) as [H|H].
    - rewrite (nth_error_nth' (seq 0 n) 0) by now rewrite seq_length. now rewrite seq_nth.
    - apply nth_error_None. now rewrite seq_length. }
  rewrite !Kn. destruct (j <? n)%nat, (k <? n)%nat; cbn; congruence.
Qed.
Print Assumptions c58_count.

(** A worker that is dead has been replaced once the supervisor has gone to sleep n + 1 times (it sleeps once per worker).
    Partial: the supervisor may never get that far; see c58_progress_partial and the refutations below it. *)
Theorem c58_replaced_partial : forall n tr s tr' s' k w, run sup_step (started n) tr = Some s -> run sup_step s tr' = Some s' ->
  nth_error (s_workers s) k = Some w -> w_alive w = false ->
  (n < List.length (filter (fun ev => match ev with PSleep => true | _ => false end) tr'))%nat ->
  exists w', nth_error (s_workers s') k = Some w' /\ w_pid w' <> w_pid w.
Proof.
  intros n tr s tr' s' k w R R' Ew Ea C. destruct (run_pids tr _ s (started_ok n) R) as (L & I & _). rewrite started_length in L.
  assert (in_loop (List.length (s_workers s)) (s_pc s)) as Lp.
  { destruct n as [|n]; [|apply (run_loop tr (started (S n)) s (started_ok _)); [rewrite started_length; cbn; lia|exact R]]. apply nth_error_In in Ew. destruct (s_workers s); [destruct Ew|discriminate]. }
  assert (List.length (filter (fun ev => match ev with PSleep => true | _ => false end) tr') = sleeps tr') as Es by (clear; induction tr' as [|[] tr' IH]; cbn; congruence). rewrite Es in C.
  assert (k < List.length (s_workers s))%nat as Lk by (apply nth_error_Some; congruence).
  destruct (run_pids tr' s s' I R') as (_ & _ & K). destruct (K k (w_pid w)) as (q & Q & _); [unfold pid_at; now rewrite Ew|]. unfold pid_at in Q. destruct (nth_error (s_workers s') k) as [w'|] eqn:Ew'; [|discriminate]. exists w'. split; [reflexivity|]. intros X.
  assert (sleeps tr' < need (List.length (s_workers s)) k (s_pc s))%nat as B.
  { apply (replaced_main k (w_pid w) tr' s s' I Lp); [unfold pid_at; now rewrite Ew|now exists w|exact R'|unfold pid_at; rewrite Ew'; cbn; congruence]. }
  pose proof (need_bound (List.length (s_workers s)) k (s_pc s) Lk Lp). lia.
Qed.
Print Assumptions c58_replaced_partial.

(** Nothing but its death makes a worker be replaced. *)
Theorem c58_kept : forall n tr s ev s' k w, run sup_step (started n) tr = Some s -> sup_step s ev = Some s' ->
  nth_error (s_workers s) k = Some w -> w_alive w = true -> pid_of s' k = Some (w_pid w).
Proof.
  intros n tr s ev s' k w R E Ew Ea. destruct (run_pids tr _ s (started_ok n) R) as (_ & I & _). destruct (step_pid s ev s' I E) as (_ & _ & K). destruct (K k) as [[X _]|(_ & _ & (w0 & X & Y) & _)].
  - change (pid_of s' k) with (pid_at k s'). rewrite X. unfold pid_at. now rewrite Ew.
  - rewrite Ew in X. injection X as <-. congruence.
Qed.
Print Assumptions c58_kept.

(** The supervisor goes on for ever, unless it waits for the pid of a worker that it just started, provided that
    - nothing raises while a worker is started (reload of the modules, create_sock), and
    - no worker closes its end of the pipe while it is still alive at the supervisor's check, up to the check of its pings. *)
Theorem c58_progress_partial : forall n tr s, run sup_step (started (S n)) tr = Some s -> ~ In (PCheck false) tr -> ~ In Interrupt tr ->
  (forall pre post s1 i w, tr = pre ++ post -> run sup_step (started (S n)) pre = Some s1 -> s_pc s1 = Ping i -> nth_error (s_workers s1) i = Some w -> w_open w = true) ->
  supervising s /\
  ((exists i w, s_pc s = Boot i /\ nth_error (s_workers s) i = Some w /\ w_booted w = false) \/
   exists ev s', In ev [PCheck true; PBoot; PPing; PSleep] /\ sup_step s ev = Some s' /\ supervising s').
Proof.
  intros n tr s R Nc Ni H.
  assert (in_loop (List.length (s_workers s)) (s_pc s)) as Lp by (apply (run_loop tr (started (S n)) s (started_ok _)); [rewrite started_length; cbn; lia|exact R]).
  assert (supervising s) as Sv.
  { revert s R Nc Ni H Lp. induction tr as [|ev tr IH] using rev_ind; intros s R Nc Ni H Lp; [injection R as <-; exact I|].
    rewrite run_app in R. destruct (run sup_step (started (S n)) tr) as [s0|] eqn:R0; [|discriminate]. cbn [run] in R. destruct (sup_step s0 ev) as [s1|] eqn:E; [|discriminate]. injection R as <-.
    assert (supervising s0) as S0.
    { apply (IH s0 eq_refl).
      - intros X. apply Nc. apply in_or_app. now left.
      - intros X. apply Ni. apply in_or_app. now left.
      - intros pre post s2 i w -> R2. apply (H pre (post ++ [ev])); [now rewrite app_assoc|exact R2].
      - apply (run_loop tr (started (S n)) s0 (started_ok _)); [rewrite started_length; cbn; lia|exact R0]. }
    assert (forall i w, s_pc s0 = Ping i -> nth_error (s_workers s0) i = Some w -> w_open w = true) as Ho by (intros i w; now apply (H tr [ev])).
    assert (forall k f, on_worker s0 k f = Some s1 -> s_pc s1 = s_pc s0) as Kw by (intros k f X; unfold on_worker in X; destruct (nth_error _ _); [|discriminate]; destruct (f _); [|discriminate]; now injection X as <-).
    unfold supervising in S0 |- *. destruct ev; cbn [sup_step] in E; try (apply Kw in E; now rewrite E).
    - destruct (s_pc s0) eqn:P; try discriminate. destruct (nth_error _ _) as [w|]; [|discriminate]. destruct (w_alive w); [now injection E as <-|]. destruct ok; [now injection E as <-|]. exfalso. apply Nc. apply in_or_app. right. now left.
    - destruct (s_pc s0) eqn:P; try discriminate. destruct (nth_error _ _) as [w|]; [|discriminate]. destruct (w_booted w); [now injection E as <-|discriminate].
    - destruct (s_pc s0) eqn:P; try discriminate. destruct (nth_error _ _) as [w|] eqn:Ew; [|discriminate]. rewrite (Ho i w eq_refl Ew) in E. cbn [orb] in E. destruct (w_pings w); now injection E as <-.
    - destruct (s_pc s0) eqn:P; try discriminate. now injection E as <-.
    - exfalso. apply Ni. apply in_or_app. right. now left.
    - destruct (s_pc s0); try discriminate; destruct S0.
    - destruct (s_pc s0); try discriminate; destruct S0. }
  split; [exact Sv|]. unfold supervising in Sv. destruct (s_pc s) as [i|i|i|i| | | |] eqn:P; try easy; cbn [in_loop] in Lp.
  - right. destruct (nth_error (s_workers s) i) as [w|] eqn:Ew; [|apply nth_error_None in Ew; lia]. exists (PCheck true). cbn [sup_step]. rewrite P, Ew. destruct (w_alive w); eexists; (split; [now left|]); (split; [reflexivity|exact I]).
  - destruct (nth_error (s_workers s) i) as [w|] eqn:Ew; [|apply nth_error_None in Ew; lia]. destruct (w_booted w) eqn:B; [|left; now exists i, w]. right. exists PBoot. cbn [sup_step]. rewrite P, Ew, B. eexists. split; [right; now left|]. split; [reflexivity|exact I].
  - right. destruct (nth_error (s_workers s) i) as [w|] eqn:Ew; [|apply nth_error_None in Ew; lia]. exists PPing. cbn [sup_step]. rewrite P, Ew. assert (w_open w = true) as -> by (apply (H tr [] s i w); [now rewrite app_nil_r|exact R|exact P|exact Ew]). cbn [orb].
    destruct (w_pings w); eexists; (split; [right; right; now left|]); (split; [reflexivity|exact I]).
  - right. exists PSleep. cbn [sup_step]. rewrite P. eexists. split; [right; right; right; now left|]. split; [reflexivity|exact I].
Qed.
Print Assumptions c58_progress_partial.

(** As the property is stated it is false. A worker dies right after the supervisor found it alive: the supervisor itself is ended by EOFError, and nothing is supervised any more. *)
Theorem c58_eof_refuted : exists tr s, run sup_step (started 2) tr = Some s /\ ~ In Interrupt tr /\ ~ In (PCheck false) tr /\ s_pc s = Crashed /\
  (exists w, nth_error (s_workers s) 0 = Some w /\ w_alive w = false) /\ (forall tr' s', run sup_step s tr' = Some s' -> s_pc s' = Crashed /\ pid_of s' 0 = pid_of s 0).
Proof.
  exists [PCheck true; WExit 0; PPing]. eexists. split; [reflexivity|]. split; [intros [H|[H|[H|[]]]]; discriminate|]. split; [intros [H|[H|[H|[]]]]; discriminate|]. split; [reflexivity|]. split; [eexists; split; reflexivity|].
  assert (forall tr' s s', pids_ok s -> s_pc s = Crashed -> run sup_step s tr' = Some s' -> s_pc s' = Crashed /\ pid_of s' 0 = pid_of s 0) as K.
  { induction tr' as [|ev tr' IH]; intros s s' I P R; cbn [run] in R; [injection R as <-; now split|]. destruct (sup_step s ev) as [s1|] eqn:E; [|discriminate]. destruct (step_pid s ev s1 I E) as (_ & I1 & Kp).
    assert (s_pc s1 = Crashed) as P1.
    { rewrite <- P. assert (forall k f, on_worker s k f = Some s1 -> s_pc s1 = s_pc s) as Kw by (intros k f X; unfold on_worker in X; destruct (nth_error _ _); [|discriminate]; destruct (f _); [|discriminate]; now injection X as <-).
      destruct ev; cbn [sup_step] in E; try (apply (Kw _ _ E)); rewrite P in E; discriminate. }
    destruct (IH s1 s' I1 P1 R) as [A B]. split; [exact A|]. rewrite B. destruct (Kp 0%nat) as [[X _]|(_ & X & _)]; [exact X|congruence]. }
  intros tr' s' R. apply (K tr'); [|reflexivity|exact R]. repeat constructor.
Qed.
Print Assumptions c58_eof_refuted.
(** A worker dies, and so does the one that replaces it, before it has sent its pid: the supervisor waits for that pid for ever, because it holds the other end of the pipe itself. *)
Theorem c58_boot_refuted : exists tr s, run sup_step (started 2) tr = Some s /\ ~ In Interrupt tr /\ ~ In (PCheck false) tr /\
  (exists w, nth_error (s_workers s) 0 = Some w /\ w_alive w = false) /\
  (forall tr' s', run sup_step s tr' = Some s' -> ~ In Interrupt tr' -> s_pc s' = Boot 0 /\ pid_of s' 0 = pid_of s 0).
Proof.
  exists [WExit 0; PCheck true; WExit 0]. eexists. split; [reflexivity|]. split; [intros [H|[H|[H|[]]]]; discriminate|]. split; [intros [H|[H|[H|[]]]]; discriminate|]. split; [eexists; split; reflexivity|].
  assert (forall tr' s s' w, s_pc s = Boot 0 -> nth_error (s_workers s) 0 = Some w -> w_open w = false -> w_booted w = false -> run sup_step s tr' = Some s' -> ~ In Interrupt tr' -> s_pc s' = Boot 0 /\ pid_of s' 0 = Some (w_pid w)) as K.
  { induction tr' as [|ev tr' IH]; intros s s' w P Ew Wo Wb R N; cbn [run] in R; [injection R as <-; split; [exact P|]; unfold pid_of; now rewrite Ew|]. destruct (sup_step s ev) as [s1|] eqn:E; [|discriminate].
    assert (~ In Interrupt tr') as N' by (intros X; apply N; now right).
    assert (s_pc s1 = Boot 0 /\ exists w1, nth_error (s_workers s1) 0 = Some w1 /\ w_open w1 = false /\ w_booted w1 = false /\ w_pid w1 = w_pid w) as (P1 & w1 & Ew1 & Wo1 & Wb1 & Wp1).
    { assert (forall k f, on_worker s k f = Some s1 -> (forall w', f w = Some w' -> w_open w' = false /\ w_booted w' = false /\ w_pid w' = w_pid w) -> s_pc s1 = Boot 0 /\ exists w1, nth_error (s_workers s1) 0 = Some w1 /\ w_open w1 = false /\ w_booted w1 = false /\ w_pid w1 = w_pid w) as Kw.
      { intros k f X F. unfold on_worker in X. destruct (nth_error (s_workers s) k) as [wk|] eqn:Ek; [|discriminate]. destruct (f wk) as [w'|] eqn:Fk; [|discriminate]. injection X as <-. cbn [s_pc s_workers]. split; [exact P|]. rewrite nth_upd, Ew. destruct (Nat.eqb_spec k 0) as [->|].
        - rewrite Ew in Ek. injection Ek as <-. exists w'. split; [reflexivity|]. now apply F.
        - exists w. now repeat split. }
      destruct ev; cbn [sup_step] in E; try (rewrite P in E; discriminate).
      - apply (Kw _ _ E). intros w'. now rewrite Wo.
      - apply (Kw _ _ E). intros w'. now rewrite Wo.
      - apply (Kw _ _ E). intros w' X. injection X as <-. now repeat split.
      - apply (Kw _ _ E). intros w' X. injection X as <-. now repeat split.
      - rewrite P, Ew, Wb in E. discriminate.
      - exfalso. apply N. now left. }
    rewrite <- Wp1. now apply (IH s1). }
  intros tr' s' R N. refine (K tr' _ s' (mkW 2 false false false 0 true []) _ _ _ _ R N); reflexivity.
Qed.
Print Assumptions c58_boot_refuted.
(** When the server is interrupted after a worker died, the workers after it are not told to stop. *)
Theorem c58_stop_refuted : exists tr s, run sup_step (started 2) tr = Some s /\ In Interrupt tr /\ s_pc s = Crashed /\
  (exists w, nth_error (s_workers s) 1 = Some w /\ w_alive w = true /\ w_replies w = []).
Proof. exists [WExit 0; Interrupt; PStop]. eexists. split; [reflexivity|]. split; [right; now left|]. split; [reflexivity|]. eexists. now repeat split. Qed.
Print Assumptions c58_stop_refuted.

(** A worker that is told 0, or whose parent is gone, stops after finitely many steps of its own. *)
Theorem c58_told : forall tr v, run serve_ev serve_new tr = Some v -> In 0%nat (v_in v) \/ v_closed v = true ->
  exists n v', run serve_ev v (repeat Go n) = Some v' /\ v_pc v' = Stopped.
Proof.
  intros tr v _ H. assert ({v_pc v = Stopped} + {v_pc v <> Stopped}) as [S|S] by (destruct (v_pc v); (now left) || (right; discriminate)).
  - exists 0%nat, v. now split.
  - exact (told_main (v_in v) v eq_refl S H).
Qed.
Print Assumptions c58_told.
(** Nothing else makes it stop (the memory limit and reloads apart, which are not in the model). *)
Theorem c58_serves : forall tr v, run serve_ev serve_new tr = Some v -> v_pc v = Stopped -> In (Arrive 0) tr \/ In ParentGone tr.
Proof. exact stopped_main. Qed.
Print Assumptions c58_serves.
(** So: told at any moment, whatever else comes, it stops. *)
Theorem c58_stops : forall tr v, run serve_ev serve_new tr = Some v -> In (Arrive 0) tr \/ In ParentGone tr ->
  exists n v', run serve_ev v (repeat Go n) = Some v' /\ v_pc v' = Stopped.
Proof.
  intros tr v R H. assert (v_pc v = Stopped \/ In 0%nat (v_in v) \/ v_closed v = true) as [S|K].
  { assert (forall tr s, run serve_ev s tr = Some v -> v_pc s = Stopped \/ In 0%nat (v_in s) \/ v_closed s = true \/ In (Arrive 0) tr \/ In ParentGone tr -> v_pc v = Stopped \/ In 0%nat (v_in v) \/ v_closed v = true) as K.
    { clear. induction tr as [|ev tr IH]; intros s R H; cbn [run] in R; [injection R as <-; cbn [In] in H; tauto|]. destruct (serve_ev s ev) as [s1|] eqn:E; [|discriminate]. apply (IH s1 R). destruct ev as [n| |]; cbn [serve_ev] in E.
      - destruct (v_closed s) eqn:C; [discriminate|]. injection E as <-. cbn [v_pc v_in v_closed]. destruct H as [X|[X|[X|[[X|X]|[X|X]]]]]; try discriminate; try tauto.
        + right; left. apply in_or_app. now left.
        + injection X as ->. right; left. apply in_or_app. right. now left.
      - injection E as <-. cbn [v_closed]. tauto.
      - assert (v_pc s1 = Stopped \/ (In 0%nat (v_in s) -> In 0%nat (v_in s1)) /\ v_closed s1 = v_closed s /\ v_pc s <> Stopped) as X.
        { unfold serve_step in E. destruct s as [p num l c st]. cbn [v_pc v_in v_closed v_num v_sent] in *. destruct p as [|[|k]| |]; try discriminate.
          - destruct c; injection E as <-; cbn; [now left|]. right. repeat split; try easy.
          - injection E as <-. cbn. right. repeat split; easy.
          - injection E as <-. cbn [v_pc v_in v_closed]. right. repeat split; easy.
          - destruct l as [|n l]; [destruct c; [injection E as <-; now left|discriminate]|]. injection E as <-. cbn [v_pc v_in v_closed]. destruct n; [now left|]. right. split; [intros [X|X]; [discriminate|exact X]|now split]. }
        destruct X as [X|(A & B & C)]; [now left|]. destruct H as [X|[X|[X|[[X|X]|[X|X]]]]]; try discriminate; try tauto. right; right; left. congruence. }
    apply (K tr serve_new R). tauto. }
  - exists 0%nat, v. now split.
  - exact (c58_told tr v R K).
Qed.
Print Assumptions c58_stops.

(** As long as the server is not interrupted, every ping is answered with the number of workers; so no worker is told to stop. *)
Theorem c58_replies : forall n tr s k w x, run sup_step (started n) tr = Some s -> ~ In Interrupt tr -> nth_error (s_workers s) k = Some w -> In x (w_replies w) -> x = n /\ x <> 0%nat.
Proof.
  intros n tr s k w x R Ni Ew Ix. assert (replies_ok n (started n)) as H.
  { split; [apply started_length|]. split; [|exact I]. unfold started. cbn [s_workers]. apply Forall_map, Forall_forall. intros i _. constructor. }
  destruct (run_replies n tr _ s H Ni R) as (L & F & _). rewrite Forall_forall in F. pose proof (nth_error_In _ _ Ew) as Iw. specialize (F w Iw). rewrite Forall_forall in F. specialize (F x Ix). split; [exact F|]. subst x. rewrite <- L. now destruct (s_workers s).
Qed.
Print Assumptions c58_replies.

(** Worker 1 of 3 dies and is replaced; pings are answered with the number of workers. *)
Example c58_example : exists s, run sup_step (started 3)
    [PCheck true; WPing 0; PPing; PPing; PSleep; WExit 1; PCheck true; WBoot 1; PBoot; PPing; PSleep; PCheck true; PPing; PSleep; PCheck true; PPing; PSleep] = Some s /\
  map w_pid (s_workers s) = [0; 3; 2]%nat /\ map w_replies (s_workers s) = [[3]; []; []]%nat /\ map w_alive (s_workers s) = [true; true; true] /\ s_pc s = Check 1.
Proof. eexists. split; [vm_compute; reflexivity|]. repeat split. Qed.
Example c58_worker_example : option_map v_pc (run serve_ev serve_new [Go; Go; Arrive 3; Go; Go; Arrive 0; Go; Go; Go]) = Some Stopped.
Proof. reflexivity. Qed.
