From Verif Require Import PyBytes Trans M_Super.

Lemma nth_upd {A} (l : list A) : forall i k x, nth_error (upd i x l) k = if (i =? k)%nat then (match nth_error l k with Some _ => Some x | None => None end) else nth_error l k.
Proof. induction l as [|y l IH]; intros i k x; [destruct i, k; now cbn; try destruct (Nat.eqb _ _)|]. destruct i, k; cbn [upd nth_error Nat.eqb]; try reflexivity. apply IH. Qed.
Lemma upd_length {A} (l : list A) : forall i x, List.length (upd i x l) = List.length l.
Proof. induction l as [|y l IH]; intros [|i] x; cbn [upd List.length]; auto. Qed.

Definition pid_at (k : nat) (s : sup) : option nat := option_map w_pid (nth_error (s_workers s) k).
Definition pids_ok (s : sup) : Prop := Forall (fun w => (w_pid w < s_next s)%nat) (s_workers s).

(** Steps keep the number of workers, and a pid only changes for a newer one, by a check of a worker that is dead. *)
Definition dead_at (k : nat) (s : sup) : Prop := exists w, nth_error (s_workers s) k = Some w /\ w_alive w = false.
Lemma worker_step s k f s' : on_worker s k f = Some s' -> (forall w w', f w = Some w' -> w_pid w' = w_pid w /\ (w_alive w = false -> w_alive w' = false)) ->
  List.length (s_workers s') = List.length (s_workers s) /\ s_pc s' = s_pc s /\ s_next s' = s_next s /\ forall j, pid_at j s' = pid_at j s /\ (dead_at j s -> dead_at j s').
Proof.
  unfold on_worker. destruct (nth_error (s_workers s) k) as [w|] eqn:E; [|discriminate]. destruct (f w) as [w'|] eqn:F; [|discriminate]. intros H K. injection H as <-. cbn. rewrite upd_length. destruct (K w w' F) as [Kp Ka].
  split; [reflexivity|]. split; [reflexivity|]. split; [reflexivity|]. intros j. unfold pid_at, dead_at. cbn. rewrite nth_upd. destruct (Nat.eqb_spec k j) as [->|N]; [|now split].
  rewrite E. cbn. split; [now rewrite Kp|]. intros (w0 & X & Y). injection X as <-. exists w'. split; [reflexivity|]. now apply Ka.
Qed.
Lemma step_pid s ev s' : pids_ok s -> sup_step s ev = Some s' -> List.length (s_workers s') = List.length (s_workers s) /\ pids_ok s' /\
  forall k, (pid_at k s' = pid_at k s /\ (dead_at k s -> dead_at k s')) \/
    (exists ok, ev = PCheck ok) /\ s_pc s = Check k /\ dead_at k s /\ pid_at k s' = Some (s_next s) /\ s_next s' = S (s_next s).
Proof.
  intros I E.
  assert (forall ws, (forall k, option_map w_pid (nth_error ws k) = pid_at k s) -> Forall (fun w => (w_pid w < s_next s)%nat) ws) as Ip.
  { intros ws H. apply Forall_forall. intros w Iw. apply In_nth_error in Iw as [k Ek]. specialize (H k). rewrite Ek in H. cbn in H. unfold pid_at in H. destruct (nth_error (s_workers s) k) as [w0|] eqn:E0; [|discriminate]. injection H as ->.
    unfold pids_ok in I. rewrite Forall_forall in I. apply I. now apply nth_error_In in E0. }
  assert (forall k f, on_worker s k f = Some s' -> (forall w w', f w = Some w' -> w_pid w' = w_pid w /\ (w_alive w = false -> w_alive w' = false)) -> List.length (s_workers s') = List.length (s_workers s) /\ pids_ok s' /\ forall j, pid_at j s' = pid_at j s /\ (dead_at j s -> dead_at j s')) as Kw.
  { intros k f H K. destruct (worker_step s k f s' H K) as (A & _ & C & D). split; [exact A|]. split; [|exact D]. unfold pids_ok. rewrite C. apply Ip. intros j. apply (D j). }
  assert (forall p, goto s p = Some s' -> List.length (s_workers s') = List.length (s_workers s) /\ pids_ok s' /\ forall j, pid_at j s' = pid_at j s /\ (dead_at j s -> dead_at j s')) as Kg.
  { intros p H. injection H as <-. split; [reflexivity|]. split; [exact I|]. intros j. split; [reflexivity|]. intros X. exact X. }
  assert (forall i w w' p, nth_error (s_workers s) i = Some w -> w_pid w' = w_pid w -> w_alive w' = w_alive w -> Some (mkSup (upd i w' (s_workers s)) (s_next s) p) = Some s' -> List.length (s_workers s') = List.length (s_workers s) /\ pids_ok s' /\ forall j, pid_at j s' = pid_at j s /\ (dead_at j s -> dead_at j s')) as Ku.
  { intros i w w' p Ew P1 A1 H. injection H as <-. cbn. rewrite upd_length. assert (forall j, option_map w_pid (nth_error (upd i w' (s_workers s)) j) = pid_at j s) as X by (intros j; rewrite nth_upd; unfold pid_at; destruct (Nat.eqb_spec i j) as [->|]; [rewrite Ew; cbn; now rewrite P1|reflexivity]).
    split; [reflexivity|]. split; [exact (Ip _ X)|]. intros j. split; [apply X|]. unfold dead_at. cbn. rewrite nth_upd. destruct (Nat.eqb_spec i j) as [->|]; [|auto]. rewrite Ew. intros (w0 & Y & Z). injection Y as <-. exists w'. split; [reflexivity|congruence]. }
  assert ((List.length (s_workers s') = List.length (s_workers s) /\ pids_ok s' /\ forall j, pid_at j s' = pid_at j s /\ (dead_at j s -> dead_at j s')) -> List.length (s_workers s') = List.length (s_workers s) /\ pids_ok s' /\
    forall k, (pid_at k s' = pid_at k s /\ (dead_at k s -> dead_at k s')) \/ (exists ok, ev = PCheck ok) /\ s_pc s = Check k /\ dead_at k s /\ pid_at k s' = Some (s_next s) /\ s_next s' = S (s_next s)) as Kl.
  { intros (A & B & C). split; [exact A|]. split; [exact B|]. intros k. left. apply C. }
  destruct ev; cbn [sup_step] in E.
  - apply Kl. apply (Kw _ _ E). intros w w' H. destruct (w_open w); [|discriminate]. injection H as <-. now split.
  - apply Kl. apply (Kw _ _ E). intros w w' H. destruct (w_open w && w_booted w); [|discriminate]. injection H as <-. now split.
  - apply Kl. apply (Kw _ _ E). intros w w' H. injection H as <-. now split.
  - apply Kl. apply (Kw _ _ E). intros w w' H. injection H as <-. now split.
  - destruct (s_pc s) as [i| | | | | | |] eqn:P; try discriminate. destruct (nth_error (s_workers s) i) as [w|] eqn:Ew; [|discriminate]. destruct (w_alive w) eqn:Ea; [apply Kl, (Kg _ E)|].
    destruct ok; [|apply Kl, (Kg _ E)]. injection E as <-. cbn. rewrite upd_length, map_length. split; [reflexivity|].
    assert (forall j, j <> i -> nth_error (upd i (new_worker (s_next s)) (map drop_held (s_workers s))) j = option_map drop_held (nth_error (s_workers s) j)) as X.
    { intros j N. rewrite nth_upd. destruct (Nat.eqb_spec i j); [congruence|]. apply nth_error_map. }
    assert (nth_error (upd i (new_worker (s_next s)) (map drop_held (s_workers s))) i = Some (new_worker (s_next s))) as Xi by (rewrite nth_upd, Nat.eqb_refl, nth_error_map, Ew; reflexivity).
    split.
    + unfold pids_ok. cbn. apply Forall_forall. intros w1 I1. apply In_nth_error in I1 as [j Ej]. destruct (Nat.eq_dec j i) as [->|N].
      * rewrite Xi in Ej. injection Ej as <-. cbn. lia.
      * rewrite X in Ej by exact N. destruct (nth_error (s_workers s) j) as [w0|] eqn:E0; [|discriminate]. injection Ej as <-. cbn. unfold pids_ok in I. rewrite Forall_forall in I. apply nth_error_In, I in E0. lia.
    + intros k. destruct (Nat.eq_dec k i) as [->|N].
      * right. split; [now exists true|]. split; [reflexivity|]. split; [now exists w|]. split; [unfold pid_at; cbn; now rewrite Xi|reflexivity].
      * left. unfold pid_at, dead_at. cbn. rewrite X by exact N. split; [now destruct (nth_error (s_workers s) k)|]. intros (w0 & -> & A0). exists (drop_held w0). now split.
  - destruct (s_pc s); try discriminate. destruct (nth_error (s_workers s) i) as [w|]; [|discriminate]. destruct (w_booted w); [|discriminate]. apply Kl, (Kg _ E).
  - destruct (s_pc s); try discriminate. destruct (nth_error (s_workers s) i) as [w|] eqn:Ew; [|discriminate]. destruct (w_pings w); destruct (w_open w || w_held w); try (apply Kl, (Kg _ E)). apply Kl. now apply (Ku _ _ _ _ Ew) in E.
  - destruct (s_pc s); try discriminate. apply Kl, (Kg _ E).
  - destruct (s_pc s); try discriminate; apply Kl, (Kg _ E).
  - destruct (s_pc s); try discriminate. destruct (nth_error (s_workers s) i) as [w|] eqn:Ew; [|apply Kl, (Kg _ E)]. destruct (w_open w || w_held w); [|apply Kl, (Kg _ E)]. apply Kl. now apply (Ku _ _ _ _ Ew) in E.
  - destruct (s_pc s); try discriminate. destruct (nth_error (s_workers s) i) as [w|]; [|discriminate]. destruct (w_alive w); [discriminate|]. apply Kl, (Kg _ E).
Qed.
Lemma run_pids tr : forall s s', pids_ok s -> run sup_step s tr = Some s' -> List.length (s_workers s') = List.length (s_workers s) /\ pids_ok s' /\
  forall k p, pid_at k s = Some p -> exists q, pid_at k s' = Some q /\ (p <= q)%nat.
Proof.
  induction tr as [|ev tr IH]; intros s s' I R; cbn [run] in R; [injection R as <-; split; [reflexivity|]; split; [exact I|]; intros k p ->; exists p; now split|].
  destruct (sup_step s ev) as [s1|] eqn:E; [|discriminate]. destruct (step_pid s ev s1 I E) as (L & I1 & K). destruct (IH s1 s' I1 R) as (L2 & I2 & K2). split; [congruence|]. split; [exact I2|].
  intros k p P. destruct (K k) as [[X _]|(_ & _ & _ & X & _)].
  - apply K2. congruence.
  - destruct (K2 k _ X) as (q & Q & Le). exists q. split; [exact Q|]. assert (p < s_next s)%nat; [|lia]. unfold pid_at in P. destruct (nth_error (s_workers s) k) as [w|] eqn:Ew; [|discriminate]. injection P as <-. unfold pids_ok in I. rewrite Forall_forall in I. apply I. now apply nth_error_In in Ew.
Qed.

(** How many times the supervisor may sleep before it has looked at worker k again. *)
Definition need (n k : nat) (p : pc) : nat :=
  match p with
  | Check i => if (i <=? k)%nat then k - i + 1 else n - i + k + 1
  | Boot i | Ping i | Sleep i => if (i <? k)%nat then k - i + 1 else n - i + k + 1
  | _ => 1
  end.
Fixpoint sleeps (tr : list sev) : nat := match tr with [] => 0 | PSleep :: tr' => S (sleeps tr') | _ :: tr' => sleeps tr' end.
Definition in_loop (n : nat) (p : pc) : Prop := match p with Check i | Boot i | Ping i | Sleep i => (i < n)%nat | _ => True end.
Lemma step_pc s ev s' : sup_step s ev = Some s' -> in_loop (List.length (s_workers s)) (s_pc s) -> in_loop (List.length (s_workers s)) (s_pc s').
Proof.
  intros E L. assert (forall k f, on_worker s k f = Some s' -> s_pc s' = s_pc s) as Kw by (intros k f H; unfold on_worker in H; destruct (nth_error _ _); [|discriminate]; destruct (f _); [|discriminate]; now injection H as <-).
  destruct ev; cbn [sup_step] in E; try (apply Kw in E; now rewrite E); destruct (s_pc s) as [i|i|i|i|i|i| |] eqn:P; try discriminate; cbn [in_loop] in L.
  - destruct (nth_error _ _); [|discriminate]. destruct (w_alive _); [now injection E as <-|]. destruct ok; now injection E as <-.
  - destruct (nth_error _ _); [|discriminate]. destruct (w_booted _); [now injection E as <-|discriminate].
  - destruct (nth_error _ _); [|discriminate]. destruct (w_pings _), (_ || _); now injection E as <-.
  - injection E as <-. cbn [s_pc in_loop]. destruct (Nat.ltb_spec (S i) (List.length (s_workers s))); [assumption|lia].
  - now injection E as <-.
  - now injection E as <-.
  - now injection E as <-.
  - now injection E as <-.
  - destruct (nth_error _ _); [destruct (_ || _)|]; now injection E as <-.
  - destruct (nth_error _ _); [|discriminate]. destruct (w_alive _); [discriminate|]. now injection E as <-.
Qed.
Lemma step_need s ev s' k : sup_step s ev = Some s' -> in_loop (List.length (s_workers s)) (s_pc s) -> (k < List.length (s_workers s))%nat -> ~ ((exists ok, ev = PCheck ok) /\ s_pc s = Check k) ->
  let n := List.length (s_workers s) in
  (match ev with PSleep => 1 | _ => 0 end + need n k (s_pc s') <= need n k (s_pc s))%nat /\ (1 <= need n k (s_pc s'))%nat.
Proof.
  intros E L Lk Nc n. assert (forall p, (1 <= need n k p)%nat) as N1 by (intros [i|i|i|i|i|i| |]; cbn [need]; repeat (match goal with |- context [if ?b then _ else _] => destruct b end); lia). split; [|apply N1].
  assert (forall k0 f, on_worker s k0 f = Some s' -> s_pc s' = s_pc s) as Kw by (intros k0 f H; unfold on_worker in H; destruct (nth_error _ _); [|discriminate]; destruct (f _); [|discriminate]; now injection H as <-).
  destruct ev; cbn [sup_step] in E; try (apply Kw in E; rewrite E; lia); destruct (s_pc s) as [i|i|i|i|i|i| |] eqn:P; try discriminate; cbn [in_loop] in L.
  - assert (i <> k) as Nk by (intros ->; apply Nc; split; [now exists ok|reflexivity]). fold n in L. assert (need n k (Boot i) <= need n k (Check i))%nat as Kb by (cbn [need]; destruct (Nat.ltb_spec i k), (Nat.leb_spec i k); lia).
    assert (need n k (Ping i) = need n k (Boot i)) as Kp by reflexivity. assert (need n k Crashed <= need n k (Check i))%nat as Kc by (specialize (N1 (Check i)); cbn [need] in *; lia).
    destruct (nth_error _ _); [|discriminate]. destruct (w_alive _); [injection E as <-; cbn [s_pc]; lia|]. destruct ok; injection E as <-; cbn [s_pc]; lia.
  - destruct (nth_error _ _); [|discriminate]. destruct (w_booted _); [injection E as <-; cbn [s_pc need]; lia|discriminate].
  - assert (need n k Crashed <= need n k (Ping i))%nat as Kc by (specialize (N1 (Ping i)); cbn [need] in *; lia). assert (need n k (Sleep i) = need n k (Ping i)) as Ks by reflexivity. destruct (nth_error _ _); [|discriminate]. destruct (w_pings _), (_ || _); injection E as <-; cbn [s_pc]; lia.
  - injection E as <-. cbn [s_pc]. fold n. fold n in L, Lk. destruct (Nat.ltb_spec (S i) n); cbn [need].
    + destruct (Nat.leb_spec (S i) k), (Nat.ltb_spec i k); lia.
    + destruct (Nat.leb_spec 0 k), (Nat.ltb_spec i k); lia.
  - injection E as <-. cbn [s_pc]. specialize (N1 (Check i)). cbn [need] in *. lia.
  - injection E as <-. cbn [s_pc]. specialize (N1 (Boot i)). cbn [need] in *. lia.
  - injection E as <-. cbn [s_pc]. specialize (N1 (Ping i)). cbn [need] in *. lia.
  - injection E as <-. cbn [s_pc]. specialize (N1 (Sleep i)). cbn [need] in *. lia.
  - destruct (nth_error _ _); [destruct (_ || _)|]; injection E as <-; cbn [s_pc need]; lia.
  - destruct (nth_error _ _); [|discriminate]. destruct (w_alive _); [discriminate|]. injection E as <-; cbn [s_pc need]; lia.
Qed.
Lemma replaced_main k p tr : forall s s', pids_ok s -> in_loop (List.length (s_workers s)) (s_pc s) -> pid_at k s = Some p -> dead_at k s -> run sup_step s tr = Some s' -> pid_at k s' = Some p ->
  (sleeps tr < need (List.length (s_workers s)) k (s_pc s))%nat.
Proof.
  induction tr as [|ev tr IH]; intros s s' I L P D R E; assert (k < List.length (s_workers s))%nat as Lk by (apply nth_error_Some; unfold pid_at in P; now destruct (nth_error _ _)).
  - cbn [sleeps]. destruct (s_pc s); cbn [need]; repeat (match goal with |- context [if ?b then _ else _] => destruct b end); lia.
  - cbn [run] in R. destruct (sup_step s ev) as [s1|] eqn:E1; [|discriminate]. destruct (step_pid s ev s1 I E1) as (Ln & I1 & K). pose proof (step_pc s ev s1 E1 L) as L1. rewrite <- Ln in L1.
    destruct (K k) as [[X Y]|(_ & _ & _ & X & _)].
    + destruct ev as [| | | |ok| | | | | |]; try (destruct (step_need s _ s1 k E1 L Lk ltac:(intros [[? Z] _]; discriminate)) as [A B]; specialize (IH s1 s' I1 L1 (eq_trans X P) (Y D) R E); rewrite Ln in IH; cbn [sleeps]; cbn in A; lia).
      specialize (IH s1 s' I1 L1 (eq_trans X P) (Y D) R E). rewrite Ln in IH. cbn [sleeps]. destruct D as (w & Ew & Ea). destruct (s_pc s) as [i|i|i|i|i|i| |] eqn:Pc; try (cbn [sup_step] in E1; rewrite Pc in E1; discriminate).
      destruct (Nat.eq_dec i k) as [->|N].
      * cbn [sup_step] in E1. rewrite Pc, Ew, Ea in E1. destruct ok; injection E1 as <-.
        -- exfalso. unfold pid_at in X. cbn in X. rewrite nth_upd, Nat.eqb_refl, nth_error_map, Ew in X. cbn in X. unfold pids_ok in I. rewrite Forall_forall in I. apply nth_error_In, I in Ew. injection X as X. lia.
        -- cbn [s_pc need] in IH |- *. destruct (Nat.leb_spec k k); lia.
      * destruct (step_need s (PCheck ok) s1 k E1 ltac:(now rewrite Pc) Lk ltac:(intros [_ Z]; congruence)) as [A B]. rewrite Pc in A. cbn [Nat.add] in A. lia.
    + exfalso. destruct (run_pids tr s1 s' I1 R) as (_ & _ & K2). destruct (K2 k _ X) as (q & Q & Le). rewrite E in Q. injection Q as <-.
      unfold pid_at in P. destruct (nth_error (s_workers s) k) as [w|] eqn:Ew; [|discriminate]. injection P as <-. unfold pids_ok in I. rewrite Forall_forall in I. apply nth_error_In, I in Ew. lia.
Qed.
Lemma need_bound n k p : (k < n)%nat -> in_loop n p -> (need n k p <= n + 1)%nat.
Proof. intros K L. destruct p; cbn [need in_loop] in *; repeat (match goal with |- context [if ?b then _ else _] => destruct b eqn:? end); rewrite ?Nat.leb_le, ?Nat.leb_gt, ?Nat.ltb_lt, ?Nat.ltb_ge in *; lia. Qed.

(** The worker. *)
Definition gos (n : nat) (v : serving) : option serving := run serve_ev v (repeat Go n).
Lemma gos_S n v : gos (S n) v = match serve_step v with Some v' => gos n v' | None => None end.
Proof. reflexivity. Qed.
Lemma to_recv v : v_pc v <> Stopped -> v_in v <> [] \/ v_closed v = true -> exists n v', gos n v = Some v' /\ (v_pc v' = Stopped \/ v_pc v' = Receiving /\ v_in v' = v_in v /\ v_closed v' = v_closed v).
Proof.
  intros N P. destruct v as [p num l c st]. cbn [v_pc v_in v_closed] in *. assert (match l with [] => c | _ => true end = true) as Pp by (destruct l; [destruct P; [easy|assumption]|reflexivity]).
  assert (forall k st', exists n v', gos n (mkV (Waiting k) num l c st') = Some v' /\ v_pc v' = Receiving /\ v_in v' = l /\ v_closed v' = c) as Kw.
  { intros [|k] st'; exists 1%nat; rewrite gos_S; unfold serve_step; cbn [v_pc v_in v_closed v_num v_sent]; [eexists; split; [reflexivity|now cbn]|]. rewrite Pp. eexists. split; [reflexivity|]. now cbn. }
  destruct p as [|k| |]; try easy.
  - destruct c.
    + exists 1%nat. eexists. split; [reflexivity|]. now left.
    + destruct (Kw (2 * num)%nat (S st)) as (n & v' & E & R). exists (S n), v'. rewrite gos_S. unfold serve_step. cbn [v_pc v_closed v_num v_in v_sent]. split; [exact E|now right].
  - destruct (Kw k st) as (n & v' & E & R). exists n, v'. split; [exact E|now right].
  - exists 0%nat. eexists. split; [reflexivity|]. right. now cbn.
Qed.
Lemma gos_add a : forall b v, gos (a + b) v = match gos a v with Some v' => gos b v' | None => None end.
Proof. induction a as [|a IH]; intros b v; [reflexivity|]. cbn [Nat.add]. rewrite !gos_S. destruct (serve_step v); [apply IH|reflexivity]. Qed.
Lemma told_main l : forall v, v_in v = l -> v_pc v <> Stopped -> In 0%nat l \/ v_closed v = true -> exists n v', gos n v = Some v' /\ v_pc v' = Stopped.
Proof.
  induction l as [|m l IH]; intros v El Np P.
  - destruct P as [[]|C]. destruct (to_recv v Np (or_intror C)) as (n & v1 & E & [S1|(R1 & I1 & C1)]); [now exists n, v1|]. exists (n + 1)%nat. rewrite gos_add, E, gos_S. unfold serve_step. rewrite R1, I1, El, C1, C. eexists. now split.
  - assert (v_in v <> []) as Ne by (rewrite El; discriminate). destruct (to_recv v Np (or_introl Ne)) as (n & v1 & E & [S1|(R1 & I1 & C1)]); [now exists n, v1|]. rewrite El in I1.
    assert (serve_step v1 = Some (mkV (match m with O => Stopped | _ => Sending end) m l (v_closed v1) (v_sent v1))) as E1 by (unfold serve_step; now rewrite R1, I1).
    destruct m as [|m].
    + exists (n + 1)%nat. rewrite gos_add, E, gos_S, E1. eexists. now split.
    + destruct (IH (mkV Sending (S m) l (v_closed v1) (v_sent v1)) eq_refl ltac:(discriminate)) as (n2 & v2 & E2 & S2); [cbn; rewrite C1; destruct P as [[X|X]|X]; [discriminate|now left|now right]|].
      exists (n + S n2)%nat, v2. rewrite gos_add, E, gos_S, E1. now split.
Qed.
Lemma stopped_main tr v : run serve_ev serve_new tr = Some v -> v_pc v = Stopped -> In (Arrive 0) tr \/ In ParentGone tr.
Proof.
  assert (forall tr s, run serve_ev s tr = Some v -> v_pc v = Stopped -> v_pc s = Stopped \/ v_closed s = true \/ In 0%nat (v_in s) \/ In (Arrive 0) tr \/ In ParentGone tr) as K.
  { clear tr. induction tr as [|ev tr IH]; intros s R S; cbn [run] in R; [injection R as <-; now left|]. destruct (serve_ev s ev) as [s1|] eqn:E; [|discriminate]. specialize (IH s1 R S). destruct ev as [n| |]; cbn [serve_ev] in E.
    - destruct (v_closed s) eqn:C; [discriminate|]. injection E as <-. cbn [v_pc v_closed v_in] in IH. destruct IH as [X|[X|[X|[X|X]]]].
      + now left.
      + discriminate.
      + apply in_app_or in X as [X|[X|[]]]; [auto|]. subst n. right; right; right; left. now left.
      + right; right; right; left. now right.
      + right; right; right; right. now right.
    - right; right; right; right. now left.
    - assert (forall A B C : Prop, A \/ B \/ C \/ In (Arrive 0) tr \/ In ParentGone tr -> A \/ B \/ C \/ In (Arrive 0) (Go :: tr) \/ In ParentGone (Go :: tr)) as Kg by (intros A B C H; cbn [In]; tauto).
      unfold serve_step in E. destruct s as [p num l c st]. cbn [v_pc v_in v_closed v_num v_sent] in *. apply Kg. destruct p as [|[|k]| |]; try discriminate.
      + destruct c; [tauto|]. injection E as <-. cbn [v_pc v_in v_closed] in IH. destruct IH as [X|X]; [discriminate|tauto].
      + injection E as <-. cbn [v_pc v_in v_closed] in IH. destruct IH as [X|X]; [discriminate|tauto].
      + injection E as <-. cbn [v_pc v_in v_closed] in IH. destruct IH as [X|X]; [destruct l; [destruct c; discriminate|discriminate]|tauto].
      + destruct l as [|n l]; [destruct c; [tauto|discriminate]|]. injection E as <-. cbn [v_pc v_in v_closed] in IH. cbn [In]. destruct n; [tauto|]. destruct IH as [X|X]; [discriminate|tauto]. }
  intros R S. destruct (K tr serve_new R S) as [X|[X|[X|X]]]; try discriminate; try easy.
Qed.

(** Replies. *)
Definition replies_ok (n : nat) (s : sup) : Prop := List.length (s_workers s) = n /\ Forall (fun w => Forall (fun x => x = n) (w_replies w)) (s_workers s) /\ match s_pc s with Stop _ | Join _ | Over => False | _ => True end.
Lemma upd_forall {A} (P : A -> Prop) i x l : P x -> Forall P l -> Forall P (upd i x l).
Proof. intros Hx Hl. revert i. induction Hl as [|y l Hy Hl IH]; intros [|i]; cbn [upd]; constructor; auto. Qed.
Lemma step_replies n s ev s' : replies_ok n s -> ev <> Interrupt -> sup_step s ev = Some s' -> replies_ok n s'.
Proof.
  intros (L & F & P) Ni E. pose proof (proj1 (Forall_forall _ _) F) as F'.
  assert (forall k f, on_worker s k f = Some s' -> (forall w w', f w = Some w' -> w_replies w' = w_replies w) -> replies_ok n s') as Kw.
  { intros k f H K. unfold on_worker in H. destruct (nth_error (s_workers s) k) as [w|] eqn:Ew; [|discriminate]. destruct (f w) as [w'|] eqn:Ef; [|discriminate]. injection H as <-. split; [|split; [|exact P]]; cbn [s_workers]; [now rewrite upd_length|].
    apply upd_forall; [|exact F]. rewrite (K w w' Ef). apply F'. now apply nth_error_In in Ew. }
  assert (forall p, goto s p = Some s' -> match p with Stop _ | Join _ | Over => False | _ => True end -> replies_ok n s') as Kg by (intros p H Hp; injection H as <-; now split).
  destruct ev; cbn [sup_step] in E.
  - apply (Kw _ _ E). intros w w' H. destruct (w_open w); [|discriminate]. now injection H as <-.
  - apply (Kw _ _ E). intros w w' H. destruct (_ && _); [|discriminate]. now injection H as <-.
  - apply (Kw _ _ E). intros w w' H. now injection H as <-.
  - apply (Kw _ _ E). intros w w' H. now injection H as <-.
  - destruct (s_pc s) eqn:Pc; try discriminate. destruct (nth_error _ _); [|discriminate]. destruct (w_alive _); [now apply (Kg _ E)|]. destruct ok; [|now apply (Kg _ E)]. injection E as <-. split; [|split; [|exact I]]; cbn [s_workers]; [now rewrite upd_length, map_length|].
    apply upd_forall; [constructor|]. apply Forall_map. exact F.
  - destruct (s_pc s) eqn:Pc; try discriminate. destruct (nth_error _ _); [|discriminate]. destruct (w_booted _); [now apply (Kg _ E)|discriminate].
  - destruct (s_pc s) eqn:Pc; try discriminate. destruct (nth_error _ _) as [w|] eqn:Ew; [|discriminate]. destruct (w_pings w); destruct (_ || _); try (now apply (Kg _ E)). injection E as <-. split; [|split; [|exact I]]; cbn [s_workers]; [now rewrite upd_length|].
    apply upd_forall; [|exact F]. cbn [w_replies]. apply Forall_app. split; [apply F'; now apply nth_error_In in Ew|]. now repeat constructor.
  - destruct (s_pc s) eqn:Pc; try discriminate. now apply (Kg _ E).
  - easy.
  - destruct (s_pc s) eqn:Pc; try discriminate. destruct P.
  - destruct (s_pc s) eqn:Pc; try discriminate. destruct P.
Qed.
Lemma run_replies n tr : forall s s', replies_ok n s -> ~ In Interrupt tr -> run sup_step s tr = Some s' -> replies_ok n s'.
Proof.
  induction tr as [|ev tr IH]; intros s s' H N R; cbn [run] in R; [now injection R as <-|]. destruct (sup_step s ev) as [s1|] eqn:E; [|discriminate]. cbn [In] in N. apply (IH s1 s'); [|tauto|exact R]. apply (step_replies n s ev); [exact H|tauto|exact E].
Qed.
