From Verif Require Import PyBytes Trans M_Queue M_Lock S_Lock P_Queue.

Definition ht (p : ltask) : nat := match p with TIn => 1 | TReady _ true => 1 | _ => 0 end.
Definition hj (j : job) : nat := match j_state j with JDone true => 1 | _ => 0 end.
Fixpoint sum {A} (f : A -> nat) (l : list A) : nat := match l with [] => 0 | x :: l' => f x + sum f l' end.
Lemma sum_app {A} (f : A -> nat) a b : sum f (a ++ b) = sum f a + sum f b.
Proof. induction a as [|x a IH]; cbn [app sum]; lia. Qed.
Lemma sum_upd {A} (f : A -> nat) i x y l : nth_error l i = Some y -> sum f (upd i x l) + f y = sum f l + f x.
Proof. intros E. destruct (upd_split i x y l E) as (l1 & l2 & -> & _ & ->). rewrite !sum_app. cbn [sum]. lia. Qed.
Lemma sum_drop i l j : nth_error l i = Some j -> sum hj (drop_job i l) + hj j = sum hj l.
Proof.
  intros E. unfold drop_job. destruct (nth_error_split l i E) as (l1 & l2 & -> & <-). rewrite firstn_app, firstn_all, Nat.sub_diag. cbn [firstn].
  replace (skipn (S (List.length l1)) (l1 ++ j :: l2)) with l2; [rewrite app_nil_r, !sum_app; cbn [sum]; lia|].
  clear. induction l1; [reflexivity|]. exact IHl1.
Qed.
Lemma sum_detach t l : sum hj (detach t l) = sum hj l.
Proof.
  induction l as [|[o st] l IH]; [reflexivity|]. unfold detach in *. cbn [flat_map j_task j_state]. rewrite sum_app, IH.
  destruct o as [t'|]; [destruct (Nat.eqb t' t); [destruct st as [| |[]]|]|]; cbn [sum]; rewrite ?Nat.add_0_r; reflexivity.
Qed.

Definition total (s : lockst) : nat := sum ht (l_tasks s) + sum hj (l_jobs s).
Definition linv (s : lockst) : Prop := total s <= if l_held s then 1 else 0.

Lemma linv_init n : linv (l_init n).
Proof. unfold linv, total. cbn [l_init l_tasks l_jobs l_held sum]. assert (sum ht (repeat TOut n) = 0) by (induction n; cbn; auto). lia. Qed.

Lemma linv_step s o s' : linv s -> (forall t, o = Resume t -> nth_error (l_tasks s) t <> Some (TReady MWith false)) ->
  l_step s o = Some s' -> linv s'.
Proof.
  unfold linv, total. intros I W E.
  assert (forall t x y, nth_error (l_tasks s) t = Some y -> sum ht (upd t x (l_tasks s)) + ht y = sum ht (l_tasks s) + ht x) as T by (intros; now apply sum_upd).
  assert (forall t x y, nth_error (l_jobs s) t = Some y -> sum hj (upd t x (l_jobs s)) + hj y = sum hj (l_jobs s) + hj x) as J by (intros; now apply sum_upd).
  destruct o as [t m|i|i|i|i|t|t|t|t]; cbn [l_step] in E.
  - destruct (nth_error (l_tasks s) t) as [[]|] eqn:N; try discriminate. injection E as <-. cbn [l_held l_tasks l_jobs]. apply (T _ (TWait m)) in N.
    rewrite sum_app. cbn in *. lia.
  - destruct (nth_error (l_jobs s) i) as [[t []]|] eqn:N; try discriminate. injection E as <-. cbn [l_held l_tasks l_jobs]. apply (J _ (mkJob t JRunning)) in N. cbn in *. lia.
  - destruct (nth_error (l_jobs s) i) as [[t []]|] eqn:N; try discriminate. destruct (l_held s); [discriminate|]. injection E as <-. cbn [l_held l_tasks l_jobs].
    apply (J _ (mkJob t (JDone true))) in N. cbn in *. lia.
  - destruct (nth_error (l_jobs s) i) as [[t []]|] eqn:N; try discriminate. injection E as <-. cbn [l_held l_tasks l_jobs]. apply (J _ (mkJob t (JDone false))) in N. cbn in *. lia.
  - destruct (nth_error (l_jobs s) i) as [[[t|] [| |ok]]|] eqn:N; try discriminate.
    + destruct (nth_error (l_tasks s) t) as [[|m| |]|] eqn:M; try discriminate. injection E as <-. cbn [l_held l_tasks l_jobs].
      apply (T _ (TReady m ok)) in M. apply sum_drop in N. destruct ok; cbn in *; lia.
    + injection E as <-. cbn [l_held l_tasks l_jobs]. apply sum_drop in N. lia.
  - destruct (nth_error (l_tasks s) t) as [[|m| |]|] eqn:M; try discriminate. injection E as <-. cbn [l_held l_tasks l_jobs]. rewrite sum_detach.
    apply (T _ (TReady m false)) in M. cbn in *. lia.
  - destruct (nth_error (l_tasks s) t) as [[|m|m ok|]|] eqn:M; try discriminate; injection E as <-; cbn [set_task l_held l_tasks l_jobs]; rewrite ?sum_detach;
      apply (T _ (TReady m false)) in M; try destruct ok; cbn in *; lia.
  - specialize (W t eq_refl). destruct (nth_error (l_tasks s) t) as [[|m|[|] [|]|]|] eqn:M; try discriminate; try easy; injection E as <-; cbn [set_task l_held l_tasks l_jobs].
    + apply (T _ TIn) in M. cbn in *. lia.
    + apply (T _ TIn) in M. cbn in *. lia.
    + apply (T _ TOut) in M. cbn in *. lia.
  - destruct (nth_error (l_tasks s) t) as [[]|] eqn:M; try discriminate. injection E as <-. cbn [set_task unlock l_held l_tasks l_jobs].
    apply (T _ TOut) in M. cbn [ht] in M. destruct (l_held s); lia.
Qed.

Lemma linv_run ops : forall s s', linv s -> with_succeeds s ops -> run l_step s ops = Some s' -> linv s'.
Proof.
  induction ops as [|o ops IH]; intros s s' I W R; cbn [run] in R; [congruence|]. destruct (l_step s o) as [s1|] eqn:E; [|discriminate].
  apply (IH s1); [|intros a t b s2 -> Ra; apply (W (o :: a) t b); [reflexivity|cbn [run]; now rewrite E]|exact R].
  apply (linv_step s o); [exact I| |exact E]. intros t ->. apply (W [] t ops s); reflexivity.
Qed.

Lemma sum_two (l : list ltask) a b : nth_error l a = Some TIn -> nth_error l b = Some TIn -> a <> b -> 2 <= sum ht l.
Proof.
  revert a b. induction l as [|x l IH]; intros [|a] [|b] A B N; cbn in A, B; try discriminate; try easy; cbn [sum].
  - injection A as ->. apply (sum_upd ht b TOut) in B. cbn in *. lia.
  - injection B as ->. apply (sum_upd ht a TOut) in A. cbn in *. lia.
  - specialize (IH a b A B ltac:(lia)). lia.
Qed.
Lemma exclusion n ops s a b : with_succeeds (l_init n) ops -> run l_step (l_init n) ops = Some s -> inside s a -> inside s b -> a = b.
Proof.
  intros W R A B. apply (linv_run _ _ _ (linv_init n) W) in R. destruct (Nat.eq_dec a b) as [|N]; [assumption|]. exfalso.
  pose proof (sum_two _ _ _ A B N). unfold linv, total in R. destruct (l_held s); lia.
Qed.
(** Nobody uses `async with`: no condition. *)

Lemma no_with ops : forall s s', (forall t m, nth_error (l_tasks s) t = Some (TWait m) -> m = MCall) ->
  (forall t m ok, nth_error (l_tasks s) t = Some (TReady m ok) -> m = MCall) -> calls_only ops -> run l_step s ops = Some s' ->
  forall t m ok, nth_error (l_tasks s') t = Some (TReady m ok) -> m = MCall.
Proof.
  induction ops as [|o ops IH]; intros s s' W1 W2 C R; cbn [run] in R; [injection R as <-; exact W2|]. destruct (l_step s o) as [s1|] eqn:E; [|discriminate].
  assert (forall t x, nth_error (l_tasks s) t <> None -> (forall m, x = TWait m -> m = MCall) -> (forall m ok, x = TReady m ok -> m = MCall) ->
     (forall t' m, nth_error (upd t x (l_tasks s)) t' = Some (TWait m) -> m = MCall) /\
     (forall t' m ok, nth_error (upd t x (l_tasks s)) t' = Some (TReady m ok) -> m = MCall)) as U.
  { intros t x N X1 X2. apply nth_error_Some in N. split; intros t'; [intros m|intros m ok]; rewrite nth_error_upd by exact N; destruct (Nat.eqb t' t).
    - intros H. injection H as H. eauto. - apply W1. - intros H. injection H as H. eauto. - apply W2. }
  assert ((forall t m, nth_error (l_tasks s1) t = Some (TWait m) -> m = MCall) /\ (forall t m ok, nth_error (l_tasks s1) t = Some (TReady m ok) -> m = MCall)) as [V1 V2].
  { destruct o as [t m|i|i|i|i|t|t|t|t]; cbn [l_step] in E.
    - destruct (nth_error (l_tasks s) t) as [[]|] eqn:N; try discriminate. injection E as <-. cbn [l_tasks]. apply U; [congruence| |discriminate].
      intros m' H. injection H as <-. destruct m; [|reflexivity]. destruct (C t). now left.
    - destruct (nth_error (l_jobs s) i) as [[t []]|] eqn:N; try discriminate. now injection E as <-.
    - destruct (nth_error (l_jobs s) i) as [[t []]|] eqn:N; try discriminate. destruct (l_held s); [discriminate|]. now injection E as <-.
    - destruct (nth_error (l_jobs s) i) as [[t []]|] eqn:N; try discriminate. now injection E as <-.
    - destruct (nth_error (l_jobs s) i) as [[[t|] [| |ok]]|] eqn:N; try discriminate; [|now injection E as <-].
      destruct (nth_error (l_tasks s) t) as [[|m| |]|] eqn:M; try discriminate. injection E as <-. apply U; [congruence|discriminate|]. intros m' k H. injection H as <- _. eauto.
    - destruct (nth_error (l_tasks s) t) as [[|m| |]|] eqn:M; try discriminate. injection E as <-. apply U; [congruence|discriminate|]. intros m' k H. injection H as <- _. eauto.
    - destruct (nth_error (l_tasks s) t) as [[|m|m k0|]|] eqn:M; try discriminate; injection E as <-; (apply U; [congruence|discriminate|]; intros m' k H; injection H as <- _; eauto).
    - destruct (nth_error (l_tasks s) t) as [[|m|[|] [|]|]|] eqn:M; try discriminate; injection E as <-; (apply U; [congruence|discriminate|discriminate]).
    - destruct (nth_error (l_tasks s) t) as [[]|] eqn:M; try discriminate. injection E as <-. apply U; [congruence|discriminate|discriminate]. }
  apply (IH s1); auto. intros t X. apply (C t). now right.
Qed.
Lemma exclusion_calls n ops s a b : calls_only ops -> run l_step (l_init n) ops = Some s -> inside s a -> inside s b -> a = b.
Proof.
  intros C. apply exclusion. intros x t y s1 -> R H.
  assert (forall k p, nth_error (repeat TOut n) k = Some p -> p = TOut) as K. { intros k p X. now apply nth_error_In, repeat_spec in X. }
  assert (calls_only x) as Cx. { intros t' X. apply (C t'). apply in_or_app. now left. }
  pose proof (no_with x (l_init n) s1) as NW. specialize (NW ltac:(intros ? ? X; apply K in X; discriminate) ltac:(intros ? ? ? X; apply K in X; discriminate) Cx R t MWith false H). discriminate.
Qed.

(** Without timeouts and cancels the lock is held by someone, or free. *)
Record cinv (s : lockst) : Prop := mkCI {
  ci_total : total s = if l_held s then 1 else 0;
  ci_ready : forall t m, nth_error (l_tasks s) t <> Some (TReady m false);
  ci_job : forall i j, nth_error (l_jobs s) i = Some j -> j_state j <> JDone false /\ exists t m, j_task j = Some t /\ nth_error (l_tasks s) t = Some (TWait m);
  ci_wait : forall t m, nth_error (l_tasks s) t = Some (TWait m) -> exists i st, nth_error (l_jobs s) i = Some (mkJob (Some t) st);
  ci_once : forall i i' j j', nth_error (l_jobs s) i = Some j -> nth_error (l_jobs s) i' = Some j' -> j_task j = j_task j' -> i = i' }.
Lemma cinv_init n : cinv (l_init n).
Proof.
  assert (forall t p, nth_error (repeat TOut n) t = Some p -> p = TOut) as K. { intros k p X. now apply nth_error_In, repeat_spec in X. }
  constructor; cbn [l_init l_tasks l_jobs l_held].
  - unfold total. cbn [l_tasks l_jobs sum]. clear K. induction n; cbn; auto.
  - intros t m H. now apply K in H.
  - intros [|i] j H; discriminate.
  - intros t m H. now apply K in H.
  - intros [|i] i' j j' H; discriminate.
Qed.
Lemma drop_nth i k (l : list job) j : nth_error (drop_job i l) k = Some j -> exists k', k' <> i /\ nth_error l k' = Some j /\ k' = if k <? i then k else S k.
Proof.
  unfold drop_job. intros H. destruct (Nat.ltb_spec k i) as [L|L].
  - exists k. split; [lia|]. split; [|reflexivity]. destruct (Nat.ltb_spec k (List.length (firstn i l))) as [L2|L2]; [|].
    + rewrite nth_error_app1 in H by exact L2. clear L2. revert i l L H. induction k as [|k IH]; intros [|i] [|x l] L H; cbn in *; try lia; try discriminate; try assumption. now apply (IH i); [lia|].
    + rewrite nth_error_app2 in H by exact L2. rewrite firstn_length in L2, H. assert (List.length l <= k) by lia. rewrite skipn_all2 in H by lia. now destruct (k - Nat.min i (List.length l)).
  - exists (S k). split; [lia|]. split; [|reflexivity]. destruct (Nat.ltb_spec k (List.length (firstn i l))) as [L2|L2]; [rewrite firstn_length in L2; lia|].
    rewrite nth_error_app2 in H by exact L2. rewrite firstn_length in H, L2. destruct (Nat.leb_spec (List.length l) i) as [L3|L3]; [rewrite skipn_all2 in H by lia; now destruct (k - Nat.min i (List.length l))|].
    rewrite Nat.min_l in H by lia. assert (forall a b, nth_error (skipn a l) b = nth_error l (a + b)) as SK. { clear. intros a. revert l. induction a as [|a IH]; intros l b; [reflexivity|]. destruct l; [now destruct b|]. cbn. apply IH. }
    rewrite SK in H. replace (S i + (k - i)) with (S k) in H by lia. exact H.
Qed.
Lemma drop_keep i k (l : list job) j : nth_error l k = Some j -> k <> i -> exists k', nth_error (drop_job i l) k' = Some j.
Proof.
  intros H N. apply In_nth_error. unfold drop_job. apply in_or_app. destruct (Nat.lt_ge_cases k i) as [L|L].
  - left. revert i l L H N. induction k as [|k IH]; intros [|i] [|x l] L H N; cbn in *; try lia; try discriminate; [left; congruence|]. right. apply (IH i); [lia|exact H|lia].
  - right. assert (nth_error (skipn (S i) l) (k - S i) = Some j) as X. { rewrite <- H. assert (forall a b, nth_error (skipn a l) b = nth_error l (a + b)) as SK. { clear. intros a. revert l. induction a as [|a IH]; intros l b; [reflexivity|]. destruct l; [now destruct b|]. cbn. apply IH. }
      rewrite SK. f_equal. lia. } now apply nth_error_In in X.
Qed.
Lemma cinv_step s o s' : cinv s -> calm [o] -> l_step s o = Some s' -> cinv s'.
Proof.
  intros I Cm E. pose proof (ci_total _ I) as I1. pose proof (ci_ready _ I) as I2. pose proof (ci_job _ I) as I3. pose proof (ci_wait _ I) as I4. pose proof (ci_once _ I) as I5.
  assert (forall t x y, nth_error (l_tasks s) t = Some y -> sum ht (upd t x (l_tasks s)) + ht y = sum ht (l_tasks s) + ht x) as T by (intros; now apply sum_upd).
  assert (forall t x y, nth_error (l_jobs s) t = Some y -> sum hj (upd t x (l_jobs s)) + hj y = sum hj (l_jobs s) + hj x) as J by (intros; now apply sum_upd).
  assert (forall t x y, nth_error (l_tasks s) t = Some y -> forall t', nth_error (upd t x (l_tasks s)) t' = if Nat.eqb t' t then Some x else nth_error (l_tasks s) t') as UT by (intros t x y H t'; apply nth_error_upd, nth_error_Some; congruence).
  assert (forall t x y, nth_error (l_jobs s) t = Some y -> forall t', nth_error (upd t x (l_jobs s)) t' = if Nat.eqb t' t then Some x else nth_error (l_jobs s) t') as UJ by (intros t x y H t'; apply nth_error_upd, nth_error_Some; congruence).
  unfold total in *. inversion Cm as [|? ? C1 _]; subst.
  assert (forall i t st st', nth_error (l_jobs s) i = Some (mkJob t st) -> st' <> JDone false ->
    (forall k j, nth_error (upd i (mkJob t st') (l_jobs s)) k = Some j -> j_state j <> JDone false /\ exists t0 m, j_task j = Some t0 /\ nth_error (l_tasks s) t0 = Some (TWait m)) /\
    (forall t0 m, nth_error (l_tasks s) t0 = Some (TWait m) -> exists k st0, nth_error (upd i (mkJob t st') (l_jobs s)) k = Some (mkJob (Some t0) st0)) /\
    (forall k k' j j', nth_error (upd i (mkJob t st') (l_jobs s)) k = Some j -> nth_error (upd i (mkJob t st') (l_jobs s)) k' = Some j' -> j_task j = j_task j' -> k = k')) as JJ.
  { intros i t st st' N Ns. split; [|split].
    - intros k j. rewrite (UJ _ _ _ N). destruct (Nat.eqb k i); [|apply I3]. intros H. injection H as <-. cbn [j_state j_task]. split; [exact Ns|]. exact (proj2 (I3 _ _ N)).
    - intros t0 m H. destruct (I4 _ _ H) as (k & st0 & H0). exists k. rewrite (UJ _ _ _ N). destruct (Nat.eqb_spec k i) as [->|]; [|eauto]. rewrite N in H0. injection H0 as -> _. eauto.
    - intros k k' j j'. rewrite !(UJ _ _ _ N). destruct (Nat.eqb_spec k i) as [->|]; destruct (Nat.eqb_spec k' i) as [->|]; intros H H'; [reflexivity| | |apply I5; assumption].
      + injection H as <-. cbn [j_task]. intros X. exact (I5 _ _ _ _ N H' X).
      + injection H' as <-. cbn [j_task]. intros X. exact (I5 _ _ _ _ H N X). }
  destruct o as [t m|i|i|i|i|t|t|t|t]; cbn [l_step] in E; try destruct C1.
  - destruct (nth_error (l_tasks s) t) as [[]|] eqn:N; try discriminate. injection E as <-. pose proof (T _ (TWait m) _ N) as TT. constructor; unfold total; cbn [l_held l_tasks l_jobs].
    + rewrite sum_app. cbn in *. lia.
    + intros t' m'. rewrite (UT _ _ _ N). destruct (Nat.eqb t' t); [discriminate|apply I2].
    + intros i j H. destruct (Nat.ltb_spec i (List.length (l_jobs s))) as [L|L].
      * rewrite nth_error_app1 in H by exact L. destruct (I3 _ _ H) as (A & t0 & m0 & B & D). split; [exact A|]. exists t0, m0. split; [exact B|]. rewrite (UT _ _ _ N). destruct (Nat.eqb_spec t0 t) as [->|]; [congruence|exact D].
      * rewrite nth_error_app2 in H by exact L. destruct (i - List.length (l_jobs s)) as [|[|k]]; try discriminate. injection H as <-. cbn [j_state j_task]. split; [discriminate|]. exists t, m. split; [reflexivity|]. rewrite (UT _ _ _ N). now rewrite Nat.eqb_refl.
    + intros t' m'. rewrite (UT _ _ _ N). destruct (Nat.eqb_spec t' t) as [->|].
      * intros _. exists (List.length (l_jobs s)), JQueued. rewrite nth_error_app2, Nat.sub_diag by lia. reflexivity.
      * intros H. destruct (I4 _ _ H) as (k & st & H0). exists k, st. rewrite nth_error_app1; [exact H0|]. apply nth_error_Some. congruence.
    + assert (forall k j, nth_error (l_jobs s) k = Some j -> j_task j <> Some t) as Nt. { intros k j H X. destruct (I3 _ _ H) as (_ & t0 & m0 & B & D). congruence. }
      intros k k' j j' H H' X. assert (forall k j, nth_error (l_jobs s ++ [mkJob (Some t) JQueued]) k = Some j -> nth_error (l_jobs s) k = Some j \/ (k = List.length (l_jobs s) /\ j_task j = Some t)) as AA.
      { clear. intros k j H. destruct (Nat.ltb_spec k (List.length (l_jobs s))) as [L|L]; [rewrite nth_error_app1 in H by exact L; now left|]. rewrite nth_error_app2 in H by exact L. right. destruct (k - List.length (l_jobs s)) as [|[|n]] eqn:En; try discriminate. injection H as <-. split; [lia|reflexivity]. }
      destruct (AA _ _ H) as [B|[B B']]; destruct (AA _ _ H') as [D|[D D']]; [exact (I5 _ _ _ _ B D X)| | |congruence].
      * destruct (Nt _ _ B). congruence. * destruct (Nt _ _ D). congruence.
  - destruct (nth_error (l_jobs s) i) as [[t []]|] eqn:N; try discriminate. injection E as <-. pose proof (J _ (mkJob t JRunning) _ N) as TT. destruct (JJ i t JQueued JRunning N ltac:(discriminate)) as (K1 & K2 & K3).
    constructor; unfold total; cbn [l_held l_tasks l_jobs]; try assumption. cbn in *. lia.
  - destruct (nth_error (l_jobs s) i) as [[t []]|] eqn:N; try discriminate. destruct (l_held s) eqn:Hh; [discriminate|]. injection E as <-. pose proof (J _ (mkJob t (JDone true)) _ N) as TT. destruct (JJ i t JRunning (JDone true) N ltac:(discriminate)) as (K1 & K2 & K3).
    constructor; unfold total; cbn [l_held l_tasks l_jobs]; try assumption. cbn in *. lia.
  - destruct (nth_error (l_jobs s) i) as [[[t|] [| |ok]]|] eqn:N; try discriminate.
    2:{ destruct (I3 _ _ N) as (_ & t0 & m0 & B & _). discriminate. }
    destruct (nth_error (l_tasks s) t) as [[|m| |]|] eqn:M; try discriminate. injection E as <-. destruct (I3 _ _ N) as (A & _). cbn [j_state] in A. destruct ok; [|congruence].
    pose proof (T _ (TReady m true) _ M) as TT. pose proof (sum_drop _ _ _ N) as TD. constructor; unfold total; cbn [l_held l_tasks l_jobs].
    + cbn in *. lia.
    + intros t' m'. rewrite (UT _ _ _ M). destruct (Nat.eqb t' t); [discriminate|apply I2].
    + intros k j H. destruct (drop_nth _ _ _ _ H) as (k' & Nk & H' & _). destruct (I3 _ _ H') as (B & t0 & m0 & D & F). split; [exact B|]. exists t0, m0. split; [exact D|]. rewrite (UT _ _ _ M). destruct (Nat.eqb_spec t0 t) as [->|]; [|exact F].
      destruct Nk. exact (I5 _ _ _ _ H' N D).
    + intros t' m'. rewrite (UT _ _ _ M). destruct (Nat.eqb_spec t' t) as [->|]; [discriminate|]. intros H. destruct (I4 _ _ H) as (k & st & H0). destruct (drop_keep i k _ _ H0) as (k' & H1); [intros ->; congruence|]. eauto.
    + intros k k' j j' H H' X. destruct (drop_nth _ _ _ _ H) as (k1 & Nk & H1 & Ek). destruct (drop_nth _ _ _ _ H') as (k2 & Nk' & H2 & Ek'). pose proof (I5 _ _ _ _ H1 H2 X). destruct (Nat.ltb_spec k i); destruct (Nat.ltb_spec k' i); lia.
  - assert (forall x, nth_error (l_tasks s) t = Some x -> (forall m, x <> TWait m) -> forall p, (p = TOut \/ p = TIn) ->
      (forall t' m, nth_error (upd t p (l_tasks s)) t' <> Some (TReady m false)) /\
      (forall k j, nth_error (l_jobs s) k = Some j -> j_state j <> JDone false /\ exists t0 m, j_task j = Some t0 /\ nth_error (upd t p (l_tasks s)) t0 = Some (TWait m)) /\
      (forall t' m, nth_error (upd t p (l_tasks s)) t' = Some (TWait m) -> exists k st, nth_error (l_jobs s) k = Some (mkJob (Some t') st))) as LL.
    { intros x M Nx p Hp. split; [|split].
      - intros t' m'. rewrite (UT _ _ _ M). destruct (Nat.eqb t' t); [destruct Hp as [-> | ->]; discriminate|apply I2].
      - intros k j H. destruct (I3 _ _ H) as (B & t0 & m0 & D & F). split; [exact B|]. exists t0, m0. split; [exact D|]. rewrite (UT _ _ _ M). destruct (Nat.eqb_spec t0 t) as [->|]; [|exact F]. destruct (Nx m0). congruence.
      - intros t' m'. rewrite (UT _ _ _ M). destruct (Nat.eqb_spec t' t) as [->|]; [destruct Hp as [-> | ->]; discriminate|]. apply I4. }
    destruct (nth_error (l_tasks s) t) as [[|m|m ok|]|] eqn:M; try discriminate. destruct ok; [|now destruct (I2 _ _ M)]. pose proof (T _ TIn _ M) as TT.
    assert (s' = set_task t TIn s) as -> by (destruct m; congruence). destruct (LL _ eq_refl ltac:(discriminate) TIn (or_intror eq_refl)) as (L1 & L2 & L3).
    constructor; unfold total, set_task; cbn [l_held l_tasks l_jobs]; try assumption. cbn in *. lia.
  - destruct (nth_error (l_tasks s) t) as [[]|] eqn:M; try discriminate. injection E as <-. pose proof (T _ TOut _ M) as TT. cbn [ht] in TT.
    constructor; unfold total, set_task, unlock; cbn [l_held l_tasks l_jobs]; try assumption.
    + destruct (l_held s); lia.
    + intros t' m'. rewrite (UT _ _ _ M). destruct (Nat.eqb t' t); [discriminate|apply I2].
    + intros k j H. destruct (I3 _ _ H) as (B & t0 & m0 & D & F). split; [exact B|]. exists t0, m0. split; [exact D|]. rewrite (UT _ _ _ M). destruct (Nat.eqb_spec t0 t) as [->|]; [congruence|exact F].
    + intros t' m'. rewrite (UT _ _ _ M). destruct (Nat.eqb_spec t' t) as [->|]; [discriminate|]. apply I4.
Qed.
Lemma cinv_run ops : forall s s', cinv s -> calm ops -> run l_step s ops = Some s' -> cinv s'.
Proof.
  induction ops as [|o ops IH]; intros s s' I C R; cbn [run] in R; [congruence|]. destruct (l_step s o) as [s1|] eqn:E; [|discriminate]. inversion C as [|? ? C1 C2]; subst.
  apply (IH s1); [|exact C2|exact R]. apply (cinv_step s o); [exact I| |exact E]. now constructor.
Qed.
Lemma sum_pos {A} (f : A -> nat) l : 0 < sum f l -> exists i x, nth_error l i = Some x /\ 0 < f x.
Proof.
  induction l as [|x l IH]; cbn [sum]; [lia|]. intros H. destruct (f x) eqn:Ef; [|exists 0, x; split; [reflexivity|lia]]. destruct (IH ltac:(lia)) as (i & y & H1 & H2). exists (S i), y. now split.
Qed.
Lemma deliver_in s i t m : nth_error (l_jobs s) i = Some (mkJob (Some t) (JDone true)) -> nth_error (l_tasks s) t = Some (TWait m) ->
  exists s', run l_step s [Deliver i; Resume t] = Some s' /\ inside s' t.
Proof.
  intros N M. assert (t < List.length (l_tasks s)) as L by (apply nth_error_Some; congruence). assert (t < List.length (upd t (TReady m true) (l_tasks s))) as L'. { destruct (upd_split t (TReady m true) _ _ M) as (a & b & E & La & ->). rewrite E in L. rewrite app_length in *. cbn [List.length] in *. lia. }
  cbn [run l_step]. rewrite N, M. cbn [l_tasks l_jobs l_held]. rewrite nth_error_upd, Nat.eqb_refl by exact L. eexists. split; [destruct m; reflexivity|]. unfold inside, set_task. cbn [l_tasks]. rewrite nth_error_upd, Nat.eqb_refl by exact L'. reflexivity.
Qed.
Lemma released n ops s t : calm ops -> run l_step (l_init n) ops = Some s -> wants s t -> (forall a, ~ inside s a) -> exists more s' a, calm more /\ run l_step s more = Some s' /\ inside s' a.
Proof.
  intros C R (p & Hp & Np1 & Np2) No. pose proof (cinv_run _ _ _ (cinv_init n) C R) as I. pose proof (ci_total _ I) as I1. unfold total in I1. destruct (l_held s) eqn:Hh.
  - destruct (sum ht (l_tasks s)) eqn:Et.
    + destruct (sum_pos hj (l_jobs s) ltac:(lia)) as (i & [jt st] & N & Hj). destruct (ci_job _ I _ _ N) as (_ & t0 & m & Ej & M). cbn [j_task] in Ej. subst jt. unfold hj in Hj. cbn [j_state] in Hj. destruct st as [| |[]]; try lia.
      destruct (deliver_in s i t0 m N M) as (s' & R' & In'). exists [Deliver i; Resume t0], s', t0. split; [repeat constructor|]. now split.
    + destruct (sum_pos ht (l_tasks s) ltac:(lia)) as (a & x & N & Hx). destruct x as [| |m [|]|]; cbn in Hx; try lia; [|now destruct (No a)].
      exists [Resume a], (set_task a TIn s), a. split; [repeat constructor|]. cbn [run l_step]. rewrite N. split; [now destruct m|]. unfold inside, set_task. cbn [l_tasks]. rewrite nth_error_upd, Nat.eqb_refl; [reflexivity|]. apply nth_error_Some. congruence.
  - destruct p as [|m|m [|]|]; try congruence.
    + destruct (ci_wait _ I _ _ Hp) as (i & st & N). assert (i < List.length (l_jobs s)) as L by (apply nth_error_Some; congruence). assert (sum hj (l_jobs s) = 0) as Sz by lia.
      assert (hj (mkJob (Some t) st) = 0) as Hj by (pose proof (sum_upd hj i (mkJob None JQueued) _ _ N); cbn [hj j_state] in *; lia). destruct (ci_job _ I _ _ N) as (Nd & _). cbn [j_state] in Nd.
      assert (forall s0 , l_held s0 = false -> nth_error (l_jobs s0) i = Some (mkJob (Some t) JRunning) -> nth_error (l_tasks s0) t = Some (TWait m) -> exists s' a, run l_step s0 [Acquire i; Deliver i; Resume t] = Some s' /\ inside s' a) as X.
      { intros s0 H0 N0 M0. assert (i < List.length (l_jobs s0)) as L0 by (apply nth_error_Some; congruence). cbn [run]. cbn [l_step]. rewrite N0, H0. destruct (deliver_in (mkL true (l_tasks s0) (upd i (mkJob (Some t) (JDone true)) (l_jobs s0))) i t m) as (s' & R' & In').
        - cbn [l_jobs]. rewrite nth_error_upd, Nat.eqb_refl by exact L0. reflexivity. - exact M0. - exists s', t. split; [exact R'|exact In']. }
      destruct st as [| |[]]; [| |discriminate Hj|congruence].
      * destruct (X (mkL (l_held s) (l_tasks s) (upd i (mkJob (Some t) JRunning) (l_jobs s)))) as (s' & a & R' & In'); [exact Hh|cbn [l_jobs]; now rewrite nth_error_upd, Nat.eqb_refl by exact L|exact Hp|].
        exists [Start i; Acquire i; Deliver i; Resume t], s', a. split; [repeat constructor|]. split; [|exact In']. change (run l_step s [Start i; Acquire i; Deliver i; Resume t]) with (match l_step s (Start i) with Some s1 => run l_step s1 [Acquire i; Deliver i; Resume t] | None => None end). cbn [l_step]. now rewrite N.
      * destruct (X s Hh N Hp) as (s' & a & R' & In'). exists [Acquire i; Deliver i; Resume t], s', a. split; [repeat constructor|]. now split.
    + pose proof (sum_upd ht t TOut _ _ Hp) as X. cbn [ht] in X. lia.
    + now destruct (ci_ready _ I _ _ Hp).
Qed.
