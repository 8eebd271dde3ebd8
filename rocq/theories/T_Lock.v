(** C43: locks. A schedule is a list of steps from [l_init n], with [n] tasks outside. *)
From Verif Require Import PyBytes Trans M_Lock S_Lock P_Lock.

(** At most one task is inside, in all schedules in which no `async with` fails to get the
    lock (by a timeout or a cancelled task). [_partial]: these are needed, see below. *)
Theorem c43_exclusion_partial : forall n ops s a b, with_succeeds (l_init n) ops -> run l_step (l_init n) ops = Some s -> inside s a -> inside s b -> a = b.
Proof. exact exclusion. Qed.
Print Assumptions c43_exclusion_partial.
(** With `await lock.acquire()` and `lock.release()` instead it holds in all schedules with
    all timeouts and cancels. *)
Theorem c43_acquire : forall n ops s a b, calls_only ops -> run l_step (l_init n) ops = Some s -> inside s a -> inside s b -> a = b.
Proof. exact exclusion_calls. Qed.
Print Assumptions c43_acquire.
Definition ops43 := [Enter 0 MWith; Enter 1 MCall; Start 1; Start 0; Acquire 1; Deliver 1; Resume 1; Enter 2 MCall; Start 1; Timer 2; Leave 1; Acquire 0; Deliver 0; Resume 0; Resume 2].
Example c43_example : with_succeeds (l_init 3) ops43 /\ exists s, run l_step (l_init 3) ops43 = Some s /\ inside s 0 /\ ~ inside s 1 /\ ~ inside s 2.
Proof.
  split; [|eexists; split; [vm_compute; reflexivity|]; repeat split; discriminate].
  intros a t b s1 E R. unfold ops43 in E.
  do 16 (destruct a as [|? a]; cbn [app] in E;
    [first [discriminate E|injection E as <- <-; vm_compute in R; injection R as <-; vm_compute; discriminate]|first [discriminate E|injection E as <- E]]).
Qed.

(** And the lock is given on: as long as there were no timeouts and cancels, if a task wants it and nobody is inside, then somebody can get in, without a
    timeout. *)
Theorem c43_given_partial : forall n ops s t, calm ops -> run l_step (l_init n) ops = Some s -> wants s t -> (forall a, ~ inside s a) ->
  exists more s' a, calm more /\ run l_step s more = Some s' /\ inside s' a.
Proof. exact released. Qed.
Print Assumptions c43_given_partial.
Example c43_given_example : exists ops s, calm ops /\ run l_step (l_init 2) ops = Some s /\ wants s 1 /\ (forall a, ~ inside s a) /\ In (Leave 0) ops.
Proof.
  exists [Enter 0 MWith; Start 0; Acquire 0; Deliver 0; Enter 1 MCall; Resume 0; Leave 0]. eexists. split; [repeat constructor|]. split; [vm_compute; reflexivity|].
  split; [exists (TWait MCall); repeat split; discriminate|]. split; [|cbn; tauto]. intros [|[|[|a]]]; discriminate.
Qed.

(** The full claim is false: when acquire times out, `async with` releases the lock of the
    task inside and goes in as well. *)
Theorem c43_timeout_refuted : exists ops s, run l_step (l_init 2) ops = Some s /\ inside s 0 /\ inside s 1.
Proof. exists [Enter 0 MWith; Start 0; Acquire 0; Deliver 0; Resume 0; Enter 1 MWith; Start 0; Expire 0; Deliver 0; Resume 1]. eexists. split; [vm_compute; reflexivity|]. split; reflexivity. Qed.
Print Assumptions c43_timeout_refuted.
(** Cancelling a task that waits for the lock lets it in, too. *)
Theorem c43_cancel_refuted : exists ops s, run l_step (l_init 2) ops = Some s /\ inside s 0 /\ inside s 1.
Proof. exists [Enter 0 MWith; Start 0; Acquire 0; Deliver 0; Resume 0; Enter 1 MWith; Start 0; Kill 1; Resume 1]. eexists. split; [vm_compute; reflexivity|]. split; reflexivity. Qed.
Print Assumptions c43_cancel_refuted.
(** A timeout of acquire() can leave the lock held by nobody, for good: the thread gets it
    after the future was cancelled. *)
Theorem c43_leak_refuted : exists ops s, run l_step (l_init 1) ops = Some s /\ calls_only ops /\ l_held s = true /\ l_tasks s = [TOut] /\ l_jobs s = [].
Proof.
  exists [Enter 0 MCall; Start 0; Timer 0; Acquire 0; Deliver 0; Resume 0]. eexists. split; [vm_compute; reflexivity|].
  split; [intros t H; cbn in H; intuition discriminate|]. repeat split.
Qed.
Print Assumptions c43_leak_refuted.
