(** C44: connections do not see each other's data. C57: a disconnect cleans up everything. *)
From Coq Require Import Permutation.
From Verif Require Import PyBytes M_Worker S_Worker P_Worker.
Local Open Scope string_scope.
Local Open Scope list_scope.

(** ** C57 *)
(** Whatever order the set gives its elements in: every task is cancelled once and every callable is called once, though others raise.
    Partial: the exceptions are Exceptions with a message that can be made, and no callable registers more. *)
Theorem c57_tasks_partial : forall beh pick tasks fuel, quiet beh -> tame beh -> (List.length tasks <= fuel)%nat ->
  exists l, lost_loop beh pick fuel tasks = (l, [], Done) /\ Permutation (handled l) tasks.
Proof. intros beh pick tasks fuel Q T L. apply loop_static; assumption. Qed.
Print Assumptions c57_tasks_partial.

(** If callables register more, and the cleanup ends, all of it is handled too. *)
Theorem c57_more_partial : forall beh pick fuel tasks l rem, lost_loop beh pick fuel tasks = (l, rem, Done) ->
  rem = [] /\ (forall x, In x tasks -> In x (handled l)) /\ (forall n x, In (Call n) l -> In x (fst (beh n)) -> In x (handled l)).
Proof. intros beh pick fuel tasks l rem H. destruct (loop_done _ _ _ _ _ _ H) as (A & B & C). split; [exact A|split; [exact B|]]. intros n x Hn. exact (C n Hn x). Qed.
Print Assumptions c57_more_partial.

(** The connection leaves the keep-alive registry, both its queues are empty, and it has no queue, request or transport any more; other connections and their queues are as before. *)
Theorem c57_cleaned_partial : forall beh pick fuel p w c l w', tame beh -> nth_error (w_conns w) p = Some c -> connection_lost beh pick fuel p w = Some (l, w') ->
  cleaned w' p (p_queue c) /\ (forall q, q <> p -> nth_error (w_conns w') q = nth_error (w_conns w) q) /\ (forall i, p_queue c <> Some i -> heap_get w' i = heap_get w i).
Proof.
  intros beh pick fuel p w c l w' T N H. destruct (lost_cleaned _ _ _ _ _ _ _ _ T N H) as (_ & A & B & C & _). auto.
Qed.
Print Assumptions c57_cleaned_partial.

(** And nothing is queued for it any more: from then on, whatever is queued for it by way of the connection makes no difference. *)
Theorem c57_silent_partial : forall close beh pick fuel p w c l w' evs, tame beh -> nth_error (w_conns w) p = Some c -> connection_lost beh pick fuel p w = Some (l, w') ->
  worker_run close beh pick fuel w' evs = worker_run close beh pick fuel w' (filter (fun ev => negb (queues_for p ev)) evs).
Proof.
  intros close beh pick fuel p w c l w' evs T N H. destruct (lost_cleaned _ _ _ _ _ _ _ _ T N H) as (_ & A & _). apply dead_run.
  destruct (cl_conn _ _ _ A) as (d & Nd & Qd & _). exists d; auto.
Qed.
Print Assumptions c57_silent_partial.

(** Two callables that raise, one that does not, and a task. *)
Definition some_raise : behaviour := fun n => ([], if (n =? 1)%nat then Returns else Raises).
Definition a_worker : list wev := [Connect 7; Start 0; Keep 0; Register 0 (ECall 1); Register 0 (ETask 5); Register 0 (ECall 2); Register 0 (ECall 3); Feed 0 (bs "A"); Put 0 (bs "B"); Put 0 (bs "C")].
Definition a_conn : proto := mkP 7 (Some 0%nat) 0 true false true true true true [ECall 1; ETask 5; ECall 2; ECall 3].
Definition a_state : worker := mkW [mkQs [bs "A"] [bs "B"; bs "C"]] [(7, 0)%nat] [a_conn].
Example c57_example : exists w l c w', worker_run false some_raise (fun n => (n * 7 + 2)%nat) 10 worker_new a_worker = Some (w, []) /\ nth_error (w_conns w) 0 = Some c /\ p_kept c = true /\
  heap_get w 0 = mkQs [(bs "A")] [(bs "B"); (bs "C")] /\ connection_lost some_raise (fun n => (n * 7 + 2)%nat) 10 0 w = Some (l, w') /\
  l = [Call 3; Print 3; Call 2; Print 2; Cancel 5; Call 1] /\ heap_get w' 0 = mkQs [] [] /\ quiet some_raise /\ tame some_raise.
Proof.
  exists a_state, [Call 3; Print 3; Call 2; Print 2; Cancel 5; Call 1], a_conn, (mkW [mkQs [] []] [(7, 0)%nat] [mkP 7 None 0 true false false false true false []]).
  split; [vm_compute; reflexivity|]. split; [reflexivity|]. split; [reflexivity|]. split; [reflexivity|]. split; [vm_compute; reflexivity|].
  split; [reflexivity|]. split; [reflexivity|]. split; [intro; reflexivity|]. intro n; unfold some_raise; cbn; destruct (n =? 1)%nat; discriminate.
Qed.

(** The statement is false of callables that raise something else (asyncio.CancelledError, SystemExit, or an exception whose str() raises): the rest of the tasks is not
    cancelled, and the queues are kept. *)
Example a_state_reached : worker_run false (fun n => ([], Escapes)) (fun _ => O) 10 worker_new a_worker = Some (a_state, []).
Proof. vm_compute. reflexivity. Qed.
Theorem c57_refuted : exists beh pick fuel p w c l w', quiet beh /\ nth_error (w_conns w) p = Some c /\ connection_lost beh pick fuel p w = Some (l, w') /\
  (exists n, In (ETask n) (p_tasks c) /\ ~ In (ETask n) (handled l)) /\ (exists c', nth_error (w_conns w') p = Some c' /\ p_queue c' <> None /\ p_request c' = true) /\
  (forall h, p_queue c = Some h -> q_out (heap_get w' h) <> []).
Proof.
  exists (fun n => ([], Escapes)), (fun _ => O), 10%nat, 0%nat, a_state, a_conn, [Call 1].
  exists (mkW (w_heap a_state) (w_queues a_state) [mkP 7 (Some 0%nat) 0 true false true true true false [ETask 5; ECall 2; ECall 3]]).
  split; [intro; reflexivity|]. split; [reflexivity|]. split; [vm_compute; reflexivity|].
  split; [exists 5%nat; cbn; split; [auto|intros [H|[]]; discriminate]|]. split.
  - eexists; split; [reflexivity|]. cbn. split; [discriminate|reflexivity].
  - intros h Hh. cbn in Hh. injection Hh as <-. cbn. discriminate.
Qed.
Print Assumptions c57_refuted.

(** ** C44 *)
(** Without close middlewares: whatever socket numbers the connections get, every connection is sent just what was queued for it, and in order, and its handlers get just
    what it received. Partial: no callable escapes the cleanup, and no task that the application made itself goes on with a send() of a lost connection. *)
Theorem c44_isolated_partial : forall beh pick fuel evs w l, tame beh -> no_stray evs -> worker_run false beh pick fuel worker_new evs = Some (w, l) -> isolated evs l.
Proof.
  intros beh pick fuel evs w l T NS H. eapply inv_isolated. change evs with ([] ++ evs). change l with ([] ++ l).
  eapply inv_run; [exact T|exact inv_init|exact NS| |exact H]. eapply plain_clean; eauto.
Qed.
Print Assumptions c44_isolated_partial.

(** With close middlewares, if no socket number is used again before the close middlewares of the connections that had it are done. *)
Theorem c44_close_partial : forall beh pick fuel evs w l, tame beh -> no_stray evs ->
  (forall a fd b w1 l1, evs = a ++ Connect fd :: b -> worker_run true beh pick fuel worker_new a = Some (w1, l1) -> forall p c, nth_error (w_conns w1) p = Some c -> p_fd c = fd -> p_queue c = None) ->
  worker_run true beh pick fuel worker_new evs = Some (w, l) -> isolated evs l.
Proof.
  intros beh pick fuel evs w l T NS C H. eapply inv_isolated. change evs with ([] ++ evs). change l with ([] ++ l).
  eapply inv_run; [exact T|exact inv_init|exact NS|exact C|exact H].
Qed.
Print Assumptions c44_close_partial.

(** And nothing is taken from it: as long as a connection is not lost, what was queued for it has been sent, or is still in its queue. *)
Theorem c44_kept_partial : forall beh pick fuel evs w l p c, tame beh -> no_stray evs -> worker_run false beh pick fuel worker_new evs = Some (w, l) ->
  nth_error (w_conns w) p = Some c -> p_lost c = false -> exists h, p_queue c = Some h /\ puts p evs = sent p l ++ q_out (heap_get w h) /\ feeds p evs = took p l ++ q_in (heap_get w h).
Proof.
  intros beh pick fuel evs w l p c T NS H N Lo.
  assert (I : Inv w evs l). { change evs with ([] ++ evs). change l with ([] ++ l). eapply inv_run; [exact T|exact inv_init|exact NS| |exact H]. eapply plain_clean; eauto. }
  destruct (p_queue c) as [h|] eqn:Q.
  - destruct (iv_live _ _ _ I _ _ _ N Q) as (_ & (dr & E1 & K) & E2). rewrite K in E1 by exact Lo. eauto.
  - destruct (iv_dead _ _ _ I _ _ N Q) as (L & _). congruence.
Qed.
Print Assumptions c44_kept_partial.

Definition calm : behaviour := fun _ => ([], Returns).
(** Three connections, two of them with the same socket number one after the other. *)
Definition reuse_run : list wev := [Connect 7; Connect 8; Put 0 (bs "A"); Put 0 (bs "B"); Write 0; Feed 1 (bs "a"); Gone 0; Put 0 (bs "C"); Connect 7; Put 2 (bs "D"); Write 2; Read 1; Feed 2 (bs "b"); Read 2].
Example c44_example : exists w, worker_run false calm (fun _ => O) 5 worker_new reuse_run = Some (w, [Sent 0 (bs "A"); Sent 2 (bs "D"); Took 1 (bs "a"); Took 2 (bs "b")]) /\ no_stray reuse_run /\ tame calm /\
  (exists c, nth_error (w_conns w) 2 = Some c /\ p_lost c = false).
Proof.
  eexists. split; [vm_compute; reflexivity|]. split; [intros p x H; cbn in H; intuition discriminate|]. split; [intros n; discriminate|]. eexists; split; reflexivity.
Qed.
Definition close_run : list wev := [Connect 7; Put 0 (bs "A"); Write 0; Put 0 (bs "B"); Gone 0; Write 0; CloseDone 0; Connect 7; Put 1 (bs "C"); Write 1].
Example c44_close_example : exists w, worker_run true calm (fun _ => O) 5 worker_new close_run = Some (w, [Sent 0 (bs "A"); Sent 1 (bs "C")]).
Proof. eexists. vm_compute. reflexivity. Qed.

(** False with a close middleware: while it runs, the next client may get the socket number, and then it is sent what is left for the first one. *)
Theorem c44_close_refuted : exists beh pick fuel evs w l, tame beh /\ no_stray evs /\ worker_run true beh pick fuel worker_new evs = Some (w, l) /\ ~ isolated evs l.
Proof.
  exists calm, (fun _ => O), 5%nat, [Connect 7; Put 0 (bs "A"); Gone 0; Connect 7; Write 1]. eexists _, _.
  split; [intros n; discriminate|]. split; [intros p x H; cbn in H; intuition discriminate|]. split; [vm_compute; reflexivity|].
  intros H. destruct (H 1%nat) as ((r & E) & _). cbn in E. discriminate.
Qed.
Print Assumptions c44_close_refuted.
(** And when the middleware is done, what was queued for the second client is dropped. *)
Theorem c44_dropped_refuted : exists beh pick fuel evs w l c, tame beh /\ no_stray evs /\ worker_run true beh pick fuel worker_new evs = Some (w, l) /\
  nth_error (w_conns w) 1 = Some c /\ p_lost c = false /\ puts 1 evs <> [] /\ sent 1 l = [] /\ exists h, p_queue c = Some h /\ heap_get w h = mkQs [] [].
Proof.
  exists calm, (fun _ => O), 5%nat, [Connect 7; Gone 0; Connect 7; Put 1 (bs "A"); CloseDone 0]. eexists _, _, _.
  split; [intros n; discriminate|]. split; [intros p x H; cbn in H; intuition discriminate|]. split; [vm_compute; reflexivity|]. split; [reflexivity|]. split; [reflexivity|].
  split; [discriminate|]. split; [reflexivity|]. exists 0%nat; split; reflexivity.
Qed.
Print Assumptions c44_dropped_refuted.
(** False without one, if a task of the application is inside send() when the connection is lost: it goes on into the queue that the next client with this number is sent. *)
Theorem c44_stray_refuted : exists beh pick fuel evs w l, tame beh /\ worker_run false beh pick fuel worker_new evs = Some (w, l) /\ ~ isolated evs l.
Proof.
  exists calm, (fun _ => O), 5%nat, [Connect 7; Put 0 (bs "A"); Gone 0; Stray 0 (bs "B"); Connect 7; Write 1]. eexists _, _.
  split; [intros n; discriminate|]. split; [vm_compute; reflexivity|].
  intros H. destruct (H 1%nat) as ((r & E) & _). cbn in E. discriminate.
Qed.
Print Assumptions c44_stray_refuted.
(** False if a callable escapes the cleanup. *)
Theorem c44_escape_refuted : exists beh pick fuel evs w l, no_stray evs /\ worker_run false beh pick fuel worker_new evs = Some (w, l) /\ ~ isolated evs l.
Proof.
  exists (fun _ => ([], Escapes)), (fun _ => O), 5%nat, [Connect 7; Register 0 (ECall 1); Put 0 (bs "A"); Gone 0; Connect 7; Write 1]. eexists _, _.
  split; [intros p x H; cbn in H; intuition discriminate|]. split; [vm_compute; reflexivity|].
  intros H. destruct (H 1%nat) as ((r & E) & _). cbn in E. discriminate.
Qed.
Print Assumptions c44_escape_refuted.
