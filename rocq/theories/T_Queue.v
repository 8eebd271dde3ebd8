(** C41: the queues between a connection and its handlers. [q_run s ops] is a schedule from
    [s]; the schedules of a queue start in [q_init n], with [n] consumers. *)
From Coq Require Import Permutation.
From Verif Require Import PyBytes M_Queue S_Queue P_Queue.

(** One consumer: every item put is, in the order put, returned by a get, or on its way to
    the waiting get, or in the queue. [_partial]: [Lost], a cancel() in the moment between the
    put and the run of the get it was handed to, is excluded; see below. *)
Theorem c41_fifo_partial : forall A ops s' ev, no_clear ops -> q_run (@q_init A 1) ops = Some (s', ev) -> Forall (fun e => ~ is_lost e) ev ->
  put_items ops = returned ev ++ on_the_way s' ++ q_items s'.
Proof. exact @fifo_main. Qed.
Print Assumptions c41_fifo_partial.
(** With such cancels: the order is kept and only the item of the cancelled get is missing;
    also from any state that can be reached (e.g. after a clear). *)
Theorem c41_accounted : forall A before ops s ev0 s' ev, q_run (@q_init A 1) before = Some (s, ev0) -> no_clear ops -> q_run s ops = Some (s', ev) ->
  on_the_way s ++ q_items s ++ put_items ops = gone ev ++ on_the_way s' ++ q_items s'.
Proof. exact @single_main. Qed.
Print Assumptions c41_accounted.
(** Any number of consumers: every item is delivered at most once, and none is lost otherwise. *)
Theorem c41_once : forall A n before ops s ev0 s' ev, q_run (@q_init A n) before = Some (s, ev0) -> no_clear ops -> q_run s ops = Some (s', ev) ->
  Permutation (on_the_way s ++ q_items s ++ put_items ops) (gone ev ++ on_the_way s' ++ q_items s').
Proof. exact @perm_main. Qed.
Print Assumptions c41_once.
(** A get that is cancelled while it waits never gets an item, whatever comes after. *)
Theorem c41_cancelled : forall A n before ops s ev0 c s' ev, q_run (@q_init A n) before = Some (s, ev0) -> waits s c ->
  ~ In (Get c) ops -> ~ In (GetNow c) ops -> q_run s (Cancel c :: ops) = Some (s', ev) -> Forall (fun e => ~ got c e) ev.
Proof. exact @cancelled_main. Qed.
Print Assumptions c41_cancelled.

Definition ops41 : list (qop nat) := [Get 0; Put 10; Put 11; Wake 0; Get 0; Get 0; Cancel 0; Wake 0; Put 12; Put 13; Get 0; Get 0; Put 14; Put 15].
Example c41_example : no_clear ops41 /\
  match q_run (q_init 1) ops41 with
  | Some (s, ev) => ev = [Returned 0 10; Returned 0 11; Raised 0; Returned 0 12; Returned 0 13] /\ on_the_way s = [] /\ q_items s = [14; 15]
  | None => False
  end.
Proof.
  split; [intros H; cbn in H; intuition discriminate|]. vm_compute. repeat split.
Qed.
Example c41_waits_example : exists s, q_run (@q_init nat 2) [Get 0; Get 1] = Some (s, []) /\ waits s 0 /\ waits s 1.
Proof. eexists. split; [vm_compute; reflexivity|]. split; [exists 0, false|exists 0, false]; vm_compute; auto. Qed.

(** The full claim is false: the item handed to a get is lost if the task is cancelled (by
    the timer of request.recv, request.py:35-39) before it runs. *)
Theorem c41_lost_refuted : exists ops s ev, q_run (@q_init nat 1) ops = Some (s, ev) /\ put_items ops = [1; 2] /\ returned ev = [2] /\ q_items s = [] /\ on_the_way s = [].
Proof. exists [Get 0; Put 1; Cancel 0; Wake 0; Get 0; Put 2; Wake 0]. eexists. eexists. split; [vm_compute; reflexivity|]. repeat split. Qed.
Print Assumptions c41_lost_refuted.
(** After a get was cancelled, the next get raises CancelledError too, although nobody
    cancels it, as long as nothing is put: recv after a timeout. *)
Theorem c41_next_get_refuted : exists s, q_run (@q_init nat 1) [Get 0; Cancel 0; Wake 0; Get 0; Get 0] = Some (s, [Raised 0; Raised 0; Raised 0]).
Proof. eexists. vm_compute. reflexivity. Qed.
Print Assumptions c41_next_get_refuted.
(** Of two waiting consumers, cancelling the second cancels the first. *)
Theorem c41_other_refuted : exists s, q_run (@q_init nat 2) [Get 0; Get 1; Cancel 1; Wake 0] = Some (s, [Raised 0]).
Proof. eexists. vm_compute. reflexivity. Qed.
Print Assumptions c41_other_refuted.
