(** C47: timeouts. *)
From Verif Require Import PyBytes M_Timer S_Timer P_Timer.
Local Open Scope Z_scope.

(** What is seen of a connection that is made at time t. *)
Definition connection (o : topts) (t : Z) (evs : list tev) (s : tst) (l : list tobs) : Prop := exists l1, timer_run o (fst (timer_new o t)) evs = Some (s, l1) /\ l = snd (timer_new o t) ++ l1.

(** A connection whose head did not arrive in time is aborted: when the timers have run, one that is open and has seen no head since it began to wait is not late. *)
Theorem c47_aborts : forall o t evs s l t0 d b, connection o t evs s l -> t_open s = true -> settled o s -> waiting_since l t0 d b -> (forall th, ~ In (HeadAt th) b) -> t_now s < d.
Proof.
  intros o t evs s l t0 d b (l1 & R & ->) O (F & W & _) Sn Nh.
  assert (I : Wt false s (snd (timer_new o t) ++ l1)) by (eapply run_wt; [|apply new_wt|exact R]; discriminate).
  destruct (wt_since _ _ _ I) as (t1 & b1 & S1 & P & C & Re). destruct (since_unique _ _ _ _ _ _ _ Sn S1) as (-> & -> & ->).
  cbn [timer_step] in F, W. rewrite O in F, W. destruct (t_wait s) eqn:Wa.
  - destruct (t_due s <=? t_now s) eqn:D; [discriminate|]. apply Z.leb_gt in D. exact D.
  - destruct Re as (th & H); [auto|]. exfalso. exact (Nh th H).
  - discriminate.
Qed.
Print Assumptions c47_aborts.

(** The first wait is for request_timeout, the others are for keepalive_timeout. *)
Theorem c47_waits : forall o t evs s l, connection o t evs s l -> waits_right o l.
Proof.
  intros o t evs s l (l1 & R & ->). eapply waits_run; [discriminate| |exact R]. intros a t0 d b E. cbn [timer_new snd] in E.
  destruct a as [|x a]; [injection E as <- <- _; reflexivity|]. destruct a; discriminate.
Qed.
Print Assumptions c47_waits.

(** A connection whose head arrived in time is not aborted by that timer. Missing: heads that come with further bytes, see c47_slow_refuted. *)
Theorem c47_in_time_partial : forall o t evs s l, heads_alone evs -> connection o t evs s l -> aborts_justly l.
Proof.
  intros o t evs s l A (l1 & R & ->). assert (I : Wt true s (snd (timer_new o t) ++ l1)) by (eapply run_wt; [|apply new_wt|exact R]; intros _; exact A).
  exact (wt_just _ _ _ I eq_refl).
Qed.
Print Assumptions c47_in_time_partial.

(** All the same, whatever comes with the head, it is not aborted once the handler has been started in time. *)
Theorem c47_started : forall o t evs s l, connection o t evs s l -> aborts_before_start l.
Proof.
  intros o t evs s l (l1 & R & ->). assert (I : Wt false s (snd (timer_new o t) ++ l1)) by (eapply run_wt; [|apply new_wt|exact R]; discriminate). exact (wt_start _ _ _ I).
Qed.
Print Assumptions c47_started.

(** Only the handler that has been running for app_handler_timeout is cancelled. Missing: ASGI applications, see c47_asgi_refuted, and handlers that go on after the end of their response, see c47_early_refuted. *)
Theorem c47_handler_partial : forall o t evs s l, o_asgi o = false -> connection o t evs s l -> sequential l -> stops_justly o l.
Proof.
  intros o t evs s l Na (l1 & R & ->) Q. assert (I : Hs false o s (snd (timer_new o t) ++ l1)) by (eapply run_hs; [|apply new_hs|exact R]; discriminate). exact (hs_just _ _ _ _ I Q Na).
Qed.
Print Assumptions c47_handler_partial.

(** And it is cancelled: when the timers have run, a handler that is still running was cancelled or is not late. Also of ASGI applications; not of upgraded connections. *)
Theorem c47_cancels_partial : forall o t evs s l i t0, ~ In Upgrade evs -> connection o t evs s l -> sequential l -> t_open s = true -> settled o s -> In (Began i t0) l -> (forall t1, ~ In (Ended i t1) l) ->
  (exists t2, In (Stopped i t2) l) \/ t_now s < t0 + o_handler o.
Proof.
  intros o t evs s l i t0 Nu (l1 & R & ->) Q O (_ & _ & F) B E. assert (I : Hs true o s (snd (timer_new o t) ++ l1)) by (eapply run_hs; [|apply new_hs|exact R]; intros _; exact Nu).
  destruct (hs_known _ _ _ _ I _ _ B) as (h & N & <-). destruct (h_run h) eqn:Rn.
  - destruct (h_timer h) eqn:Tm; [|left; exact (hs_fired _ _ _ _ I eq_refl Q _ _ N Rn Tm)]. right.
    specialize (F i). cbn [timer_step] in F. rewrite N, Tm, O in F. cbn [andb] in F. rewrite andb_true_r in F. destruct (h_start h + o_handler o <=? t_now s) eqn:D; [discriminate|]. apply Z.leb_gt in D. exact D.
  - destruct (hs_ended _ _ _ _ I _ _ N Rn) as (t1 & H). exfalso. exact (E t1 H).
Qed.
Print Assumptions c47_cancels_partial.

(** ** Refutations *)
Ltac runs o t evs := let r := eval vm_compute in (timer_run o (fst (timer_new o t)) evs) in
  match r with Some (?s, ?l) => let l0 := eval vm_compute in (snd (timer_new o t) ++ l) in exists s, l0; assert (Conn : connection o t evs s l0) by (exists l; split; vm_compute; reflexivity) end.
(** A check for [sequential]. *)
Fixpoint seqb (done l : list tobs) {struct l} : bool :=
  match l with
  | [] => true
  | x :: l' => match x with
               | Began _ _ => forallb (fun y => match y with Began j _ => existsb (fun z => match z with Ended k _ => (k =? j)%nat | _ => false end) done | _ => true end) done
               | _ => true
               end && seqb (done ++ [x]) l'
  end.
Lemma seqb_at : forall l1 i t l2 done, seqb done (l1 ++ Began i t :: l2) = true -> forall j t', In (Began j t') (done ++ l1) -> exists t'', In (Ended j t'') (done ++ l1).
Proof.
  induction l1 as [|x l1 IH]; intros i t l2 done E j t' H; cbn [app seqb] in E; apply andb_true_iff in E as (E1 & E2).
  - rewrite app_nil_r in *. rewrite forallb_forall in E1. specialize (E1 _ H). cbn in E1. apply existsb_exists in E1 as (z & Hz & K). destruct z; try discriminate. apply Nat.eqb_eq in K. subst. eauto.
  - replace (done ++ x :: l1) with ((done ++ [x]) ++ l1) in * by (rewrite <- app_assoc; reflexivity). eapply IH; eauto.
Qed.
Lemma seqb_ok : forall l, seqb [] l = true -> sequential l.
Proof. intros l E l1 i t l2 ->. exact (seqb_at l1 i t l2 [] E). Qed.
(** The head of a POST arrives in time, together with the first bytes of its body; _handle_request is still asleep in put_to_queue (rate limit) when the request timer runs out, and the connection is aborted. *)
Theorem c47_slow_refuted : exists o evs s l, connection o 0 evs s l /\ ~ aborts_justly l.
Proof.
  exists (mkTO 30 30 120 false), [Advance 29; Head true; Advance 1; FireWait; RunWait]. runs (mkTO 30 30 120 false) 0 [Advance 29; Head true; Advance 1; FireWait; RunWait]. split.
  - assumption.
  - intros J. destruct (J [Waits 0 30; HeadAt 29] 30 [] eq_refl) as (t0 & d & b & (a & E & _) & _ & K).
    destruct a as [|x a]; [|destruct a as [|x2 a]; [discriminate|destruct a; discriminate]].
    injection E as <- <- <-. specialize (K 29 (or_introl eq_refl)). lia.
Qed.
Print Assumptions c47_slow_refuted.

(** The timers of ASGI applications are not cancelled when these return (http_protocol.py:348-352): the timer of the first request cancels the application that handles a later one, though it has just begun. *)
Theorem c47_asgi_refuted : exists o evs s l, o_asgi o = true /\ connection o 0 evs s l /\ sequential l /\ ~ stops_justly o l.
Proof.
  exists (mkTO 30 30 120 true), [Head false; End 0; Next; Advance 119; Head false; Advance 1; FireHandler 0]. runs (mkTO 30 30 120 true) 0 [Head false; End 0; Next; Advance 119; Head false; Advance 1; FireHandler 0]. split; [reflexivity|]. split; [|split].
  - assumption.
  - apply seqb_ok. reflexivity.
  - intros J. destruct (J [Waits 0 30; HeadAt 0; Began 0 0; Ended 0 0; Waits 0 30; HeadAt 119; Began 1 119] 1%nat 120 [] eq_refl) as (t0 & H & L & _). cbn [In] in H. cbn [o_handler] in L.
    repeat (destruct H as [H|H]; [try discriminate H|]); [injection H as <-; lia|contradiction].
Qed.
Print Assumptions c47_asgi_refuted.

(** A handler that ends its response and goes on working (or waits for something) has its timer running; it cancels the handler of the next request of the connection, not itself. *)
Theorem c47_early_refuted : exists o evs s l, o_asgi o = false /\ connection o 0 evs s l /\ ~ stops_justly o l.
Proof.
  exists (mkTO 30 30 120 false), [Head false; Next; Advance 20; Head false; Next; Advance 20; Head false; Advance 80; FireHandler 0]. runs (mkTO 30 30 120 false) 0 [Head false; Next; Advance 20; Head false; Next; Advance 20; Head false; Advance 80; FireHandler 0]. split; [reflexivity|]. split.
  - assumption.
  - intros J. destruct (J [Waits 0 30; HeadAt 0; Began 0 0; Waits 0 30; HeadAt 20; Began 1 20; Waits 20 50; HeadAt 40; Began 2 40] 2%nat 120 [] eq_refl) as (t0 & H & L & _). cbn [In] in H. cbn [o_handler] in L.
    repeat (destruct H as [H|H]; [try discriminate H|]); [injection H as <-; lia|contradiction].
Qed.
Print Assumptions c47_early_refuted.

(** ** Examples *)
(** A client that sends nothing is aborted after request_timeout; one that sent a head in time waits for the keep-alive timer only, and is aborted by that one. *)
Example c47_aborts_example : exists s l, connection (mkTO 30 5 120 false) 7 [Advance 29; Advance 1; FireWait; RunWait] s l /\ l = [Waits 7 37; TimedOut 37] /\ t_open s = false.
Proof. runs (mkTO 30 5 120 false) 7 [Advance 29; Advance 1; FireWait; RunWait]. split; [assumption|]. split; reflexivity. Qed.
Example c47_in_time_example : exists s l, connection (mkTO 30 5 120 false) 7 [Advance 29; Head false; Advance 60; End 0; Next; Advance 5; FireWait; RunWait] s l /\
  l = [Waits 7 37; HeadAt 36; Began 0 36; Ended 0 96; Waits 96 101; TimedOut 101].
Proof. runs (mkTO 30 5 120 false) 7 [Advance 29; Head false; Advance 60; End 0; Next; Advance 5; FireWait; RunWait]. split; [assumption|]. reflexivity. Qed.
(** The timer was due at 37 and cancelled set_timeout; a head that is read in the same turn of the loop is late. *)
Example c47_late_example : exists s l, connection (mkTO 30 5 120 false) 7 [Advance 30; FireWait; Head false; RunWait] s l /\ l = [Waits 7 37; HeadAt 37; Began 0 37; TimedOut 37].
Proof. runs (mkTO 30 5 120 false) 7 [Advance 30; FireWait; Head false; RunWait]. split; [assumption|]. reflexivity. Qed.
(** Before the timer is due nothing is aborted, and the connection is settled. *)
Example c47_settled_example : exists s l, connection (mkTO 30 5 120 false) 7 [Advance 29] s l /\ t_open s = true /\ settled (mkTO 30 5 120 false) s /\ waiting_since l 7 37 [].
Proof.
  runs (mkTO 30 5 120 false) 7 [Advance 29]. split; [assumption|]. split; [reflexivity|]. split.
  - split; [reflexivity|split; [reflexivity|]]. intros i. destruct i; reflexivity.
  - exists []. split; [reflexivity|intros ? ? []].
Qed.
Example c47_handler_example : exists s l, connection (mkTO 30 30 120 false) 0 [Head false; End 0; Next; Advance 20; Head false; Advance 120; FireHandler 1] s l /\
  sequential l /\ In (Stopped 1 140) l.
Proof.
  runs (mkTO 30 30 120 false) 0 [Head false; End 0; Next; Advance 20; Head false; Advance 120; FireHandler 1]. split; [assumption|]. split; [|cbn; auto 10].
  apply seqb_ok. reflexivity.
Qed.
