(** C55: ASGI lifespan. A trace lists what the application's task, the timer and the waiting server do, in any order.
    [startup tr s]: the server asked for startup, [tr] happened meanwhile, and then the server went on in state [s]. *)
From Verif Require Import PyBytes M_Lifespan.

Definition waits (ev : lev) : Prop := ev <> Call /\ ev <> Resume.
Definition startup (tr : list lev) (s : ls) : Prop := Forall waits tr /\ ls_run (Call :: tr ++ [Resume]) ls_new = Some s.
Definition complete (ev : lev) : Prop := ev = Send StartupComplete \/ ev = Send ShutdownComplete.
Definition failed (ev : lev) : Prop := ev = Send StartupFailed \/ ev = Send ShutdownFailed.
Definition ended (ev : lev) : Prop := exists x, ev = End x.

(** What happens first decides. *)
Definition of_end (x : ending) : phase :=
  match x with RaisedExc ELifespan => Answer (Some ELifespan) | CancelledTask => Escaped | _ => Answer None end.
Fixpoint end_in (tr : list lev) : phase :=
  match tr with End x :: _ => of_end x | _ :: tr' => end_in tr' | [] => Answer None end.
Fixpoint verdict (tr : list lev) : phase :=
  match tr with
  | Send StartupComplete :: _ | Send ShutdownComplete :: _ => Answer None
  | End x :: _ => of_end x
  | Timeout :: tr' => end_in tr'
  | _ :: tr' => verdict tr'
  | [] => Answer None
  end.

Lemma run_app a : forall b s, ls_run (a ++ b) s = match ls_run a s with Some s' => ls_run b s' | None => None end.
Proof. induction a as [|ev a IH]; intros b s; [reflexivity|]. cbn [app ls_run]. destruct (ls_step s ev); [apply IH|reflexivity]. Qed.
Lemma run_resolved tr : forall s s', Forall waits tr -> l_waiter s = Resolved -> l_phase s = Awaiting -> ls_run tr s = Some s' -> l_waiter s' = Resolved /\ l_phase s' = Awaiting.
Proof.
  induction tr as [|ev tr IH]; intros s s' F W P R; cbn [ls_run] in R; [injection R as <-; now split|]. inversion_clear F as [|? ? [N1 N2] F'].
  destruct ev as [m|z| | |]; cbn [ls_step] in R; try easy.
  - eapply IH; [exact F'| | |exact R]; unfold ls_send; destruct m; cbn; rewrite ?W; cbn; auto.
  - destruct (l_task s); [discriminate|]. eapply IH; [exact F'| | |exact R]; cbn; rewrite ?W; auto.
  - destruct (l_timer s); [|discriminate]. eapply IH; [exact F'| | |exact R]; cbn; rewrite ?W; auto.
Qed.
Definition seen (t : option ending) : phase := match t with Some x => of_end x | None => Answer None end.
Lemma run_cancelled tr : forall s s', Forall waits tr -> l_waiter s = Cancelled -> l_phase s = Awaiting -> ls_run tr s = Some s' ->
  l_waiter s' = Cancelled /\ l_phase s' = Awaiting /\ seen (l_task s') = match l_task s with Some x => of_end x | None => end_in tr end.
Proof.
  induction tr as [|ev tr IH]; intros s s' F W P R; cbn [ls_run end_in] in R |- *; [injection R as <-; split; [exact W|]; split; [exact P|]; now destruct (l_task s)|]. inversion_clear F as [|? ? [N1 N2] F'].
  destruct ev as [m|z| | |]; cbn [ls_step] in R; try easy.
  - apply IH in R; [|exact F'|unfold ls_send; destruct m; cbn; rewrite ?W; cbn; auto..]. destruct R as (A & B & C). split; [exact A|]. split; [exact B|]. rewrite C. unfold ls_send. destruct m; cbn; rewrite ?W; reflexivity.
  - destruct (l_task s); [discriminate|]. apply IH in R; [|exact F'|cbn; rewrite ?W; auto..]. exact R.
  - destruct (l_timer s); [|discriminate]. apply IH in R; [|exact F'|cbn; rewrite ?W; auto..]. exact R.
Qed.
Lemma run_pending tr : forall s s' s2, Forall waits tr -> l_waiter s = Pending -> l_task s = None -> l_phase s = Awaiting -> ls_run tr s = Some s' -> ls_step s' Resume = Some s2 -> l_phase s2 = verdict tr.
Proof.
  induction tr as [|ev tr IH]; intros s s' s2 F W T P R E; cbn [ls_run] in R; [injection R as <-; cbn in E; now rewrite W, P in E|]. inversion_clear F as [|? ? [N1 N2] F'].
  assert (forall s1, l_waiter s1 = Cancelled -> l_phase s1 = Awaiting -> ls_run tr s1 = Some s' -> l_phase s2 = match l_task s1 with Some x => of_end x | None => end_in tr end) as Kc.
  { intros s1 W1 P1 R1. destruct (run_cancelled tr s1 s' F' W1 P1 R1) as (A & B & C). rewrite <- C. cbn [ls_step] in E. rewrite A, B in E. unfold ls_resume in E. rewrite A in E. injection E as <-. cbn [l_phase]. destruct (l_task s') as [[|[]|]|]; reflexivity. }
  destruct ev as [m|z| | |]; cbn [ls_step verdict] in R |- *; try easy.
  - assert (forall s1, l_waiter s1 = Resolved -> l_phase s1 = Awaiting -> ls_run tr s1 = Some s' -> l_phase s2 = Answer None) as Kr.
    { intros s1 W1 P1 R1. destruct (run_resolved tr s1 s' F' W1 P1 R1) as (A & B). cbn [ls_step] in E. rewrite A, B in E. unfold ls_resume in E. rewrite A in E. now injection E as <-. }
    unfold ls_send in R. rewrite W in R. destruct m; cbn [snd] in R; try (now eapply IH; eauto); (eapply Kr; [| |exact R]; [reflexivity|exact P]).
  - rewrite T in R. apply Kc in R; [exact R|cbn; now rewrite W|exact P].
  - destruct (l_timer s); [|discriminate]. apply Kc in R; [|cbn; now rewrite W|exact P]. cbn in R. now rewrite T in R.
Qed.

Theorem c55_decision : forall tr s, startup tr s -> l_phase s = verdict tr.
Proof.
  intros tr s [F R]. cbn [ls_run ls_step ls_new l_phase] in R. rewrite run_app in R. destruct (ls_run tr _) as [s1|] eqn:R1; [|discriminate]. cbn [ls_run] in R. destruct (ls_step s1 Resume) as [s2|] eqn:E; [|discriminate]. injection R as <-.
  eapply run_pending; [exact F| | | |exact R1|exact E]; reflexivity.
Qed.
Print Assumptions c55_decision.

(** Startup proceeds when the app reports completion before it ends and before the timeout. *)
Theorem c55_complete : forall pre m post s, complete (Send m) -> Forall (fun ev => ~ ended ev /\ ev <> Timeout) pre ->
  startup (pre ++ Send m :: post) s -> l_phase s = Answer None.
Proof.
  intros pre m post s C F S. rewrite (c55_decision _ _ S). destruct S as [Fw _]. apply Forall_app in Fw as [Fw _]. induction pre as [|ev pre IH]; cbn [app verdict].
  - destruct C as [C|C]; injection C as ->; reflexivity.
  - inversion_clear F as [|? ? [N1 N2] F']. inversion_clear Fw as [|? ? [N3 N4] Fw']. destruct ev as [[]|z| | |]; try easy; try (now apply IH). exfalso. apply N1. now exists z.
Qed.
Print Assumptions c55_complete.

(** It proceeds when the app never reports a failure, be it that it returns, raises, sends something unknown or times out. An application raises LifespanError only as it came
    out of send(). Left out: an app that ends with CancelledError (c55_cancelled_refuted). *)
Definition own (tr : list lev) : Prop := In (End (RaisedExc ELifespan)) tr -> exists ev, In ev tr /\ failed ev.
Theorem c55_unsupported_partial : forall tr s, own tr -> (forall ev, In ev tr -> ~ failed ev) -> ~ In (End CancelledTask) tr -> startup tr s -> l_phase s = Answer None.
Proof.
  intros tr s O Nf Nc S. rewrite (c55_decision _ _ S). assert (~ In (End (RaisedExc ELifespan)) tr) as Ne by (intros I; destruct (O I) as (ev & A & B); now apply (Nf ev A)). clear O Nf S.
  assert (forall x, In (End x) tr -> of_end x = Answer None) as K by (intros [|[]|] I; try reflexivity; contradiction). clear Nc Ne.
  assert (end_in tr = Answer None) as Ke by (induction tr as [|[m|x| | |] tr IH]; cbn [end_in]; try reflexivity; try (apply IH; intros y I; apply K; now right); apply K; now left).
  induction tr as [|[m|x| | |] tr IH]; cbn [verdict end_in] in *; try reflexivity.
  - assert (verdict tr = Answer None) as V by (apply IH; [intros y I; apply K; now right|exact Ke]). now destruct m.
  - apply K. now left.
  - apply IH; [intros y I; apply K; now right|exact Ke].
  - exact Ke.
  - apply IH; [intros y I; apply K; now right|exact Ke].
Qed.
Print Assumptions c55_unsupported_partial.

(** It fails only if the app reported a failure, *)
Theorem c55_fails_only : forall tr s x, own tr -> startup tr s -> l_phase s = Answer (Some x) -> x = ELifespan /\ exists ev, In ev tr /\ failed ev.
Proof.
  intros tr s x O S E. rewrite (c55_decision _ _ S) in E. assert (forall y, of_end y = Answer (Some x) -> y = RaisedExc ELifespan /\ x = ELifespan) as K by (intros [|[]|]; cbn; try discriminate; intros H; injection H as <-; now split).
  assert (forall l, end_in l = Answer (Some x) -> In (End (RaisedExc ELifespan)) l /\ x = ELifespan) as Ke.
  { induction l as [|[m|y| | |] l IH]; cbn [end_in]; try discriminate; try (intros H; apply IH in H as [A B]; split; [now right|exact B]). intros H. apply K in H as [-> B]. split; [now left|exact B]. }
  assert (forall l, verdict l = Answer (Some x) -> In (End (RaisedExc ELifespan)) l /\ x = ELifespan) as Kv.
  { induction l as [|[m|y| | |] l IH]; cbn [verdict]; try discriminate; try (intros H; apply IH in H as [A B]; split; [now right|exact B]).
    - destruct m; try discriminate; (intros H; apply IH in H as [A B]; split; [now right|exact B]).
    - intros H. apply K in H as [-> B]. split; [now left|exact B].
    - intros H. apply Ke in H as [A B]. split; [now right|exact B]. }
  destruct (Kv _ E) as [A B]. split; [exact B|]. now apply O.
Qed.
Print Assumptions c55_fails_only.

(** and it does if the app reports one before anything complete and lets the exception of send() end it: send() raises [x], and [x] is what ends the app. Missing: apps that catch the exception (c55_caught_refuted). *)
Theorem c55_fails_partial : forall pre m s1, failed (Send m) -> ls_run (Call :: pre) ls_new = Some s1 ->
  exists x, fst (ls_send m s1) = Some x /\
  forall mid post s, Forall (fun ev => ~ complete ev /\ ~ ended ev) (pre ++ mid) ->
    startup (pre ++ Send m :: mid ++ End (RaisedExc x) :: post) s -> l_phase s = Answer (Some ELifespan).
Proof.
  intros pre m s1 Fm R1. exists ELifespan. split; [destruct Fm as [E|E]; injection E as ->; reflexivity|]. clear s1 R1. intros mid post s F S. rewrite (c55_decision _ _ S). apply Forall_app in F as [F1 F2]. destruct S as [Fw _].
  assert (forall l, Forall (fun ev => ~ complete ev /\ ~ ended ev) l -> end_in (l ++ End (RaisedExc ELifespan) :: post) = Answer (Some ELifespan)) as Ke.
  { induction 1 as [|ev l [_ N] _ IH]; cbn [app end_in]; [reflexivity|]. destruct ev; try exact IH. exfalso. apply N. now eexists. }
  assert (forall l, Forall (fun ev => ~ complete ev /\ ~ ended ev) l -> verdict (l ++ End (RaisedExc ELifespan) :: post) = Answer (Some ELifespan)) as Kv.
  { induction 1 as [|ev l [N1 N] F' IH]; cbn [app verdict]; [reflexivity|]. destruct ev as [[]|z| | |]; try exact IH; [exfalso; apply N1; now left|exfalso; apply N1; now right|exfalso; apply N; now eexists|now apply Ke]. }
  replace (pre ++ Send m :: mid ++ End (RaisedExc ELifespan) :: post) with ((pre ++ Send m :: mid) ++ End (RaisedExc ELifespan) :: post) by now rewrite <- app_assoc.
  apply Kv. apply Forall_app. split; [exact F1|]. constructor; [|exact F2]. split; [intros [C|C]; destruct Fm as [X|X]; congruence|intros [x X]; discriminate].
Qed.
Print Assumptions c55_fails_partial.

(** The server never waits for good: the timeout is possible until it goes on, and after a completion, an end or the timeout it can go on. *)
Theorem c55_progress : forall tr s, Forall waits tr -> ls_run (Call :: tr) ls_new = Some s ->
  (exists ev, In ev tr /\ (complete ev \/ ended ev \/ ev = Timeout)) /\ (exists s', ls_step s Resume = Some s') \/
  exists s', ls_step s Timeout = Some s'.
Proof.
  intros tr s F R. cbn [ls_run ls_step ls_new l_phase] in R.
  assert (forall l s0, Forall waits l -> l_phase s0 = Awaiting -> ls_run l s0 = Some s -> l_phase s = Awaiting /\ (l_waiter s <> Pending -> l_waiter s0 <> Pending \/ exists ev, In ev l /\ (complete ev \/ ended ev \/ ev = Timeout)) /\ (l_timer s0 = true -> l_timer s = true \/ l_waiter s <> Pending)
    /\ (l_waiter s0 <> Pending -> l_waiter s <> Pending)) as K.
  { induction l as [|ev l IH]; intros s0 Fl P0 R0; cbn [ls_run] in R0; [injection R0 as <-; repeat split; auto|]. inversion_clear Fl as [|? ? [N1 N2] Fl'].
    assert (forall s1, l_phase s1 = Awaiting -> (l_waiter s1 <> Pending -> l_waiter s0 <> Pending \/ complete ev \/ ended ev \/ ev = Timeout) -> (l_timer s0 = true -> l_timer s1 = true \/ l_waiter s1 <> Pending) -> (l_waiter s0 <> Pending -> l_waiter s1 <> Pending) -> ls_run l s1 = Some s ->
      l_phase s = Awaiting /\ (l_waiter s <> Pending -> l_waiter s0 <> Pending \/ exists ev0, In ev0 (ev :: l) /\ (complete ev0 \/ ended ev0 \/ ev0 = Timeout)) /\ (l_timer s0 = true -> l_timer s = true \/ l_waiter s <> Pending) /\ (l_waiter s0 <> Pending -> l_waiter s <> Pending)) as Kk.
    { intros s1 P1 C1 T1 W1 R1. destruct (IH s1 Fl' P1 R1) as (A & B & C & D). split; [exact A|]. split; [|split; [|tauto]].
      - intros X. destruct (B X) as [Y|(ev0 & I & Y)]; [destruct (C1 Y) as [Z|Z]; [now left|right; exists ev; split; [now left|exact Z]]|right; exists ev0; split; [now right|exact Y]].
      - intros X. destruct (T1 X) as [Y|Y]; [now apply C|right; now apply D]. }
    destruct ev as [m|z| | |]; cbn [ls_step] in R0; try easy.
    - apply Kk in R0; [exact R0|..]; unfold ls_send; destruct m; cbn; try assumption; destruct (l_waiter s0) eqn:W; cbn; rewrite ?W; unfold complete; try tauto; try congruence.
    - destruct (l_task s0); [discriminate|]. apply Kk in R0; [exact R0|..]; cbn; try assumption; [intros _; right; right; left; now exists z|tauto|destruct (l_waiter s0); cbn; congruence].
    - destruct (l_timer s0); [|discriminate]. apply Kk in R0; [exact R0|..]; cbn; try assumption; [tauto| |]; destruct (l_waiter s0); cbn; try (right; discriminate); congruence || (intros; right; discriminate). }
  destruct (K tr (ls_call ls_new) F eq_refl R) as (A & B & C & _). destruct (l_waiter s) eqn:W.
  - right. cbn [ls_step]. destruct (C eq_refl) as [->|X]; [now eexists|easy].
  - left. split; [destruct (B ltac:(discriminate)) as [X|X]; [cbn in X; congruence|exact X]|]. cbn [ls_step]. rewrite A, W. now eexists.
  - left. split; [destruct (B ltac:(discriminate)) as [X|X]; [cbn in X; congruence|exact X]|]. cbn [ls_step]. rewrite A, W. now eexists.
Qed.
Print Assumptions c55_progress.

Example c55_examples :
  startup [Send StartupComplete] (mkLs Pending None false (Answer None)) /\
  startup [Send StartupFailed; End (RaisedExc ELifespan)] (mkLs Cancelled (Some (RaisedExc ELifespan)) false (Answer (Some ELifespan))) /\
  startup [End (RaisedExc EOther)] (mkLs Cancelled (Some (RaisedExc EOther)) false (Answer None)) /\
  startup [Timeout] (mkLs Cancelled None false (Answer None)).
Proof. repeat split; repeat constructor; discriminate. Qed.

(** An application that reports a failure and catches what send() raises is started nevertheless. *)
Theorem c55_caught_refuted : exists tr s, startup tr s /\ In (Send StartupFailed) tr /\ (forall ev, In ev tr -> ~ complete ev) /\ ~ In Timeout tr /\ l_phase s = Answer None.
Proof.
  exists [Send StartupFailed; End Returned]. eexists. split; [split; [repeat constructor; discriminate|reflexivity]|]. split; [now left|]. split; [|split; [intros [X|[X|[]]]; discriminate|reflexivity]].
  intros ev [<-|[<-|[]]] [X|X]; discriminate.
Qed.
Print Assumptions c55_caught_refuted.
(** One that ends with CancelledError makes the startup end with CancelledError. *)
Theorem c55_cancelled_refuted : exists s, startup [End CancelledTask] s /\ l_phase s = Escaped.
Proof. eexists. split; [split; [repeat constructor; discriminate|reflexivity]|reflexivity]. Qed.
Print Assumptions c55_cancelled_refuted.
(** An application that needs longer than the timeout gets an exception when it reports that it is complete. *)
Theorem c55_late_refuted : exists s, startup [Timeout] s /\ fst (ls_send StartupComplete s) = Some EInvalidState.
Proof. eexists. split; [split; [repeat constructor; discriminate|reflexivity]|reflexivity]. Qed.
Print Assumptions c55_late_refuted.
(** And then the server does not wait for the shutdown of an application that is running: exception() returns at once. *)
Theorem c55_shutdown_refuted : exists s s', startup [Timeout] s /\ l_task s = None /\ ls_run [Call; Resume] s = Some s' /\ l_phase s' = Answer None.
Proof. do 2 eexists. split; [split; [repeat constructor; discriminate|reflexivity]|]. split; [reflexivity|]. split; reflexivity. Qed.
Print Assumptions c55_shutdown_refuted.
