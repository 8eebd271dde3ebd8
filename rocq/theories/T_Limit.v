(** C87: handlers that take too long. *)
From Verif Require Import PyBytes M_Limit S_Limit P_Limit.
Local Open Scope Z_scope.

(** A handler, started at [start], and the parts of the body that come at any times. If it does not wait again once a wait was ended by an exception, nor does the error handler of the application wait, it is over within
    app_handler_timeout: not [Endless]. If it does not stream its response, its client gets a response, its own or one for an error.
    Partial: c87_retry_refuted, c87_error_refuted. *)
Theorem c87_limit_partial : forall o start feed p f, 0 <= l_limit o -> 0 <= l_keep o -> (forall x, idle (l_error o x)) -> obedient p -> handles o (start_at o start feed) p f ->
  (exists t, over_at f t /\ start <= t <= start + l_limit o) /\ (returning p -> forall t, f <> Cut t).
Proof.
  intros o start feed p f L1 L2 Er Ob H. split.
  - refine (limited o L2 Er p (start_at o start feed) (start + l_limit o) f Ob eq_refl eq_refl _ H). cbn [s_now start_at]. lia.
  - intros R. exact (told o Er p (start_at o start feed) f R eq_refl eq_refl H).
Qed.
Print Assumptions c87_limit_partial.

(** A handler that raises nothing itself, and lets the exceptions of its waits through, is stopped for a reason only: its time is over (then the code is 500, or 408 if it was waiting for the body), or the client has not
    sent anything of the body for keepalive_timeout while the handler waited for it (408). So an upload that is slow but goes on is not stopped by that. *)
Theorem c87_reason : forall o start feed p f, 0 <= l_limit o -> 0 <= l_keep o -> (forall x, idle (l_error o x)) -> plain p -> in_order feed -> handles o (start_at o start feed) p f ->
  match f with
  | Refused t code _ => (code = 500 /\ t = start + l_limit o) \/ (code = 408 /\ (t = start + l_limit o \/ (start + l_keep o <= t /\ silence feed (l_keep o) t)))
  | Cut t => t = start + l_limit o \/ (start + l_keep o <= t /\ silence feed (l_keep o) t)
  | Answered _ _ | Endless => True
  end.
Proof.
  intros o start feed p f L1 L2 Er P Or H. pose proof (reasons o Er p (start_at o start feed) [] f P eq_refl Or (fun a d (Hi : In (a, d) []) => match Hi with end) H) as R.
  unfold deadline, reason in R. cbn [s_up s_timer s_feed s_now start_at app] in R.
  destruct f as [t out|t code page|t|]; [exact I| | |exact I].
  - destruct R as [[Ec E]|[Ec [E|S]]]; [left; split; [exact Ec|congruence]|right; split; [exact Ec|left; congruence]|right; split; [exact Ec|now right]].
  - destruct R as [E|S]; [left; congruence|now right].
Qed.
Print Assumptions c87_reason.

(** Once the connection is upgraded there is no limit: such a handler is stopped only after keepalive_timeout without a part of what it waits for. *)
Theorem c87_upgraded : forall o start feed p f, 0 <= l_keep o -> (forall x, idle (l_error o x)) -> plain p -> in_order feed -> handles o (start_at o start feed) (Upgrade p) f ->
  match f with
  | Refused t _ _ | Cut t => start + l_keep o <= t /\ silence feed (l_keep o) t
  | Answered _ _ | Endless => True
  end.
Proof.
  intros o start feed p f L2 Er P Or H. apply upgrade_inv in H. pose proof (reasons o Er p (upgrade (start_at o start feed)) [] f P eq_refl Or (fun a d (Hi : In (a, d) []) => match Hi with end) H) as R.
  unfold deadline, reason in R. cbn [s_up s_timer s_feed s_now start_at upgrade app] in R.
  destruct f as [t out|t code page|t|]; [exact I| | |exact I].
  - destruct R as [[_ E]|[_ [E|S]]]; [discriminate E|discriminate E|exact S].
  - destruct R as [E|S]; [discriminate E|exact S].
Qed.
Print Assumptions c87_upgraded.

(** None of this is empty: every handler, at all times of the parts of the body, has a fate. *)
Theorem c87_fate : forall o start feed p, 0 <= l_limit o -> 0 <= l_keep o -> exists f, handles o (start_at o start feed) p f.
Proof. intros o start feed p L1 L2. apply runs; [exact L2|reflexivity|]. cbn [s_timer start_at s_up s_now]. right. lia. Qed.
Print Assumptions c87_fate.

(** ** What does not hold *)
(** A handler that tries once more when no data came, and lets cancellation through. The exception of its time limit is, in a wait for the body, the one for no data: it goes on, and is not stopped any more.
    Here the limit is 120, keepalive_timeout 30, and a part comes every 20. *)
Definition retry_steps : prog := Recv (fun x => match x with
  | Got _ => Return (bs "all") | Over => Return (bs "all")
  | Broken _ => Await (fun w => match w with Woken => Return (bs "some") | Stopped x => Throw x end) end).
Fixpoint reader (n : nat) (last : prog) : prog := match n with O => last | S m => Recv (fun x => match x with Got _ => reader m last | Over => Return (bs "all") | Broken x => Throw x end) end.
Definition late_opts (error : hexn -> prog) : lopts := mkL 120 30 error.
Definition every (z : Z) (n : nat) : list (Z * option bytes) := map (fun i => (z * Z.of_nat i, Some (bs "part"))) (List.seq 1 n).
Theorem c87_retry_refuted : exists o start feed p, 0 < l_limit o /\ 0 < l_keep o /\ (forall x, idle (l_error o x)) /\ lets_cancel p /\ in_order feed /\ handles o (start_at o start feed) p Endless.
Proof.
  exists (late_opts (fun _ => Return (bs "error"))), 0, (every 20 5), (reader 5 retry_steps). split; [reflexivity|]. split; [reflexivity|]. split; [intros x; exact I|]. split; [|split].
  - cbn [reader lets_cancel retry_steps]. repeat split; intros; exact I.
  - cbn. repeat split; intros b d H; repeat destruct H as [H|H]; try (injection H as <- <-; lia); contradiction.
  - cbn [reader every map List.seq]. do 5 (eapply h_recv; [reflexivity|reflexivity|cbn; lia|cbn; lia|]; cbn [at_time take s_now s_timer s_up s_out s_feed s_code start_at tl late_opts l_limit]).
    apply (h_recv_stopped _ _ _ 120); [reflexivity|cbn; lia|exact I|]. apply h_ever. reflexivity.
Qed.
Print Assumptions c87_retry_refuted.
(** An error handler that waits has no limit. *)
Theorem c87_error_refuted : exists o start feed p, 0 < l_limit o /\ 0 < l_keep o /\ obedient p /\ plain p /\ in_order feed /\ handles o (start_at o start feed) p Endless.
Proof.
  exists (late_opts (fun _ => Await (fun w => match w with Woken => Return (bs "error") | Stopped x => Throw x end))), 0, [], (Await (fun w => match w with Woken => Return (bs "page") | Stopped x => Throw x end)).
  split; [reflexivity|]. split; [reflexivity|]. split; [now split|]. split; [now split|]. split; [exact I|].
  apply (h_stopped _ _ _ 120); [reflexivity|cbn; lia|]. apply h_fail; [reflexivity..|]. apply h_ever. reflexivity.
Qed.
Print Assumptions c87_error_refuted.

(** ** Examples *)
(** A handler that reads a body of three parts, and works, and returns. With the parts at 20, 40 and 60 it answers, or gets 500 at 120; with the third at 75 it gets 408 at 70. *)
Definition worker : prog := reader 3 (Await (fun w => match w with Woken => Return (bs "done") | Stopped x => Throw x end)).
Definition quiet_opts : lopts := late_opts (fun _ => Return (bs "error")).
Example c87_worker : obedient worker /\ plain worker /\ returning worker /\ (forall x, idle (l_error quiet_opts x)) /\ in_order (every 20 3).
Proof.
  split; [cbn; repeat split|]. split; [cbn; repeat split|]. split; [cbn; intros []; try exact I; intros []; try exact I; intros []; try exact I; intros []; exact I|]. split; [intros x; exact I|].
  cbn. repeat split; intros b d H; repeat destruct H as [H|H]; try (injection H as <- <-; lia); contradiction.
Qed.
Example c87_example : handles quiet_opts (start_at quiet_opts 0 (every 20 3)) worker (Answered 100 [bs "done"]) /\ handles quiet_opts (start_at quiet_opts 0 (every 20 3)) worker (Refused 120 500 (bs "error")) /\
  handles quiet_opts (start_at quiet_opts 0 [(20, Some (bs "part")); (40, Some (bs "part")); (75, Some (bs "part"))]) worker (Refused 70 408 (bs "error")).
Proof.
  split; [|split]; unfold worker; cbn [reader every map List.seq].
  - do 3 (eapply h_recv; [reflexivity|reflexivity|cbn; lia|cbn; lia|]; cbn [at_time take s_now s_timer s_up s_out s_feed s_code start_at tl quiet_opts late_opts l_limit]).
    apply (h_woken _ _ _ 100); [cbn; lia|cbn; lia|]. now apply (h_return quiet_opts (at_time 100 (mkS 60 (Some 120) false [] [] None))).
  - do 3 (eapply h_recv; [reflexivity|reflexivity|cbn; lia|cbn; lia|]; cbn [at_time take s_now s_timer s_up s_out s_feed s_code start_at tl quiet_opts late_opts l_limit]).
    apply (h_stopped _ _ _ 120); [reflexivity|cbn; lia|]. apply h_fail; [reflexivity..|]. now apply (h_page quiet_opts (failing 500 (mkS 120 None false [] [] None))).
  - do 2 (eapply h_recv; [reflexivity|reflexivity|cbn; lia|cbn; lia|]; cbn [at_time take s_now s_timer s_up s_out s_feed s_code start_at tl quiet_opts late_opts l_limit]).
    apply h_silence; [cbn; lia|cbn; lia|]. apply h_fail; [reflexivity..|]. now apply (h_page quiet_opts (failing 408 (mkS 70 (Some 120) false [] [(75, Some (bs "part"))] None))).
Qed.
