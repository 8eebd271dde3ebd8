(** C64: hooks of connections and workers. All theorems are about every run of a connection with [nc] connect and [nl] close middlewares, which may end
    whenever and however they like. *)
From Verif Require Import PyBytes M_Hooks S_Hooks P_Hooks.

(** C64, connect middlewares are called in the order of registration, each once, the next one after the last one ended with a false value; an exception or a
    true value ends the walk. *)
Theorem c64_connect : forall nc nl evs s log, hook_run nc nl hooks_new evs = Some (s, log) ->
  exists es more, connect_marks log = connect_walk nc es more /\
    ((more = true /\ all_falsy es /\ List.length es < nc) \/ (more = false /\ (es = [] \/ exists ok, finished nc es ok))).
Proof.
  intros nc nl evs s log H. destruct (inv_run nc nl evs hooks_new [] s log (inv_new nc nl) H) as (C & _). unfold connect_ok in C. cbn [app] in C.
  destruct (k_connect s) as [| |i|ok].
  - exists [], false. split; [unfold connect_walk; rewrite walk_nil; apply C|]. right. split; [reflexivity|now left].
  - exists [], false. split; [unfold connect_walk; rewrite walk_nil; apply C|]. right. split; [reflexivity|now left].
  - destruct C as (L & es & F & N & W). exists es, true. split; [exact W|]. left. split; [reflexivity|]. split; [exact F|lia].
  - destruct C as [(es & W & F)|(_ & W & _)].
    + exists es, false. split; [exact W|]. right. split; [reflexivity|]. right. now exists ok.
    + exists [], false. split; [unfold connect_walk; rewrite walk_nil; exact W|]. right. split; [reflexivity|now left].
Qed.
Print Assumptions c64_connect.

(** C64, no request is handled before the connect middlewares are done, nor after one of them failed. *)
Theorem c64_gate : forall nc nl evs s l1 k l2, hook_run nc nl hooks_new evs = Some (s, l1 ++ Handles k :: l2) ->
  exists es, connect_marks l1 = connect_walk nc es false /\ finished nc es true.
Proof.
  intros nc nl evs s l1 k l2 H. destruct (run_split nc nl evs _ _ _ _ _ H) as (evs1 & ev & evs2 & s1 & s2 & la & p & q & l3 & R1 & St & R2 & -> & ->).
  pose proof (inv_run nc nl evs1 hooks_new [] s1 la (inv_new nc nl) R1) as I. cbn [app] in I. destruct (step_handles nc nl _ _ _ _ _ _ _ I St) as (-> & O). rewrite app_nil_r.
  destruct I as (C & _). unfold connect_ok in C. destruct O as [Z|K].
  - exists []. split; [|left; split; [constructor|now split]]. unfold connect_walk. rewrite walk_nil. destruct (k_connect s1) as [| |i|ok]; try apply C; [lia|].
    destruct C as [(es & W & F)|(_ & W & _)]; [|exact W]. subst nc. rewrite W. now destruct es.
  - rewrite K in C. destruct C as [C|(X & _)]; [exact C|discriminate].
Qed.
Print Assumptions c64_gate.

(** C64, a request is refused only because a connect middleware failed, or because the connection was already cleaned up before the first one was called. *)
Theorem c64_refuses : forall nc nl evs s l1 k l2, hook_run nc nl hooks_new evs = Some (s, l1 ++ Refuses k :: l2) ->
  (exists es, connect_marks l1 = connect_walk nc (es ++ [Fails]) false) \/ (connect_marks l1 = [] /\ In Cleaned l1).
Proof.
  intros nc nl evs s l1 k l2 H. destruct (run_split nc nl evs _ _ _ _ _ H) as (evs1 & ev & evs2 & s1 & s2 & la & p & q & l3 & R1 & St & R2 & -> & ->).
  pose proof (inv_run nc nl evs1 hooks_new [] s1 la (inv_new nc nl) R1) as I. cbn [app] in I. destruct (step_refuses nc nl _ _ _ _ _ _ _ I St) as (-> & K). rewrite app_nil_r.
  destruct I as (C & _). unfold connect_ok in C. rewrite K in C. destruct C as [(es & W & F)|(_ & W & X)]; [left|right; now split].
  destruct (finished_falsy nc es false F eq_refl) as (es' & ->). now exists es'.
Qed.
Print Assumptions c64_refuses.

(** C64, close middlewares are called after the connection is lost only, in reverse order, each once, until one ends with a true value or fails. *)
Theorem c64_close : forall nc nl evs s log, hook_run nc nl hooks_new evs = Some (s, log) ->
  exists es more, close_marks log = close_walk nl es more /\
    ((more = true /\ all_falsy es /\ List.length es < nl) \/ (more = false /\ (es = [] \/ exists ok, finished nl es ok))) /\
    (close_marks log <> [] -> In LostMark log).
Proof.
  intros nc nl evs s log H. destruct (inv_run nc nl evs hooks_new [] s log (inv_new nc nl) H) as (_ & C & _ & Il & _). unfold close_ok in C. cbn [app] in *.
  destruct (k_close s) as [| |i|ok].
  - exists [], false. split; [unfold close_walk; rewrite walk_nil; apply C|]. split; [right; split; [reflexivity|now left]|]. destruct C as (-> & _). easy.
  - exists [], false. split; [unfold close_walk; rewrite walk_nil; apply C|]. split; [right; split; [reflexivity|now left]|]. destruct C as (-> & _). easy.
  - destruct C as (L & Lo & _ & es & F & N & W). exists es, true. split; [exact W|]. split; [left; split; [reflexivity|]; split; [exact F|lia]|]. intros _. now apply Il.
  - destruct C as (Lo & _ & es & W & F). exists es, false. split; [exact W|]. split; [right; split; [reflexivity|]; right; now exists ok|]. intros _. now apply Il.
Qed.
Print Assumptions c64_close.

(** C64, the connection is cleaned up after it is lost only, once, when the close middlewares are done, however they ended; none is called afterwards. *)
Theorem c64_cleaned : forall nc nl evs s l1 l2, hook_run nc nl hooks_new evs = Some (s, l1 ++ Cleaned :: l2) ->
  In LostMark l1 /\ ~ In Cleaned l1 /\ (exists es ok, close_marks l1 = close_walk nl es false /\ finished nl es ok) /\ close_marks l2 = [] /\ ~ In Cleaned l2.
Proof.
  intros nc nl evs s l1 l2 H. destruct (run_split nc nl evs _ _ _ _ _ H) as (evs1 & ev & evs2 & s1 & s2 & la & p & q & l3 & R1 & St & R2 & -> & ->).
  pose proof (inv_run nc nl evs1 hooks_new [] s1 la (inv_new nc nl) R1) as I. cbn [app] in I. destruct (step_cleaned nc nl _ _ _ _ _ _ I St) as (-> & O & L & W).
  destruct (over_run nc nl evs2 s2 s l3 O R2) as (M & N). split; [exact L|]. split; [|split; [exact W|split; [exact M|exact N]]].
  intros X. apply in_split in X. destruct X as (a & b & E). rewrite E in H. rewrite <- app_assoc in H. cbn [app] in H.
  destruct (run_split nc nl evs _ _ _ _ _ H) as (evs1' & ev' & evs2' & s1' & s2' & la' & p' & q' & l3' & R1' & St' & R2' & E1 & E2).
  pose proof (inv_run nc nl evs1' hooks_new [] s1' la' (inv_new nc nl) R1') as I'. cbn [app] in I'. destruct (step_cleaned nc nl _ _ _ _ _ _ I' St') as (-> & O' & _).
  destruct (over_run nc nl evs2' s2' s l3' O' R2') as (_ & N'). apply N'. cbn [app] in E2. rewrite <- E2. apply in_or_app. right. now left.
Qed.
Print Assumptions c64_cleaned.

(** C64, the cleanup comes for sure: while it has not come, the task of the close middlewares can go on, whatever the middleware does, and after the
    disconnect it has at most one step more than there are middlewares. *)
Theorem c64_sure : forall nc nl evs s log, hook_run nc nl hooks_new evs = Some (s, log) -> In LostMark log -> ~ In Cleaned log ->
  ((exists r, hook_step nc nl s CloseRuns = Some r) \/ (forall e, exists r, hook_step nc nl s (CloseReturns e) = Some r)) /\
  (forall evs' s' log', hook_run nc nl s evs' = Some (s', log') -> List.length (filter close_event evs') = S nl -> In Cleaned log').
Proof.
  intros nc nl evs s log H Lo Nc. pose proof (inv_run nc nl evs hooks_new [] s log (inv_new nc nl) H) as I. cbn [app] in I.
  pose proof I as (_ & L & Ic & Il & _). assert (k_lost s = true) as Lo' by now apply Il. assert (k_clean s = false) as Cl by (destruct (k_clean s); [destruct Nc; now apply Ic|reflexivity]).
  split; [exact (proj2 (left_pos nc nl s log I Lo' Cl))|]. intros evs' s' log' R N.
  pose proof (run_left nc nl evs' s log s' log' I Lo' R) as B. pose proof (inv_run nc nl evs' s log s' log' I R) as I'.
  assert (left_over nl s <= S nl) as Ub. { unfold left_over, close_ok in *. destruct (k_close s); lia. }
  assert (k_lost s' = true) as Lo2. { destruct I' as (_ & _ & _ & Il' & _). apply Il'. apply in_or_app. now left. }
  destruct (k_clean s') eqn:Cl'.
  - destruct I' as (_ & _ & Ic' & _). apply Ic' in Cl'. apply in_app_or in Cl'. tauto.
  - pose proof (left_pos nc nl s' _ I' Lo2 Cl') as (P & _). lia.
Qed.
Print Assumptions c64_sure.

(** The claim that close middlewares run when the connect middlewares are done is false: a client that leaves early makes them run at the same time. *)
Theorem c64_overlap_refuted : exists evs s l1 l2 l3, hook_run 1 1 hooks_new evs = Some (s, l1 ++ ConnectCalled 0 :: l2 ++ ConnectEnded 0 Falsy :: l3) /\
  In (CloseCalled 0) l2 /\ In (CloseEnded 0 Falsy) l2 /\ In Cleaned l2.
Proof.
  exists [Made; ConnectRuns; Lost; CloseRuns; CloseReturns Falsy; ConnectReturns Falsy]. eexists. exists [], [LostMark; CloseCalled 0; CloseEnded 0 Falsy; Cleaned], [].
  split; [reflexivity|]. cbn [In]. intuition.
Qed.
Print Assumptions c64_overlap_refuted.

(** C64, workers: worker_start functions are called in order, worker_stop functions in reverse order, each once, up to the first that does not end with a false value. *)
Theorem c64_worker_start : forall f n, exists k es, worker_start f n = (seq 0 k, forallb (fun e => match e with Fails => false | _ => true end) es) /\
  es = map f (seq 0 k) /\ (all_falsy es /\ k = n \/ exists es' e, es = es' ++ [e] /\ all_falsy es' /\ e <> Falsy /\ k <= n).
Proof.
  intros f n. unfold worker_start. generalize 0. induction n as [|n IH]; intros a; [exists 0, []; repeat split; left; split; [constructor|reflexivity]|]. cbn [seq start_loop].
  destruct (f a) eqn:E.
  - destruct (IH (S a)) as (k & es & H & -> & D). rewrite H. exists (S k), (map f (seq a (S k))). cbn [seq map forallb]. rewrite E. split; [reflexivity|]. split; [reflexivity|].
    destruct D as [(D & ->)|(es' & e & D1 & D2 & D3 & D4)]; [left; split; [now constructor|reflexivity]|]. right. exists (Falsy :: es'), e. rewrite D1. split; [reflexivity|]. split; [now constructor|]. split; [exact D3|lia].
  - exists 1, [Truthy]. cbn [seq map forallb]. rewrite E. split; [reflexivity|]. split; [reflexivity|]. right. exists [], Truthy. split; [reflexivity|]. split; [constructor|]. split; [discriminate|lia].
  - exists 1, [Fails]. cbn [seq map forallb]. rewrite E. split; [reflexivity|]. split; [reflexivity|]. right. exists [], Fails. split; [reflexivity|]. split; [constructor|]. split; [discriminate|lia].
Qed.
Print Assumptions c64_worker_start.
Theorem c64_worker_stop : forall f n, exists k es, worker_stop f n = (firstn k (rev (seq 0 n)), forallb (fun e => match e with Fails => false | _ => true end) es) /\
  es = map f (firstn k (rev (seq 0 n))) /\ (all_falsy es /\ k = n \/ exists es' e, es = es' ++ [e] /\ all_falsy es' /\ e <> Falsy /\ k <= n).
Proof.
  intros f n. induction n as [|n IH]; [exists 0, []; repeat split; left; split; [constructor|reflexivity]|]. rewrite seq_S, rev_app_distr. cbn [rev app plus worker_stop].
  destruct (f n) eqn:E.
  - destruct IH as (k & es & H & -> & D). rewrite H. exists (S k), (map f (firstn (S k) (n :: rev (seq 0 n)))). cbn [firstn map forallb]. rewrite E. split; [reflexivity|]. split; [reflexivity|].
    destruct D as [(D & ->)|(es' & e & D1 & D2 & D3 & D4)]; [left; split; [now constructor|reflexivity]|]. right. exists (Falsy :: es'), e. rewrite D1. split; [reflexivity|]. split; [now constructor|]. split; [exact D3|lia].
  - exists 1, [Truthy]. cbn [firstn map forallb]. rewrite E. split; [reflexivity|]. split; [reflexivity|]. right. exists [], Truthy. split; [reflexivity|]. split; [constructor|]. split; [discriminate|lia].
  - exists 1, [Fails]. cbn [firstn map forallb]. rewrite E. split; [reflexivity|]. split; [reflexivity|]. right. exists [], Fails. split; [reflexivity|]. split; [constructor|]. split; [discriminate|lia].
Qed.
Print Assumptions c64_worker_stop.

(** ** Examples: a request waits for two connect middlewares, is handled, and the connection is lost; the second close middleware is the first to be called. *)
Example c64_example : exists s,
  hook_run 2 2 hooks_new [Made; Request 7; ConnectRuns; ConnectReturns Falsy; ConnectReturns Falsy; Resumes 7; Lost; CloseRuns; CloseReturns Falsy; CloseReturns Fails] =
  Some (s, [ConnectCalled 0; ConnectEnded 0 Falsy; ConnectCalled 1; ConnectEnded 1 Falsy; Handles 7; LostMark; CloseCalled 1; CloseEnded 1 Falsy; CloseCalled 0; CloseEnded 0 Fails; Cleaned]).
Proof. eexists. vm_compute. reflexivity. Qed.
Example c64_refuses_example : exists s, hook_run 2 0 hooks_new [Made; ConnectRuns; Request 1; ConnectReturns Fails; Resumes 1; Request 2; Resumes 2; Lost] =
  Some (s, [ConnectCalled 0; ConnectEnded 0 Fails; Refuses 1; Refuses 2; LostMark; Cleaned]).
Proof. eexists. vm_compute. reflexivity. Qed.
Example c64_sure_example : exists s, hook_run 0 2 hooks_new [Made; Lost] = Some (s, [LostMark]) /\
  exists s', hook_run 0 2 s [CloseRuns; CloseReturns Falsy; CloseReturns Truthy] = Some (s', [CloseCalled 1; CloseEnded 1 Falsy; CloseCalled 0; CloseEnded 0 Truthy; Cleaned]) /\
  List.length (filter close_event [CloseRuns; CloseReturns Falsy; CloseReturns Truthy]) = 3.
Proof. eexists. split; [vm_compute; reflexivity|]. eexists. split; [vm_compute; reflexivity|reflexivity]. Qed.
Example c64_worker_example : worker_start (fun i => if i =? 1 then Truthy else Falsy) 3 = ([0; 1], true) /\ worker_stop (fun i => if i =? 0 then Fails else Falsy) 3 = ([2; 1; 0], false).
Proof. split; reflexivity. Qed.
