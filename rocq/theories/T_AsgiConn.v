(** C68: the ASGI applications of a connection. *)
From Verif Require Import PyBytes PyExn M_Stream M_Asgi T_Body M_AsgiConn S_AsgiConn P_AsgiConn.
Local Open Scope Z_scope.

(** Whatever happens, when the connection is lost every application that is running is cancelled at that moment. *)
Theorem c68_lost T t0 evs s l a t b i : conn_run T (conn0 t0) evs = Some (s, l) -> l = a ++ LostAt t :: b -> running a i -> In (Cancel i t) b.
Proof.
  intros E H R. destruct (run_split T evs _ _ _ E a _ b H) as (e1 & ev & e2 & s1 & s2 & l1 & la & lb & l2 & -> & E1 & E2 & E3 & -> & ->).
  destruct (step_lost _ _ _ _ _ _ _ _ E2 eq_refl) as (-> & -> & -> & _). rewrite app_nil_r in R. destruct (run_all _ _ _ _ _ E1) as (B & _). apply (book_running _ _ i B) in R as (x & N & O).
  apply in_app_iff. left. apply cancels_in. exists i, x. now repeat split.
Qed.
Print Assumptions c68_lost.

(** After it nothing comes from a client and nothing goes to one: no request, no part of a body, nothing sent, and the connection is not lost again. What is sent to it is dropped, without an error. *)
Theorem c68_gone T t0 evs s l a t b x : conn_run T (conn0 t0) evs = Some (s, l) -> l = a ++ LostAt t :: b -> In x b -> with_client x -> exists i, x = Cancel i t.
Proof.
  intros E H I W. destruct (run_split T evs _ _ _ E a _ b H) as (e1 & ev & e2 & s1 & s2 & l1 & la & lb & l2 & -> & E1 & E2 & E3 & -> & ->).
  destruct (step_lost _ _ _ _ _ _ _ _ E2 eq_refl) as (-> & -> & -> & U & ->). apply in_app_iff in I as [I|I]; [eapply cancels_only; eauto|exfalso].
  cbn [conn_step] in E2. rewrite U in E2. injection E2 as <-. assert (conn_step T s1 Lost = Some (lose T s1, LostAt (k_now s1) :: cancels (k_now s1) 0 (k_apps s1))) as E2 by (cbn [conn_step]; now rewrite U).
  pose proof (step_attrs _ _ _ _ _ _ (run_attrs _ _ _ _ _ E1) E2) as A. destruct (run_down T e2 _ _ _ _ A (lose_up T s1) E3) as (_ & N). now apply (N x).
Qed.
Print Assumptions c68_gone.

(** The application of the last request that waits in receive when the connection is lost is told: from then on it waits for nothing but its turn, and gets http.disconnect. Missing: applications of earlier
    requests, see [c68_fault_refuted]. *)
Theorem c68_told_partial T t0 evs s l i g c evs2 s2 l2 : conn_run T (conn0 t0) evs = Some (s, l) -> nth_error (k_apps s) i = Some (mkApp (InReceive g) c) -> S i = List.length (k_apps s) ->
  conn_run T s (Lost :: evs2) = Some (s2, l2) -> nth_error (k_apps s2) i = Some (mkApp (InReceive g) true) \/ exists t, In (Told i t) l2.
Proof.
  intros E N L E2. pose proof (run_attrs _ _ _ _ _ E) as A. cbn [conn_run conn_step] in E2. destruct (k_up s) eqn:U; [|discriminate]. destruct (conn_run T (lose T s) evs2) as [[s3 b3]|] eqn:E3; [|discriminate]. injection E2 as <- <-.
  assert (conn_step T s Lost = Some (lose T s, LostAt (k_now s) :: cancels (k_now s) 0 (k_apps s))) as E2 by (cbn [conn_step]; now rewrite U).
  assert (waits_for (lose T s) i g (LostAt (k_now s) :: cancels (k_now s) 0 (k_apps s))) as W.
  { left. unfold lose. cbn [k_apps k_timer]. split; [rewrite nth_error_map, N; reflexivity|]. destruct A as (_ & H & _). rewrite (H U), <- L. unfold runs. rewrite N. cbn [over p_at negb]. unfold set_timer. rewrite (H U), <- L.
    destruct (k_timer s) eqn:Et; cbn [fst with_timer k_timer]; [congruence|discriminate]. }
  destruct (run_waits T i g evs2 _ _ _ _ _ (step_attrs _ _ _ _ _ _ A E2) (lose_up T s) W E3) as [(X & _)|X]; [now left|now right].
Qed.
Print Assumptions c68_told_partial.

(** The timer cancels at most once on a connection, at least [T] after the connection was lost or some application got http.disconnect. *)
Theorem c68_timer T t0 evs s l a i t b : conn_run T (conn0 t0) evs = Some (s, l) -> l = a ++ Timer i t :: b ->
  running a i /\ (forall j u, ~ In (Timer j u) a) /\ (forall j u, ~ In (Timer j u) b) /\ exists u, u + T <= t /\ (In (LostAt u) a \/ exists j, In (Told j u) a /\ (one_by_one a -> j = i)).
Proof.
  intros E H. destruct (run_split T evs _ _ _ E a _ b H) as (e1 & ev & e2 & s1 & s2 & l1 & la & lb & l2 & -> & E1 & E2 & E3 & -> & ->).
  destruct (step_fires _ _ _ _ _ _ _ _ _ E2 eq_refl) as (d & Tm & D & -> & Dd & -> & -> & x & N & O). rewrite app_nil_r. cbn [Datatypes.app]. destruct (run_all _ _ _ _ _ E1) as (B & _).
  pose proof (run_clock _ _ _ _ _ E1) as C. unfold clock in C. rewrite Tm in C. destruct C as ((u & -> & W) & Nt).
  split; [apply (book_running _ _ i B); now exists x|]. split; [now apply Nt|]. split; [exact (proj2 (run_dead T e2 _ _ _ Dd E3))|]. exists u. now split.
Qed.
Print Assumptions c68_timer.
(** Where applications come one after the other: only one whose client was gone, or which got http.disconnect itself. *)
Theorem c68_timer_partial T t0 evs s l a i t b : conn_run T (conn0 t0) evs = Some (s, l) -> one_by_one l -> l = a ++ Timer i t :: b ->
  exists u, u + T <= t /\ (In (LostAt u) a \/ In (Told i u) a).
Proof.
  intros E Ob H. destruct (c68_timer _ _ _ _ _ _ _ _ _ E H) as (_ & _ & _ & u & D & W). exists u. split; [exact D|]. rewrite H in Ob. destruct W as [W|(j & W & O)]; [now left|right]. now rewrite <- (O (obo_prefix _ _ Ob)).
Qed.
Print Assumptions c68_timer_partial.

(** Where applications come one after the other and none was given http.disconnect before, the one that is running when the connection is lost, if it still is [T] later, is cancelled again: it has been, or
    the timer is due. Missing: connections on which an application once got http.disconnect, see [c68_timer_refuted]. *)
Theorem c68_stopped_partial T t0 evs s l i evs2 s2 l2 : conn_run T (conn0 t0) evs = Some (s, l) -> one_by_one l -> (forall j t, ~ In (Told j t) l) -> running l i ->
  conn_run T s (Lost :: evs2) = Some (s2, l2) -> running (l ++ l2) i -> k_now s + T <= k_now s2 ->
  (exists t, In (Timer i t) l2) \/ exists s3, conn_step T s2 Fire = Some (s3, [Timer i (k_now s2)]).
Proof.
  intros E Ob Nt R E2 R2 D. destruct (run_all _ _ _ _ _ E) as (B & A & Sq). destruct (Sq Ob) as (Al & _). pose proof (run_clock _ _ _ _ _ E) as C.
  apply (book_running _ _ i B) in R as (x & N & O). pose proof (Al i x N O) as L.
  assert (conn_run T (conn0 t0) (evs ++ Lost :: evs2) = Some (s2, l ++ l2)) as Ea.
  { clear -E E2. revert E. generalize (conn0 t0) as s0. revert l. induction evs as [|ev evs IH]; intros l s0 E; cbn [conn_run] in E; [injection E as <- <-; exact E2|]. cbn [Datatypes.app conn_run].
    destruct (conn_step T s0 ev) as [[s1 b1]|]; [|discriminate]. destruct (conn_run T s1 evs) as [[s3 b3]|] eqn:Er; [|discriminate]. injection E as -> <-. rewrite (IH b3 s1 Er). now rewrite app_assoc. }
  destruct (run_all _ _ _ _ _ Ea) as (B2 & _). apply (book_running _ _ i B2) in R2 as (x2 & N2 & O2).
  cbn [conn_run conn_step] in E2. destruct (k_up s) eqn:U; [|discriminate]. destruct (conn_run T (lose T s) evs2) as [[s3 b3]|] eqn:E3; [|discriminate]. injection E2 as <- <-.
  assert (conn_step T s Lost = Some (lose T s, LostAt (k_now s) :: cancels (k_now s) 0 (k_apps s))) as E2 by (cbn [conn_step]; now rewrite U).
  assert (k_timer s = None) as Et.
  { unfold clock in C. destruct (k_timer s) as [[[h d] lv]|]; [|reflexivity]. exfalso. destruct C as ((u & _ & [W|(j & W & _)]) & _); [|now apply (Nt j u)]. destruct A as (A & _). now apply (A U u). }
  assert (to_fire (lose T s) i (k_now s + T) []) as W.
  { right; right. unfold lose. cbn [k_timer]. destruct A as (_ & H & _). rewrite (H U), <- L. unfold runs. rewrite N. cbn [negb]. rewrite O. unfold set_timer. rewrite Et, (H U), <- L. reflexivity. }
  assert (alone (lose T s) i) as Aln.
  { intros j y Hy Oy. unfold lose in Hy. cbn [k_apps] in Hy. rewrite nth_error_map in Hy. destruct (nth_error (k_apps s) j) as [z|] eqn:Hz; [|discriminate]. injection Hy as <-. rewrite over_cancel in Oy. specialize (Al j z Hz Oy). lia. }
  assert (i < List.length (k_apps (lose T s)))%nat as Li by (unfold lose; cbn [k_apps]; rewrite map_length; lia).
  destruct (run_to_fire T i (k_now s + T) evs2 _ _ _ _ _ (step_attrs _ _ _ _ _ _ A E2) (lose_up T s) Aln Li W E3) as [(y & Y & Oy)|[(t & I)|Tm]].
  - congruence.
  - left. exists t. right. apply in_app_iff. now right.
  - right. cbn [conn_step]. rewrite Tm, N2, O2. replace (k_now s + T <=? k_now s3) with true by (symmetry; now apply Z.leb_le). eexists. reflexivity.
Qed.
Print Assumptions c68_stopped_partial.

(** Whatever an application sends goes to the response of the request that came last, which is its own where applications come one after the other; so do the parts of the body that it is given. *)
Theorem c68_sent T t0 evs s l a i k t b : conn_run T (conn0 t0) evs = Some (s, l) -> l = a ++ Sent i k t :: b -> (exists u, In (Began k u) a) /\ forall u, ~ In (Began (S k) u) a.
Proof.
  intros E H. destruct (run_split T evs _ _ _ E a _ b H) as (e1 & ev & e2 & s1 & s2 & l1 & la & lb & l2 & -> & E1 & E2 & E3 & -> & ->). destruct (run_all _ _ _ _ _ E1) as ((B & _) & _).
  apply step_sent in E2 as (Ek & -> & N). rewrite app_nil_r. split; [apply B; lia|]. intros u I. assert (S k < List.length (k_apps s1))%nat by (apply B; eauto). lia.
Qed.
Print Assumptions c68_sent.
Theorem c68_own_partial T t0 evs s l : conn_run T (conn0 t0) evs = Some (s, l) -> one_by_one l -> (forall i k t, In (Sent i k t) l -> k = i) /\ (forall i g t, In (Given i g t) l -> g = i).
Proof.
  intros E Ob. split; intros i k t I; apply in_split in I as (a & b & H); destruct (run_split T evs _ _ _ E a _ b H) as (e1 & ev & e2 & s1 & s2 & l1 & la & lb & l2 & -> & E1 & E2 & E3 & -> & ->); destruct (run_all _ _ _ _ _ E1) as (_ & _ & Sq);
    rewrite H, <- app_assoc in Ob; destruct (Sq (obo_prefix _ _ Ob)) as (A & B).
  - apply step_sent in E2 as (Ek & _ & x & N & O). specialize (A i x N O). lia.
  - apply step_given in E2 as (c & N). exact (B _ _ _ N).
Qed.
Print Assumptions c68_own_partial.

(** *** What is not so. *)
Ltac seen_one_by_one := intros a k t b H i R;
  repeat (destruct a as [|? a]; cbn [Datatypes.app] in H; [try discriminate H|injection H as <- H]); try (now destruct a);
  destruct R as ((u & I) & N); cbn [In] in I; repeat destruct I as [I|I]; try discriminate I; try (now destruct I); injection I as <- _; apply N; eexists; cbn [In]; eauto 20.
(** An application is told of a disconnect though its client is there and waits for the response: it calls receive once more after the end of the body, as one does that waits for the client to leave. [T]
    later it is cancelled. *)
Theorem c68_told_refuted : exists T t0 evs s l t u, conn_run T (conn0 t0) evs = Some (s, l) /\ In (Told 0 t) l /\ In (Timer 0 u) l /\ In (Broken 0 u) l /\ one_by_one l /\
  (forall x, ~ In (LostAt x) l) /\ (forall x, ~ In (Sent 0 0 x) l).
Proof.
  exists 30, 0, [Request; CallReceive 0; Gives 0; CallReceive 0; Stops 0; Advance 30; Fire; Runs 0]. do 2 eexists. exists 0, 30. split; [vm_compute; reflexivity|]. split; [cbn; tauto|]. split; [cbn; tauto|]. split; [cbn; tauto|].
  split; [seen_one_by_one|]. split; intros x I; cbn [In] in I; intuition discriminate.
Qed.
Print Assumptions c68_told_refuted.
(** receive raises an error where the client is gone: the application is in send when the connection is lost, which does not tell it, and calls receive afterwards. *)
Theorem c68_fault_refuted : exists T t0 evs s l t u, conn_run T (conn0 t0) evs = Some (s, l) /\ one_by_one l /\ In (LostAt t) l /\ running l 0 /\ In (Fault 0 u) l /\ (forall x, ~ In (Told 0 x) l) /\ (forall x, ~ In (Broken 0 x) l).
Proof.
  exists 30, 0, [Request; CallSend 0; Advance 1; Lost; Runs 0; CallReceive 0]. do 2 eexists. exists 1, 1. split; [vm_compute; reflexivity|]. split; [seen_one_by_one|]. split; [cbn; tauto|].
  split; [split; [exists 0; cbn; tauto|intros (x & I); cbn [In] in I; intuition discriminate]|]. split; [cbn; tauto|]. split; intros x I; cbn [In] in I; intuition discriminate.
Qed.
Print Assumptions c68_fault_refuted.
(** An application that goes on after the connection was lost is not cancelled again, ever, because an earlier one of the connection called receive when it had sent its response. *)
Theorem c68_timer_refuted : exists T t0 evs s l t, conn_run T (conn0 t0) evs = Some (s, l) /\ one_by_one l /\ In (LostAt t) l /\ running l 1 /\
  forall evs2 s2 l2, conn_run T s evs2 = Some (s2, l2) -> forall i u, ~ In (Timer i u) (l ++ l2).
Proof.
  exists 30, 0, [Request; CallSend 0; Sends 0 true; CallReceive 0; Returns 0; Request; CallSend 1; Lost; Runs 1]. do 2 eexists. exists 0. split; [vm_compute; reflexivity|]. split; [seen_one_by_one|]. split; [cbn; tauto|].
  split; [split; [exists 0; cbn; tauto|intros (x & I); cbn [In] in I; intuition discriminate]|]. intros evs2 s2 l2 E i u I. apply in_app_iff in I as [I|I]; [cbn [In] in I; intuition discriminate|].
  eapply run_dead in E as (_ & N); [now apply (N i u)|]. eexists _, _. reflexivity.
Qed.
Print Assumptions c68_timer_refuted.
(** An application that goes on after the end of its response sends into the response of the next request, and takes the body of the next request. *)
Theorem c68_own_refuted : exists T t0 evs s l t, conn_run T (conn0 t0) evs = Some (s, l) /\ In (Sent 0 1 t) l /\ In (Given 0 1 t) l.
Proof. exists 30, 0, [Request; CallSend 0; Sends 0 true; Request; CallReceive 0; Gives 0; CallSend 0; Sends 0 false]. do 2 eexists. exists 0. split; [vm_compute; reflexivity|]. split; cbn; tauto. Qed.
Print Assumptions c68_own_refuted.
(** And its http.disconnect makes the timer cancel the application of the next request, which has its client. *)
Theorem c68_timer_other_refuted : exists T t0 evs s l t u, conn_run T (conn0 t0) evs = Some (s, l) /\ In (Timer 1 u) l /\ In (Told 0 t) l /\ (forall x, ~ In (Told 1 x) l) /\ (forall x, ~ In (LostAt x) l).
Proof.
  exists 30, 0, [Request; CallReceive 0; Gives 0; CallSend 0; Sends 0 true; Request; CallReceive 0; Stops 0; Advance 30; Fire]. do 2 eexists. exists 0, 30. split; [vm_compute; reflexivity|]. split; [cbn; tauto|]. split; [cbn; tauto|].
  split; intros x I; cbn [In] in I; intuition discriminate.
Qed.
Print Assumptions c68_timer_other_refuted.

(** *** The hypotheses are met: two requests, the second one's application waits in receive when the connection is lost, is told, goes on, is cancelled. *)
Definition two : list cev := [Request; CallReceive 0; Gives 0; CallSend 0; Sends 0 false; CallSend 0; Sends 0 true; Returns 0; Advance 5; Request; CallReceive 1; Gives 1; CallReceive 1].
Example c68_example : exists s l s2, conn_run 30 (conn0 100) two = Some (s, l) /\ one_by_one l /\ (forall j t, ~ In (Told j t) l) /\ running l 1 /\ nth_error (k_apps s) 1 = Some (mkApp (InReceive 1) false) /\
  l = [Began 0 100; Given 0 0 100; Sent 0 0 100; Sent 0 0 100; Ended 0 100; Began 1 105; Given 1 1 105] /\
  conn_run 30 s [Lost; Runs 1; Advance 30; Fire; Runs 1; Raises 1] = Some (s2, [LostAt 105; Cancel 1 105; Told 1 105; Timer 1 135; Broken 1 135; Ended 1 135]) /\
  exists s3 l3, conn_run 30 s [Lost; Runs 1; Advance 30] = Some (s3, l3) /\ running (l ++ l3) 1 /\ k_now s + 30 <= k_now s3.
Proof.
  do 3 eexists. split; [vm_compute; reflexivity|]. split; [seen_one_by_one|]. split; [intros j t I; cbn [In] in I; intuition discriminate|].
  split; [split; [exists 105; cbn; tauto|intros (x & I); cbn [In] in I; intuition discriminate]|]. split; [reflexivity|]. split; [reflexivity|]. split; [vm_compute; reflexivity|]. do 2 eexists. split; [vm_compute; reflexivity|].
  split; [|vm_compute; discriminate]. split; [exists 105; cbn; tauto|intros (x & I); cbn [In Datatypes.app] in I; intuition discriminate].
Qed.
(** The stream of a request with a body does end like this ([Stops]) while the client waits: put_to_queue puts None behind the last piece (M_Asgi). *)
Example c68_example_stream : receives 2 ex_opts (ex_state [Data (bs "ab"); End] 2 false) (Some (GInit false)) = [M_Asgi.Request (bs "ab") false; Disconnect].
Proof. reflexivity. Qed.
