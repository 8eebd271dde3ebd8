(** C48: the write buffer is bounded. *)
From Verif Require Import PyBytes M_Send S_Send P_Send.
Local Open Scope Z_scope.

(** Items are handed to the transport in the order of the queue; as long as the connection is open none is lost: what was put is handed, or with the task, or in the queue. *)
Theorem c48_order : forall evs s l, send_run snd_new evs = Some (s, l) ->
  is_prefix (handed l) (puts evs) /\ (s_tr s = Open -> puts evs = handed l ++ holds (s_pc s) ++ datas (s_q s)).
Proof.
  intros evs s l R. destruct (run_ord evs snd_new s l [] []) as (O & P); [|exact R|].
  - split; [reflexivity|exists []; reflexivity].
  - split; [exact P|exact O].
Qed.
Print Assumptions c48_order.

(** Nothing is handed to the transport while more than the high watermark is in its buffer; so there is never more than that and one item in it. *)
Theorem c48_bound : forall H M evs s l, limits H M evs -> send_run snd_new evs = Some (s, l) ->
  0 <= s_buf s <= H + M /\ (forall d b, In (Handed d b) l -> b <= H).
Proof.
  intros H M evs s l (H0 & M0 & HL & HP) R. pose proof (run_inv _ _ _ _ inv_new R) as I.
  destruct (run_bnd H M evs snd_new s l H0 M0 HL HP inv_new) as (B & F); [|exact R|].
  - constructor; cbn; try lia; try discriminate; try (intros d []).
  - split; [split; [exact (iv_buf _ I)|exact (bd_buf _ _ _ B)]|]. intros d b Hin. rewrite Forall_forall in F. exact (F _ Hin).
Qed.
Print Assumptions c48_bound.

(** When an item was taken while the buffer was above the high watermark, nothing is handed to the transport until the client reads, or the timer runs out, or the connection is given up. *)
Theorem c48_waits : forall evs1 evs2 keep n d q s0 l0 s1 l1 s2 l2, send_run snd_new evs1 = Some (s0, l0) -> s_q s0 = Some d :: q -> s_high s0 < s_buf s0 ->
  send_step s0 (Take keep n) = Some (s1, l1) -> no_relief evs2 -> send_run s1 evs2 = Some (s2, l2) -> handed l1 = [] /\ handed l2 = [].
Proof.
  intros evs1 evs2 keep n d q s0 l0 s1 l1 s2 l2 R Q B E N R2. cbn [send_step] in E. rewrite Q in E. destruct (s_pc s0) eqn:P; try discriminate.
  destruct (s_high s0 <? s_buf s0) eqn:K; [|apply Z.ltb_ge in K; lia]. injection E as <- <-. split; [reflexivity|].
  refine (proj2 (wait_run evs2 _ d _ _ _ N R2)). reflexivity.
Qed.
Print Assumptions c48_waits.

(** If the timer runs out the connection is aborted, and nothing is handed to the transport any more. *)
Theorem c48_timeout : forall evs1 evs2 s0 l0 d s1 l1 s2 l2, send_run snd_new evs1 = Some (s0, l0) -> s_pc s0 = Waiting d -> s_tr s0 = Open ->
  send_step s0 Timeout = Some (s1, l1) -> send_run s1 evs2 = Some (s2, l2) -> l1 = [Aborted] /\ s_buf s1 = 0 /\ s_tr s1 = Closing /\ handed l2 = [].
Proof.
  intros evs1 evs2 s0 l0 d s1 l1 s2 l2 R P T E R2. cbn [send_step] in E. rewrite P in E. unfold abort in E. rewrite T in E. cbn in E. injection E as <- <-.
  split; [reflexivity|]. split; [reflexivity|]. split; [reflexivity|]. eapply shut_run; [|exact R2]. discriminate.
Qed.
Print Assumptions c48_timeout.

(** And if the client reads all there is, the task is woken and hands on the item that it has. *)
Theorem c48_drained : forall evs s l d n, send_run snd_new evs = Some (s, l) -> s_pc s = Waiting d -> s_tr s = Open -> 0 < s_buf s ->
  exists s1 s2, send_step s (Drain (s_buf s)) = Some (s1, []) /\ send_step s1 (Resume n) = Some (s2, [Handed d 0]).
Proof.
  intros evs s l d n R P T B. pose proof (run_inv _ _ _ _ inv_new R) as [i1 i2 i3 i4 i5].
  cbn [send_step]. rewrite T, P, (i5 d P), Z.sub_diag, Z.leb_refl. replace (0 <? s_buf s) with true by (symmetry; apply Z.ltb_lt; exact B). cbn [andb].
  replace (0 <=? t_low s) with true by (symmetry; apply Z.leb_le; lia).
  eexists _, _. split; [reflexivity|]. cbn [send_step s_pc]. unfold write. cbn [s_tr]. reflexivity.
Qed.
Print Assumptions c48_drained.

(** It is woken as soon as the buffer is down to the low watermark of the transport, and not before. *)
Theorem c48_low : forall evs s l d n, send_run snd_new evs = Some (s, l) -> s_pc s = Waiting d -> s_tr s = Open -> 0 < n <= s_buf s ->
  exists s1, send_step s (Drain n) = Some (s1, []) /\ s_pc s1 = if s_buf s - n <=? t_low s then Woken d else Waiting d.
Proof.
  intros evs s l d n R P T B. pose proof (run_inv _ _ _ _ inv_new R) as [i1 i2 i3 i4 i5].
  cbn [send_step]. rewrite T, (i5 d P). replace (0 <? n) with true by (symmetry; apply Z.ltb_lt; lia). replace (n <=? s_buf s) with true by (symmetry; apply Z.leb_le; lia). cbn [andb].
  destruct (s_buf s - n <=? t_low s); eexists; (split; [reflexivity|]); cbn [s_pc]; rewrite P; reflexivity.
Qed.
Print Assumptions c48_low.

(** A buffer of 3 and 2 bytes above a high watermark of 4, then a wait, and a client that reads. *)
Definition abc : bytes := bs "abc".
Definition de : bytes := bs "de".
Definition slow_run : list sev := [Limits 4 1; Put (Some abc); Put (Some de); Put (Some abc); Put None; Take false 0; Take false 0; Take false 0; Drain 1; Drain 3; Resume 0; Drain 4; Take false 0].
Example c48_example : send_run snd_new slow_run = Some (mkS [] Stopped 4 Closing 0 4 1 false, [Handed abc 0; Handed de 3; Handed abc 1; Closed]) /\ limits 65536 3 slow_run.
Proof.
  split; [vm_compute; reflexivity|]. split; [lia|]. split; [lia|]. split.
  - intros h lo H. cbn in H. destruct H as [H|H]; [injection H as <- <-; lia|]. intuition discriminate.
  - intros d H. cbn in H. intuition (subst d; vm_compute; discriminate).
Qed.
Definition stuck_run : list sev := [Limits 4 1; Put (Some abc); Put (Some de); Put (Some abc); Take false 0; Take false 0].
Example c48_waits_example : exists s0, send_run snd_new stuck_run = Some (s0, [Handed abc 0; Handed de 3]) /\ s_q s0 = [Some abc] /\ s_high s0 < s_buf s0 /\
  exists s1, send_step s0 (Take false 0) = Some (s1, []) /\ s_pc s1 = Waiting abc /\ s_tr s1 = Open /\ 0 < s_buf s1 /\ send_step s1 Timeout <> None.
Proof.
  eexists. split; [vm_compute; reflexivity|]. split; [reflexivity|]. split; [vm_compute; reflexivity|]. eexists. split; [vm_compute; reflexivity|].
  split; [reflexivity|]. split; [reflexivity|]. split; [vm_compute; reflexivity|]. vm_compute. discriminate.
Qed.
