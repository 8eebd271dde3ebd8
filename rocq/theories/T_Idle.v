(** C74: while the application waits in receive(), an idle client is pinged after half of keepalive_timeout, dropped after all of it, and kept if it answers. [h] is half of
    keepalive_timeout. *)
From Verif Require Import PyBytes M_Idle S_Idle P_Idle.
From Coq Require Import Sorted.
Local Open Scope Z_scope.

(** Dropped: exactly when receive() has been running, and no byte has come, for keepalive_timeout. *)
Theorem c74_dropped h listed l t : 0 < h -> in_order l -> In (t, Closed) (session h listed l) <->
  exists l1 e l2 c g, l = l1 ++ e :: l2 /\ pending (session h listed l1) c /\ latest c (bytes_at l1) g /\ t = g + 2 * h /\ t <= time e.
Proof. apply closed_iff. Qed.
Print Assumptions c74_dropped.
(** Pinged: exactly when receive() has been running, and no frame has been completed, for half of it, and the connection is listed then; once, until a frame is completed. *)
Theorem c74_pinged h listed l t : 0 < h -> in_order l -> In (t, Pinged) (session h listed l) <->
  exists l1 e l2 c s, l = l1 ++ e :: l2 /\ pending (session h listed l1) c /\ latest c (frame_at l1) s /\ (forall x, In x l1 -> time x < t) /\ t = s + h /\ t <= time e /\ listed t = true.
Proof. apply pinged_iff. Qed.
Print Assumptions c74_pinged.
(** A client that completes a frame within the other half after every ping (or whose time for that is not over yet) is not dropped, as long as the connection is listed. *)
Theorem c74_answers h listed l : 0 < h -> in_order l -> (forall t, listed t = true) ->
  (forall p, In (p, Pinged) (session h listed l) -> (exists t, frame_at l t /\ p <= t < p + h) \/ (forall e, In e l -> time e < p + h)) ->
  forall t, ~ In (t, Closed) (session h listed l).
Proof.
  intros H O Li A t I. pose proof I as I0. apply closed_iff in I as (l1 & e & l2 & c & g & -> & P & Lg & -> & L); [|exact H|exact O].
  destruct (in_order_app _ _ O) as [O1 T]. destruct (pending_waiting h listed l1 c H O1 P) as (s & g' & p & E & Ls & Lg' & SG & Q). rewrite (latest_unique _ _ _ _ Lg Lg') in *. clear Lg g.
  assert (In (s + h, Pinged) (session h listed (l1 ++ e :: l2))) as J.
  { destruct p.
    - pose proof (run_fits h listed l1 H O1) as F. unfold session. rewrite run_app. destruct (run h listed (Busy []) l1) as [st o]. cbn [fst] in E. subst st.
      destruct (run h listed (Waiting s g' true) (e :: l2)) as [st2 o2]. cbn [snd]. apply in_or_app. left. destruct F as (_ & _ & _ & _ & _ & _ & _ & F). now apply F.
    - apply pinged_iff; [exact H|exact O|]. exists l1, e, l2, c, s. split; [reflexivity|]. split; [exact P|]. split; [exact Ls|]. split; [now apply Q|]. split; [reflexivity|]. split; [lia|apply Li]. }
  destruct (A _ J) as [(t & (fs & I & N) & B)|B].
  - apply in_app_or in I as [I|I].
    + destruct Ls as (_ & _ & Ls). specialize (Ls t ltac:(now exists fs)). lia.
    + pose proof (in_order_mid _ _ _ _ O I) as X. cbn [time] in X. lia.
  - specialize (B e ltac:(apply in_or_app; right; now left)). lia.
Qed.
Print Assumptions c74_answers.
(** Nor is a client that sends a byte before keepalive_timeout is over, again and again: between the last byte and the drop there is all of keepalive_timeout, and receive()
    was running all the time. *)
Theorem c74_silent h listed l t : 0 < h -> in_order l -> In (t, Closed) (session h listed l) ->
  (forall t', bytes_at l t' -> t' <= t - 2 * h \/ t <= t') /\ exists l1 l2 c, l = l1 ++ l2 /\ pending (session h listed l1) c /\ c <= t - 2 * h /\ forall e, In e l2 -> t <= time e.
Proof.
  intros H O I. apply closed_iff in I as (l1 & e & l2 & c & g & -> & P & Lg & -> & L); [|exact H|exact O]. destruct Lg as (_ & Cg & Lg). split.
  - intros t' (fs & I). apply in_app_or in I as [I|I].
    + left. specialize (Lg t' ltac:(now exists fs)). lia.
    + right. pose proof (in_order_mid _ _ _ _ O I) as X. cbn [time] in X. lia.
  - exists l1, (e :: l2), c. split; [reflexivity|]. split; [exact P|]. split; [lia|]. intros x I. pose proof (in_order_mid _ _ _ _ O I). lia.
Qed.
Print Assumptions c74_silent.
(** Pings are not closer to each other than half of keepalive_timeout. *)
Theorem c74_apart h listed l : 0 < h -> in_order l -> StronglySorted (fun a b => a + h <= b) (pings (session h listed l)).
Proof. apply pings_sorted. Qed.
Print Assumptions c74_apart.
(** A connection that is not listed any more is not pinged. *)
Theorem c74_unlisted h listed l t : 0 < h -> in_order l -> listed t = false -> ~ In (t, Pinged) (session h listed l).
Proof. intros H O Li I. apply pinged_iff in I as (? & ? & ? & ? & ? & _ & _ & _ & _ & _ & _ & Li'); [congruence|exact H|exact O]. Qed.
Print Assumptions c74_unlisted.

(** keepalive_timeout 30, a pong for every ping, a message, and then nothing. *)
Example c74_example :
  let l := [Call 0; Seg 16 [Control]; Seg 35 [Control; Message]; Seg 100 [Control]; Call 110; Seg 126 []; Seg 127 [Control]; Tick 200] in
  in_order l /\ session 15 (fun _ => true) l =
    [(0, Called); (15, Pinged); (31, Pinged); (35, Returned); (110, Called); (125, Pinged); (142, Pinged); (157, Closed)].
Proof. split; [repeat (constructor; [|repeat constructor; cbn; lia]); constructor|reflexivity]. Qed.
(** The hypotheses of [c74_answers]. *)
Example c74_answers_example : let l := [Call 0; Seg 16 [Control]; Seg 35 [Control]; Tick 60] in in_order l /\
  forall p, In (p, Pinged) (session 15 (fun _ => true) l) -> (exists t, frame_at l t /\ p <= t < p + 15) \/ (forall e, In e l -> time e < p + 15).
Proof.
  split; [repeat (constructor; [|repeat constructor; cbn; lia]); constructor|]. intros p I. vm_compute in I. destruct I as [[=]|[[= <-]|[[= <-]|[[= <-]|[]]]]].
  - left. exists 16. split; [|lia]. exists [Control]. split; [right; now left|discriminate].
  - left. exists 35. split; [|lia]. exists [Control]. split; [right; right; now left|discriminate].
  - right. intros e [<-|[<-|[<-|[<-|[]]]]]; cbn [time]; lia.
Qed.
(** Without being listed, the same client would be dropped unasked. *)
Example c74_unlisted_example : session 15 (fun _ => false) [Call 0; Tick 31] = [(0, Called); (30, Closed)].
Proof. reflexivity. Qed.
