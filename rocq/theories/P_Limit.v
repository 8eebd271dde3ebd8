(** Proofs about the time limits of handlers (C87). *)
From Verif Require Import PyBytes M_Limit S_Limit.
Local Open Scope Z_scope.

(** The rules, read backwards *)
Lemma await_inv o s k f : handles o s (Await k) f ->
  (exists t, s_now s <= t /\ in_time t s /\ handles o (at_time t s) (k Woken) f) \/ (exists z, deadline s = Some z /\ s_now s <= z /\ handles o (disarm (at_time z s)) (k (Stopped XCancelled)) f) \/ (deadline s = None /\ f = Endless).
Proof. intros H. inversion H; subst; [left; eauto|right; left; eauto|right; right; now split]. Qed.
Lemma recv_inv o s k f : handles o s (Recv k) f ->
  (exists a d rest, s_feed s = (a, d) :: rest /\ in_time (Z.max (s_now s) a) s /\ handles o (take (at_time (Z.max (s_now s) a) s)) (k (match d with Some x => Got x | None => Over end)) f) \/
  (nothing_before (s_now s + l_keep o) s /\ in_time (s_now s + l_keep o) s /\ handles o (at_time (s_now s + l_keep o) s) (k (Broken XTimeout)) f) \/
  (exists z, deadline s = Some z /\ s_now s <= z /\ handles o (disarm (at_time z s)) (k (Broken XTimeout)) f).
Proof. intros H. inversion H; subst; [left; exists a, d, rest; auto|right; left; auto|right; right; exists z; intuition]. Qed.
Lemma write_inv o s d k f : handles o s (Write d k) f -> handles o (put d s) k f.
Proof. intros H. now inversion H. Qed.
Lemma upgrade_inv o s k f : handles o s (Upgrade k) f -> handles o (upgrade s) k f.
Proof. intros H. now inversion H. Qed.

Section Limits.
Context (o : lopts).
Hypothesis (Lk : 0 <= l_keep o) (Er : forall x, idle (l_error o x)).

Lemma idle_over s p f : idle p -> handles o s p f -> over_at f (s_now s) /\ (s_out s = [] -> s_up s = false -> forall t, f <> Cut t) /\
  (forall x, p = Throw x -> s_code s = None -> (exists page, f = Refused (s_now s) (code_of x) page) \/ (f = Cut (s_now s) /\ (s_out s <> [] \/ s_up s = true))).
Proof.
  assert (forall s p f code, s_code s = Some code -> idle p -> handles o s p f -> exists page, f = Refused (s_now s) code page) as X.
  { intros s0 p0 f0 code Ec I H. inversion H; subst; try contradiction; try congruence; assert (code0 = code) as -> by congruence; eexists; reflexivity. }
  intros I H. inversion H; subst; try contradiction; cbn [over_at].
  - split; [reflexivity|]. split; [discriminate|]. intros x E; discriminate E.
  - split; [reflexivity|]. split; [discriminate|]. intros x E; discriminate E.
  - split; [reflexivity|]. split; [discriminate|]. intros y E C; congruence.
  - split; [reflexivity|]. split; [intros E1 E2; destruct H1; congruence|]. intros y E C. right. split; [reflexivity|assumption].
  - destruct (X (failing (code_of x) s) _ _ (code_of x) eq_refl (Er x) H3) as (page & ->). cbn [s_now failing over_at]. split; [reflexivity|]. split; [discriminate|]. intros y E C. injection E as <-. left. exists page. reflexivity.
Qed.

(** With the timer set, an obedient handler is over by then. *)
Lemma limited p : forall s z f, obedient p -> s_timer s = Some z -> s_up s = false -> s_now s <= z -> handles o s p f -> exists t, over_at f t /\ s_now s <= t <= z.
Proof.
  induction p as [d|x|k IH|k IH|d p IH|p IH]; intros s z f O Tm Up Lz H; cbn [obedient] in O; [| | | | |contradiction].
  - exists (s_now s). split; [exact (proj1 (idle_over s (Return d) f I H))|lia].
  - exists (s_now s). split; [exact (proj1 (idle_over s (Throw x) f I H))|lia].
  - destruct O as [O1 O2]. assert (deadline s = Some z) as Dl by (unfold deadline; now rewrite Up). apply await_inv in H as [(t & L & It & H)|[(z' & E & L & H)|[E _]]]; [| |congruence].
    + unfold in_time in It. rewrite Dl in It. destruct (IH Woken (at_time t s) z f O1 Tm Up It H) as (t' & A & B). cbn [s_now at_time] in B. exists t'. split; [exact A|lia].
    + assert (z' = z) as -> by congruence. exists z. split; [exact (proj1 (idle_over _ _ _ O2 H))|lia].
  - destruct O as (O1 & O2 & O3). assert (deadline s = Some z) as Dl by (unfold deadline; now rewrite Up). apply recv_inv in H as [(a & d & rest & E & It & H)|[(Nb & It & H)|(z' & E & L & H)]].
    + unfold in_time in It. rewrite Dl in It. destruct (IH (match d with Some x => Got x | None => Over end) (take (at_time (Z.max (s_now s) a) s)) z f) as (t' & A & B); [now destruct d|exact Tm|exact Up|exact It|exact H|].
      cbn [s_now at_time take] in B. exists t'. split; [exact A|lia].
    + unfold in_time in It. rewrite Dl in It. exists (s_now s + l_keep o). split; [exact (proj1 (idle_over _ _ _ O3 H))|lia].
    + assert (z' = z) as -> by congruence. exists z. split; [exact (proj1 (idle_over _ _ _ O3 H))|lia].
  - exact (IH (put d s) z f O Tm Up Lz (write_inv _ _ _ _ _ H)).
Qed.

(** A handler that does not stream is not cut off. *)
Lemma told p : forall s f, returning p -> s_out s = [] -> s_up s = false -> handles o s p f -> forall t, f <> Cut t.
Proof.
  induction p as [d|x|k IH|k IH|d p IH|p IH]; intros s f R Eo Up H; cbn [returning] in R; try contradiction.
  - exact (proj1 (proj2 (idle_over s (Return d) f I H)) Eo Up).
  - exact (proj1 (proj2 (idle_over s (Throw x) f I H)) Eo Up).
  - apply await_inv in H as [(t & L & It & H)|[(z' & E & L & H)|[E ->]]]; [| |discriminate]; refine (IH _ _ f (R _) _ _ H); assumption.
  - apply recv_inv in H as [(a & d & rest & E & It & H)|[(Nb & It & H)|(z' & E & L & H)]]; refine (IH _ _ f (R _) _ _ H); assumption.
Qed.

(** Why a plain handler was stopped. *)
Definition reason (feed : list (Z * option bytes)) (start : Z) (z : option Z) (f : fate) : Prop :=
  match f with
  | Refused t code _ => (code = 500 /\ z = Some t) \/ (code = 408 /\ (z = Some t \/ (start + l_keep o <= t /\ silence feed (l_keep o) t)))
  | Cut t => z = Some t \/ (start + l_keep o <= t /\ silence feed (l_keep o) t)
  | _ => True
  end.
Lemma reason_later feed a b z f : a <= b -> reason feed b z f -> reason feed a z f.
Proof. intros L. unfold reason. destruct f as [| |t|]; auto; intros R; [destruct R as [R|[E [R|[R1 R2]]]]; [now left|right; split; [exact E|now left]|right; split; [exact E|right; split; [lia|exact R2]]]|destruct R as [R|[R1 R2]]; [now left|right; split; [lia|exact R2]]]. Qed.
(** [past]: the parts that were taken. *)
Lemma reasons p : forall s past f, plain p -> s_code s = None -> in_order (s_feed s) -> (forall a d, In (a, d) past -> a <= s_now s) ->
  handles o s p f -> reason (past ++ s_feed s) (s_now s) (deadline s) f.
Proof.
  induction p as [d|x|k IH|k IH|d p IH|p IH]; intros s past f P Ec Or Pa H; cbn [plain] in P; try contradiction.
  - inversion H; subst; [exact I|congruence].
  - destruct P as [P1 P2]. apply await_inv in H as [(t & L & It & H)|[(z' & E & L & H)|[_ ->]]]; [| |exact I].
    + refine (reason_later _ _ _ _ _ L (IH Woken (at_time t s) past f P1 Ec Or _ H)). intros a d Hi. specialize (Pa a d Hi). cbn [s_now at_time]. lia.
    + rewrite P2 in H. destruct (proj2 (proj2 (idle_over _ (Throw XCancelled) f I H)) XCancelled eq_refl Ec) as [(page & ->)|[-> _]]; cbn [reason s_now disarm at_time code_of]; [left; split; [reflexivity|exact E]|left; exact E].
  - destruct P as (P1 & P2 & P3). apply recv_inv in H as [(a & d & rest & E & It & H)|[(Nb & It & H)|(z' & E & L & H)]]; [|rewrite P3 in H..].
    + assert (plain (k (match d with Some x => Got x | None => Over end))) as Pk by now destruct d. pose proof Or as Or'. rewrite E in Or'. destruct Or' as [_ Or2].
      assert (in_order (s_feed (take (at_time (Z.max (s_now s) a) s)))) as Or3 by (cbn [s_feed take at_time]; rewrite E; exact Or2).
      pose proof (IH _ (take (at_time (Z.max (s_now s) a) s)) (past ++ [(a, d)]) f Pk Ec Or3) as X. cbn [s_now take at_time s_feed] in X. rewrite E in X |- *. cbn [tl] in X. rewrite <- app_assoc in X. cbn [app] in X.
      apply (reason_later _ (s_now s) (Z.max (s_now s) a)); [lia|]. apply X; [|exact H]. intros b e Hi. apply in_app_or in Hi as [Hi|[Hi|[]]]; [specialize (Pa b e Hi); lia|]. injection Hi as <- <-. lia.
    + assert (silence (past ++ s_feed s) (l_keep o) (s_now s + l_keep o)) as Si.
      { intros a d Hi. apply in_app_or in Hi as [Hi|Hi]; [left; specialize (Pa a d Hi); lia|right]. unfold nothing_before in Nb. destruct (s_feed s) as [|[b e] rest]; [destruct Hi|]. destruct Hi as [Hi|Hi]; [injection Hi as <- <-; exact Nb|]. destruct Or as [Or _]. specialize (Or a d Hi). lia. }
      destruct (proj2 (proj2 (idle_over _ (Throw XTimeout) f I H)) XTimeout eq_refl Ec) as [(page & ->)|[-> _]]; cbn [reason s_now at_time code_of]; [right; split; [reflexivity|right; split; [lia|exact Si]]|right; split; [lia|exact Si]].
    + destruct (proj2 (proj2 (idle_over _ (Throw XTimeout) f I H)) XTimeout eq_refl Ec) as [(page & ->)|[-> _]]; cbn [reason s_now disarm at_time code_of]; [right; split; [reflexivity|left; exact E]|left; exact E].
  - exact (IH (put d s) past f P Ec Or Pa (write_inv _ _ _ _ _ H)).
  - pose proof (IH (upgrade s) past f P Ec Or Pa (upgrade_inv _ _ _ _ H)) as X. unfold deadline in X. cbn [s_up upgrade s_feed s_now] in X.
    unfold reason in *. destruct f as [|t code pg|t|]; auto; [destruct X as [[_ X]|[X1 [X|X]]]; [discriminate X|discriminate X|right; split; [exact X1|now right]]|destruct X as [X|X]; [discriminate X|now right]].
Qed.
End Limits.

(** Every handler has a fate. *)
Lemma runs_error o p : 0 <= l_keep o -> forall s, s_timer s = None -> (s_code s <> None) -> exists f, handles o s p f.
Proof.
  intros Lk. induction p as [d|x|k IH|k IH|d p IH|p IH]; intros s Tm Ec.
  - destruct (s_code s) as [c|] eqn:E; [|congruence]. eexists. now apply (h_page o s d c).
  - destruct (s_code s) as [c|] eqn:E; [|congruence]. eexists. now apply (h_nopage o s x c).
  - exists Endless. apply h_ever. unfold deadline. now destruct (s_up s).
  - assert (forall t, in_time t s) as It by (intros t; unfold in_time, deadline; rewrite Tm; now destruct (s_up s)).
    destruct (s_feed s) as [|[a d] rest] eqn:Ef; [|destruct (Z_le_dec a (s_now s + l_keep o)) as [L|L]].
    + destruct (IH (Broken XTimeout) (at_time (s_now s + l_keep o) s) Tm Ec) as (f & H). exists f. apply h_silence; [unfold nothing_before; now rewrite Ef|apply It|exact H].
    + destruct (IH (match d with Some x => Got x | None => Over end) (take (at_time (Z.max (s_now s) a) s)) Tm Ec) as (f & H). exists f. apply (h_recv o s k a d rest _ f Ef eq_refl); [lia|apply It|exact H].
    + destruct (IH (Broken XTimeout) (at_time (s_now s + l_keep o) s) Tm Ec) as (f & H). exists f. apply h_silence; [unfold nothing_before; rewrite Ef; lia|apply It|exact H].
  - destruct (IH (put d s) Tm Ec) as (f & H). exists f. now apply h_write.
  - destruct (IH (upgrade s) Tm Ec) as (f & H). exists f. now apply h_upgrade.
Qed.
Lemma runs o p : 0 <= l_keep o -> forall s, s_code s = None -> match s_timer s with Some z => s_up s = true \/ s_now s <= z | None => True end -> exists f, handles o s p f.
Proof.
  intros Lk. induction p as [d|x|k IH|k IH|d p IH|p IH]; intros s Ec Tm.
  - eexists. now apply h_return.
  - destruct (s_out s) as [|d l] eqn:Eo; [destruct (s_up s) eqn:Up|].
    + eexists. apply h_cut; [exact Ec|now right].
    + destruct (runs_error o (l_error o x) Lk (failing (code_of x) s) eq_refl) as (f & H); [discriminate|]. exists f. now apply h_fail.
    + eexists. apply h_cut; [exact Ec|left; congruence].
  - destruct (deadline s) as [z|] eqn:Dl; [|eexists; now apply h_ever]. assert (s_now s <= z) as Lz. { unfold deadline in Dl. destruct (s_up s); [discriminate|]. rewrite Dl in Tm. destruct Tm as [|]; [discriminate|assumption]. }
    destruct (IH (Stopped XCancelled) (disarm (at_time z s)) Ec I) as (f & H). exists f. exact (h_stopped o s k z f Dl Lz H).
  - assert (forall t, in_time t s -> match s_timer (at_time t s) with Some z => s_up (at_time t s) = true \/ s_now (at_time t s) <= z | None => True end) as Tt.
    { intros t It. unfold in_time, deadline in It. cbn [s_timer s_up s_now at_time]. destruct (s_timer s) as [z|]; [|exact I]. destruct (s_up s); [now left|now right]. }
    set (n := match s_feed s with [] => s_now s + l_keep o | (a, _) :: _ => Z.min (Z.max (s_now s) a) (s_now s + l_keep o) end).
    assert (s_now s <= n <= s_now s + l_keep o) as Ln by (unfold n; destruct (s_feed s) as [|[a d] rest]; lia).
    assert (in_time n s \/ exists z, deadline s = Some z /\ s_now s <= z < n) as [It|(z & Dl & Lz)].
    { unfold in_time. destruct (deadline s) as [z|] eqn:Dl; [|now left]. destruct (Z_le_dec n z) as [L|L]; [now left|right]. exists z. split; [reflexivity|]. split; [|lia]. unfold deadline in Dl. destruct (s_up s); [discriminate|]. rewrite Dl in Tm. destruct Tm as [|]; [discriminate|assumption]. }
    + destruct (s_feed s) as [|[a d] rest] eqn:Ef; [|destruct (Z_le_dec (Z.max (s_now s) a) (s_now s + l_keep o)) as [L|L]].
      * destruct (IH (Broken XTimeout) (at_time (s_now s + l_keep o) s) Ec) as (f & H); [exact (Tt _ It)|]. exists f. apply h_silence; [unfold nothing_before; now rewrite Ef|exact It|exact H].
      * assert (n = Z.max (s_now s) a) as En by (unfold n; lia). rewrite En in It.
        destruct (IH (match d with Some x => Got x | None => Over end) (take (at_time (Z.max (s_now s) a) s)) Ec) as (f & H); [exact (Tt _ It)|]. exists f. now apply (h_recv o s k a d rest _ f Ef eq_refl L It).
      * assert (n = s_now s + l_keep o) as En by (unfold n; lia). rewrite En in It.
        destruct (IH (Broken XTimeout) (at_time (s_now s + l_keep o) s) Ec) as (f & H); [exact (Tt _ It)|]. exists f. apply h_silence; [unfold nothing_before; rewrite Ef; lia|exact It|exact H].
    + destruct (IH (Broken XTimeout) (disarm (at_time z s)) Ec I) as (f & H). exists f. apply (h_recv_stopped o s k z f Dl); [lia| |exact H].
      unfold nothing_before. unfold n in Lz. destruct (s_feed s) as [|[a d] rest]; [exact I|lia].
  - destruct (IH (put d s) Ec Tm) as (f & H). exists f. now apply h_write.
  - destruct (IH (upgrade s) Ec) as (f & H); [cbn [s_timer upgrade s_up]; destruct (s_timer s); [now left|exact I]|]. exists f. now apply h_upgrade.
Qed.
