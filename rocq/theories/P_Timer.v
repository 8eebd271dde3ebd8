(** Proofs for C47. *)
From Verif Require Import PyBytes M_Timer S_Timer.
Local Open Scope Z_scope.

Lemma app_inv_last : forall (A : Type) (l1 l2 : list A) x a y b, l1 ++ x :: l2 = a ++ [y] -> b = a -> (exists c, l2 = c ++ [y] /\ a = l1 ++ x :: c) \/ (l2 = [] /\ x = y /\ l1 = a).
Proof.
  intros A l1 l2 x a y b E _. destruct (List.exists_last (l:=x :: l2)) as (c & z & E2); [discriminate|].
  rewrite E2, app_assoc in E. apply app_inj_tail in E as (E & ->). destruct l2 as [|w l2].
  - right. destruct c as [|w c]; [cbn in E2; injection E2 as ->; rewrite app_nil_r in E; auto|]. destruct c; discriminate.
  - left. destruct c as [|w' c]; [discriminate|]. cbn in E2. injection E2 as -> E2. exists c. rewrite E2, E. auto.
Qed.
(** A statement about every place of a list where x stands, proved by appending. *)
Lemma snoc_case : forall (A : Type) (l l1 l2 : list A) x y, l ++ [y] = l1 ++ x :: l2 -> (exists c, l2 = c ++ [y] /\ l = l1 ++ x :: c) \/ (l2 = [] /\ x = y /\ l1 = l).
Proof. intros A l l1 l2 x y E. symmetry in E. exact (app_inv_last _ _ _ _ _ _ l E eq_refl). Qed.

(** ** Waiting for heads *)
Lemma since_snoc : forall l t d b o, waiting_since l t d b -> (forall t' d', o <> Waits t' d') -> waiting_since (l ++ [o]) t d (b ++ [o]).
Proof.
  intros l t d b o (a & -> & N) K. exists a. split; [rewrite <- app_assoc; reflexivity|]. intros t' d' H. apply in_app_or in H as [H|[H|[]]]; [exact (N _ _ H)|]. exact (K _ _ H).
Qed.
Lemma since_new : forall l t d, waiting_since (l ++ [Waits t d]) t d [].
Proof. intros l t d. exists l. split; [reflexivity|intros ? ? []]. Qed.

(** [al]: heads come alone. *)
Definition since (al : bool) (s : tst) (l : list tobs) : Prop := exists t0 b, waiting_since l t0 (t_due s) b /\
  (t_wait s = Pending -> (forall i tb, ~ In (Began i tb) b) /\ t_ph s <> Busy /\ (al = true -> (forall th, ~ In (HeadAt th) b) /\ t_ph s = Idle)) /\
  (t_wait s = Cancelled -> t_due s <= t_now s /\ (forall i tb, In (Began i tb) b -> t_due s <= tb) /\ (al = true -> forall th, In (HeadAt th) b -> t_due s <= th)) /\
  (t_wait s = Resolved \/ t_ph s <> Idle -> exists th, In (HeadAt th) b).
Record Wt (al : bool) (s : tst) (l : list tobs) : Prop := {
  wt_sleep : al = true -> t_ph s <> Sleeping;
  wt_since : since al s l;
  wt_just : al = true -> aborts_justly l;
  wt_start : aborts_before_start l
}.
Lemma just_snoc : forall l o, aborts_justly l -> (forall t, o = TimedOut t -> exists t0 d b, waiting_since l t0 d b /\ d <= t /\ forall th, In (HeadAt th) b -> d <= th) -> aborts_justly (l ++ [o]).
Proof. intros l o J K l1 t l2 E. apply snoc_case in E as [(c & _ & E)|(_ & <- & ->)]; [exact (J _ _ _ E)|exact (K t eq_refl)]. Qed.
Lemma start_snoc : forall l o, aborts_before_start l -> (forall t, o = TimedOut t -> exists t0 d b, waiting_since l t0 d b /\ d <= t /\ forall i tb, In (Began i tb) b -> d <= tb) -> aborts_before_start (l ++ [o]).
Proof. intros l o J K l1 t l2 E. apply snoc_case in E as [(c & _ & E)|(_ & <- & ->)]; [exact (J _ _ _ E)|exact (K t eq_refl)]. Qed.

(** A step that shows nothing, or something that is not about heads. *)
Lemma since_same : forall al s s' l, since al s l -> t_due s' = t_due s -> t_wait s' = t_wait s -> t_ph s' = t_ph s -> t_now s <= t_now s' -> since al s' l.
Proof.
  intros al s s' l (t0 & b & W & P & C & R) d w p n. exists t0, b. rewrite d, w, p. split; [exact W|split; [exact P|split; [|exact R]]].
  intros E. destruct (C E) as (C1 & C2). split; [lia|exact C2].
Qed.
Definition other (o : tobs) : Prop := match o with Waits _ _ | HeadAt _ | Began _ _ => False | _ => True end.
Lemma since_other : forall al s l o, since al s l -> other o -> since al s (l ++ [o]).
Proof.
  intros al s l o (t0 & b & W & P & C & R) O. exists t0, (b ++ [o]). split; [apply since_snoc; [exact W|intros t' d' ->; exact O]|].
  assert (HB : forall i tb, In (Began i tb) (b ++ [o]) -> In (Began i tb) b) by (intros i tb H; apply in_app_or in H as [H|[->|[]]]; [exact H|contradiction]).
  assert (HH : forall th, In (HeadAt th) (b ++ [o]) -> In (HeadAt th) b) by (intros th H; apply in_app_or in H as [H|[->|[]]]; [exact H|contradiction]).
  split; [|split].
  - intros E. destruct (P E) as (P1 & P2 & P3). split; [intros i tb H; exact (P1 i tb (HB _ _ H))|split; [exact P2|]]. intros A. destruct (P3 A) as (P4 & P5). split; [intros th H; exact (P4 th (HH _ H))|exact P5].
  - intros E. destruct (C E) as (C1 & C2 & C3). split; [exact C1|split; [intros i tb H; exact (C2 i tb (HB _ _ H))|]]. intros A th H. exact (C3 A th (HH _ H)).
  - intros E. destruct (R E) as (th & H). exists th. apply in_or_app; auto.
Qed.
(** The end of a head that comes with more. *)
Lemma since_head : forall s l s', since false s l -> t_due s' = t_due s -> t_wait s' = t_wait s -> t_ph s' = Sleeping -> t_now s' = t_now s -> since false s' (l ++ [HeadAt (t_now s)]).
Proof.
  intros s l s' (t0 & b & W & P & C & R) d w p n. set (o := HeadAt (t_now s)).
  assert (HB : forall i tb, In (Began i tb) (b ++ [o]) -> In (Began i tb) b) by (intros i tb H; apply in_app_or in H as [H|[H|[]]]; [exact H|discriminate]).
  exists t0, (b ++ [o]). rewrite d, w, p, n. split; [apply since_snoc; [exact W|discriminate]|]. split; [|split].
  - intros E. destruct (P E) as (P1 & P2 & P3). split; [intros i tb H; exact (P1 i tb (HB _ _ H))|split; [discriminate|discriminate]].
  - intros E. destruct (C E) as (C1 & C2 & C3). split; [exact C1|split; [intros i tb H; exact (C2 i tb (HB _ _ H))|discriminate]].
  - intros _. exists (t_now s). apply in_or_app; right; left; reflexivity.
Qed.
Lemma since_begin : forall s l s' b, since false s l -> t_ph s = Sleeping -> begin s = (s', b) -> since false s' (l ++ b).
Proof.
  intros s l s' b0 (t0 & b & W & P & C & R) I E. unfold begin in E. injection E as <- <-. set (o := Began _ _). exists t0, (b ++ [o]). cbn [t_due t_wait t_ph t_now].
  assert (HH : exists th, In (HeadAt th) (b ++ [o])) by (destruct R as (th & H); [right; rewrite I; discriminate|]; exists th; apply in_or_app; auto).
  split; [apply since_snoc; [exact W|discriminate]|]. split; [destruct (t_wait s); discriminate|]. split; [|auto].
  intros K. assert (Cw : t_wait s = Cancelled) by (destruct (t_wait s); [discriminate|discriminate|reflexivity]). destruct (C Cw) as (C1 & C2 & C3). split; [exact C1|split; [|discriminate]].
  intros i tb H. apply in_app_or in H as [H|[H|[]]]; [exact (C2 _ _ H)|]. unfold o in H. injection H as <- <-. exact C1.
Qed.
(** A head that comes alone. *)
Lemma since_alone : forall al s l s' b, since al s l -> begin (mkT (t_now s) (t_wait s) (t_due s) Sleeping (t_hs s) (t_cur s) false true) = (s', b) -> since al s' (l ++ HeadAt (t_now s) :: b).
Proof.
  intros al s l s' b0 (t0 & b & W & P & C & R) E. unfold begin in E. cbn [t_due t_wait t_ph t_now t_hs t_cur t_up t_open] in E. injection E as <- <-. set (o := Began _ _). set (h := HeadAt _).
  exists t0, ((b ++ [h]) ++ [o]). cbn [t_due t_wait t_ph t_now].
  split. { replace (l ++ [h; o]) with ((l ++ [h]) ++ [o]) by (rewrite <- app_assoc; reflexivity). apply since_snoc; [apply since_snoc; [exact W|discriminate]|discriminate]. }
  split; [destruct (t_wait s); discriminate|]. split.
  - intros K. assert (Cw : t_wait s = Cancelled) by (destruct (t_wait s); [discriminate|discriminate|reflexivity]). destruct (C Cw) as (C1 & C2 & C3). split; [exact C1|]. split.
    + intros i tb H. apply in_app_or in H as [H|[H|[]]]; [|unfold o in H; injection H as <- <-; exact C1]. apply in_app_or in H as [H|[H|[]]]; [exact (C2 _ _ H)|discriminate].
    + intros A th H. apply in_app_or in H as [H|[H|[]]]; [|discriminate]. apply in_app_or in H as [H|[H|[]]]; [exact (C3 A _ H)|]. unfold h in H. injection H as <-. exact C1.
  - intros _. exists (t_now s). apply in_or_app; left. apply in_or_app; right; left; reflexivity.
Qed.

Lemma wt_quiet : forall al s s' l b, Wt al s l -> (al = true -> t_ph s' <> Sleeping) -> since al s' (l ++ b) -> (forall t, ~ In (TimedOut t) b) -> Wt al s' (l ++ b).
Proof.
  intros al s s' l b [w0 w1 w2 w3] Sl S. revert s' Sl S. induction b as [|o b IH] using rev_ind; intros s' Sl S N; [rewrite app_nil_r in *; constructor; auto|].
  assert (N' : forall t, ~ In (TimedOut t) b) by (intros t H; apply (N t), in_or_app; auto).
  assert (No : forall t, o <> TimedOut t) by (intros t ->; apply (N t), in_or_app; right; left; reflexivity).
  assert (J : (al = true -> aborts_justly (l ++ b)) /\ aborts_before_start (l ++ b)).
  { clear - w2 w3 N'. induction b as [|x b IHb] using rev_ind; [rewrite app_nil_r; auto|]. destruct IHb as (J1 & J2); [intros t H; apply (N' t), in_or_app; auto|].
    rewrite app_assoc. split; [intros A; apply just_snoc; [auto|]|apply start_snoc; [auto|]]; intros t ->; exfalso; apply (N' t), in_or_app; right; left; reflexivity. }
  destruct J as (J1 & J2). constructor; [exact Sl|exact S| |]; rewrite app_assoc; [intros A; apply just_snoc; [auto|]|apply start_snoc; [auto|]]; intros t ->; exfalso; exact (No t eq_refl).
Qed.

Lemma wt_step : forall al o s ev s' b l, (al = true -> ev <> Head true) -> Wt al s l -> timer_step o s ev = Some (s', b) -> Wt al s' (l ++ b).
Proof.
  intros al o s ev s' b l Al W E. pose proof (wt_since _ _ _ W) as S.
  pose proof (wt_sleep _ _ _ W) as Sl.
  assert (Same : forall s1, t_due s1 = t_due s -> t_wait s1 = t_wait s -> t_ph s1 = t_ph s -> t_now s <= t_now s1 -> Wt al s1 (l ++ [])).
  { intros s1 d w p n. apply (wt_quiet al s); [exact W|rewrite p; exact Sl| |intros t []]. rewrite app_nil_r. eapply since_same; eauto. }
  assert (Other : forall s1 x, other x -> (forall t, x <> TimedOut t) -> t_due s1 = t_due s -> t_wait s1 = t_wait s -> t_ph s1 = t_ph s -> t_now s1 = t_now s -> Wt al s1 (l ++ [x])).
  { intros s1 x Ox Nx d w p n. apply (wt_quiet al s); [exact W|rewrite p; exact Sl| |intros t [H|[]]; exact (Nx t H)]. apply (since_same al s); auto; [apply since_other; assumption|lia]. }
  destruct ev as [d|more| |i| | | | |i|]; cbn [timer_step] in E.
  - destruct (0 <=? d) eqn:D; [|discriminate]. apply Z.leb_le in D. injection E as <- <-. apply Same; cbn; auto; lia.
  - destruct (t_open s); [|discriminate]. destruct (t_ph s) eqn:P; try discriminate. destruct more.
    + assert (al = false) by (destruct al; [exfalso; exact (Al eq_refl eq_refl)|reflexivity]); subst al. injection E as <- <-.
      apply (wt_quiet false s); [exact W|discriminate| |intros t [H|[]]; discriminate]. apply since_head; auto.
    + destruct (begin _) as [s2 b2] eqn:B in E. injection E as <- <-. apply (wt_quiet al s); [exact W| | |].
      * unfold begin in B. injection B as <- <-. discriminate.
      * apply since_alone; assumption.
      * unfold begin in B. injection B as <- <-. intros t [H|[H|[]]]; discriminate.
  - destruct (t_open s); [|discriminate]. destruct (t_ph s) eqn:P; try discriminate. assert (B : begin s = (s', b)) by congruence. clear E.
    destruct al; [exfalso; exact (Sl eq_refl eq_refl)|].
    apply (wt_quiet false s); [exact W|discriminate|apply (since_begin s); assumption|]. unfold begin in B. injection B as <- <-. intros t [H|[]]; discriminate.
  - destruct (nth_error (t_hs s) i) as [h|]; [|discriminate]. destruct (h_run h); [|discriminate]. injection E as <- <-. apply Other; try reflexivity; discriminate.
  - destruct (t_open s && negb (t_up s) && match t_wait s with Cancelled => false | _ => true end); [|discriminate]. destruct (t_ph s) eqn:P; try discriminate. injection E as <- <-.
    apply (wt_quiet al s); [exact W|discriminate| |intros t [H|[]]; discriminate]. exists (t_now s), []. cbn [t_due t_wait t_ph t_now].
    split; [apply since_new|]. split; [|split; [discriminate|intros [K|K]; congruence]]. intros _. split; [intros i tb []|]. split; [discriminate|]. intros _; split; [intros th []|reflexivity].
  - destruct (t_ph s) eqn:P; try discriminate. injection E as <- <-. apply Same; cbn; auto; lia.
  - destruct (t_open s); [|discriminate]. destruct (t_wait s) eqn:Wa; try discriminate. destruct (t_due s <=? t_now s) eqn:D; [|discriminate]. apply Z.leb_le in D. injection E as <- <-.
    apply (wt_quiet al s); [exact W|exact Sl| |intros t []]. rewrite app_nil_r. destruct S as (t0 & b0 & Ws & Pe & Ca & Re). exists t0, b0. cbn [t_due t_wait t_ph t_now].
    split; [exact Ws|]. split; [discriminate|]. destruct (Pe Wa) as (P1 & P2 & P3). split.
    + intros _. split; [exact D|]. split; [intros i tb H; destruct (P1 _ _ H)|]. intros A th H. destruct (P3 A) as (P4 & _). destruct (P4 _ H).
    + intros [K|K]; [discriminate|]. apply Re. right; exact K.
  - destruct (t_open s); [|discriminate]. destruct (t_wait s) eqn:Wa; try discriminate. injection E as <- <-. destruct W as [w0 w1 w2 w3].
    assert (S' : since al (mkT (t_now s) Cancelled (t_due s) (t_ph s) (t_hs s) (t_cur s) (t_up s) false) l) by (eapply since_same; eauto; cbn; lia).
    constructor; [exact w0|apply since_other; [exact S'|exact Logic.I]| |].
    + intros A. apply just_snoc; [auto|]. intros t K. injection K as <-. destruct S as (t0 & b0 & Ws & _ & Ca & _). destruct (Ca Wa) as (C1 & _ & C3). exists t0, (t_due s), b0. auto.
    + apply start_snoc; [auto|]. intros t K. injection K as <-. destruct S as (t0 & b0 & Ws & _ & Ca & _). destruct (Ca Wa) as (C1 & C2 & _). exists t0, (t_due s), b0. auto.
  - destruct (nth_error (t_hs s) i) as [h|]; [|discriminate]. destruct (h_timer h && (h_start h + o_handler o <=? t_now s) && t_open s); [|discriminate]. injection E as <- <-.
    unfold handler_timeout. destruct (t_up s); [apply Same; cbn; auto; lia|]. destruct (t_cur s) as [j|]; [|apply Same; cbn; auto; lia].
    destruct (nth_error (t_hs s) j) as [hj|]; [|apply Same; cbn; auto; lia]. destruct (h_run hj); [|apply Same; cbn; auto; lia]. apply Other; try reflexivity; discriminate.
  - destruct (t_open s); [|discriminate]. injection E as <- <-. apply Same; cbn; auto; lia.
Qed.

Lemma run_wt : forall al o evs s l s' l', (al = true -> heads_alone evs) -> Wt al s l -> timer_run o s evs = Some (s', l') -> Wt al s' (l ++ l').
Proof.
  intros al o evs. induction evs as [|ev evs IH]; intros s l s' l' A W R; cbn [timer_run] in R; [injection R as <- <-; rewrite app_nil_r; exact W|].
  destruct (timer_step o s ev) as [[s1 b1]|] eqn:E; [|discriminate]. destruct (timer_run o s1 evs) as [[s2 b2]|] eqn:R1; [|discriminate]. injection R as <- <-. rewrite app_assoc.
  eapply IH; [intros T H; exact (A T (or_intror H))| |exact R1]. eapply wt_step; [|exact W|exact E]. intros T ->. exact (A T (or_introl eq_refl)).
Qed.
Lemma new_wt : forall al o t, Wt al (fst (timer_new o t)) (snd (timer_new o t)).
Proof.
  intros al o t. cbn [timer_new fst snd]. constructor; [discriminate| | |].
  - exists t, []. cbn [t_due t_wait t_ph t_now]. split; [exists []; split; [reflexivity|intros ? ? []]|]. split; [|split; [discriminate|intros [K|K]; congruence]]. intros _.
    split; [intros i tb []|split; [discriminate|]]. intros _; split; [intros th []|reflexivity].
  - intros _ l1 x l2 H. destruct l1 as [|y l1]; [discriminate|]. destruct l1; discriminate.
  - intros l1 x l2 H. destruct l1 as [|y l1]; [discriminate|]. destruct l1; discriminate.
Qed.

(** ** Handlers *)
Lemma set_h_get : forall l i j h, nth_error (set_h i h l) j = if (i =? j)%nat then (match nth_error l j with Some _ => Some h | None => None end) else nth_error l j.
Proof.
  induction l as [|y l IH]; intros [|i] [|j] h; cbn [set_h nth_error Nat.eqb]; auto.
  destruct (i =? j)%nat; reflexivity.
Qed.
Lemma set_h_length : forall l i h, List.length (set_h i h l) = List.length l.
Proof. induction l as [|y l IH]; intros [|i] h; cbn [set_h List.length]; auto. Qed.
Lemma seq_prefix : forall a b, sequential (a ++ b) -> sequential a.
Proof. intros a b S l1 i t l2 ->. apply (S l1 i t (l2 ++ b)). rewrite <- app_assoc. reflexivity. Qed.

(** [nu]: no response is an upgrade. *)
Record Hs (nu : bool) (o : topts) (s : tst) (l : list tobs) : Prop := {
  hs_began : forall i h, nth_error (t_hs s) i = Some h -> In (Began i (h_start h)) l;
  hs_known : forall i t, In (Began i t) l -> exists h, nth_error (t_hs s) i = Some h /\ h_start h = t;
  hs_fin : forall i t, In (Ended i t) l -> exists h, nth_error (t_hs s) i = Some h /\ h_run h = false;
  hs_ended : forall i h, nth_error (t_hs s) i = Some h -> h_run h = false -> exists t, In (Ended i t) l;
  hs_timer : o_asgi o = false -> forall i h, nth_error (t_hs s) i = Some h -> h_timer h = true -> h_run h = true;
  hs_cur : forall j, t_cur s = Some j -> S j = List.length (t_hs s);
  hs_open : t_open s = true -> t_cur s = None -> t_hs s = [];
  hs_last : sequential l -> forall i h, nth_error (t_hs s) i = Some h -> h_run h = true -> S i = List.length (t_hs s);
  hs_just : sequential l -> o_asgi o = false -> stops_justly o l;
  hs_up : nu = true -> t_up s = false;
  hs_fired : nu = true -> sequential l -> forall i h, nth_error (t_hs s) i = Some h -> h_run h = true -> h_timer h = false -> exists t, In (Stopped i t) l
}.
Lemma stops_snoc : forall o l x, stops_justly o l -> (forall i t, x = Stopped i t -> exists t0, In (Began i t0) l /\ t0 + o_handler o <= t /\ forall t1, ~ In (Ended i t1) l) -> stops_justly o (l ++ [x]).
Proof. intros o l x J K l1 i t l2 E. apply snoc_case in E as [(c & _ & E)|(_ & E & ->)]; [exact (J _ _ _ _ E)|exact (K i t (eq_sym E))]. Qed.

(** A step that leaves the handlers alone and shows nothing of them. *)
Definition aside (x : tobs) : Prop := match x with Began _ _ | Ended _ _ | Stopped _ _ => False | _ => True end.
Lemma hs_aside : forall nu o s s' l x, Hs nu o s l -> aside x -> t_hs s' = t_hs s -> t_cur s' = t_cur s -> (nu = true -> t_up s' = false) -> (t_open s' = true -> t_open s = true) -> Hs nu o s' (l ++ [x]).
Proof.
  intros nu o s s' l x [a b c d e f g h i j k] A eh ec eu eo.
  assert (IB : forall n t, In (Began n t) (l ++ [x]) -> In (Began n t) l) by (intros n t H; apply in_app_or in H as [H|[->|[]]]; [exact H|destruct A]).
  assert (IE : forall n t, In (Ended n t) (l ++ [x]) -> In (Ended n t) l) by (intros n t H; apply in_app_or in H as [H|[->|[]]]; [exact H|destruct A]).
  constructor; rewrite ?eh, ?ec; auto.
  - intros n hh N. apply in_or_app; left; auto.
  - intros n t H. exact (c _ _ (IE _ _ H)).
  - intros n hh N R. destruct (d n hh N R) as (t & H). exists t. apply in_or_app; auto.
  - intros Q. apply h. exact (seq_prefix _ _ Q).
  - intros Q Na. apply stops_snoc; [apply i; [exact (seq_prefix _ _ Q)|exact Na]|]. intros n t ->. destruct A.
  - intros U Q n hh N R T. destruct (k U (seq_prefix _ _ Q) n hh N R T) as (t & H). exists t. apply in_or_app; auto.
Qed.
Lemma hs_same : forall nu o s s' l, Hs nu o s l -> t_hs s' = t_hs s -> t_cur s' = t_cur s \/ (t_cur s' = None /\ t_open s' = false) -> (nu = true -> t_up s' = false) -> (t_open s' = true -> t_open s = true) -> Hs nu o s' l.
Proof.
  intros nu o s s' l [a b c d e f g h i j k] eh ec eu eo. constructor; rewrite ?eh; auto.
  - intros n. destruct ec as [->|(-> & _)]; [apply f|discriminate].
  - intros O. destruct ec as [->|(_ & ec)]; [auto|congruence].
Qed.
Lemma hs_begin : forall nu o s l s' b, Hs nu o s l -> (nu = true -> t_up s' = false) -> begin s = (s', b) -> Hs nu o s' (l ++ b).
Proof.
  intros nu o s l s' b0 [a b c d e f g h i j k] eu E. unfold begin in E. injection E as <- <-. set (n := List.length (t_hs s)).
  assert (G : forall m hh, nth_error (t_hs s ++ [mkH (t_now s) true true]) m = Some hh -> nth_error (t_hs s) m = Some hh /\ (m < n)%nat \/ m = n /\ hh = mkH (t_now s) true true).
  { intros m hh H. unfold n. destruct (Nat.lt_ge_cases m (List.length (t_hs s))) as [L|L]; [rewrite nth_error_app1 in H by exact L; auto|].
    rewrite nth_error_app2 in H by exact L. destruct (m - List.length (t_hs s))%nat as [|q] eqn:K; [|destruct q; discriminate]. injection H as <-. right; split; [lia|reflexivity]. }
  assert (G0 : forall m hh, nth_error (t_hs s) m = Some hh -> nth_error (t_hs s ++ [mkH (t_now s) true true]) m = Some hh) by (intros m hh H; rewrite nth_error_app1; [exact H|apply nth_error_Some; congruence]).
  assert (Gn : nth_error (t_hs s ++ [mkH (t_now s) true true]) n = Some (mkH (t_now s) true true)) by (unfold n; rewrite nth_error_app2, Nat.sub_diag by lia; reflexivity).
  assert (Ln : List.length (t_hs s ++ [mkH (t_now s) true true]) = S n) by (rewrite app_length; cbn; unfold n; lia).
  constructor; cbn [t_hs t_cur t_up t_open]; rewrite ?Ln; auto.
  - intros m hh H. apply in_or_app. destruct (G _ _ H) as [(H1 & _)|(-> & ->)]; [left; auto|right; left; reflexivity].
  - intros m t H. apply in_app_or in H as [H|[H|[]]].
    + destruct (b _ _ H) as (hh & H1 & H2). exists hh; auto.
    + injection H as <- <-. eexists; split; [exact Gn|reflexivity].
  - intros m t H. apply in_app_or in H as [H|[H|[]]]; [|discriminate]. destruct (c _ _ H) as (hh & H1 & H2). exists hh; auto.
  - intros m hh H R. destruct (G _ _ H) as [(H1 & _)|(-> & ->)]; [|discriminate]. destruct (d _ _ H1 R) as (t & Ht). exists t. apply in_or_app; auto.
  - intros Na m hh H T. destruct (G _ _ H) as [(H1 & _)|(-> & ->)]; [eauto|reflexivity].
  - intros m H. injection H as <-. reflexivity.
  - discriminate.
  - intros Q m hh H R. destruct (G _ _ H) as [(H1 & L)|(-> & ->)]; [|reflexivity]. exfalso.
    destruct (Q l n (t_now s) [] eq_refl m (h_start hh) (a _ _ H1)) as (t & Ht). destruct (c _ _ Ht) as (h2 & H2 & R2). congruence.
  - intros Q Na. apply stops_snoc; [apply i; [exact (seq_prefix _ _ Q)|exact Na]|]. discriminate.
  - intros U Q m hh H R T. destruct (G _ _ H) as [(H1 & L)|(-> & ->)]; [|discriminate]. destruct (k U (seq_prefix _ _ Q) _ _ H1 R T) as (t & Ht). exists t. apply in_or_app; auto.
Qed.
Lemma hs_head : forall nu o s l s' b, Hs nu o s l -> (nu = true -> t_up s' = false) -> begin (mkT (t_now s) (t_wait s) (t_due s) Sleeping (t_hs s) (t_cur s) false true) = (s', b) -> t_open s = true -> Hs nu o s' (l ++ HeadAt (t_now s) :: b).
Proof.
  intros nu o s l s' b H U E O. change (HeadAt (t_now s) :: b) with ([HeadAt (t_now s)] ++ b). rewrite app_assoc. eapply hs_begin; [|exact U|exact E].
  eapply hs_aside; [exact H|exact Logic.I|reflexivity|reflexivity|reflexivity|auto].
Qed.

Lemma hs_step : forall nu o s ev s' b l, (nu = true -> ev <> Upgrade) -> Hs nu o s l -> timer_step o s ev = Some (s', b) -> Hs nu o s' (l ++ b).
Proof.
  intros nu o s ev s' b l Nu H E. pose proof (hs_up _ _ _ _ H) as Up.
  destruct ev as [d|more| |i| | | | |i|]; cbn [timer_step] in E.
  - destruct (0 <=? d) eqn:D; [|discriminate]. injection E as <- <-. rewrite app_nil_r. eapply hs_same; eauto.
  - destruct (t_open s) eqn:O; [|discriminate]. destruct (t_ph s) eqn:P; try discriminate. destruct more.
    + injection E as <- <-. eapply hs_aside; eauto; exact Logic.I.
    + destruct (begin _) as [s2 b2] eqn:B in E. assert (s2 = s') by congruence. subst s2. assert (b = HeadAt (t_now s) :: b2) by congruence. subst b. eapply hs_head; eauto. unfold begin in B. injection B as <- <-. reflexivity.
  - destruct (t_open s); [|discriminate]. destruct (t_ph s) eqn:P; try discriminate. assert (B : begin s = (s', b)) by congruence. eapply hs_begin; [exact H| |exact B]. unfold begin in B. injection B as <- <-. exact Up.
  - destruct (nth_error (t_hs s) i) as [h|] eqn:N; [|discriminate]. destruct (h_run h) eqn:R; [|discriminate]. injection E as <- <-. destruct H as [a b c d e f g hh ii j k].
    set (h' := mkH (h_start h) false (h_timer h && o_asgi o)).
    assert (G : forall m x, nth_error (set_h i h' (t_hs s)) m = Some x -> m = i /\ x = h' \/ m <> i /\ nth_error (t_hs s) m = Some x).
    { intros m x H. rewrite set_h_get in H. destruct (i =? m)%nat eqn:K; [apply Nat.eqb_eq in K; subst m; rewrite N in H; injection H as <-; auto|apply Nat.eqb_neq in K; auto]. }
    assert (G1 : nth_error (set_h i h' (t_hs s)) i = Some h') by (rewrite set_h_get, Nat.eqb_refl, N; reflexivity).
    assert (G2 : forall m x, m <> i -> nth_error (t_hs s) m = Some x -> nth_error (set_h i h' (t_hs s)) m = Some x).
    { intros m x K H. rewrite set_h_get. destruct (i =? m)%nat eqn:K2; [apply Nat.eqb_eq in K2; congruence|exact H]. }
    constructor; cbn [with_hs t_hs t_cur t_up t_open]; rewrite ?set_h_length; auto.
    + intros m x H. apply in_or_app; left. destruct (G _ _ H) as [(-> & ->)|(_ & H1)]; [exact (a _ _ N)|auto].
    + intros m t H. apply in_app_or in H as [H|[H|[]]]; [|discriminate]. destruct (b _ _ H) as (x & H1 & H2). destruct (Nat.eq_dec m i) as [->|K]; [exists h'; split; [exact G1|cbn; congruence]|eauto].
    + intros m t H. apply in_app_or in H as [H|[H|[]]].
      * destruct (c _ _ H) as (x & H1 & H2). destruct (Nat.eq_dec m i) as [->|K]; [congruence|eauto].
      * injection H as <- <-. exists h'; auto.
    + intros m x H Rx. destruct (G _ _ H) as [(-> & ->)|(K & H1)]; [exists (t_now s); apply in_or_app; right; left; reflexivity|]. destruct (d _ _ H1 Rx) as (t & Ht). exists t; apply in_or_app; auto.
    + intros Na m x H T. destruct (G _ _ H) as [(-> & ->)|(K & H1)]; [unfold h' in T; cbn in T; rewrite Na, andb_false_r in T; discriminate|eauto].
    + intros O C. specialize (g O C). rewrite g in N. destruct i; discriminate.
    + intros Q m x H Rx. destruct (G _ _ H) as [(-> & ->)|(K & H1)]; [discriminate|]. exact (hh (seq_prefix _ _ Q) _ _ H1 Rx).
    + intros Q Na. apply stops_snoc; [apply ii; [exact (seq_prefix _ _ Q)|exact Na]|]. discriminate.
    + intros U Q m x H Rx T. destruct (G _ _ H) as [(-> & ->)|(K & H1)]; [discriminate|]. destruct (k U (seq_prefix _ _ Q) _ _ H1 Rx T) as (t & Ht). exists t; apply in_or_app; auto.
  - destruct (t_open s && negb (t_up s) && match t_wait s with Cancelled => false | _ => true end) eqn:C; [|discriminate]. destruct (t_ph s) eqn:P; try discriminate. injection E as <- <-.
    apply andb_true_iff in C as (C & _). apply andb_true_iff in C as (C & _). eapply hs_aside; eauto; exact Logic.I.
  - destruct (t_ph s) eqn:P; try discriminate. injection E as <- <-. rewrite app_nil_r. eapply hs_same; eauto. intros K. exfalso. exact (Nu K eq_refl).
  - destruct (t_open s) eqn:O; [|discriminate]. destruct (t_wait s) eqn:Wa; try discriminate. destruct (t_due s <=? t_now s) eqn:D; [|discriminate]. injection E as <- <-. rewrite app_nil_r. eapply hs_same; eauto.
  - destruct (t_open s) eqn:O; [|discriminate]. destruct (t_wait s) eqn:Wa; try discriminate. injection E as <- <-. eapply hs_aside; eauto; exact Logic.I.
  - destruct (nth_error (t_hs s) i) as [h|] eqn:N; [|discriminate].
    destruct (h_timer h && (h_start h + o_handler o <=? t_now s) && t_open s) eqn:C; [|discriminate]. injection E as <- <-.
    apply andb_true_iff in C as (C & O). apply andb_true_iff in C as (Tm & Du). apply Z.leb_le in Du. destruct H as [a b c d e f g hh ii j k].
    set (h' := mkH (h_start h) (h_run h) false).
    assert (G : forall m x, nth_error (set_h i h' (t_hs s)) m = Some x -> exists y, nth_error (t_hs s) m = Some y /\ h_start x = h_start y /\ h_run x = h_run y /\ (h_timer x = true -> h_timer y = true) /\ (m = i \/ x = y)).
    { intros m x H. rewrite set_h_get in H. destruct (i =? m)%nat eqn:K; [apply Nat.eqb_eq in K; subst m; rewrite N in H; injection H as <-; exists h; cbn; auto 10|exists x; auto 10]. }
    assert (G0 : forall m y, nth_error (t_hs s) m = Some y -> exists x, nth_error (set_h i h' (t_hs s)) m = Some x /\ h_start x = h_start y /\ h_run x = h_run y).
    { intros m y H. rewrite set_h_get. destruct (i =? m)%nat eqn:K; [apply Nat.eqb_eq in K; subst m; rewrite N in H; injection H as <-; rewrite N; exists h'; auto|eauto]. }
    assert (Obs : handler_timeout s = [] \/ exists n hn, handler_timeout s = [Stopped n (t_now s)] /\ t_cur s = Some n /\ nth_error (t_hs s) n = Some hn /\ h_run hn = true).
    { unfold handler_timeout. destruct (t_up s); [auto|]. destruct (t_cur s) as [n|] eqn:Cu; [|auto]. destruct (nth_error (t_hs s) n) as [hn|] eqn:Nn; [|auto]. destruct (h_run hn) eqn:Rn; [right; exists n, hn; auto|auto]. }
    assert (IB : forall n t, In (Began n t) (l ++ handler_timeout s) -> In (Began n t) l).
    { intros n t H. apply in_app_or in H as [H|H]; [exact H|]. destruct Obs as [->|(m & hm & -> & _)] in H; [destruct H|destruct H as [H|[]]; discriminate]. }
    assert (IE : forall n t, In (Ended n t) (l ++ handler_timeout s) -> In (Ended n t) l).
    { intros n t H. apply in_app_or in H as [H|H]; [exact H|]. destruct Obs as [->|(m & hm & -> & _)] in H; [destruct H|destruct H as [H|[]]; discriminate]. }
    constructor; cbn [with_hs t_hs t_cur t_up t_open]; rewrite ?set_h_length; auto.
    + intros m x H. apply in_or_app; left. destruct (G _ _ H) as (y & H1 & -> & _). auto.
    + intros m t H. destruct (b _ _ (IB _ _ H)) as (y & H1 & H2). destruct (G0 _ _ H1) as (x & X1 & X2 & X3). exists x; split; [exact X1|congruence].
    + intros m t H. destruct (c _ _ (IE _ _ H)) as (y & H1 & H2). destruct (G0 _ _ H1) as (x & X1 & X2 & X3). exists x; split; [exact X1|congruence].
    + intros m x H R. destruct (G _ _ H) as (y & H1 & _ & R1 & _). destruct (d m y H1) as (t & Ht); [congruence|]. exists t; apply in_or_app; auto.
    + intros Na m x H T. destruct (G _ _ H) as (y & H1 & _ & R1 & T1 & _). rewrite R1. eauto.
    + intros _ Cn. rewrite (g O Cn) in N. destruct i; discriminate.
    + intros Q m x H R. destruct (G _ _ H) as (y & H1 & _ & R1 & _). apply (hh (seq_prefix _ _ Q) m y H1). congruence.
    + intros Q Na. destruct Obs as [->|(n & hn & -> & Cu & Nn & Rn)]; [rewrite app_nil_r; apply ii; [exact (seq_prefix _ _ Q)|exact Na]|].
      apply stops_snoc; [apply ii; [exact (seq_prefix _ _ Q)|exact Na]|]. intros n' t' K. injection K as <- <-.
      pose proof (hh (seq_prefix _ _ Q) _ _ Nn Rn) as L1. pose proof (hh (seq_prefix _ _ Q) _ _ N (e Na _ _ N Tm)) as L2. assert (n = i) by lia. subst n. assert (hn = h) by congruence. subst hn.
      exists (h_start h). split; [exact (a _ _ N)|]. split; [exact Du|]. intros t1 H1. destruct (c _ _ H1) as (x & X1 & X2). congruence.
    + intros U Q m x H R T. destruct (G _ _ H) as (y & H1 & _ & R1 & _ & [->| ->]).
      * assert (y = h) by congruence. subst y.
        assert (L1 : S i = List.length (t_hs s)) by (apply (hh (seq_prefix _ _ Q) i h N); congruence).
        assert (Cu : t_cur s = Some i).
        { destruct (t_cur s) as [n|] eqn:Cu; [|rewrite (g O eq_refl) in N; destruct i; discriminate]. pose proof (f n eq_refl). f_equal. lia. }
        exists (t_now s). apply in_or_app; right. unfold handler_timeout. rewrite (j U), Cu, N. rewrite <- R1, R. left; reflexivity.
      * destruct (k U (seq_prefix _ _ Q) _ _ H1 R T) as (t & Ht). exists t; apply in_or_app; auto.
  - destruct (t_open s) eqn:O; [|discriminate]. injection E as <- <-. rewrite app_nil_r. eapply hs_same; eauto.
Qed.
Lemma run_hs : forall nu o evs s l s' l', (nu = true -> ~ In Upgrade evs) -> Hs nu o s l -> timer_run o s evs = Some (s', l') -> Hs nu o s' (l ++ l').
Proof.
  intros nu o evs. induction evs as [|ev evs IH]; intros s l s' l' A W R; cbn [timer_run] in R; [injection R as <- <-; rewrite app_nil_r; exact W|].
  destruct (timer_step o s ev) as [[s1 b1]|] eqn:E; [|discriminate]. destruct (timer_run o s1 evs) as [[s2 b2]|] eqn:R1; [|discriminate]. injection R as <- <-. rewrite app_assoc.
  eapply IH; [intros T H; exact (A T (or_intror H))| |exact R1]. eapply hs_step; [|exact W|exact E]. intros T ->. exact (A T (or_introl eq_refl)).
Qed.
Lemma new_hs : forall nu o t, Hs nu o (fst (timer_new o t)) (snd (timer_new o t)).
Proof.
  intros nu o t. cbn [timer_new fst snd]. constructor; cbn [t_hs t_cur t_up t_open]; auto; try discriminate; try (intros i h H; destruct i; discriminate).
  - intros i x [H|[]]; discriminate.
  - intros i x [H|[]]; discriminate.
  - intros _ i h H; destruct i; discriminate.
  - intros _ i h H; destruct i; discriminate.
  - intros _ _ l1 i x l2 H. destruct l1 as [|y l1]; [discriminate|]. destruct l1; discriminate.
  - intros _ _ i h H; destruct i; discriminate.
Qed.

(** ** How long the waits are *)
Lemma waits_run : forall o evs s l s' l', l <> [] -> waits_right o l -> timer_run o s evs = Some (s', l') -> waits_right o (l ++ l').
Proof.
  intros o evs. induction evs as [|ev evs IH]; intros s l s' l' Ne W R; cbn [timer_run] in R; [injection R as <- <-; rewrite app_nil_r; exact W|].
  destruct (timer_step o s ev) as [[s1 b1]|] eqn:E; [|discriminate]. destruct (timer_run o s1 evs) as [[s2 b2]|] eqn:R1; [|discriminate]. injection R as <- <-. rewrite app_assoc.
  eapply IH; [destruct l; [congruence|discriminate]| |exact R1].
  assert (Sn : forall l x, l <> [] -> waits_right o l -> (forall t d, x = Waits t d -> d = t + o_keepalive o) -> waits_right o (l ++ [x])).
  { intros m x Nm Wm K a t d c Em. apply snoc_case in Em as [(c' & _ & Em)|(_ & Em & ->)]; [exact (Wm _ _ _ _ Em)|]. rewrite (K t d (eq_sym Em)). destruct m; [congruence|reflexivity]. }
  assert (Sk : forall b, (forall t d, ~ In (Waits t d) b) -> waits_right o (l ++ b)).
  { induction b as [|x b IHb] using rev_ind; intros Nb; [rewrite app_nil_r; exact W|]. rewrite app_assoc. apply Sn.
    - destruct l; [congruence|discriminate].
    - apply IHb. intros t d H. apply (Nb t d), in_or_app; auto.
    - intros t d ->. exfalso. apply (Nb t d), in_or_app; right; left; reflexivity. }
  destruct ev as [d|more| |i| | | | |i|]; cbn [timer_step] in E.
  - destruct (0 <=? d); [|discriminate]. injection E as <- <-. apply Sk. intros t d' [].
  - destruct (t_open s); [|discriminate]. destruct (t_ph s); try discriminate. destruct more; unfold begin in E; injection E as <- <-; apply Sk; cbn; intros t d' H; intuition discriminate.
  - destruct (t_open s); [|discriminate]. destruct (t_ph s); try discriminate. unfold begin in E; injection E as <- <-; apply Sk; cbn; intros t d' H; intuition discriminate.
  - destruct (nth_error (t_hs s) i) as [h|]; [|discriminate]. destruct (h_run h); [|discriminate]. injection E as <- <-. apply Sk; cbn; intros t d' H; intuition discriminate.
  - destruct (t_open s && negb (t_up s) && match t_wait s with Cancelled => false | _ => true end); [|discriminate]. destruct (t_ph s); try discriminate. injection E as <- <-. apply Sn; auto.
    intros t d' H. injection H as <- <-. reflexivity.
  - destruct (t_ph s); try discriminate. injection E as <- <-. apply Sk. intros t d' [].
  - destruct (t_open s); [|discriminate]. destruct (t_wait s); try discriminate. destruct (t_due s <=? t_now s); [|discriminate]. injection E as <- <-. apply Sk. intros t d' [].
  - destruct (t_open s); [|discriminate]. destruct (t_wait s); try discriminate. injection E as <- <-. apply Sk; cbn; intros t d' H; intuition discriminate.
  - destruct (nth_error (t_hs s) i) as [h|]; [|discriminate]. destruct (h_timer h && (h_start h + o_handler o <=? t_now s) && t_open s); [|discriminate]. injection E as <- <-. apply Sk.
    unfold handler_timeout. destruct (t_up s); [intros ? ? []|]. destruct (t_cur s) as [j|]; [|intros ? ? []]. destruct (nth_error (t_hs s) j) as [hj|]; [|intros ? ? []]. destruct (h_run hj); [|intros ? ? []]. intros t d' [H|[]]; discriminate.
  - destruct (t_open s); [|discriminate]. injection E as <- <-. apply Sk. intros t d' [].
Qed.
Lemma since_unique : forall l t d b t' d' b', waiting_since l t d b -> waiting_since l t' d' b' -> t = t' /\ d = d' /\ b = b'.
Proof.
  intros l t d b t' d' b' (a & E & N) (a' & E' & N'). subst l. revert a' E'. induction a as [|x a IH]; intros [|x' a'] E'; cbn in E'.
  - injection E' as -> -> ->. auto.
  - injection E' as _ Eb. exfalso. rewrite Eb in N. apply (N t' d'). apply in_or_app; right; left; reflexivity.
  - injection E' as _ Eb. exfalso. rewrite <- Eb in N'. apply (N' t d). apply in_or_app; right; left; reflexivity.
  - injection E' as _ E'. eauto.
Qed.
