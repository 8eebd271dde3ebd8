(** Proofs about the ASGI applications of a connection (C68). *)
From Verif Require Import PyBytes M_AsgiConn S_AsgiConn.
Local Open Scope Z_scope.

Lemma put_length i a l : List.length (put i a l) = List.length l.
Proof. revert i; induction l as [|x l IH]; intros [|i]; cbn [put List.length]; [reflexivity..|]. now rewrite IH. Qed.
Lemma put_same i a l x : nth_error l i = Some x -> nth_error (put i a l) i = Some a.
Proof. revert i; induction l as [|y l IH]; intros [|i] H; cbn [put nth_error] in *; [discriminate..|reflexivity|]. now apply IH. Qed.
Lemma put_other i j a l : i <> j -> nth_error (put i a l) j = nth_error l j.
Proof. revert i j; induction l as [|y l IH]; intros [|i] [|j] H; cbn [put nth_error]; [reflexivity..|easy|reflexivity|reflexivity|]. apply IH. congruence. Qed.

Lemma run_inv T (P : conn -> list obs -> Prop) s0 : P s0 [] -> (forall s l ev s' b, P s l -> conn_step T s ev = Some (s', b) -> P s' (l ++ b)) ->
  forall evs s l, conn_run T s0 evs = Some (s, l) -> P s l.
Proof.
  intros P0 Step evs. assert (forall s1 l1 s l, P s1 l1 -> conn_run T s1 evs = Some (s, l) -> P s (l1 ++ l)) as K; [|intros s l; apply (K s0 [] s l P0)].
  clear P0. induction evs as [|ev evs IH]; intros s1 l1 s l H E; cbn [conn_run] in E; [injection E as <- <-; now rewrite app_nil_r|].
  destruct (conn_step T s1 ev) as [[s2 b2]|] eqn:Es; [|discriminate]. destruct (conn_run T s2 evs) as [[s3 b3]|] eqn:Er; [|discriminate]. injection E as <- <-. rewrite app_assoc. eapply IH; [|exact Er]. eapply Step; eauto.
Qed.
Lemma run_split T : forall evs s0 s l, conn_run T s0 evs = Some (s, l) -> forall a x b, l = a ++ x :: b ->
  exists e1 ev e2 s1 s2 l1 la lb l2, evs = e1 ++ ev :: e2 /\ conn_run T s0 e1 = Some (s1, l1) /\ conn_step T s1 ev = Some (s2, la ++ x :: lb) /\ conn_run T s2 e2 = Some (s, l2) /\ a = l1 ++ la /\ b = lb ++ l2.
Proof.
  induction evs as [|ev evs IH]; intros s0 s l E a x b ->; cbn [conn_run] in E; [injection E as _ E; now destruct a|].
  destruct (conn_step T s0 ev) as [[s1 b1]|] eqn:Es; [|discriminate]. destruct (conn_run T s1 evs) as [[s2 b2]|] eqn:Er; [|discriminate]. injection E as -> E.
  assert ((exists la lb, b1 = la ++ x :: lb /\ a = la /\ b = lb ++ b2) \/ (exists a', a = b1 ++ a' /\ b2 = a' ++ x :: b)) as [(la & lb & -> & -> & ->)|(a' & -> & E2)].
  { clear -E. revert a E. induction b1 as [|y b1 IH]; intros a E; cbn [Datatypes.app] in E; [right; exists a; now split|]. destruct a as [|z a]; cbn [Datatypes.app] in E.
    - injection E as -> <-. left. exists [], b1. now repeat split.
    - injection E as -> E. destruct (IH a E) as [(la & lb & -> & -> & ->)|(a' & -> & ->)]; [left; exists (z :: la), lb; now repeat split|right; exists a'; now split]. }
  - exists [], ev, evs, s0, s1, [], la, lb, b2. now repeat split.
  - destruct (IH s1 s b2 Er a' x b E2) as (e1 & ev' & e2 & s3 & s4 & l1 & la & lb & l2 & -> & E3 & E4 & E5 & -> & ->).
    exists (ev :: e1), ev', e2, s3, s4, (b1 ++ l1), la, lb, l2. cbn [conn_run]. rewrite Es, E3. now rewrite app_assoc.
Qed.

(** One step, by cases. *)
Ltac step_cases E :=
  match type of E with conn_step _ ?s ?ev = Some _ => destruct ev as [dt| |i|i|i|i|i last|i|i| | |i] end; cbn [conn_step] in E;
  repeat match type of E with
    | (if ?c then _ else _) = Some _ => destruct c eqn:?
    | match ?c with _ => _ end = Some _ => destruct c eqn:?
    end; try discriminate E; cbn [with_timer at_ k_timer k_now k_up k_apps k_handler k_read k_scope k_done] in E.
Lemma told_spec T s i : exists s1 x, told T s i = (s1, [x]) /\ k_now s1 = k_now s /\ k_up s1 = k_up s /\ k_apps s1 = put i (mkApp Own false) (k_apps s) /\ k_handler s1 = k_handler s /\
  k_read s1 = k_read s /\ k_scope s1 = k_scope s /\ k_done s1 = k_done s /\
  (k_timer s1 = k_timer s /\ k_timer s <> None /\ x = Told i (k_now s) \/ k_timer s1 = None /\ k_timer s = None /\ k_handler s = None /\ x = Fault i (k_now s) \/
   exists h, k_timer s = None /\ k_handler s = Some h /\ k_timer s1 = Some (h, k_now s + T, true) /\ x = Told i (k_now s)).
Proof.
  unfold told, set_timer. cbn [at_ k_timer k_handler]. destruct (k_timer s) as [x|] eqn:Et.
  - do 2 eexists. split; [reflexivity|]. cbn [at_ k_now k_up k_apps k_handler k_read k_scope k_done k_timer]. rewrite Et. repeat split. left. now repeat split.
  - destruct (k_handler s) as [h|] eqn:Eh.
    + do 2 eexists. split; [reflexivity|]. cbn [at_ with_timer k_now k_up k_apps k_handler k_read k_scope k_done k_timer]. rewrite Eh. repeat split. right; right. exists h. now repeat split.
    + do 2 eexists. split; [reflexivity|]. cbn [at_ with_timer k_now k_up k_apps k_handler k_read k_scope k_done k_timer]. rewrite Eh, Et. repeat split. right; left. now repeat split.
Qed.
(** What a step does to the applications and what can be seen of it. *)
Inductive effect (s : conn) : list obs -> list app -> Prop :=
| e_none : effect s [] (k_apps s)
| e_seen x : match x with Fault _ _ => True | _ => False end -> effect s [x] (k_apps s)
| e_begin : k_up s = true -> effect s [Began (List.length (k_apps s)) (k_now s)] (k_apps s ++ [mkApp Own false])
| e_wait i g : nth_error (k_apps s) i = Some (mkApp Own false) -> k_scope s = true -> k_read s = Some g -> effect s [] (put i (mkApp (InReceive g) false) (k_apps s))
| e_given i g : nth_error (k_apps s) i = Some (mkApp (InReceive g) false) -> effect s [Given i g (k_now s)] (put i (mkApp Own false) (k_apps s))
| e_told i p c x : nth_error (k_apps s) i = Some (mkApp p c) -> p <> Over -> x = Told i (k_now s) \/ x = Fault i (k_now s) -> effect s [x] (put i (mkApp Own false) (k_apps s))
| e_send i p : nth_error (k_apps s) i = Some (mkApp p false) -> p <> Over -> effect s [] (put i (mkApp InSend false) (k_apps s))
| e_sent i : nth_error (k_apps s) i = Some (mkApp InSend false) -> k_up s = true -> effect s [Sent i (List.length (k_apps s) - 1) (k_now s)] (put i (mkApp Own false) (k_apps s))
| e_back i p c l : nth_error (k_apps s) i = Some (mkApp p c) -> p <> Over -> l = [] \/ l = [Broken i (k_now s)] -> effect s l (put i (mkApp Own false) (k_apps s))
| e_end i p c : nth_error (k_apps s) i = Some (mkApp p c) -> p <> Over -> effect s [Ended i (k_now s)] (put i (mkApp Over false) (k_apps s))
| e_lost : k_up s = true -> effect s (LostAt (k_now s) :: cancels (k_now s) 0 (k_apps s)) (map cancel_app (k_apps s))
| e_fire i a : nth_error (k_apps s) i = Some a -> effect s (if over a then [] else [Timer i (k_now s)]) (put i (cancel_app a) (k_apps s)).
Lemma step_effect T s ev s' b : conn_step T s ev = Some (s', b) -> effect s b (k_apps s').
Proof.
  intros E. step_cases E;
  try (match type of E with Some (told T ?s ?i) = _ => destruct (told_spec T s i) as (s1 & x & Et & _ & _ & Ap & _ & _ & _ & _ & Tm); rewrite Et in E; injection E as <- <-; rewrite Ap;
    eapply e_told; [eassumption|discriminate|destruct Tm as [(_ & _ & ->)|[(_ & _ & _ & ->)|(h & _ & _ & _ & ->)]]; auto] end);
  injection E as <- <-; cbn [at_ lose with_timer k_apps]; cbn [k_apps].
  - constructor.
  - apply e_begin. destruct (k_up s); [reflexivity|discriminate].
  - constructor. exact I.
  - apply e_wait; [assumption|destruct (k_scope s); [reflexivity|discriminate]|assumption].
  - now apply e_given.
  - eapply e_send; [eassumption|discriminate].
  - now apply e_sent.
  - eapply e_back; [eassumption|discriminate|auto].
  - eapply e_end; [eassumption|discriminate].
  - eapply e_end; [eassumption|discriminate].
  - now apply e_lost.
  - now eapply (e_fire s).
  - constructor.
  - eapply e_back; [eassumption|discriminate|auto].
  - eapply e_back; [eassumption|discriminate|auto].
Qed.

(** *** Who was called, and who is over. *)
Lemma cancels_in t x : forall l i, In x (cancels t i l) <-> exists j a, nth_error l j = Some a /\ over a = false /\ x = Cancel (i + j)%nat t.
Proof.
  induction l as [|a l IH]; intros i; cbn [cancels]; [split; [intros []|intros ([|j] & a & H & _); discriminate]|]. rewrite in_app_iff, IH. split.
  - intros [H|(j & a' & H & O & ->)]; [|exists (S j), a'; repeat split; [exact H|exact O|f_equal; lia]]. destruct (over a) eqn:Oa; [destruct H|]. destruct H as [<-|[]]. exists 0%nat, a. repeat split; [exact Oa|f_equal; lia].
  - intros ([|j] & a' & H & O & ->); cbn [nth_error] in H; [injection H as ->; rewrite O; left; left; f_equal; lia|right]. exists j, a'. repeat split; [exact H|exact O|f_equal; lia].
Qed.
Lemma over_cancel a : over (cancel_app a) = over a.
Proof. unfold cancel_app. destruct (over a) eqn:E; [exact E|unfold over in *; cbn [p_at]; exact E]. Qed.
Definition is_over (l : list app) (i : nat) : Prop := exists a, nth_error l i = Some a /\ over a = true.
Lemma is_over_put l i x a j : nth_error l i = Some x -> is_over (put i a l) j <-> if Nat.eq_dec i j then over a = true else is_over l j.
Proof.
  intros H. unfold is_over. destruct (Nat.eq_dec i j) as [<-|N].
  - rewrite (put_same _ _ _ _ H). split; [intros (y & E & O); now injection E as <-|]. intros O. now exists a.
  - now rewrite (put_other _ _ _ _ N).
Qed.
Lemma not_over l i p c : nth_error l i = Some (mkApp p c) -> p <> Over -> ~ is_over l i.
Proof. intros H N (a & E & O). rewrite H in E. injection E as <-. unfold over in O. cbn [p_at] in O. now destruct p. Qed.
Definition book (s : conn) (l : list obs) : Prop :=
  (forall i, (i < List.length (k_apps s))%nat <-> exists t, In (Began i t) l) /\ (forall i, is_over (k_apps s) i <-> exists t, In (Ended i t) l).
Lemma ex_app_l {A} (f : A -> obs) l b : (forall t, ~ In (f t) b) -> (exists t, In (f t) (l ++ b)) <-> (exists t, In (f t) l).
Proof. intros N. split; intros (t & H); exists t; [apply in_app_iff in H as [H|H]; [exact H|now apply N in H]|apply in_app_iff; now left]. Qed.
Lemma book_keep s l b (apps : list app) : book s l -> List.length apps = List.length (k_apps s) -> (forall i, is_over apps i <-> is_over (k_apps s) i) ->
  (forall i t, ~ In (Began i t) b) -> (forall i t, ~ In (Ended i t) b) ->
  (forall i, (i < List.length apps)%nat <-> exists t, In (Began i t) (l ++ b)) /\ (forall i, is_over apps i <-> exists t, In (Ended i t) (l ++ b)).
Proof. intros (B & O) L Ov N1 N2. split; intros i; rewrite ex_app_l by auto; [rewrite L; apply B|rewrite Ov; apply O]. Qed.
Lemma is_over_cancel l i : is_over (map cancel_app l) i <-> is_over l i.
Proof.
  unfold is_over. rewrite nth_error_map. destruct (nth_error l i) as [a|]; cbn [option_map]; [|split; intros (a & E & _); discriminate].
  split; intros (x & E & O); injection E as <-; [exists a; now rewrite over_cancel in O|exists (cancel_app a); now rewrite over_cancel].
Qed.
Lemma nil_none {A B} (f : A -> B) x : In (f x) [] -> False. Proof. easy. Qed.
Ltac no_in := intros ? ?; cbn [In]; intuition discriminate.
Lemma effect_book s l b apps : book s l -> effect s b apps ->
  (forall i, (i < List.length apps)%nat <-> exists t, In (Began i t) (l ++ b)) /\ (forall i, is_over apps i <-> exists t, In (Ended i t) (l ++ b)).
Proof.
  intros H E. destruct E as [|x X|U|i g N Sc R|i g N|i p c x N P X|i p N P|i N U|i p c bl N P X|i p c N P|U|i a N].
  - apply (book_keep s l); auto; try easy; no_in.
  - apply (book_keep s l); auto; try easy; (intros j t [->|[]]; exact X).
  - destruct H as (B & O). split; intros i.
    + rewrite app_length. cbn [List.length]. split.
      * intros L. destruct (Nat.eq_dec i (List.length (k_apps s))) as [->|Ne]; [exists (k_now s); apply in_app_iff; right; now left|]. destruct (proj1 (B i)) as (t & T); [lia|]. exists t. apply in_app_iff; now left.
      * intros (t & I). apply in_app_iff in I as [I|[I|[]]]; [assert (i < List.length (k_apps s))%nat by (apply B; eauto); lia|injection I as <- _; lia].
    + rewrite ex_app_l by (intros t [X|[]]; discriminate). rewrite <- O. unfold is_over. split; intros (a & Ea & Oa); exists a; (split; [|exact Oa]).
      * destruct (Nat.lt_ge_cases i (List.length (k_apps s))) as [L|L]; [now rewrite nth_error_app1 in Ea|]. rewrite nth_error_app2 in Ea by exact L. destruct (i - List.length (k_apps s))%nat as [|[|n]]; [|discriminate..]. injection Ea as <-. discriminate Oa.
      * rewrite nth_error_app1; [exact Ea|]. apply nth_error_Some. congruence.
  - apply (book_keep s l); auto; [apply put_length| |no_in..]. intros j. rewrite (is_over_put _ _ _ _ _ N). destruct (Nat.eq_dec i j) as [<-|]; [|reflexivity]. split; [discriminate|]. intros X. now apply (not_over _ _ _ _ N) in X.
  - apply (book_keep s l); auto; [apply put_length| |no_in..]. intros j. rewrite (is_over_put _ _ _ _ _ N). destruct (Nat.eq_dec i j) as [<-|]; [|reflexivity]. split; [discriminate|]. intros X. now apply (not_over _ _ _ _ N) in X.
  - apply (book_keep s l); auto; [apply put_length| |destruct X as [->| ->]; no_in..]. intros j. rewrite (is_over_put _ _ _ _ _ N). destruct (Nat.eq_dec i j) as [<-|]; [|reflexivity]. split; [discriminate|]. intros Y. now apply (not_over _ _ _ _ N) in Y.
  - apply (book_keep s l); auto; [apply put_length| |no_in..]. intros j. rewrite (is_over_put _ _ _ _ _ N). destruct (Nat.eq_dec i j) as [<-|]; [|reflexivity]. split; [discriminate|]. intros X. now apply (not_over _ _ _ _ N) in X.
  - apply (book_keep s l); auto; [apply put_length| |no_in..]. intros j. rewrite (is_over_put _ _ _ _ _ N). destruct (Nat.eq_dec i j) as [<-|]; [|reflexivity]. split; [discriminate|]. intros X. now apply (not_over _ _ _ _ N) in X.
  - apply (book_keep s l); auto; [apply put_length| |destruct X as [->| ->]; no_in..]. intros j. rewrite (is_over_put _ _ _ _ _ N). destruct (Nat.eq_dec i j) as [<-|]; [|reflexivity]. split; [discriminate|]. intros Y. now apply (not_over _ _ _ _ N) in Y.
  - destruct H as (B & O). split; intros j.
    + rewrite put_length, B, ex_app_l; [reflexivity|]. intros t [X|[]]; discriminate.
    + rewrite (is_over_put _ _ _ _ _ N). destruct (Nat.eq_dec i j) as [<-|Ne].
      * split; [intros _|reflexivity]. exists (k_now s). apply in_app_iff. right. now left.
      * rewrite O, ex_app_l; [reflexivity|]. intros t [X|[]]. injection X as X _. now apply Ne.
  - apply (book_keep s l); auto; [apply map_length|intros i; apply is_over_cancel|..]; intros i t [X|X]; try discriminate; apply cancels_in in X as (j & a & _ & _ & X); discriminate.
  - apply (book_keep s l); auto; [apply put_length| |destruct (over a); no_in..]. intros j. rewrite (is_over_put _ _ _ _ _ N), over_cancel. destruct (Nat.eq_dec i j) as [<-|]; [|reflexivity]. unfold is_over. rewrite N. split; [intros O; now exists a|intros (x & X & O); now injection X as <-].
Qed.
Lemma run_book T t0 evs s l : conn_run T (conn0 t0) evs = Some (s, l) -> book s l.
Proof.
  apply (run_inv T book).
  - split; intros i; (split; [|intros (t & [])]); cbn [conn0 k_apps List.length]; [lia|intros (a & E & _); now destruct i].
  - intros s1 l1 ev s2 b H E. exact (effect_book _ _ _ _ H (step_effect _ _ _ _ _ E)).
Qed.
Lemma book_running s l i : book s l -> running l i <-> exists a, nth_error (k_apps s) i = Some a /\ over a = false.
Proof.
  intros (B & O). unfold running. rewrite <- B, <- O. split.
  - intros (L & N). destruct (nth_error (k_apps s) i) as [a|] eqn:E; [|apply nth_error_None in E; lia]. exists a. split; [reflexivity|]. destruct (over a) eqn:Oa; [|reflexivity]. destruct N. exists a. now split.
  - intros (a & E & Oa). split; [apply nth_error_Some; congruence|]. intros (x & X & Y). congruence.
Qed.

(** *** The attributes. *)
Definition attrs (s : conn) (l : list obs) : Prop :=
  (k_up s = true -> forall t, ~ In (LostAt t) l) /\
  (k_up s = true -> k_handler s = match List.length (k_apps s) with O => None | S m => Some m end) /\
  (k_up s = false -> k_handler s = None /\ k_scope s = false) /\
  (forall g, k_read s = Some g -> S g = List.length (k_apps s)) /\
  (k_up s = false -> forall i g, nth_error (k_apps s) i <> Some (mkApp (InReceive g) false)).
Lemma put_not i a l P : (forall j (x : app), nth_error l j = Some x -> P x) -> P a -> forall j x, nth_error (put i a l) j = Some x -> P x.
Proof.
  intros H Pa j x E. destruct (Nat.eq_dec i j) as [<-|N]; [|rewrite (put_other _ _ _ _ N) in E; eauto]. destruct (nth_error l i) as [y|] eqn:Y; [rewrite (put_same _ _ _ _ Y) in E; now injection E as <-|].
  apply nth_error_None in Y. rewrite <- (put_length i a) in Y. apply nth_error_None in Y. congruence.
Qed.
Definition not_waiting (a : app) : Prop := forall g, a <> mkApp (InReceive g) false.
Lemma waiting_all l : (forall i g, nth_error l i <> Some (mkApp (InReceive g) false)) <-> (forall i a, nth_error l i = Some a -> not_waiting a).
Proof. split; intros H i g; [intros E k ->; now apply (H i k)|]. intros E. now apply (H i _ E g). Qed.
Lemma attrs_apps s s' l b : attrs s l -> k_up s' = k_up s -> k_handler s' = k_handler s -> (k_read s' = k_read s \/ k_read s' = None) -> k_scope s' = k_scope s -> List.length (k_apps s') = List.length (k_apps s) ->
  (forall t, ~ In (LostAt t) b) -> (k_up s = false -> (forall i g, nth_error (k_apps s) i <> Some (mkApp (InReceive g) false)) -> forall i g, nth_error (k_apps s') i <> Some (mkApp (InReceive g) false)) -> attrs s' (l ++ b).
Proof.
  intros (A & B & C & D & F) U H R Sc L N W. split; [|split; [|split; [|split]]].
  - intros X t I. rewrite U in X. apply in_app_iff in I as [I|I]; [now apply (A X t)|now apply (N t)].
  - intros X. rewrite H, L, U in *. auto.
  - intros X. rewrite H, Sc, U in *. auto.
  - intros g G. rewrite L. destruct R as [R|R]; rewrite R in G; [auto|discriminate].
  - intros X. rewrite U in X. auto.
Qed.
Ltac aa s := apply (attrs_apps s); auto; try apply put_length; try (intros t [X|[]]; discriminate); try (left; reflexivity); try (right; reflexivity);
  try (intros U W; cbn [at_ with_timer k_apps]; apply waiting_all; intros j y; apply put_not; [apply waiting_all; exact W|intros ?; discriminate]).
Lemma step_attrs T s l ev s' b : attrs s l -> conn_step T s ev = Some (s', b) -> attrs s' (l ++ b).
Proof.
  intros A E. step_cases E;
  try (match type of E with Some (told T ?s ?i) = _ => destruct (told_spec T s i) as (s1 & x & Et & _ & Up & Ap & Ha & Re & Sc & _ & Tm); rewrite Et in E; injection E as <- <-;
    apply (attrs_apps s); [exact A|exact Up|exact Ha|now left|exact Sc|rewrite Ap; apply put_length| |] end);
  try (intros t [X|[]]; destruct Tm as [(_ & _ & ->)|[(_ & _ & _ & ->)|(h & _ & _ & _ & ->)]]; discriminate);
  try (match goal with |- _ -> _ -> forall i g, nth_error (k_apps ?q) i <> _ => intros U W; rewrite Ap; apply waiting_all; intros j y; apply put_not; [apply waiting_all; exact W|intros ?; discriminate] end);
  injection E as <- <-.
  - aa s.
  - destruct A as (A & _). apply andb_prop in Heqb0 as (U & _). split; [|split; [|split; [|split]]]; cbn [k_up k_handler k_apps k_read]; try discriminate.
    + intros _ t I. apply in_app_iff in I as [I|[I|[]]]; [now apply (A U t)|discriminate].
    + intros _. rewrite app_length. cbn [List.length]. now rewrite Nat.add_1_r.
    + intros g X. injection X as <-. rewrite app_length. cbn [List.length]. now rewrite Nat.add_1_r.
  - aa s.
  - apply (attrs_apps s); auto; try apply put_length. intros U. destruct A as (_ & _ & C & _). destruct (C U) as (_ & Sc). now rewrite Sc in *.
  - aa s.
  - aa s.
  - destruct last; aa s.
  - aa s.
  - aa s.
  - aa s.
  - destruct A as (_ & _ & _ & D & _). unfold lose. split; [|split; [|split; [|split]]]; cbn [k_up k_handler k_apps k_read k_scope]; try discriminate.
    + now split.
    + intros g X. rewrite map_length. auto.
    + intros _ i g X. rewrite nth_error_map in X. destruct (nth_error (k_apps s) i) as [a|]; [|discriminate]. cbn [option_map] in X. injection X as X. unfold cancel_app in X. destruct (over a) eqn:O; [|discriminate]. subst a. discriminate O.
  - apply (attrs_apps s); auto; [apply put_length|destruct (over a); [intros t []|intros t [X|[]]; discriminate]|]. intros U W. cbn [at_ with_timer k_apps]. apply waiting_all. intros j y. apply put_not; [apply waiting_all; exact W|].
    intros g X. unfold cancel_app in X. destruct (over a) eqn:O; [|discriminate]. subst a. discriminate O.
  - aa s.
  - aa s.
  - aa s.
Qed.
Lemma run_attrs T t0 evs s l : conn_run T (conn0 t0) evs = Some (s, l) -> attrs s l.
Proof. apply (run_inv T attrs); [|intros; eapply step_attrs; eauto]. unfold attrs, conn0. cbn [k_up k_handler k_read k_apps k_scope List.length]. repeat split; try discriminate; easy. Qed.

(** *** One application after the other. *)
Lemma obo_prefix l b : one_by_one (l ++ b) -> one_by_one l.
Proof. intros H a k t b' -> i. apply (H a k t (b' ++ b)). now rewrite <- app_assoc. Qed.
Definition seq (s : conn) (l : list obs) : Prop := one_by_one l ->
  (forall i a, nth_error (k_apps s) i = Some a -> over a = false -> S i = List.length (k_apps s)) /\ (forall i g c, nth_error (k_apps s) i = Some (mkApp (InReceive g) c) -> g = i).
Lemma put_cases i a l j x : nth_error (put i a l) j = Some x -> (j = i /\ x = a /\ (i < List.length l)%nat) \/ (i <> j /\ nth_error l j = Some x).
Proof.
  intros E. destruct (Nat.eq_dec i j) as [<-|N]; [left|right; split; [exact N|now rewrite (put_other _ _ _ _ N) in E]].
  assert (i < List.length l)%nat as L by (rewrite <- (put_length i a); apply nth_error_Some; congruence). destruct (nth_error l i) as [y|] eqn:Y; [|apply nth_error_None in Y; lia]. rewrite (put_same _ _ _ _ Y) in E. now injection E as <-.
Qed.
Lemma seq_put s i p c a : (forall i a, nth_error (k_apps s) i = Some a -> over a = false -> S i = List.length (k_apps s)) -> (forall i g c, nth_error (k_apps s) i = Some (mkApp (InReceive g) c) -> g = i) ->
  nth_error (k_apps s) i = Some (mkApp p c) -> p <> Over -> (forall g c', a = mkApp (InReceive g) c' -> g = i) ->
  (forall j x, nth_error (put i a (k_apps s)) j = Some x -> over x = false -> S j = List.length (put i a (k_apps s))) /\ (forall j g c, nth_error (put i a (k_apps s)) j = Some (mkApp (InReceive g) c) -> g = j).
Proof.
  intros A B N P G. rewrite put_length. assert (S i = List.length (k_apps s)) as L by (apply (A _ _ N); unfold over; cbn [p_at]; now destruct p).
  split.
  - intros j x H O. apply put_cases in H as [(-> & _)|(_ & H)]; [exact L|eauto].
  - intros j g c' H. apply put_cases in H as [(-> & E & _)|(_ & H)]; [now apply (G g c')|eauto].
Qed.
Lemma effect_seq s l b s' : book s l -> attrs s l -> seq s l -> effect s b (k_apps s') -> seq s' (l ++ b).
Proof.
  intros Bk At Sq E Ob. destruct (Sq (obo_prefix _ _ Ob)) as (A & B). destruct E as [|x X|U|i g N Sc R|i g N|i p c x N P X|i p N P|i N U|i p c bl N P X|i p c N P|U|i a N].
  - now split.
  - now split.
  - assert (forall i a, nth_error (k_apps s) i = Some a -> over a = true) as Old.
    { intros i a Ha. destruct (over a) eqn:O; [reflexivity|]. exfalso. apply (Ob l _ _ [] eq_refl i). apply (book_running s l i Bk). now exists a. }
    rewrite app_length. cbn [List.length]. rewrite Nat.add_1_r. split.
    + intros i a H O. destruct (Nat.lt_ge_cases i (List.length (k_apps s))) as [L|L]; [rewrite nth_error_app1 in H by exact L; specialize (Old i a H); congruence|].
      rewrite nth_error_app2 in H by exact L. destruct (i - List.length (k_apps s))%nat as [|[|n]] eqn:D; [f_equal; lia|discriminate..].
    + intros i g c H. destruct (Nat.lt_ge_cases i (List.length (k_apps s))) as [L|L]; [rewrite nth_error_app1 in H by exact L; specialize (Old i _ H); discriminate|].
      rewrite nth_error_app2 in H by exact L. destruct (i - List.length (k_apps s))%nat as [|[|n]]; discriminate.
  - eapply seq_put; eauto; [discriminate|]. intros g' c' X. injection X as <- _. destruct At as (_ & _ & _ & D & _). specialize (D g R). specialize (A i _ N eq_refl). congruence.
  - eapply seq_put; eauto; discriminate.
  - eapply seq_put; eauto; discriminate.
  - eapply seq_put; eauto; discriminate.
  - eapply seq_put; eauto; discriminate.
  - eapply seq_put; eauto; discriminate.
  - eapply seq_put; eauto; discriminate.
  - rewrite map_length. split.
    + intros i a H O. rewrite nth_error_map in H. destruct (nth_error (k_apps s) i) as [x|] eqn:Hx; [|discriminate]. injection H as <-. rewrite over_cancel in O. eauto.
    + intros i g c H. rewrite nth_error_map in H. destruct (nth_error (k_apps s) i) as [[p c0]|] eqn:Hx; [|discriminate]. cbn [option_map] in H. injection H as H. unfold cancel_app in H. destruct (over (mkApp p c0)); injection H as -> _; eauto.
  - destruct (over a) eqn:O.
    + assert (cancel_app a = a) as -> by (unfold cancel_app; now rewrite O). rewrite put_length. split; [intros j x H Ox|intros j g c H]; apply put_cases in H as [(-> & E & _)|(_ & H)]; eauto; subst; [congruence|discriminate].
    + destruct a as [p c]. eapply seq_put; eauto; [intros ->; discriminate|]. intros g' c' X. unfold cancel_app in X. rewrite O in X. cbn [p_at] in X. injection X as -> _. eauto.
Qed.
Lemma run_all T t0 evs s l : conn_run T (conn0 t0) evs = Some (s, l) -> book s l /\ attrs s l /\ seq s l.
Proof.
  intros E. split; [eapply run_book; eauto|]. split; [eapply run_attrs; eauto|].
  assert (book s l /\ attrs s l /\ seq s l) as (_ & _ & H); [|exact H]. revert E. apply (run_inv T (fun s l => book s l /\ attrs s l /\ seq s l)).
  - split; [apply (run_book T t0 []); reflexivity|]. split; [apply (run_attrs T t0 []); reflexivity|]. intros _. split; intros [|i]; discriminate.
  - intros s1 l1 ev s2 b (B & A & S) E. pose proof (step_effect _ _ _ _ _ E) as F. split; [exact (effect_book _ _ _ _ B F)|]. split; [eapply step_attrs; eauto|eapply effect_seq; eauto].
Qed.

(** *** The timer. *)
Definition clock (T : Z) (s : conn) (l : list obs) : Prop :=
  match k_timer s with
  | None => (forall i t, ~ In (Timer i t) l) /\ (forall i t, ~ In (Told i t) l)
  | Some (h, d, live) => (exists t0, d = t0 + T /\ (In (LostAt t0) l \/ exists j, In (Told j t0) l /\ (one_by_one l -> j = h))) /\ (live = true -> forall i t, ~ In (Timer i t) l)
  end.
Lemma clock_more T s s' l b : clock T s l -> k_timer s' = k_timer s -> (forall i t, ~ In (Timer i t) b) -> (forall i t, k_timer s = None -> ~ In (Told i t) b) -> clock T s' (l ++ b).
Proof.
  intros C E N1 N2. unfold clock in *. rewrite E. destruct (k_timer s) as [[[h d] live]|].
  - destruct C as ((t0 & D & W) & L). split.
    + exists t0. split; [exact D|]. destruct W as [W|(j & W & O)]; [left; apply in_app_iff; now left|right; exists j; split; [apply in_app_iff; now left|intros X; apply O; eapply obo_prefix; eauto]].
    + intros Lv i t I. apply in_app_iff in I as [I|I]; [now apply (L Lv i t)|now apply (N1 i t)].
  - destruct C as (C1 & C2). split; intros i t I; apply in_app_iff in I as [I|I]; [now apply (C1 i t)|now apply (N1 i t)|now apply (C2 i t)|now apply (N2 i t eq_refl)].
Qed.
Lemma clock_stop T s s' l b h d live : clock T s l -> k_timer s = Some (h, d, live) -> k_timer s' = Some (h, d, false) -> clock T s' (l ++ b).
Proof.
  intros C E E'. unfold clock in *. rewrite E in C. rewrite E'. destruct C as ((t0 & D & W) & _). split; [|discriminate]. exists t0. split; [exact D|].
  destruct W as [W|(j & W & O)]; [left; apply in_app_iff; now left|right; exists j; split; [apply in_app_iff; now left|intros X; apply O; eapply obo_prefix; eauto]].
Qed.
Lemma cancels_only t n l x : In x (cancels t n l) -> exists i, x = Cancel i t.
Proof. intros H. apply cancels_in in H as (j & a & _ & _ & ->). eauto. Qed.
Lemma step_clock T s l ev s' b : book s l -> attrs s l -> seq s l -> clock T s l -> conn_step T s ev = Some (s', b) -> clock T s' (l ++ b).
Proof.
  intros Bk At Sq C E. pose proof E as E0. step_cases E;
  try (match type of E with Some (told T ?s ?i) = _ => destruct (told_spec T s i) as (s1 & x & Et & _ & Up & Ap & Ha & Re & Sc & _ & Tm); rewrite Et in E; injection E as <- <-;
    destruct Tm as [(T1 & T2 & ->)|[(T1 & T2 & T3 & ->)|(h & T1 & T2 & T3 & ->)]];
    [apply (clock_more T s); [exact C|exact T1|intros j t [X|[]]; discriminate|intros j t X; now destruct T2]
    |apply (clock_more T s); [exact C|congruence|intros j t [X|[]]; discriminate|intros j t _ [X|[]]; discriminate]
    |unfold clock in *; rewrite T1 in C; rewrite T3; split;
      [exists (k_now s); split; [reflexivity|]; right; exists i; split; [apply in_app_iff; right; now left|]; intros Ob; destruct (Sq (obo_prefix _ _ Ob)) as (A & _); destruct At as (_ & H1 & H2 & _);
       destruct (k_up s); [|destruct (H2 eq_refl) as (H3 & _); congruence]; specialize (H1 eq_refl); rewrite T2 in H1;
       match goal with H : nth_error (k_apps s) i = Some ?a |- _ => pose proof (A i a H eq_refl) as Li end; rewrite <- Li in H1; congruence
      |intros _ j t I; apply in_app_iff in I as [I|[I|[]]]; [now apply (proj1 C j t)|discriminate]]] end);
  injection E as <- <-.
  - apply (clock_more T s); auto.
  - apply (clock_more T s); auto; [intros j t [X|[]]; discriminate|intros j t _ [X|[]]; discriminate].
  - apply (clock_more T s); auto; [intros j t [X|[]]; discriminate|intros j t _ [X|[]]; discriminate].
  - apply (clock_more T s); auto.
  - apply (clock_more T s); auto; [intros j t [X|[]]; discriminate|intros j t _ [X|[]]; discriminate].
  - apply (clock_more T s); auto.
  - apply (clock_more T s); auto; [intros j t [X|[]]; discriminate|intros j t _ [X|[]]; discriminate].
  - apply (clock_more T s); auto.
  - destruct (k_timer s) as [[[h d] lv]|] eqn:Et; [eapply clock_stop; [exact C|exact Et|reflexivity]|]. apply (clock_more T s); auto; [intros j t [X|[]]; discriminate|intros j t _ [X|[]]; discriminate].
  - apply (clock_more T s); auto; [intros j t [X|[]]; discriminate|intros j t _ [X|[]]; discriminate].
  - assert (forall i t, ~ In (Timer i t) (LostAt (k_now s) :: cancels (k_now s) 0 (k_apps s))) as N1 by (intros j t [X|X]; [discriminate|apply cancels_only in X as (? & X); discriminate]).
    assert (forall i t, ~ In (Told i t) (LostAt (k_now s) :: cancels (k_now s) 0 (k_apps s))) as N2 by (intros j t [X|X]; [discriminate|apply cancels_only in X as (? & X); discriminate]).
    assert (k_timer (lose T s) = k_timer s \/ exists h, k_timer s = None /\ k_timer (lose T s) = Some (h, k_now s + T, true)) as [Et|(h & Et & Et')].
    { unfold lose, set_timer. cbn [k_timer]. destruct (k_handler s) as [h|] eqn:Eh; [|now left]. destruct (runs s h); [|now left]. destruct (k_timer s) eqn:Et; [now left|]. right. exists h. now split. }
    + apply (clock_more T s); auto.
    + unfold clock in *. rewrite Et in C. rewrite Et'. split; [|intros _ j t I; apply in_app_iff in I as [I|I]; [now apply (proj1 C j t)|now apply (N1 j t)]].
      exists (k_now s). split; [reflexivity|]. left. apply in_app_iff. right. now left.
  - eapply clock_stop; [exact C|eassumption|reflexivity].
  - eapply clock_stop; [exact C|eassumption|reflexivity].
  - apply (clock_more T s); auto; [intros j t [X|[]]; discriminate|intros j t _ [X|[]]; discriminate].
  - apply (clock_more T s); auto.
Qed.
Lemma run_clock T t0 evs s l : conn_run T (conn0 t0) evs = Some (s, l) -> clock T s l.
Proof.
  intros E. assert ((book s l /\ attrs s l /\ seq s l) /\ clock T s l) as (_ & H); [|exact H]. revert E. apply (run_inv T (fun s l => (book s l /\ attrs s l /\ seq s l) /\ clock T s l)).
  - split; [apply (run_all T t0 []); reflexivity|]. cbn. split; intros i t [].
  - intros s1 l1 ev s2 b ((B & A & S) & C) E. pose proof (step_effect _ _ _ _ _ E) as F. split; [|eapply step_clock; eauto]. split; [exact (effect_book _ _ _ _ B F)|]. split; [eapply step_attrs; eauto|eapply effect_seq; eauto].
Qed.

(** *** What can be seen, and when. *)
Lemma single {A} (x y : A) la lb : [x] = la ++ y :: lb -> x = y /\ la = [] /\ lb = [].
Proof. destruct la as [|z la]; cbn [Datatypes.app]; intros H; injection H; [intros <- <-; now repeat split|]. intros E _. now destruct la. Qed.
Lemma effect_lost s b apps la t lb : effect s b apps -> b = la ++ LostAt t :: lb -> la = [] /\ t = k_now s /\ lb = cancels (k_now s) 0 (k_apps s) /\ k_up s = true.
Proof.
  intros E H. destruct E as [|x X|U|i g N Sc R|i g N|i p c x N P X|i p N P|i N U|i p c bl N P X|i p c N P|U|i a N]; try (now destruct la); try (apply single in H as (H & _); try discriminate).
  - subst x. destruct X.
  - subst x. now destruct X.
  - destruct X as [->| ->]; [now destruct la|]. now apply single in H as (H & _).
  - destruct la as [|z la]; cbn [Datatypes.app] in H; [injection H as -> ->; now repeat split|]. injection H as _ H. assert (In (LostAt t) (cancels (k_now s) 0 (k_apps s))) as I by (rewrite H; apply in_app_iff; right; now left). apply cancels_only in I as (? & X). discriminate.
  - destruct (over a); [now destruct la|]. now apply single in H as (H & _).
Qed.
Lemma step_lost T s ev s' b la t lb : conn_step T s ev = Some (s', b) -> b = la ++ LostAt t :: lb -> la = [] /\ t = k_now s /\ lb = cancels (k_now s) 0 (k_apps s) /\ k_up s = true /\ ev = Lost.
Proof.
  intros E H. pose proof (effect_lost _ _ _ _ _ _ (step_effect _ _ _ _ _ E) H) as (A & B & C & D). split; [exact A|]. split; [exact B|]. split; [exact C|]. split; [exact D|]. subst la lb. cbn [Datatypes.app] in H. clear B D.
  step_cases E; try reflexivity; try (match type of E with Some (told T ?s ?i) = _ => destruct (told_spec T s i) as (s1 & x & Et & _ & _ & _ & _ & _ & _ & _ & Tm); rewrite Et in E; injection E as <- <-; destruct Tm as [(_ & _ & ->)|[(_ & _ & _ & ->)|(h & _ & _ & _ & ->)]]; discriminate end);
  injection E as <- <-; try discriminate. destruct (over a); discriminate.
Qed.
Lemma down T s l ev s' b : attrs s l -> k_up s = false -> conn_step T s ev = Some (s', b) -> k_up s' = false /\ forall x, In x b -> ~ with_client x.
Proof.
  intros (_ & _ & A & _ & W) U E. specialize (W U). destruct (A U) as (_ & Sc). step_cases E;
  try (match type of E with Some (told T ?s ?i) = _ => destruct (told_spec T s i) as (s1 & x & Et & _ & Up & _ & _ & _ & _ & _ & Tm); rewrite Et in E; injection E as <- <-; (split; [congruence|]); destruct Tm as [(_ & _ & ->)|[(_ & _ & _ & ->)|(h & _ & _ & _ & ->)]]; intros y [<-|[]]; exact (fun H => H) end);
  injection E as <- <-; try (exfalso; congruence); try (exfalso; eapply W; eassumption); try (split; [exact U|intros y [<-|[]]; exact (fun H => H)]); try (split; [exact U|now intros y []]).
  - exfalso. rewrite U in *. discriminate.
  - split; [assumption|intros y []].
  - split; [exact U|]. destruct (over a); [intros y []|intros y [<-|[]]; exact (fun H => H)].
Qed.
Lemma run_down T : forall evs s l s' l', attrs s l -> k_up s = false -> conn_run T s evs = Some (s', l') -> k_up s' = false /\ forall x, In x l' -> ~ with_client x.
Proof.
  induction evs as [|ev evs IH]; intros s l s' l' A U E; cbn [conn_run] in E; [injection E as <- <-; now split|].
  destruct (conn_step T s ev) as [[s1 b1]|] eqn:Es; [|discriminate]. destruct (conn_run T s1 evs) as [[s2 b2]|] eqn:Er; [|discriminate]. injection E as <- <-.
  destruct (down T s l ev s1 b1 A U Es) as (U1 & N1). destruct (IH s1 (l ++ b1) s2 b2 (step_attrs _ _ _ _ _ _ A Es) U1 Er) as (U2 & N2). split; [exact U2|]. intros x I. apply in_app_iff in I as [I|I]; auto.
Qed.
Lemma lose_up T s : k_up (lose T s) = false. Proof. reflexivity. Qed.

(** A receive that waits when the connection is lost. *)
Definition waits_for (s : conn) (i g : nat) (l : list obs) : Prop :=
  (nth_error (k_apps s) i = Some (mkApp (InReceive g) true) /\ k_timer s <> None) \/ exists t, In (Told i t) l.
Lemma timer_stays T s ev s' b : conn_step T s ev = Some (s', b) -> k_timer s <> None -> k_timer s' <> None.
Proof.
  intros E N. step_cases E; try (match type of E with Some (told T ?s ?i) = _ => destruct (told_spec T s i) as (s1 & x & Et & _ & _ & _ & _ & _ & _ & _ & Tm); rewrite Et in E; injection E as <- <-; destruct Tm as [(-> & _)|[(_ & X & _)|(h & X & _)]]; congruence end);
  injection E as <- <-; cbn [with_timer at_ k_timer]; try exact N; try discriminate.
  - destruct (k_timer s) as [[[h d] x]|]; [discriminate|easy].
  - unfold lose, set_timer. cbn [k_timer]. destruct (k_handler s); [|exact N]. destruct (runs s n); [|exact N]. destruct (k_timer s) eqn:Et; [cbn [fst]; congruence|easy].
Qed.
Lemma step_waits T s l q g ev s' b : k_up s = false -> waits_for s q g l -> conn_step T s ev = Some (s', b) -> waits_for s' q g (l ++ b).
Proof.
  intros U [(N & Tn)|(t & I)] E; [|right; exists t; apply in_app_iff; now left]. pose proof (timer_stays _ _ _ _ _ E Tn) as Tn'.
  assert (forall j a, q <> j -> nth_error (put j a (k_apps s)) q = Some (mkApp (InReceive g) true)) as Oth by (intros j a Ne; rewrite put_other by congruence; exact N).
  assert (forall j (x : app), nth_error (k_apps s) j = Some x -> x <> mkApp (InReceive g) true -> q <> j) as Nej by (intros j x Hx Nx ->; congruence).
  step_cases E;
  try (match type of E with Some (told T ?s ?j) = _ => destruct (told_spec T s j) as (s1 & x & Et & _ & _ & Ap & _ & _ & _ & _ & Tm); rewrite Et in E; injection E as <- <-; destruct (Nat.eq_dec q j) as [<-|Ne];
    [right; exists (k_now s); apply in_app_iff; right; destruct Tm as [(_ & _ & ->)|[(_ & X & _)|(h & X & _)]]; [now left|congruence|congruence]|left; rewrite Ap; split; [now apply Oth|exact Tn']] end);
  injection E as <- <-; cbn [with_timer at_ k_apps] in *; try (left; split; [exact N|exact Tn']); try (left; split; [apply Oth; eapply Nej; [eassumption|discriminate]|exact Tn']); try (rewrite U in *; discriminate).
  left. split; [|exact Tn']. destruct (Nat.eq_dec q n) as [<-|Ne]; [|now apply Oth].
  match goal with H : nth_error (k_apps s) q = Some ?a |- _ => rewrite N in H; injection H as <- end. exact (put_same _ _ _ _ N).
Qed.
Lemma run_waits T i g : forall evs s l l0 s' l', attrs s l -> k_up s = false -> waits_for s i g l0 -> conn_run T s evs = Some (s', l') -> waits_for s' i g (l0 ++ l').
Proof.
  induction evs as [|ev evs IH]; intros s l l0 s' l' A U W E; cbn [conn_run] in E; [injection E as <- <-; now rewrite app_nil_r|].
  destruct (conn_step T s ev) as [[s1 b1]|] eqn:Es; [|discriminate]. destruct (conn_run T s1 evs) as [[s2 b2]|] eqn:Er; [|discriminate]. injection E as <- <-. rewrite app_assoc.
  destruct (down T s l ev s1 b1 A U Es) as (U1 & _). eapply (IH s1 (l ++ b1)); [eapply step_attrs; eauto|exact U1|exact (step_waits T s l0 i g ev s1 b1 U W Es)|exact Er].
Qed.
(** A timer that cannot call anything any more. *)
Definition dead (s : conn) : Prop := exists h d, k_timer s = Some (h, d, false).
Lemma step_dead T s ev s' b : dead s -> conn_step T s ev = Some (s', b) -> dead s' /\ forall i t, ~ In (Timer i t) b.
Proof.
  intros (h & d & D) E. unfold dead. step_cases E;
  try (match type of E with Some (told T ?s ?i) = _ => destruct (told_spec T s i) as (s1 & x & Et & _ & _ & _ & _ & _ & _ & _ & Tm); rewrite Et in E; injection E as <- <-; destruct Tm as [(-> & _ & ->)|[(_ & X & _)|(h' & X & _)]]; [split; [eauto|intros j t [Y|[]]; discriminate]|congruence|congruence] end);
  injection E as <- <-; cbn [with_timer at_ k_timer]; try (rewrite D in *; discriminate); try (split; [solve [eauto]|intros j t [X|[]]; discriminate]); try (split; [solve [eauto]|now intros j t []]).
  - rewrite D. split; [eauto|intros j t [X|[]]; discriminate].
  - split; [|intros j t [X|X]; [discriminate|apply cancels_only in X as (? & X); discriminate]]. exists h, d. unfold lose, set_timer. cbn [k_timer]. destruct (k_handler s); [|exact D]. destruct (runs s n); [|exact D]. now rewrite D.
Qed.
Lemma run_dead T : forall evs s s' l, dead s -> conn_run T s evs = Some (s', l) -> dead s' /\ forall i t, ~ In (Timer i t) l.
Proof.
  induction evs as [|ev evs IH]; intros s s' l D E; cbn [conn_run] in E; [injection E as <- <-; split; [exact D|intros i t []]|].
  destruct (conn_step T s ev) as [[s1 b1]|] eqn:Es; [|discriminate]. destruct (conn_run T s1 evs) as [[s2 b2]|] eqn:Er; [|discriminate]. injection E as <- <-.
  destruct (step_dead T s ev s1 b1 D Es) as (D1 & N1). destruct (IH s1 s2 b2 D1 Er) as (D2 & N2). split; [exact D2|]. intros i t I. apply in_app_iff in I as [I|I]; [now apply (N1 i t)|now apply (N2 i t)].
Qed.
Lemma step_fires T s ev s' b la q t lb : conn_step T s ev = Some (s', b) -> b = la ++ Timer q t :: lb -> exists d, k_timer s = Some (q, d, true) /\ d <= k_now s /\ t = k_now s /\ dead s' /\ la = [] /\ lb = [] /\ exists a, nth_error (k_apps s) q = Some a /\ over a = false.
Proof.
  intros E H. step_cases E;
  try (match type of E with Some (told T ?s ?i) = _ => destruct (told_spec T s i) as (s1 & x & Et & _ & _ & _ & _ & _ & _ & _ & Tm); rewrite Et in E; injection E as <- <-; apply single in H as (H & _); subst x; destruct Tm as [(_ & _ & X)|[(_ & _ & _ & X)|(h' & _ & _ & _ & X)]]; discriminate X end);
  injection E as <- <-; try (now destruct la); try (apply single in H as (H & _); discriminate H).
  - exfalso. assert (In (Timer q t) (LostAt (k_now s) :: cancels (k_now s) 0 (k_apps s))) as [X|X] by (rewrite H; apply in_app_iff; right; now left); [discriminate|]. apply cancels_only in X as (? & X). discriminate.
  - destruct (over a) eqn:O; [now destruct la|]. apply single in H as (H & -> & ->). injection H as <- <-. exists z. split; [reflexivity|]. split; [now apply Z.leb_le|]. split; [reflexivity|]. split; [eexists _, _; reflexivity|]. repeat split. now exists a.
Qed.

(** *** The only application that was running when the connection was lost. *)
Definition alone (s : conn) (i : nat) : Prop := forall j a, nth_error (k_apps s) j = Some a -> over a = false -> j = i.
Lemma alone_step T s l ev s' b i : attrs s l -> k_up s = false -> alone s i -> conn_step T s ev = Some (s', b) -> alone s' i.
Proof.
  intros A U Al E. destruct (down T s l ev s' b A U E) as (_ & Nw). pose proof (step_effect _ _ _ _ _ E) as F. unfold alone in *.
  destruct F as [|x X|U'|k g N Sc R|k g N|k p c x N P X|k p N P|k N U'|k p c bl N P X|k p c N P|U'|k a N]; try (exact Al); try congruence;
  try (intros j x0 H O; apply put_cases in H as [(-> & -> & _)|(_ & H)]; [|eauto]; eapply Al; [exact N|]; try reflexivity; unfold over in *; cbn [p_at] in *; now destruct p).
  intros j x0 H O. apply put_cases in H as [(-> & -> & _)|(_ & H)]; [|eauto]. rewrite over_cancel in O. eauto.
Qed.
Definition to_fire (s : conn) (i : nat) (d : Z) (l : list obs) : Prop := is_over (k_apps s) i \/ (exists t, In (Timer i t) l) \/ k_timer s = Some (i, d, true).
Lemma over_stays T s ev s' b i : conn_step T s ev = Some (s', b) -> is_over (k_apps s) i -> is_over (k_apps s') i.
Proof.
  intros E O. pose proof (step_effect _ _ _ _ _ E) as F. destruct F as [|x X|U'|k g N Sc R|k g N|k p c x N P X|k p N P|k N U'|k p c bl N P X|k p c N P|U'|k a N]; try exact O;
  try (apply (is_over_put _ _ _ _ _ N); destruct (Nat.eq_dec k i) as [->|]; [|exact O]; exfalso; eapply not_over; [exact N| |exact O]; first [exact P|discriminate]).
  - destruct O as (a & Ea & Oa). exists a. split; [|exact Oa]. rewrite nth_error_app1; [exact Ea|]. apply nth_error_Some. congruence.
  - now apply is_over_cancel.
  - apply (is_over_put _ _ _ _ _ N). destruct (Nat.eq_dec k i) as [->|]; [|exact O]. rewrite over_cancel. destruct O as (x & X & Y). congruence.
Qed.
Lemma step_to_fire T s l ev s' b q d l0 : attrs s l -> k_up s = false -> alone s q -> (q < List.length (k_apps s))%nat -> to_fire s q d l0 -> conn_step T s ev = Some (s', b) -> to_fire s' q d (l0 ++ b).
Proof.
  intros A U Al Lq [O|[(t & I)|Tm]] E; [left; eapply over_stays; eauto|right; left; exists t; apply in_app_iff; now left|]. unfold to_fire.
  step_cases E; try (match type of E with Some (told T ?s ?i) = _ => destruct (told_spec T s i) as (s1 & x & Et & _ & _ & _ & _ & _ & _ & _ & Tx); rewrite Et in E; injection E as <- <-; destruct Tx as [(-> & _)|[(_ & X & _)|(h' & X & _)]]; [right; right; exact Tm|congruence|congruence] end);
  injection E as <- <-; cbn [with_timer at_ k_timer k_apps]; try (right; right; exact Tm); try (exfalso; congruence).
  - left. assert (i = q) as -> by (eapply Al; [eassumption|reflexivity]). eapply is_over_put; [eassumption|]. destruct (Nat.eq_dec q q); [reflexivity|easy].
  - assert (n = q) as -> by congruence. destruct (over a) eqn:Oa.
    + left. eapply is_over_put; [eassumption|]. destruct (Nat.eq_dec q q); [now rewrite over_cancel|easy].
    + right; left. exists (k_now s). apply in_app_iff. right. now left.
  - exfalso. assert (n = q) as -> by congruence. match goal with H : nth_error _ _ = None |- _ => apply nth_error_None in H end. lia.
Qed.
Lemma step_length T s ev s' b : conn_step T s ev = Some (s', b) -> (List.length (k_apps s) <= List.length (k_apps s'))%nat.
Proof. intros E. destruct (step_effect _ _ _ _ _ E); rewrite ?put_length, ?app_length, ?map_length; lia. Qed.
Lemma run_to_fire T q d : forall evs s l l0 s' l', attrs s l -> k_up s = false -> alone s q -> (q < List.length (k_apps s))%nat -> to_fire s q d l0 -> conn_run T s evs = Some (s', l') -> to_fire s' q d (l0 ++ l').
Proof.
  induction evs as [|ev evs IH]; intros s l l0 s' l' A U Al L W E; cbn [conn_run] in E; [injection E as <- <-; now rewrite app_nil_r|].
  destruct (conn_step T s ev) as [[s1 b1]|] eqn:Es; [|discriminate]. destruct (conn_run T s1 evs) as [[s2 b2]|] eqn:Er; [|discriminate]. injection E as <- <-. rewrite app_assoc.
  destruct (down T s l ev s1 b1 A U Es) as (U1 & _). pose proof (step_length _ _ _ _ _ Es) as L1. apply (IH s1 (l ++ b1)); [exact (step_attrs _ _ _ _ _ _ A Es)|exact U1|exact (alone_step _ _ _ _ _ _ _ A U Al Es)|lia|exact (step_to_fire _ _ _ _ _ _ _ _ _ A U Al L W Es)|exact Er].
Qed.
Lemma step_sent T s ev s' la i k t lb : conn_step T s ev = Some (s', la ++ Sent i k t :: lb) -> S k = List.length (k_apps s) /\ la = [] /\ exists x, nth_error (k_apps s) i = Some x /\ over x = false.
Proof.
  intros E. apply step_effect in E. remember (la ++ Sent i k t :: lb) as b eqn:H.
  destruct E as [|x X|U|j g N Sc R|j g N|j p c x N P X|j p N P|j N U|j p c bl N P X|j p c N P|U|j a N]; try (now destruct la); try (apply single in H as (H & Hl & _); try discriminate).
  - subst x. destruct X.
  - subst x. now destruct X.
  - injection H as <- <- <-. assert (j < List.length (k_apps s))%nat by (apply nth_error_Some; congruence). split; [lia|]. split; [exact Hl|]. eexists. split; [exact N|reflexivity].
  - destruct X as [->| ->]; [now destruct la|]. now apply single in H as (H & _).
  - exfalso. assert (In (Sent i k t) (LostAt (k_now s) :: cancels (k_now s) 0 (k_apps s))) as [X|X] by (rewrite H; apply in_app_iff; right; now left); [discriminate|]. apply cancels_only in X as (? & X). discriminate.
  - destruct (over a); [now destruct la|]. now apply single in H as (H & _).
Qed.
Lemma step_given T s ev s' la i g t lb : conn_step T s ev = Some (s', la ++ Given i g t :: lb) -> exists c, nth_error (k_apps s) i = Some (mkApp (InReceive g) c).
Proof.
  intros E. apply step_effect in E. remember (la ++ Given i g t :: lb) as b eqn:H.
  destruct E as [|x X|U|j g' N Sc R|j g' N|j p c x N P X|j p N P|j N U|j p c bl N P X|j p c N P|U|j a N]; try (now destruct la); try (apply single in H as (H & Hl & _); try discriminate).
  - subst x. destruct X.
  - injection H as <- <- <-. eauto.
  - subst x. now destruct X.
  - destruct X as [->| ->]; [now destruct la|]. now apply single in H as (H & _).
  - exfalso. assert (In (Given i g t) (LostAt (k_now s) :: cancels (k_now s) 0 (k_apps s))) as [X|X] by (rewrite H; apply in_app_iff; right; now left); [discriminate|]. apply cancels_only in X as (? & X). discriminate.
  - destruct (over a); [now destruct la|]. now apply single in H as (H & _).
Qed.
