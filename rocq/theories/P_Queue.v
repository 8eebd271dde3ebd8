From Coq Require Import Permutation.
From Verif Require Import PyBytes M_Queue S_Queue.

Lemma upd_split {B} i (x y : B) l : nth_error l i = Some y -> exists l1 l2, l = l1 ++ y :: l2 /\ List.length l1 = i /\ upd i x l = l1 ++ x :: l2.
Proof.
  revert l. induction i as [|i IH]; intros [|z l] E; cbn in E; try discriminate.
  - injection E as ->. exists [], l. repeat split.
  - destruct (IH l E) as (l1 & l2 & -> & L & U). exists (z :: l1), l2. cbn [List.length]. repeat split; [congruence|].
    unfold upd in *. cbn [skipn firstn app]. destruct (skipn i (l1 ++ y :: l2)) eqn:K.
    + exfalso. rewrite <- L, skipn_app, skipn_all, Nat.sub_diag in K. discriminate.
    + cbn [app]. f_equal. exact U.
Qed.
Lemma upd_out {B} i (x : B) l : List.length l <= i -> upd i x l = l.
Proof. intros H. unfold upd. now rewrite skipn_all2. Qed.
Lemma upd_length {B} i (x : B) l : List.length (upd i x l) = List.length l.
Proof.
  destruct (nth_error l i) as [y|] eqn:E; [|apply nth_error_None in E; now rewrite upd_out].
  destruct (upd_split i x y l E) as (l1 & l2 & -> & _ & ->). rewrite !app_length. reflexivity.
Qed.
Lemma nth_upd {B} i j (x d : B) l : i < List.length l -> nth j (upd i x l) d = if Nat.eqb j i then x else nth j l d.
Proof.
  intros H. destruct (nth_error l i) as [y|] eqn:E; [|apply nth_error_None in E; lia].
  destruct (upd_split i x y l E) as (l1 & l2 & -> & L & ->). destruct (Nat.eqb_spec j i) as [->|N].
  - rewrite app_nth2, L, Nat.sub_diag by lia. reflexivity.
  - destruct (Nat.lt_ge_cases j i); [now rewrite !app_nth1 by lia|]. rewrite !app_nth2 by lia. destruct (j - List.length l1) eqn:K; [lia|reflexivity].
Qed.
Lemma nth_error_upd {B} i j (x : B) l : i < List.length l -> nth_error (upd i x l) j = if Nat.eqb j i then Some x else nth_error l j.
Proof.
  intros H. destruct (nth_error l i) as [y|] eqn:E; [|apply nth_error_None in E; lia].
  destruct (upd_split i x y l E) as (l1 & l2 & -> & L & ->). destruct (Nat.eqb_spec j i) as [->|N].
  - rewrite nth_error_app2, L, Nat.sub_diag by lia. reflexivity.
  - destruct (Nat.lt_ge_cases j i); [now rewrite !nth_error_app1 by lia|]. rewrite !nth_error_app2 by lia. destruct (j - List.length l1) eqn:K; [lia|reflexivity].
Qed.
Lemma nth_snoc_default {B} f (l : list B) d : nth f (l ++ [d]) d = nth f l d.
Proof.
  destruct (Nat.lt_ge_cases f (List.length l)) as [H|H]; [now rewrite app_nth1|]. rewrite app_nth2 by lia. rewrite (nth_overflow l) by lia.
  destruct (f - List.length l) as [|[|?]]; reflexivity.
Qed.

Lemma flat_map_ext_in {B C} (f g : B -> list C) l : (forall x, In x l -> f x = g x) -> flat_map f l = flat_map g l.
Proof. induction l as [|x l IH]; intros H; [reflexivity|]. cbn [flat_map]. rewrite (H x) by (now left). f_equal. apply IH. intros y Y. apply H. now right. Qed.

Section Queue.
Context {A : Type}.
Implicit Types (s : queue A).

Definition way1 (futs : list (future A)) (p : getpc) : list A :=
  match p with GOwn f false => match nth f futs FPending with FResult x => [x] | _ => [] end | _ => [] end.
Lemma on_the_way_eq s : on_the_way s = flat_map (way1 (q_futs s)) (q_cons s).
Proof. reflexivity. Qed.

Record inv s : Prop := mkInv {
  i_lt : forall f, In f (q_getters s) -> f < List.length (q_futs s);
  i_nodup : NoDup (q_getters s);
  i_open : forall f x, In f (q_getters s) -> fut s f <> FResult x;
  i_empty : forall f, In f (q_getters s) -> fut s f = FPending -> q_items s = [];
  i_owner : forall f, In f (q_getters s) -> fut s f = FPending -> exists c, nth_error (q_cons s) c = Some (GOwn f false);
  i_own : forall c f l, nth_error (q_cons s) c = Some (GOwn f l) -> f < List.length (q_futs s);
  i_one : forall c1 c2 f l1 l2, nth_error (q_cons s) c1 = Some (GOwn f l1) -> nth_error (q_cons s) c2 = Some (GOwn f l2) -> c1 = c2 }.

Lemma inv_init n : inv (@q_init A n).
Proof.
  assert (forall c p, nth_error (repeat GIdle n) c = Some p -> p = GIdle) as K.
  { intros c p H. apply nth_error_In in H. now apply repeat_spec in H. }
  constructor; cbn [q_init q_getters q_items q_futs q_cons]; try easy; try constructor; intros; match goal with H : nth_error _ _ = _ |- _ => apply K in H; discriminate end.
Qed.

Definition local s s' (put : list A) (ev : list (qev A)) : Prop :=
  exists W1 w W2 w', on_the_way s = W1 ++ w ++ W2 /\ on_the_way s' = W1 ++ w' ++ W2 /\ w ++ q_items s ++ put = gone ev ++ w' ++ q_items s' /\
    (List.length (q_cons s) <= 1 -> W1 = [] /\ W2 = []).

(** A consumer that changes its place. *)
Lemma way_split s c p p' : nth_error (q_cons s) c = Some p -> exists W1 W2,
  (forall futs, (forall i q, i <> c -> nth_error (q_cons s) i = Some q -> way1 futs q = way1 (q_futs s) q) ->
     flat_map (way1 futs) (upd c p' (q_cons s)) = W1 ++ way1 futs p' ++ W2) /\
  on_the_way s = W1 ++ way1 (q_futs s) p ++ W2 /\ (List.length (q_cons s) <= 1 -> W1 = [] /\ W2 = []).
Proof.
  intros E. destruct (upd_split c p' p _ E) as (l1 & l2 & C & L & U). exists (flat_map (way1 (q_futs s)) l1), (flat_map (way1 (q_futs s)) l2).
  split; [|split].
  - intros futs H. rewrite U, flat_map_app. cbn [flat_map]. f_equal; [|f_equal].
    + apply flat_map_ext_in. intros q I. apply In_nth_error in I as (i & I). assert (i < List.length l1) by (apply nth_error_Some; congruence).
      apply (H i); [lia|]. rewrite C, nth_error_app1 by lia. exact I.
    + apply flat_map_ext_in. intros q I. apply In_nth_error in I as (i & I). apply (H (S (c + i))); [lia|]. rewrite C, nth_error_app2 by lia.
      replace (S (c + i) - List.length l1) with (S i) by lia. exact I.
  - rewrite on_the_way_eq, C, flat_map_app. reflexivity.
  - rewrite C, app_length. cbn. intros H. destruct l1; [|cbn in H; lia]. destruct l2; [|cbn in H; lia]. split; reflexivity.
Qed.

(** Only the place of one consumer changes. *)
Lemma pc_local s c p p' items getters put ev : nth_error (q_cons s) c = Some p ->
  way1 (q_futs s) p ++ q_items s ++ put = gone ev ++ way1 (q_futs s) p' ++ items ->
  local s (mkQ items getters (q_futs s) (upd c p' (q_cons s))) put ev.
Proof.
  intros E H. destruct (way_split s c p p' E) as (W1 & W2 & K1 & K2 & K3). exists W1, (way1 (q_futs s) p), W2, (way1 (q_futs s) p').
  repeat split; try apply K3; try assumption. rewrite on_the_way_eq. cbn [q_futs q_cons]. apply K1. auto.
Qed.
Lemma same_local s items getters put ev : q_items s ++ put = gone ev ++ items -> gone ev = [] \/ on_the_way s = [] ->
  local s (mkQ items getters (q_futs s) (q_cons s)) put ev.
Proof.
  intros H [G|W].
  - rewrite G in H. cbn [app] in H. exists [], (on_the_way s), [], (on_the_way s). rewrite !app_nil_r. repeat split; rewrite G, ?H; reflexivity.
  - exists [], [], [], []. repeat split; try assumption.
Qed.

Lemma pc_inv s c p p' : inv s -> nth_error (q_cons s) c = Some p ->
  (forall f l, p' = GOwn f l -> exists l', p = GOwn f l') ->
  (forall f, p = GOwn f false -> p' = p \/ fut s f <> FPending) ->
  inv (set_pc c p' s).
Proof.
  intros I E H1 H2. assert (c < List.length (q_cons s)) as L by (apply nth_error_Some; congruence).
  constructor; cbn [set_pc q_getters q_items q_futs q_cons]; try apply I.
  - intros f G P. destruct (i_owner s I f G P) as (c0 & O). exists c0. rewrite nth_error_upd by exact L. destruct (Nat.eqb_spec c0 c) as [->|]; [|exact O].
    rewrite E in O. injection O as ->. destruct (H2 f eq_refl) as [->|X]; [reflexivity|]. destruct (X P).
  - intros c0 f l. rewrite nth_error_upd by exact L. destruct (Nat.eqb_spec c0 c) as [->|]; [|apply I].
    intros X. injection X as ->. destruct (H1 f l eq_refl) as (l' & ->). eapply i_own; eassumption.
  - intros c1 c2 f l1 l2. rewrite !nth_error_upd by exact L. destruct (Nat.eqb_spec c1 c) as [->|], (Nat.eqb_spec c2 c) as [->|]; try easy; intros X Y.
    + injection X as ->. destruct (H1 f l1 eq_refl) as (l' & ->). eapply (i_one s I); eassumption.
    + injection Y as ->. destruct (H1 f l2 eq_refl) as (l' & ->). eapply (i_one s I); eassumption.
    + eapply (i_one s I); eassumption.
Qed.

Lemma tail_step s c p s' ev : inv s -> nth_error (q_cons s) c = Some p -> (forall f l, p <> GOwn f l) -> get_tail c s = (s', ev) ->
  inv s' /\ local s s' [] ev.
Proof.
  intros I E Np T. assert (c < List.length (q_cons s)) as L by (apply nth_error_Some; congruence).
  assert (way1 (q_futs s) p = []) as Wp by (destruct p as [|f l|f l]; try reflexivity; destruct (Np f l eq_refl)).
  unfold get_tail in T. destruct (q_items s) as [|x r] eqn:Q; injection T as <- <-.
  - split.
    + constructor; cbn [q_getters q_items q_futs q_cons]; unfold fut; cbn [q_futs].
      * intros f G. rewrite app_length. cbn. apply in_app_or in G as [G|[<-|[]]]; [apply (i_lt s I) in G; lia|lia].
      * assert (forall l x, NoDup l -> ~ In x l -> @NoDup nat (l ++ [x])) as ND.
        { clear. induction l as [|y l IH]; intros x H N; cbn [app]; [constructor; [easy|constructor]|]. inversion_clear H. constructor.
          - intros X. apply in_app_or in X as [X|[->|[]]]; [easy|]. apply N. now left.
          - apply IH; [assumption|]. intros X. apply N. now right. }
        apply ND; [apply I|]. intros G. apply (i_lt s I) in G. lia.
      * intros f x G. rewrite nth_snoc_default. apply in_app_or in G as [G|[<-|[]]]; [apply (i_open s I); exact G|]. rewrite nth_overflow by lia. discriminate.
      * reflexivity.
      * intros f G P. rewrite nth_snoc_default in P. apply in_app_or in G as [G|[<-|[]]].
        -- destruct (i_owner s I f G P) as (c0 & O). exists c0. rewrite nth_error_upd by exact L. destruct (Nat.eqb_spec c0 c) as [->|]; [|exact O].
           rewrite E in O. injection O as ->. destruct (Np f false eq_refl).
        -- exists c. rewrite nth_error_upd by exact L. now rewrite Nat.eqb_refl.
      * intros c0 f l. rewrite nth_error_upd, app_length by exact L. cbn. destruct (Nat.eqb_spec c0 c) as [->|]; intros X.
        -- injection X as <- <-. lia.
        -- apply (i_own s I) in X. lia.
      * intros c1 c2 f l1 l2. rewrite !nth_error_upd by exact L. destruct (Nat.eqb_spec c1 c) as [->|], (Nat.eqb_spec c2 c) as [->|]; try easy; intros X Y.
        -- injection X as <- <-. apply (i_own s I) in Y. lia.
        -- injection Y as <- <-. apply (i_own s I) in X. lia.
        -- eapply (i_one s I); eassumption.
    + destruct (way_split s c p (GOwn (List.length (q_futs s)) false) E) as (W1 & W2 & K1 & K2 & K3).
      exists W1, [], W2, []. rewrite Wp in K2. repeat split; try apply K3; try assumption; [|now rewrite Q].
      rewrite on_the_way_eq. cbn [q_futs q_cons]. rewrite K1.
      * cbn [way1]. rewrite nth_snoc_default, nth_overflow by lia. reflexivity.
      * intros i q _ _. destruct q as [|f l|f l]; try reflexivity. cbn [way1]. now rewrite nth_snoc_default.
  - split.
    + assert (inv (set_pc c GIdle s)) as J. { apply (pc_inv s c p GIdle); auto; [discriminate|]. intros f ->. destruct (Np f false eq_refl). }
      destruct J as [J1 J2 J3 J4 J5 J6 J7]. constructor; cbn [set_pc q_getters q_items q_futs q_cons] in *; auto.
      intros f G P. specialize (J4 f G P). congruence.
    + apply (pc_local s c p); [exact E|]. rewrite Wp, Q. cbn [way1]. now rewrite app_nil_r.
Qed.

Lemma put_loop_some (x : A) futs g g' f : put_loop x futs g = Some (g', f) -> exists d, g = d ++ f :: g' /\ nth f futs FPending = FPending.
Proof.
  induction g as [|y g IH]; cbn [put_loop]; [discriminate|]. destruct (nth y futs FPending) eqn:N; intros E.
  - injection E as <- <-. exists []. split; [reflexivity|exact N].
  - destruct (IH E) as (d & -> & P). exists (y :: d). split; [reflexivity|exact P].
  - destruct (IH E) as (d & -> & P). exists (y :: d). split; [reflexivity|exact P].
Qed.

Lemma put_step s x : inv s -> inv (put_nowait x s) /\ local s (put_nowait x s) [x] [].
Proof.
  intros I. unfold put_nowait. destruct (put_loop x (q_futs s) (q_getters s)) as [[g f]|] eqn:P.
  - destruct (put_loop_some _ _ _ _ _ P) as (d & G & N). assert (In f (q_getters s)) as Gf by (rewrite G; apply in_or_app; right; now left).
    pose proof (i_lt s I f Gf) as Lf. pose proof (i_nodup s I) as ND. rewrite G in ND.
    assert (~ In f g) as Nf. { apply NoDup_remove_2 in ND. intros X. apply ND. apply in_or_app. now right. }
    assert (forall y, In y g -> In y (q_getters s)) as Sub. { intros y Y. rewrite G. apply in_or_app. right. now right. }
    assert (forall y v, In y g -> nth y (upd f v (q_futs s)) FPending = fut s y) as Same.
    { intros y v Y. rewrite nth_upd by exact Lf. destruct (Nat.eqb_spec y f) as [->|]; [easy|reflexivity]. }
    split.
    + constructor; cbn [q_getters q_items q_futs q_cons]; unfold fut; cbn [q_futs].
      * intros y Y. rewrite upd_length. apply I. auto.
      * apply NoDup_remove_1 in ND. clear - ND. induction d; [exact ND|]. inversion_clear ND. auto.
      * intros y z Y. rewrite Same by exact Y. apply I. auto.
      * intros y Y. rewrite Same by exact Y. apply I. auto.
      * intros y Y. rewrite Same by exact Y. apply I. auto.
      * intros c y l. rewrite upd_length. apply I.
      * apply I.
    + destruct (i_owner s I f Gf N) as (c & O). destruct (way_split s c _ (GOwn f false) O) as (W1 & W2 & K1 & K2 & K3).
      assert (upd c (GOwn f false) (q_cons s) = q_cons s) as U. { destruct (upd_split c (GOwn f false) _ _ O) as (l1 & l2 & C & _ & ->). now rewrite C. }
      rewrite U in K1. exists W1, [], W2, [x]. cbn [way1] in K2. rewrite N in K2. rewrite (i_empty s I f Gf N). repeat split; try apply K3; try assumption.
      rewrite on_the_way_eq. cbn [q_futs q_cons]. rewrite K1.
      * cbn [way1]. rewrite nth_upd by exact Lf. now rewrite Nat.eqb_refl.
      * intros i q Ni Q. destruct q as [|y l|y l]; try reflexivity. cbn [way1]. destruct l; [reflexivity|]. rewrite nth_upd by exact Lf.
        destruct (Nat.eqb_spec y f) as [->|]; [|reflexivity]. destruct Ni. eapply (i_one s I); eassumption.
  - split.
    + constructor; cbn [q_getters q_items q_futs q_cons]; try easy; try constructor; apply I.
    + apply same_local; [reflexivity|now left].
Qed.

(** A future that is cancelled. *)
Lemma fut_step s f : inv s -> fut s f = FPending -> inv (set_fut f FCancelled s) /\ local s (set_fut f FCancelled s) [] [].
Proof.
  intros I P. assert (forall y, nth y (upd f FCancelled (q_futs s)) FPending = fut s y \/ (y = f /\ nth y (upd f FCancelled (q_futs s)) FPending = FCancelled)) as K.
  { intros y. destruct (Nat.lt_ge_cases f (List.length (q_futs s))) as [L|L]; [|left; now rewrite upd_out]. rewrite nth_upd by exact L.
    destruct (Nat.eqb_spec y f) as [->|]; [now right|now left]. }
  split.
  - constructor; unfold set_fut, fut; cbn [q_getters q_items q_futs q_cons].
    + intros y Y. rewrite upd_length. now apply I.
    + apply I.
    + intros y x Y. destruct (K y) as [->|[_ ->]]; [now apply I|discriminate].
    + intros y Y. destruct (K y) as [->|[_ ->]]; [now apply I|discriminate].
    + intros y Y. destruct (K y) as [->|[_ ->]]; [now apply I|discriminate].
    + intros c y l. rewrite upd_length. apply I.
    + apply I.
  - exists [], (on_the_way s), [], (on_the_way s). rewrite !app_nil_r. repeat split. rewrite !on_the_way_eq. cbn [set_fut q_futs q_cons].
    apply flat_map_ext. intros [|y l|y l]; try reflexivity. cbn [way1]. destruct l; [reflexivity|]. destruct (K y) as [->|[-> ->]]; [reflexivity|].
    unfold fut in P. now rewrite P.
Qed.

Lemma step_main s o s' ev : inv s -> q_step s o = Some (s', ev) -> inv s' /\ (o <> Clear -> local s s' (put_items [o]) ev).
Proof.
  intros I E. destruct o as [x|c|c|c|c|]; cbn [q_step put_items flat_map app] in *.
  - injection E as <- <-. destruct (put_step s x I). split; auto.
  - destruct (nth_error (q_cons s) c) as [[| |]|] eqn:C; try discriminate. injection E as E. unfold get_start in E.
    assert (forall s' ev, get_tail c s = (s', ev) -> inv s' /\ local s s' [] ev) as T by (intros; now apply (tail_step s c GIdle)).
    destruct (rev (q_getters s)) as [|f r]; [destruct (T _ _ E); auto|]. destruct (fut s f); [|destruct (T _ _ E); auto|].
    + injection E as <- <-. split; [apply (pc_inv s c GIdle); auto; discriminate|]. intros _. apply (pc_local s c GIdle); [exact C|]. now rewrite app_nil_r.
    + injection E as <- <-. split; [exact I|]. intros _. destruct s. apply same_local; [apply app_nil_r|now left].
  - destruct (nth_error (q_cons s) c) as [[| |]|] eqn:C; try discriminate. destruct (q_items s) as [|x r] eqn:Q; injection E as <- <-.
    + split; [exact I|]. intros _. destruct s. apply same_local; [apply app_nil_r|now left].
    + assert (upd c GIdle (q_cons s) = q_cons s) as U. { destruct (upd_split c GIdle _ _ C) as (l1 & l2 & H & _ & ->). now rewrite H. }
      split.
      * destruct I as [J1 J2 J3 J4 J5 J6 J7]. constructor; cbn [q_getters q_items q_futs q_cons] in *; auto. intros f G P. specialize (J4 f G P). congruence.
      * intros _. rewrite <- U at 1. apply (pc_local s c GIdle); [exact C|]. now rewrite Q, app_nil_r.
  - unfold wake in E. destruct (nth_error (q_cons s) c) as [[|f l|f l]|] eqn:C; try discriminate; destruct (fut s f) eqn:F; try discriminate.
    + destruct l.
      * injection E as <- <-. split; [apply (pc_inv s c (GPrev f true)); auto; discriminate|]. intros _. apply (pc_local s c (GPrev f true)); [exact C|]. now rewrite app_nil_r.
      * injection E as E. destruct (tail_step s c (GPrev f false) _ _ I C ltac:(discriminate) E). auto.
    + injection E as <- <-. split; [apply (pc_inv s c (GPrev f l)); auto; discriminate|]. intros _. apply (pc_local s c (GPrev f l)); [exact C|]. now rewrite app_nil_r.
    + assert (inv (set_pc c GIdle s)) as J. { apply (pc_inv s c (GOwn f l)); auto; [discriminate|]. intros y Y. injection Y as -> ->. right. congruence. }
      destruct l; injection E as <- <-; (split; [exact J|]); intros _; eapply pc_local; try exact C; cbn [way1]; [now rewrite app_nil_r|].
      unfold fut in F. rewrite F, app_nil_r. reflexivity.
    + assert (inv (set_pc c GIdle s)) as J. { apply (pc_inv s c (GOwn f l)); auto; [discriminate|]. intros y Y. injection Y as -> ->. right. congruence. }
      injection E as <- <-. split; [exact J|]. intros _. eapply pc_local; try exact C. cbn [way1]. unfold fut in F. rewrite F, app_nil_r. now destruct l.
  - unfold cancel in E. destruct (nth_error (q_cons s) c) as [[|f l|f l]|] eqn:C; try discriminate.
    + destruct (fut s f) eqn:F; injection E as <- <-.
      * destruct (fut_step s f I F). auto.
      * split; [apply (pc_inv s c (GPrev f l)); auto; discriminate|]. intros _. apply (pc_local s c (GPrev f l)); [exact C|]. now rewrite app_nil_r.
      * split; [apply (pc_inv s c (GPrev f l)); auto; discriminate|]. intros _. apply (pc_local s c (GPrev f l)); [exact C|]. now rewrite app_nil_r.
    + destruct (fut s f) eqn:F; injection E as <- <-.
      * destruct (fut_step s f I F). auto.
      * split.
        -- apply (pc_inv s c (GOwn f l)); auto; [intros y l' Y; injection Y as <- <-; eauto|]. intros y Y. injection Y as -> ->. right. congruence.
        -- intros _. eapply pc_local; try exact C. cbn [way1]. unfold fut in F. destruct l; rewrite ?F, app_nil_r; reflexivity.
      * split.
        -- apply (pc_inv s c (GOwn f l)); auto; [intros y l' Y; injection Y as <- <-; eauto|]. intros y Y. injection Y as -> ->. right. congruence.
        -- intros _. eapply pc_local; try exact C. cbn [way1]. unfold fut in F. rewrite app_nil_r. destruct l; rewrite ?F; reflexivity.
  - injection E as <- <-. split; [|easy]. constructor; cbn [q_getters q_items q_futs q_cons]; try easy; try constructor; apply I.
Qed.

Lemma cons_length s o s' ev : q_step s o = Some (s', ev) -> List.length (q_cons s') = List.length (q_cons s).
Proof.
  assert (forall c s' ev, get_tail c s = (s', ev) -> List.length (q_cons s') = List.length (q_cons s)) as T.
  { intros c s0 e0 E. unfold get_tail in E. destruct (q_items s); injection E as <- _; apply upd_length. }
  intros E. destruct o as [x|c|c|c|c|]; cbn [q_step] in E.
  - injection E as <- _. unfold put_nowait. now destruct (put_loop _ _ _) as [[? ?]|].
  - destruct (nth_error (q_cons s) c) as [[| |]|]; try discriminate. injection E as E. unfold get_start in E.
    destruct (rev (q_getters s)); [eauto|]. destruct (fut s n); [injection E as <- _; apply upd_length|eauto|now injection E as <- _].
  - destruct (nth_error (q_cons s) c) as [[| |]|]; try discriminate. destruct (q_items s); now injection E as <- _.
  - unfold wake in E. destruct (nth_error (q_cons s) c) as [[|f l|f l]|]; try discriminate; destruct (fut s f); try discriminate; try destruct l; injection E as E; eauto;
      try (now injection E as <- _; apply upd_length); subst; apply upd_length.
  - unfold cancel in E. destruct (nth_error (q_cons s) c) as [[|f l|f l]|]; try discriminate; destruct (fut s f); injection E as <- _; reflexivity || apply upd_length.
  - now injection E as <- _.
Qed.

Lemma gone_app a b : gone (A := A) (a ++ b) = gone a ++ gone b.
Proof. apply flat_map_app. Qed.

Lemma inv_run ops : forall s s' ev, inv s -> q_run s ops = Some (s', ev) -> inv s'.
Proof.
  induction ops as [|o ops IH]; intros s s' ev I R; cbn [q_run] in R; [now injection R as <- _|].
  destruct (q_step s o) as [[s1 e1]|] eqn:E; [|discriminate]. destruct (q_run s1 ops) as [[s2 e2]|] eqn:R2; [|discriminate].
  injection R as <- _. apply (step_main s o s1 e1 I) in E as [I1 _]. eauto.
Qed.

Lemma pull (W1 w W2 i p q : list A) : Permutation ((W1 ++ w ++ W2) ++ i ++ p ++ q) ((w ++ i ++ p) ++ W1 ++ W2 ++ q).
Proof.
  rewrite <- !app_assoc. rewrite (Permutation_app_swap_app W1 w). apply Permutation_app_head.
  rewrite (app_assoc W1), (app_assoc i). rewrite (Permutation_app_swap_app (W1 ++ W2)), <- !app_assoc. reflexivity.
Qed.
Lemma run_perm ops : forall s s' ev, inv s -> no_clear ops -> q_run s ops = Some (s', ev) ->
  Permutation (on_the_way s ++ q_items s ++ put_items ops) (gone ev ++ on_the_way s' ++ q_items s').
Proof.
  induction ops as [|o ops IH]; intros s s' ev I N R; cbn [q_run] in R.
  - injection R as <- <-. cbn. now rewrite app_nil_r.
  - destruct (q_step s o) as [[s1 e1]|] eqn:E; [|discriminate]. destruct (q_run s1 ops) as [[s2 e2]|] eqn:R2; [|discriminate].
    injection R as <- <-. assert (o <> Clear) as No by (intros ->; apply N; now left).
    apply (step_main s o s1 e1 I) in E as [I1 L]. destruct (L No) as (W1 & w & W2 & w' & H1 & H2 & H3 & _).
    assert (no_clear ops) as N' by (intros X; apply N; now right). specialize (IH s1 s2 e2 I1 N' R2).
    change (put_items (o :: ops)) with (put_items ([o] ++ ops)). unfold put_items at 1. rewrite flat_map_app. fold (put_items [o]) (put_items ops).
    rewrite gone_app, <- app_assoc. eapply perm_trans; [|apply Permutation_app_head; exact IH]. rewrite H1, H2.
    rewrite (pull W1 w W2 (q_items s) (put_items [o]) (put_items ops)), H3, <- !app_assoc. apply Permutation_app_head.
    rewrite !app_assoc, <- (app_assoc _ W2), <- !app_assoc. rewrite (app_assoc W1 W2). rewrite (Permutation_app_swap_app _ (W1 ++ W2)).
    rewrite (Permutation_app_swap_app w' (W1 ++ W2)), <- !app_assoc. rewrite (Permutation_app_swap_app w' W2). reflexivity.
Qed.

(** One consumer. *)
Lemma run_single ops : forall s s' ev, inv s -> List.length (q_cons s) = 1 -> no_clear ops -> q_run s ops = Some (s', ev) ->
  on_the_way s ++ q_items s ++ put_items ops = gone ev ++ on_the_way s' ++ q_items s'.
Proof.
  induction ops as [|o ops IH]; intros s s' ev I C N R; cbn [q_run] in R.
  - injection R as <- <-. cbn. now rewrite app_nil_r.
  - destruct (q_step s o) as [[s1 e1]|] eqn:E; [|discriminate]. destruct (q_run s1 ops) as [[s2 e2]|] eqn:R2; [|discriminate].
    injection R as <- <-. assert (o <> Clear) as No by (intros ->; apply N; now left). pose proof (cons_length _ _ _ _ E) as CL.
    apply (step_main s o s1 e1 I) in E as [I1 L]. destruct (L No) as (W1 & w & W2 & w' & H1 & H2 & H3 & H4).
    destruct H4 as [-> ->]; [lia|]. rewrite app_nil_r in *. cbn [app] in *.
    assert (no_clear ops) as N' by (intros X; apply N; now right). specialize (IH s1 s2 e2 I1 ltac:(congruence) N' R2).
    change (put_items (o :: ops)) with (put_items ([o] ++ ops)). unfold put_items at 1. rewrite flat_map_app. fold (put_items [o]) (put_items ops).
    rewrite gone_app, <- app_assoc, <- IH, H1, H2, (app_assoc (q_items s)), (app_assoc w), H3, <- !app_assoc. reflexivity.
Qed.

(** A get whose future is cancelled stays without an item. *)
Definition dead s c : Prop :=
  match nth_error (q_cons s) c with
  | Some GIdle => True
  | Some (GPrev f _) | Some (GOwn f _) => fut s f = FCancelled
  | None => True
  end.

Lemma fut_upd s f v g : fut s g = FCancelled -> fut s f = FPending -> nth g (upd f v (q_futs s)) FPending = FCancelled.
Proof.
  unfold fut. intros G F. destruct (Nat.lt_ge_cases f (List.length (q_futs s))) as [L|L]; [|now rewrite upd_out]. rewrite nth_upd by exact L.
  destruct (Nat.eqb_spec g f) as [->|]; [congruence|exact G].
Qed.
Lemma dead_step s o s' ev c : dead s c -> o <> Get c -> o <> GetNow c -> q_step s o = Some (s', ev) -> dead s' c /\ Forall (fun e => ~ got c e) ev.
Proof.
  intros D N1 N2 E.
  assert (forall p c', c' <> c -> nth_error (upd c' p (q_cons s)) c = nth_error (q_cons s) c) as Oth.
  { intros p c' N. destruct (Nat.lt_ge_cases c' (List.length (q_cons s))) as [L|L]; [|now rewrite upd_out]. rewrite nth_error_upd by exact L.
    destruct (Nat.eqb_spec c c'); [congruence|reflexivity]. }
  assert (forall p c', c' <> c -> dead (set_pc c' p s) c) as Dp.
  { intros p c' N. unfold dead in *. cbn [set_pc q_cons]. rewrite Oth by exact N. exact D. }
  assert (dead (set_pc c GIdle s) c) as Di.
  { unfold dead in *. cbn [set_pc q_cons]. destruct (nth_error (q_cons s) c) as [p|] eqn:C.
    - rewrite nth_error_upd by (apply nth_error_Some; congruence). now rewrite Nat.eqb_refl.
    - rewrite upd_out by (now apply nth_error_None). now rewrite C. }
  assert (forall c' s' ev, c' <> c -> get_tail c' s = (s', ev) -> dead s' c /\ Forall (fun e => ~ got c e) ev) as T.
  { intros c' s0 e0 N T. unfold get_tail in T. destruct (q_items s); injection T as <- <-.
    - split; [|constructor]. unfold dead, fut in *. cbn [q_cons q_futs]. rewrite Oth by exact N. destruct (nth_error (q_cons s) c) as [[|f l|f l]|]; try exact D; now rewrite nth_snoc_default.
    - split; [|constructor; [exact N|constructor]]. unfold dead, fut in *. cbn [q_cons q_futs]. rewrite Oth by exact N. exact D. }
  assert (forall f v, fut s f = FPending -> forall i g, dead (mkQ i g (upd f v (q_futs s)) (q_cons s)) c) as Df.
  { intros f v F i g. unfold dead in *. cbn [q_cons]. destruct (nth_error (q_cons s) c) as [[|y l|y l]|]; try exact D; unfold fut; cbn [q_futs]; now apply fut_upd. }
  destruct o as [x|c'|c'|c'|c'|]; cbn [q_step] in E.
  - injection E as <- <-. split; [|constructor]. unfold put_nowait. destruct (put_loop _ _ _) as [[g f]|] eqn:P; [|exact D].
    apply put_loop_some in P as (d & _ & P). now apply Df.
  - assert (c' <> c) as N by congruence. destruct (nth_error (q_cons s) c') as [[| |]|]; try discriminate. injection E as E. unfold get_start in E.
    destruct (rev (q_getters s)) as [|f r]; [eauto|]. destruct (fut s f); [|eauto|]; injection E as <- <-; (split; [auto|]); repeat constructor. easy.
  - assert (c' <> c) as N by congruence. destruct (nth_error (q_cons s) c') as [[| |]|]; try discriminate.
    destruct (q_items s); injection E as <- <-; (split; [exact D|]); repeat constructor; [easy|exact N].
  - unfold wake in E. destruct (Nat.eq_dec c' c) as [->|N].
    + unfold dead in D. destruct (nth_error (q_cons s) c) as [[|f l|f l]|]; try discriminate; rewrite D in E; injection E as <- <-; (split; [exact Di|repeat constructor; easy]).
    + destruct (nth_error (q_cons s) c') as [[|f l|f l]|]; try discriminate; destruct (fut s f); try discriminate.
      * destruct l; [injection E as <- <-; split; [auto|repeat constructor; easy]|]. injection E as E. eauto.
      * injection E as <- <-. split; [auto|repeat constructor; easy].
      * destruct l; injection E as <- <-; (split; [auto|repeat constructor; easy]).
      * injection E as <- <-. split; [auto|repeat constructor; easy].
  - unfold cancel in E. destruct (Nat.eq_dec c' c) as [->|N].
    + pose proof D as D'. unfold dead in D. destruct (nth_error (q_cons s) c) as [[|f l|f l]|] eqn:C; try discriminate; rewrite D in E; injection E as <- <-; (split; [|constructor]);
        unfold dead; cbn [set_pc q_cons]; rewrite nth_error_upd, Nat.eqb_refl by (apply nth_error_Some; congruence); exact D.
    + destruct (nth_error (q_cons s) c') as [[|f l|f l]|]; try discriminate; destruct (fut s f) eqn:F; injection E as <- <-; (split; [|try constructor]); auto; try (now apply Df).
      destruct l; repeat constructor; easy.
  - injection E as <- <-. split; [exact D|constructor].
Qed.
Lemma dead_run ops : forall s s' ev c, dead s c -> ~ In (Get c) ops -> ~ In (GetNow c) ops -> q_run s ops = Some (s', ev) -> Forall (fun e => ~ got c e) ev.
Proof.
  induction ops as [|o ops IH]; intros s s' ev c D N1 N2 R; cbn [q_run] in R; [injection R as _ <-; constructor|].
  destruct (q_step s o) as [[s1 e1]|] eqn:E; [|discriminate]. destruct (q_run s1 ops) as [[s2 e2]|] eqn:R2; [|discriminate]. injection R as _ <-.
  destruct (dead_step s o s1 e1 c D) as [D1 F1]; [intros ->; apply N1; now left|intros ->; apply N2; now left|exact E|].
  apply Forall_app. split; [exact F1|]. eapply (IH s1); eauto; intros X; [apply N1|apply N2]; now right.
Qed.
(** cancel() of a get that has nothing yet. *)
Lemma cancel_dead s c : (forall f l, nth_error (q_cons s) c = Some (GPrev f l) \/ nth_error (q_cons s) c = Some (GOwn f l) -> f < List.length (q_futs s)) ->
  waits s c -> exists s', q_step s (Cancel c) = Some (s', []) /\ dead s' c.
Proof.
  intros L (f & l & [C|C] & F); cbn [q_step]; unfold cancel; rewrite C, F; (eexists; split; [reflexivity|]); unfold dead; cbn [set_fut q_cons]; rewrite C; unfold fut; cbn [set_fut q_futs];
    (rewrite nth_upd, Nat.eqb_refl by (eapply L; eauto)); reflexivity.
Qed.

(** Futures that are awaited exist. *)
Definition known s : Prop := (forall c f l, nth_error (q_cons s) c = Some (GPrev f l) \/ nth_error (q_cons s) c = Some (GOwn f l) -> f < List.length (q_futs s)) .
Lemma known_step s o s' ev : inv s -> known s -> q_step s o = Some (s', ev) -> known s'.
Proof.
  intros I K E.
  assert (forall s', List.length (q_futs s) <= List.length (q_futs s') -> q_cons s' = q_cons s -> known s') as K0.
  { intros s0 L C c f l H. rewrite C in H. apply K in H. lia. }
  assert (forall s' c p, List.length (q_futs s) <= List.length (q_futs s') -> q_cons s' = upd c p (q_cons s) ->
            (forall f l, p = GPrev f l \/ p = GOwn f l -> f < List.length (q_futs s')) -> known s') as K1.
  { intros s0 c p L C P c0 f l H. rewrite C in H. destruct (Nat.lt_ge_cases c (List.length (q_cons s))) as [Lc|Lc].
    - rewrite nth_error_upd in H by exact Lc. destruct (Nat.eqb c0 c); [apply (P f l); intuition congruence|]. apply K in H. lia.
    - rewrite upd_out in H by exact Lc. apply K in H. lia. }
  assert (forall c s' ev, get_tail c s = (s', ev) -> known s') as T.
  { intros c s0 e0 T. unfold get_tail in T. destruct (q_items s); injection T as <- <-.
    - eapply K1; cbn [q_futs q_cons]; [|reflexivity|]; rewrite app_length; cbn; [lia|]. intros f l [X|X]; [discriminate|]. injection X as <- <-. lia.
    - eapply K1; cbn [q_futs q_cons]; [|reflexivity|]; [lia|]. intros f l0 [X|X]; discriminate. }
  assert (forall c, known (set_pc c GIdle s)) as Ki. { intros c. eapply K1; cbn; [|reflexivity|]; [lia|]. intros f l [X|X]; discriminate. }
  destruct o as [x|c|c|c|c|]; cbn [q_step] in E.
  - injection E as <- <-. unfold put_nowait. destruct (put_loop _ _ _) as [[g f]|]; apply K0; cbn [q_futs q_cons]; rewrite ?upd_length; reflexivity || lia.
  - destruct (nth_error (q_cons s) c) as [[| |]|]; try discriminate. injection E as E. unfold get_start in E.
    destruct (rev (q_getters s)) as [|f r] eqn:R; [eauto|]. destruct (fut s f); [|eauto|injection E as <- <-; exact K].
    injection E as <- <-. eapply K1; cbn; [|reflexivity|]; [lia|]. intros y l [X|X]; [|discriminate]. injection X as <- <-. apply (i_lt s I).
    apply in_rev. rewrite R. now left.
  - destruct (nth_error (q_cons s) c) as [[| |]|]; try discriminate. destruct (q_items s); injection E as <- <-; [exact K|]. apply K0; reflexivity || (cbn; lia).
  - unfold wake in E. destruct (nth_error (q_cons s) c) as [[|f l|f l]|]; try discriminate; destruct (fut s f); try discriminate; try destruct l; injection E as E;
      try subst; eauto.
  - unfold cancel in E. destruct (nth_error (q_cons s) c) as [[|f l|f l]|] eqn:C; try discriminate; destruct (fut s f); injection E as <- <-;
      try (apply K0; cbn [set_fut q_futs q_cons]; rewrite ?upd_length; reflexivity || lia);
      (eapply K1; cbn; [|reflexivity|]; [lia|]; intros y l' [X|X]; try discriminate; injection X as <- <-; eapply K; eauto).
  - injection E as <- <-. apply K0; reflexivity || (cbn; lia).
Qed.
Lemma known_run ops : forall s s' ev, inv s -> known s -> q_run s ops = Some (s', ev) -> inv s' /\ known s'.
Proof.
  induction ops as [|o ops IH]; intros s s' ev I K R; cbn [q_run] in R; [injection R as <- _; auto|].
  destruct (q_step s o) as [[s1 e1]|] eqn:E; [|discriminate]. destruct (q_run s1 ops) as [[s2 e2]|] eqn:R2; [|discriminate]. injection R as <- _.
  pose proof (known_step _ _ _ _ I K E). apply (step_main s o s1 e1 I) in E as [I1 _]. eauto.
Qed.
Lemma known_init n : known (@q_init A n).
Proof. intros c f l H. cbn [q_init q_cons] in H. destruct H as [H|H]; apply nth_error_In, repeat_spec in H; discriminate. Qed.

Lemma cancelled_main n before ops s ev0 c s' ev : q_run (@q_init A n) before = Some (s, ev0) -> waits s c ->
  ~ In (Get c) ops -> ~ In (GetNow c) ops -> q_run s (Cancel c :: ops) = Some (s', ev) -> Forall (fun e => ~ got c e) ev.
Proof.
  intros R0 W N1 N2 R. destruct (known_run before (q_init n) s ev0 (inv_init n) (known_init n) R0) as [I K].
  destruct (cancel_dead s c (K c) W) as (s1 & E & D). cbn [q_run] in R. rewrite E in R. destruct (q_run s1 ops) as [[s2 e2]|] eqn:R2; [|discriminate].
  injection R as _ <-. eapply dead_run; eauto.
Qed.
Lemma perm_main n before ops s ev0 s' ev : q_run (@q_init A n) before = Some (s, ev0) -> no_clear ops -> q_run s ops = Some (s', ev) ->
  Permutation (on_the_way s ++ q_items s ++ put_items ops) (gone ev ++ on_the_way s' ++ q_items s').
Proof. intros R0. apply run_perm. eapply inv_run; [|exact R0]. apply inv_init. Qed.
Lemma run_cons_length ops : forall s s' ev, q_run s ops = Some (s', ev) -> List.length (q_cons s') = List.length (q_cons s).
Proof.
  induction ops as [|o ops IH]; intros s s' ev R; cbn [q_run] in R; [now injection R as <- _|].
  destruct (q_step s o) as [[s1 e1]|] eqn:E; [|discriminate]. destruct (q_run s1 ops) as [[s2 e2]|] eqn:R2; [|discriminate]. injection R as <- _.
  rewrite (IH _ _ _ R2). eapply cons_length, E.
Qed.
Lemma single_main before ops s ev0 s' ev : q_run (@q_init A 1) before = Some (s, ev0) -> no_clear ops -> q_run s ops = Some (s', ev) ->
  on_the_way s ++ q_items s ++ put_items ops = gone ev ++ on_the_way s' ++ q_items s'.
Proof. intros R0. apply run_single; [eapply inv_run; [|exact R0]; apply inv_init|]. now rewrite (run_cons_length _ _ _ _ R0). Qed.
Lemma fifo_main ops s' ev : no_clear ops -> q_run (@q_init A 1) ops = Some (s', ev) -> Forall (fun e => ~ is_lost e) ev ->
  put_items ops = returned ev ++ on_the_way s' ++ q_items s'.
Proof.
  intros N R F. pose proof (single_main [] ops (q_init 1) [] s' ev eq_refl N R) as H. cbn [q_init on_the_way q_items q_cons repeat flat_map app] in H. rewrite H. f_equal.
  clear - F. induction F as [|e ev X F IH]; [reflexivity|]. unfold gone, returned in *. cbn [flat_map]. rewrite IH. destruct e; [reflexivity|reflexivity|]. now destruct X.
Qed.
End Queue.
