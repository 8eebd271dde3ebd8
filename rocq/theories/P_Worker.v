(** Proofs for C44 and C57. *)
From Coq Require Import Permutation.
From Verif Require Import PyBytes M_Worker S_Worker.

(** ** The loop of connection_lost *)
Lemma take_nth_perm : forall n l x r, take_nth n l = Some (x, r) -> Permutation l (x :: r).
Proof.
  intros n l; revert n; induction l as [|y l IH]; intros n x r H; cbn [take_nth] in H; [discriminate|].
  destruct n; [injection H as <- <-; reflexivity|].
  destruct (take_nth n l) as [[y' r']|] eqn:E; injection H as <- <-; [|reflexivity].
  rewrite (IH _ _ _ E). apply perm_swap.
Qed.
Lemma take_nth_none : forall n l, take_nth n l = None -> l = [].
Proof. intros n l; destruct l as [|x l]; [reflexivity|]; cbn [take_nth]; destruct n; [discriminate|]. destruct (take_nth n l) as [[? ?]|]; discriminate. Qed.

Lemma loop_static : forall beh pick, quiet beh -> tame beh -> forall fuel tasks, (List.length tasks <= fuel)%nat ->
  exists l, lost_loop beh pick fuel tasks = (l, [], Done) /\ Permutation (handled l) tasks.
Proof.
  intros beh pick Q T. induction fuel as [|fuel IH]; intros tasks L; cbn [lost_loop].
  - destruct tasks; [|cbn in L; lia]. exists []; split; [reflexivity|constructor].
  - destruct (take_nth (pick fuel) tasks) as [[x r]|] eqn:E.
    + pose proof (take_nth_perm _ _ _ _ E) as P. pose proof (Permutation_length P) as PL; cbn [List.length] in PL.
      destruct (IH r) as (l & E1 & P1); [lia|].
      destruct x as [n|n].
      * rewrite E1. exists (Cancel n :: l); split; [reflexivity|]. cbn [handled flat_map app]. rewrite P, <- P1. reflexivity.
      * pose proof (Q n) as Qn; pose proof (T n) as Tn. destruct (beh n) as [more re]; cbn [fst snd] in Qn, Tn; subst more. cbn [fold_left].
        destruct re; [| |congruence]; rewrite E1; eexists; (split; [reflexivity|]); cbn [handled flat_map app]; rewrite P, <- P1; reflexivity.
    + rewrite (take_nth_none _ _ E) in *. exists []; split; [reflexivity|constructor].
Qed.

Lemma add_entry_in : forall l x y, In y l \/ y = x -> In y (add_entry l x).
Proof.
  intros l x y H. unfold add_entry. destruct (existsb (entry_eqb x) l) eqn:E.
  - destruct H as [H| ->]; [exact H|]. apply existsb_exists in E as (z & Hz & Ez).
    assert (x = z) as -> by (destruct x, z; cbn in Ez; try discriminate; apply Nat.eqb_eq in Ez; congruence). exact Hz.
  - apply in_or_app. destruct H as [H|H]; [left; exact H|right; left; auto].
Qed.
Lemma add_all_in : forall more l y, In y l \/ In y more -> In y (fold_left add_entry more l).
Proof.
  induction more as [|x more IH]; intros l y H; cbn [fold_left]; [destruct H as [H|[]]; exact H|].
  apply IH. destruct H as [H|[<-|H]]; [left; apply add_entry_in; auto|left; apply add_entry_in; auto|right; exact H].
Qed.

Lemma loop_done : forall beh pick fuel tasks l rem, lost_loop beh pick fuel tasks = (l, rem, Done) ->
  rem = [] /\ (forall x, In x tasks -> In x (handled l)) /\ (forall n, In (Call n) l -> forall x, In x (fst (beh n)) -> In x (handled l)).
Proof.
  intros beh pick. induction fuel as [|fuel IH]; intros tasks l rem H; cbn [lost_loop] in H.
  - destruct tasks; [|discriminate]. injection H as <- <-. repeat split; intros; contradiction.
  - destruct (take_nth (pick fuel) tasks) as [[x r]|] eqn:E.
    2: { rewrite (take_nth_none _ _ E) in *. injection H as <- <-. repeat split; intros; contradiction. }
    pose proof (take_nth_perm _ _ _ _ E) as P.
    destruct x as [n|n].
    + destruct (lost_loop beh pick fuel r) as [[l1 r1] e1] eqn:E1. injection H as <- <- ->.
      destruct (IH _ _ _ E1) as (-> & A & B). split; [reflexivity|]. cbn [handled flat_map app]. fold (handled l1). split.
      * intros x Hx. apply (Permutation_in x P) in Hx as [<-|Hx]; [left; reflexivity|right; auto].
      * intros m [Hm|Hm] x Hx; [discriminate|right; eapply B; eauto].
    + destruct (beh n) as [more re] eqn:Eb.
      assert (K : forall l1, lost_loop beh pick fuel (fold_left add_entry more r) = (l1, rem, Done) -> l = Call n :: l1 \/ l = Call n :: Print n :: l1 ->
        rem = [] /\ (forall x, In x tasks -> In x (handled l)) /\ (forall m, In (Call m) l -> forall x, In x (fst (beh m)) -> In x (handled l))).
      { intros l1 E1 Hl. destruct (IH _ _ _ E1) as (-> & A & B). split; [reflexivity|].
        assert (Hh : handled l = ECall n :: handled l1) by (destruct Hl as [->| ->]; reflexivity). rewrite Hh. split.
        - intros x Hx. apply (Permutation_in x P) in Hx as [<-|Hx]; [left; reflexivity|right; apply A, add_all_in; auto].
        - intros m Hm x Hx. right. assert (Hm' : m = n \/ In (Call m) l1).
          { destruct Hl as [->| ->]; cbn [In] in Hm; intuition congruence. }
          destruct Hm' as [->|Hm']; [rewrite Eb in Hx; apply A, add_all_in; auto|eapply B; eauto]. }
      destruct re.
      * destruct (lost_loop beh pick fuel (fold_left add_entry more r)) as [[l1 r1] e1] eqn:E1. injection H as <- -> ->. apply (K l1); auto.
      * destruct (lost_loop beh pick fuel (fold_left add_entry more r)) as [[l1 r1] e1] eqn:E1. injection H as <- -> ->. apply (K l1); auto.
      * discriminate.
Qed.
Lemma loop_tame : forall beh pick fuel, tame beh -> forall tasks l rem e, lost_loop beh pick fuel tasks = (l, rem, e) -> e <> Escaped.
Proof.
  intros beh pick fuel T; induction fuel as [|fuel IH]; intros tasks l rem e H; cbn [lost_loop] in H.
  - destruct tasks; injection H as <- <- <-; discriminate.
  - destruct (take_nth (pick fuel) tasks) as [[x r]|]; [|injection H as <- <- <-; discriminate].
    destruct x as [n|n].
    + destruct (lost_loop beh pick fuel r) as [[l1 r1] e1] eqn:E1. injection H as <- <- <-. eauto.
    + pose proof (T n) as Tn. destruct (beh n) as [more re]. cbn [snd] in Tn. destruct re; [| |congruence];
        destruct (lost_loop beh pick fuel (fold_left add_entry more r)) as [[l1 r1] e1] eqn:E1; injection H as <- <- <-; eauto.
Qed.

(** ** Lists *)
Lemma upd_length : forall A (l : list A) i x, List.length (upd i x l) = List.length l.
Proof. induction l as [|y l IH]; intros [|i] x; cbn [upd List.length]; auto. Qed.
Lemma upd_get : forall A (l : list A) i j x, nth_error (upd i x l) j = if (i =? j)%nat then (match nth_error l j with Some _ => Some x | None => None end) else nth_error l j.
Proof.
  induction l as [|y l IH]; intros [|i] [|j] x; cbn [upd nth_error Nat.eqb]; auto.
  - destruct (i =? j)%nat; reflexivity.
Qed.
Lemma nth_get : forall A (l : list A) i d, nth i l d = match nth_error l i with Some x => x | None => d end.
Proof. induction l as [|y l IH]; intros [|i] d; cbn [nth nth_error]; auto. Qed.
Lemma heap_get_set : forall w i j q, (i < List.length (w_heap w))%nat -> heap_get (heap_set w i q) j = if (i =? j)%nat then q else heap_get w j.
Proof.
  intros w i j q L. unfold heap_get, heap_set; cbn [w_heap]. rewrite !nth_get, upd_get. destruct (i =? j)%nat eqn:E; [|reflexivity].
  apply Nat.eqb_eq in E; subst j. destruct (nth_error (w_heap w) i) eqn:N; [reflexivity|]. apply nth_error_None in N. lia.
Qed.
Lemma heap_get_conn : forall w p c h, heap_get (conn_set w p c) h = heap_get w h.
Proof. reflexivity. Qed.
Lemma conns_set : forall w p c q, nth_error (w_conns (conn_set w p c)) q = if (p =? q)%nat then (match nth_error (w_conns w) q with Some _ => Some c | None => None end) else nth_error (w_conns w) q.
Proof. intros. unfold conn_set; cbn [w_conns]. apply upd_get. Qed.

(** ** The cleanup *)
Lemma heap_get_clear : forall w i j, heap_get (heap_set w i (mkQs [] [])) j = if (i =? j)%nat then mkQs [] [] else heap_get w j.
Proof.
  intros w i j. unfold heap_get, heap_set; cbn [w_heap]. rewrite !nth_get, upd_get. destruct (i =? j)%nat eqn:E; [|reflexivity].
  apply Nat.eqb_eq in E; subst j. destruct (nth_error (w_heap w) i); reflexivity.
Qed.
Lemma lost_cleaned : forall beh pick fuel p w c l w', tame beh -> nth_error (w_conns w) p = Some c ->
  connection_lost beh pick fuel p w = Some (l, w') ->
  w' = lost_end Done [] p c w /\ cleaned w' p (p_queue c) /\ (forall q, q <> p -> nth_error (w_conns w') q = nth_error (w_conns w) q) /\
  (forall i, p_queue c <> Some i -> heap_get w' i = heap_get w i) /\ w_queues w' = w_queues w.
Proof.
  intros beh pick fuel p w c l w' T N H. unfold connection_lost in H. rewrite N in H.
  destruct (lost_loop beh pick fuel (p_tasks c)) as [[l1 r1] e1] eqn:E.
  pose proof (loop_tame _ _ _ T _ _ _ _ E) as Ne.
  destruct e1; [|congruence|discriminate].
  destruct (loop_done _ _ _ _ _ _ E) as (-> & _ & _). injection H as <- <-. split; [reflexivity|]. unfold lost_end.
  set (c' := mkP _ _ _ _ _ _ _ _ _ _).
  assert (Nc : forall w1, w_conns w1 = w_conns w -> forall q, nth_error (w_conns (conn_set w1 p c')) q = if (p =? q)%nat then Some c' else nth_error (w_conns w) q).
  { intros w1 E1 q. rewrite conns_set, E1. destruct (p =? q)%nat eqn:Q; [|reflexivity]. apply Nat.eqb_eq in Q; subst q. rewrite N. reflexivity. }
  destruct (p_queue c) as [h|] eqn:Q; (split; [|split; [|split]]).
  - constructor.
    + exists c'. rewrite Nc by reflexivity. rewrite Nat.eqb_refl. subst c'; cbn; auto 10.
    + intros i Hi; injection Hi as <-. rewrite heap_get_conn, heap_get_clear. rewrite Nat.eqb_refl. reflexivity.
  - intros q Hq. rewrite Nc by reflexivity. destruct (p =? q)%nat eqn:Eq; [apply Nat.eqb_eq in Eq; congruence|reflexivity].
  - intros i Hi. rewrite heap_get_conn, heap_get_clear. destruct (h =? i)%nat eqn:Eq; [apply Nat.eqb_eq in Eq; congruence|reflexivity].
  - reflexivity.
  - constructor.
    + exists c'. rewrite Nc by reflexivity. rewrite Nat.eqb_refl. subst c'; cbn; auto 10.
    + discriminate.
  - intros q Hq. rewrite Nc by reflexivity. destruct (p =? q)%nat eqn:Eq; [apply Nat.eqb_eq in Eq; congruence|reflexivity].
  - reflexivity.
  - reflexivity.
Qed.

(** ** After it *)
Definition dead (w : worker) (p : nat) : Prop := exists c, nth_error (w_conns w) p = Some c /\ p_queue c = None.
Lemma dead_set : forall w p q c, dead w p -> (q = p -> p_queue c = None) -> dead (conn_set w q c) p.
Proof.
  intros w p q c (d & N & Q) K. unfold dead. rewrite conns_set. destruct (q =? p)%nat eqn:E.
  - apply Nat.eqb_eq in E. rewrite N. eauto.
  - eauto.
Qed.
Lemma dead_lost : forall beh pick fuel w p q l w', dead w p -> connection_lost beh pick fuel q w = Some (l, w') -> dead w' p.
Proof.
  intros beh pick fuel w p q l w' D H. unfold connection_lost in H.
  destruct (nth_error (w_conns w) q) as [c|] eqn:N; [|discriminate].
  destruct (lost_loop beh pick fuel (p_tasks c)) as [[l1 r1] e1]. destruct e1; [| |discriminate]; injection H as <- <-; unfold lost_end.
  - assert (D1 : dead (match p_queue c with Some h => heap_set w h (mkQs [] []) | None => w end) p) by (destruct (p_queue c); exact D).
    apply dead_set; [exact D1|reflexivity].
  - apply dead_set; [exact D|]. intros ->. destruct D as (d & Nd & Qd). assert (d = c) by congruence. subst d. exact Qd.
Qed.
Lemma dead_step : forall close beh pick fuel w p ev w' b, dead w p -> worker_step close beh pick fuel w ev = Some (w', b) -> dead w' p.
Proof.
  intros close beh pick fuel w p ev w' b D H.
  assert (K : forall q (c : proto), nth_error (w_conns w) q = Some c -> q = p -> p_queue c = None).
  { intros q c N ->. destruct D as (d & Nd & Qd). congruence. }
  destruct ev as [fd|q x|q x|q x|q|q|q|q|q x|q|q]; cbn [worker_step] in H.
  - destruct (free fd w); [|discriminate]. injection H as <- <-. destruct D as (c & N & Q). unfold connection_made.
    destruct (assoc fd (w_queues w)); exists c; cbn [w_conns]; (split; [|exact Q]); rewrite nth_error_app1; auto; apply nth_error_Some; congruence.
  - destruct (nth_error (w_conns w) q) as [c|]; [|discriminate]. destruct (p_queue c); injection H as <- <-; exact D.
  - destruct (nth_error (w_conns w) q) as [c|]; [|discriminate]. destruct (p_queue c); injection H as <- <-; exact D.
  - destruct (nth_error (w_conns w) q) as [c|]; [|discriminate]. destruct (p_lost c); [|discriminate]. injection H as <- <-; exact D.
  - destruct (nth_error (w_conns w) q) as [c|]; [|discriminate]. destruct (p_queue c) as [h|]; [|discriminate].
    destruct (q_in (heap_get w h)); [discriminate|]. injection H as <- <-; exact D.
  - destruct (nth_error (w_conns w) q) as [c|]; [|discriminate]. destruct (p_queue c) as [h|]; [|discriminate]. destruct (p_sending c); [|discriminate].
    destruct (q_out (heap_get w h)); [discriminate|]. injection H as <- <-; exact D.
  - destruct (nth_error (w_conns w) q) as [c|] eqn:N; [|discriminate]. destruct (p_transport c); [|discriminate]. injection H as <- <-.
    apply dead_set; [exact D|]. cbn [p_queue]. apply K; exact N.
  - destruct (nth_error (w_conns w) q) as [c|] eqn:N; [|discriminate]. destruct (p_transport c); [|discriminate]. injection H as <- <-.
    apply dead_set; [exact D|]. cbn [p_queue]. apply K; exact N.
  - destruct (nth_error (w_conns w) q) as [c|] eqn:N; [|discriminate]. injection H as <- <-.
    apply dead_set; [exact D|]. cbn [p_queue]. apply K; exact N.
  - destruct (nth_error (w_conns w) q) as [c|] eqn:N; [|discriminate]. destruct (p_lost c); [discriminate|].
    assert (D1 : dead (conn_set w q (closed_sock c)) p) by (apply dead_set; [exact D|]; cbn [p_queue closed_sock]; apply K; exact N).
    destruct close; [injection H as <- <-; exact D1|].
    destruct (connection_lost beh pick fuel q (conn_set w q (closed_sock c))) as [[l1 w1]|] eqn:E; cbn [option_map] in H; [|discriminate].
    cbn [snd] in H. injection H as <- <-. eapply dead_lost; eauto.
  - destruct (nth_error (w_conns w) q) as [c|] eqn:N; [|discriminate]. destruct (close && p_lost c && p_transport c); [|discriminate].
    destruct (connection_lost beh pick fuel q w) as [[l1 w1]|] eqn:E; cbn [option_map] in H; [|discriminate].
    cbn [snd] in H. injection H as <- <-. eapply dead_lost; eauto.
Qed.
Lemma dead_skip : forall close beh pick fuel w p ev, dead w p -> queues_for p ev = true -> worker_step close beh pick fuel w ev = Some (w, []).
Proof.
  intros close beh pick fuel w p ev (c & N & Q) E. destruct ev as [fd|q x|q x|q x|q|q|q|q|q x|q|q]; cbn [queues_for] in E; try discriminate E;
    apply Nat.eqb_eq in E; subst q; cbn [worker_step]; rewrite N, Q; reflexivity.
Qed.
Lemma dead_run : forall close beh pick fuel p evs w, dead w p ->
  worker_run close beh pick fuel w evs = worker_run close beh pick fuel w (filter (fun ev => negb (queues_for p ev)) evs).
Proof.
  intros close beh pick fuel p. induction evs as [|ev evs IH]; intros w D; [reflexivity|]. cbn [filter].
  destruct (queues_for p ev) eqn:E; cbn [negb].
  - cbn [worker_run]. rewrite (dead_skip close beh pick fuel w p ev D E). rewrite <- (IH w D).
    destruct (worker_run close beh pick fuel w evs) as [[w2 b2]|]; reflexivity.
  - cbn [worker_run]. destruct (worker_step close beh pick fuel w ev) as [[w1 b1]|] eqn:S; [|reflexivity].
    rewrite (IH w1); [reflexivity|]. eapply dead_step; eauto.
Qed.

(** ** Isolation *)
Lemma puts_app : forall p a b, puts p (a ++ b) = puts p a ++ puts p b.
Proof. intros; unfold puts; apply flat_map_app. Qed.
Lemma feeds_app : forall p a b, feeds p (a ++ b) = feeds p a ++ feeds p b.
Proof. intros; unfold feeds; apply flat_map_app. Qed.
Lemma sent_app : forall p a b, sent p (a ++ b) = sent p a ++ sent p b.
Proof. intros; unfold sent; apply flat_map_app. Qed.
Lemma took_app : forall p a b, took p (a ++ b) = took p a ++ took p b.
Proof. intros; unfold took; apply flat_map_app. Qed.
(** No connection that is not cleaned up has the socket number fd. *)
Definition clean (fd : nat) (w : worker) : Prop := forall p c, nth_error (w_conns w) p = Some c -> p_fd c = fd -> p_queue c = None.
Definition has (c : proto) : Prop := p_queue c <> None.

(** [dr]: what _send_data took after the loss, and the transport dropped. *)
Record Inv (w : worker) (evs : list wev) (l : list wobs) : Prop := {
  iv_map : forall fd h, assoc fd (w_queues w) = Some h -> (h < List.length (w_heap w))%nat;
  iv_inj : forall fd fd' h, assoc fd (w_queues w) = Some h -> assoc fd' (w_queues w) = Some h -> fd = fd';
  iv_live : forall p c h, nth_error (w_conns w) p = Some c -> p_queue c = Some h ->
    assoc (p_fd c) (w_queues w) = Some h /\ (exists dr, puts p evs = sent p l ++ dr ++ q_out (heap_get w h) /\ (p_lost c = false -> dr = [])) /\ feeds p evs = took p l ++ q_in (heap_get w h);
  iv_dead : forall p c, nth_error (w_conns w) p = Some c -> p_queue c = None -> p_lost c = true /\ prefix (sent p l) (puts p evs) /\ prefix (took p l) (feeds p evs);
  iv_one : forall p q c d, nth_error (w_conns w) p = Some c -> nth_error (w_conns w) q = Some d -> has c -> has d -> p_fd c = p_fd d -> p = q;
  iv_free : forall fd h, assoc fd (w_queues w) = Some h -> clean fd w -> heap_get w h = mkQs [] [];
  iv_new : forall p, nth_error (w_conns w) p = None -> puts p evs = [] /\ feeds p evs = [] /\ sent p l = [] /\ took p l = []
}.

Lemma inv_init : Inv worker_new [] [].
Proof.
  constructor; cbn; try discriminate; intros; try (destruct p; discriminate); auto.
Qed.

(** An event that concerns only connection p. *)
Definition about (p : nat) (ev : wev) (b : list wobs) : Prop := forall q, q <> p -> puts q [ev] = [] /\ feeds q [ev] = [] /\ sent q b = [] /\ took q b = [].

Lemma eqb_neq : forall a b, a <> b -> (a =? b)%nat = false.
Proof. intros; apply Nat.eqb_neq; auto. Qed.
Lemma some_has : forall c h, p_queue c = Some h -> has c.
Proof. intros c h H. unfold has. congruence. Qed.
#[local] Hint Resolve some_has : core.
Lemma inv_heap : forall w evs l p c h q' ev b, Inv w evs l -> nth_error (w_conns w) p = Some c -> p_queue c = Some h -> about p ev b ->
  (exists dr, puts p (evs ++ [ev]) = sent p (l ++ b) ++ dr ++ q_out q' /\ (p_lost c = false -> dr = [])) -> feeds p (evs ++ [ev]) = took p (l ++ b) ++ q_in q' -> Inv (heap_set w h q') (evs ++ [ev]) (l ++ b).
Proof.
  intros w evs l p c h q' ev b I N Q A P1 P2.
  destruct (iv_live _ _ _ I _ _ _ N Q) as (As & _).
  pose proof (iv_map _ _ _ I _ _ As) as Lh.
  assert (O : forall q, q <> p -> puts q (evs ++ [ev]) = puts q evs /\ feeds q (evs ++ [ev]) = feeds q evs /\ sent q (l ++ b) = sent q l /\ took q (l ++ b) = took q l).
  { intros q Hq. destruct (A q Hq) as (a1 & a2 & a3 & a4). rewrite puts_app, feeds_app, sent_app, took_app, a1, a2, a3, a4, !app_nil_r. auto. }
  constructor; cbn [heap_set w_queues w_conns].
  - intros fd h0 H. cbn [w_heap heap_set]. rewrite upd_length. eapply iv_map; eauto.
  - intros; eapply (iv_inj _ _ _ I); eauto.
  - intros r d k Nr Qr. destruct (Nat.eq_dec r p) as [->|Hr].
    + assert (d = c) by congruence; subst d. assert (k = h) by congruence; subst k.
      rewrite heap_get_set by exact Lh. rewrite Nat.eqb_refl. auto 10.
    + destruct (iv_live _ _ _ I _ _ _ Nr Qr) as (As' & E1 & E2). destruct (O r Hr) as (o1 & o2 & o3 & o4).
      rewrite o1, o2, o3, o4. rewrite heap_get_set by exact Lh.
      assert (Hk : h <> k).
      { intros <-. apply Hr. apply (iv_one _ _ _ I r p d c); eauto. exact (iv_inj _ _ _ I _ _ _ As' As). }
      rewrite (eqb_neq _ _ Hk). auto 10.
  - intros r d Nr Qr. destruct (Nat.eq_dec r p) as [->|Hr]; [congruence|].
    destruct (O r Hr) as (o1 & o2 & o3 & o4). rewrite o1, o2, o3, o4. eapply iv_dead; eauto.
  - intros; eapply (iv_one _ _ _ I); eauto.
  - intros fd k Ak F. rewrite heap_get_set by exact Lh.
    assert (Hk : h <> k).
    { intros <-. change (clean fd w) in F. pose proof (F _ _ N (iv_inj _ _ _ I _ _ _ As Ak)) as X. congruence. }
    rewrite (eqb_neq _ _ Hk). eapply iv_free; eauto.
  - intros r Nr. assert (Hr : r <> p) by congruence. destruct (O r Hr) as (o1 & o2 & o3 & o4). rewrite o1, o2, o3, o4. apply (iv_new _ _ _ I); exact Nr.
Qed.

(** An event that queues nothing and shows nothing. *)
Definition silent (ev : wev) : Prop := forall q, puts q [ev] = [] /\ feeds q [ev] = [].
Lemma silent_app : forall ev evs q, silent ev -> puts q (evs ++ [ev]) = puts q evs /\ feeds q (evs ++ [ev]) = feeds q evs.
Proof. intros ev evs q S. destruct (S q) as (a & b). rewrite puts_app, feeds_app, a, b, !app_nil_r. auto. Qed.
Lemma inv_conn : forall w evs l p c c' ev, Inv w evs l -> nth_error (w_conns w) p = Some c -> silent ev ->
  p_fd c' = p_fd c -> p_queue c' = p_queue c -> (p_lost c = true -> p_lost c' = true) -> Inv (conn_set w p c') (evs ++ [ev]) l.
Proof.
  intros w evs l p c c' ev I N Si F Q Lo.
  assert (G : forall r d, nth_error (w_conns (conn_set w p c')) r = Some d -> exists d0, nth_error (w_conns w) r = Some d0 /\ p_fd d = p_fd d0 /\ p_queue d = p_queue d0 /\ (p_lost d0 = true -> p_lost d = true)).
  { intros r d H. rewrite conns_set in H. destruct (p =? r)%nat eqn:E; [|eauto 10]. apply Nat.eqb_eq in E; subst r. rewrite N in H. injection H as <-. exists c; auto 10. }
  constructor.
  - exact (iv_map _ _ _ I).
  - exact (iv_inj _ _ _ I).
  - intros r d h Nr Qr. destruct (G r d Nr) as (d0 & N0 & f & q & lo). destruct (silent_app ev evs r Si) as (-> & ->).
    rewrite f. rewrite q in Qr. destruct (iv_live _ _ _ I _ _ _ N0 Qr) as (A & (dr & E1 & K) & E2). split; [exact A|split; [|exact E2]].
    exists dr; split; [exact E1|]. intros L. apply K. destruct (p_lost d0); [rewrite lo in L by reflexivity; discriminate|reflexivity].
  - intros r d Nr Qr. destruct (G r d Nr) as (d0 & N0 & f & q & lo). destruct (silent_app ev evs r Si) as (-> & ->).
    rewrite q in Qr. destruct (iv_dead _ _ _ I _ _ N0 Qr) as (L & P). auto.
  - intros r r' d d' Nr Nr' s1 s2 f1. destruct (G r d Nr) as (d0 & N0 & f & q & lo). destruct (G r' d' Nr') as (d0' & N0' & f' & q' & lo').
    apply (iv_one _ _ _ I r r' d0 d0'); unfold has in *; congruence.
  - intros fd h A Fr. apply (iv_free _ _ _ I fd h A). intros r d Nr s.
    assert (exists d', nth_error (w_conns (conn_set w p c')) r = Some d' /\ p_fd d' = p_fd d /\ p_queue d' = p_queue d) as (d' & N' & f & s').
    { rewrite conns_set. destruct (p =? r)%nat eqn:E; [|eauto]. apply Nat.eqb_eq in E; subst r. rewrite N in *. injection Nr as <-. eauto. }
    rewrite <- s'. apply (Fr _ _ N'). congruence.
  - intros r Nr. destruct (silent_app ev evs r Si) as (-> & ->). apply (iv_new _ _ _ I). rewrite conns_set in Nr.
    destruct (p =? r)%nat eqn:E; [|exact Nr]. destruct (nth_error (w_conns w) r); [discriminate|reflexivity].
Qed.

Lemma inv_connect : forall w evs l fd, Inv w evs l -> clean fd w -> Inv (connection_made fd w) (evs ++ [Connect fd]) l.
Proof.
  intros w evs l fd I Fr.
  assert (Si : silent (Connect fd)) by (intro; split; reflexivity).
  assert (New : nth_error (w_conns w) (List.length (w_conns w)) = None) by (apply nth_error_None; lia).
  destruct (iv_new _ _ _ I _ New) as (n1 & n2 & n3 & n4).
  assert (G : forall x r d, nth_error (w_conns w ++ [x]) r = Some d -> nth_error (w_conns w) r = Some d \/ r = List.length (w_conns w) /\ d = x).
  { intros x r d H. destruct (Nat.lt_ge_cases r (List.length (w_conns w))) as [L|L]; [rewrite nth_error_app1 in H by exact L; auto|].
    rewrite nth_error_app2 in H by exact L. destruct (r - List.length (w_conns w))%nat as [|k] eqn:K; [|destruct k; discriminate]. injection H as <-. right; split; [lia|reflexivity]. }
  assert (G0 : forall x r d, nth_error (w_conns w) r = Some d -> nth_error (w_conns w ++ [x]) r = Some d).
  { intros x r d H. rewrite nth_error_app1; [exact H|]. apply nth_error_Some; congruence. }
  assert (Fn : forall r d, nth_error (w_conns w) r = Some d -> has d -> p_fd d <> fd).
  { intros r d Nr Hd E. exact (Hd (Fr _ _ Nr E)). }
  unfold connection_made. destruct (assoc fd (w_queues w)) as [h|] eqn:A.
  - pose proof (iv_free _ _ _ I _ _ A Fr) as Em.
    set (c := mkP _ _ _ _ _ _ _ _ _ _).
    constructor; cbn [w_heap w_queues w_conns].
    + exact (iv_map _ _ _ I).
    + exact (iv_inj _ _ _ I).
    + intros r d k Nr Qr. destruct (silent_app _ evs r Si) as (-> & ->). destruct (G _ _ _ Nr) as [N0|(-> & ->)]; [exact (iv_live _ _ _ I _ _ _ N0 Qr)|].
      subst c; cbn [p_queue] in Qr. injection Qr as <-. change (heap_get _ h) with (heap_get w h). rewrite Em, n1, n2, n3, n4. cbn.
      split; [exact A|split; [exists []; auto|reflexivity]].
    + intros r d Nr Qr. destruct (silent_app _ evs r Si) as (-> & ->). destruct (G _ _ _ Nr) as [N0|(-> & ->)]; [exact (iv_dead _ _ _ I _ _ N0 Qr)|discriminate].
    + intros r r' d d' Nr Nr' s s' f. destruct (G _ _ _ Nr) as [N0|(-> & ->)], (G _ _ _ Nr') as [N0'|(-> & ->)]; auto.
      * exact (iv_one _ _ _ I _ _ _ _ N0 N0' s s' f).
      * exfalso. exact (Fn _ _ N0 s f).
      * exfalso. exact (Fn _ _ N0' s' (eq_sym f)).
    + intros fd' k Ak F'. change (heap_get _ k) with (heap_get w k). apply (iv_free _ _ _ I fd' k Ak). intros r d Nr s.
      exact (F' _ _ (G0 _ _ _ Nr) s).
    + intros r Nr. destruct (silent_app _ evs r Si) as (-> & ->). apply (iv_new _ _ _ I). apply nth_error_None. apply nth_error_None in Nr. rewrite app_length in Nr; lia.
  - set (h := List.length (w_heap w)). set (c := mkP _ _ _ _ _ _ _ _ _ _).
    assert (As : forall fd' k, assoc fd' ((fd, h) :: w_queues w) = Some k -> fd' = fd /\ k = h \/ fd' <> fd /\ assoc fd' (w_queues w) = Some k /\ (k < h)%nat).
    { intros fd' k H. cbn [assoc] in H. destruct (fd' =? fd)%nat eqn:E; [apply Nat.eqb_eq in E; injection H as <-; auto|]. apply Nat.eqb_neq in E.
      right; split; [exact E|split; [exact H|exact (iv_map _ _ _ I _ _ H)]]. }
    assert (Hg : forall k, (k < h)%nat -> nth k (w_heap w ++ [mkQs [] []]) (mkQs [] []) = heap_get w k) by (intros k L; apply app_nth1; exact L).
    assert (Hn : nth h (w_heap w ++ [mkQs [] []]) (mkQs [] []) = mkQs [] []) by (unfold h; rewrite app_nth2, Nat.sub_diag by lia; reflexivity).
    constructor; cbn [w_heap w_queues w_conns]; unfold heap_get; cbn [w_heap w_queues w_conns].
    + intros fd' k H. rewrite app_length; cbn [List.length]. destruct (As _ _ H) as [(_ & ->)|(_ & _ & L)]; unfold h in *; lia.
    + intros a b k Ha Hb. destruct (As _ _ Ha) as [(-> & ->)|(_ & a1 & L1)], (As _ _ Hb) as [(-> & E)|(_ & b1 & L2)]; auto; try lia. exact (iv_inj _ _ _ I _ _ _ a1 b1).
    + intros r d k Nr Qr. destruct (silent_app _ evs r Si) as (-> & ->). destruct (G _ _ _ Nr) as [N0|(-> & ->)].
      * destruct (iv_live _ _ _ I _ _ _ N0 Qr) as (a & e1 & e2). rewrite Hg by exact (iv_map _ _ _ I _ _ a).
        split; [|split; assumption]. cbn [assoc]. destruct (p_fd d =? fd)%nat eqn:E; [|exact a].
        apply Nat.eqb_eq in E. exfalso. exact (Fn _ _ N0 (some_has _ _ Qr) E).
      * subst c; cbn [p_queue] in Qr. injection Qr as <-. rewrite Hn, n1, n2, n3, n4. cbn. rewrite Nat.eqb_refl. split; [reflexivity|split; [exists []; auto|reflexivity]].
    + intros r d Nr Qr. destruct (silent_app _ evs r Si) as (-> & ->). destruct (G _ _ _ Nr) as [N0|(-> & ->)]; [exact (iv_dead _ _ _ I _ _ N0 Qr)|discriminate].
    + intros r r' d d' Nr Nr' s s' f. destruct (G _ _ _ Nr) as [N0|(-> & ->)], (G _ _ _ Nr') as [N0'|(-> & ->)]; auto.
      * exact (iv_one _ _ _ I _ _ _ _ N0 N0' s s' f).
      * exfalso. exact (Fn _ _ N0 s f).
      * exfalso. exact (Fn _ _ N0' s' (eq_sym f)).
    + intros fd' k Ak F'. destruct (As _ _ Ak) as [(_ & ->)|(_ & a1 & L1)]; [exact Hn|]. rewrite Hg by exact L1. apply (iv_free _ _ _ I fd' k a1). intros r d Nr s.
      exact (F' _ _ (G0 _ _ _ Nr) s).
    + intros r Nr. destruct (silent_app _ evs r Si) as (-> & ->). apply (iv_new _ _ _ I). apply nth_error_None. apply nth_error_None in Nr. rewrite app_length in Nr; lia.
Qed.

(** connection_lost runs, and all is cleaned up. *)
Lemma inv_lost : forall beh pick fuel w evs l p c b w' ev, tame beh -> Inv w evs l -> silent ev -> nth_error (w_conns w) p = Some c -> p_lost c = true ->
  connection_lost beh pick fuel p w = Some (b, w') -> Inv w' (evs ++ [ev]) l.
Proof.
  intros beh pick fuel w evs l p c b w' ev T I Si N Lo H.
  destruct (lost_cleaned beh pick fuel p w c b w' T N) as (Ew & Cl & Or & Oh & Wq); [exact H|].
  assert (Nw : exists c', nth_error (w_conns w') p = Some c' /\ p_queue c' = None /\ p_lost c' = true).
  { rewrite Ew. unfold lost_end. rewrite conns_set, Nat.eqb_refl. replace (w_conns (match p_queue c with Some h => heap_set w h (mkQs [] []) | None => w end)) with (w_conns w) by (destruct (p_queue c); reflexivity).
    rewrite N. eexists; split; [reflexivity|]. cbn. auto. }
  destruct Nw as (c' & Nc' & Qc' & Lc').
  assert (Lw : List.length (w_heap w') = List.length (w_heap w)).
  { rewrite Ew. unfold lost_end. destruct (p_queue c); cbn [conn_set heap_set w_heap]; [apply upd_length|reflexivity]. }
  constructor; try rewrite Wq.
  - intros fd k A. rewrite Lw. exact (iv_map _ _ _ I _ _ A).
  - exact (iv_inj _ _ _ I).
  - intros r d k Nr Qr. destruct (silent_app _ evs r Si) as (-> & ->). destruct (Nat.eq_dec r p) as [->|Hr]; [congruence|].
    rewrite (Or r Hr) in Nr. destruct (iv_live _ _ _ I _ _ _ Nr Qr) as (a & e1 & e2).
    rewrite Oh; [auto 10|]. intros Qc. destruct (iv_live _ _ _ I _ _ _ N Qc) as (As & _). apply Hr. apply (iv_one _ _ _ I r p d c); eauto. exact (iv_inj _ _ _ I _ _ _ a As).
  - intros r d Nr Qr. destruct (silent_app _ evs r Si) as (-> & ->). destruct (Nat.eq_dec r p) as [->|Hr].
    + assert (d = c') by congruence; subst d. split; [exact Lc'|]. destruct (p_queue c) as [h|] eqn:Q.
      * destruct (iv_live _ _ _ I _ _ _ N Q) as (_ & (dr & E1 & _) & E2). split; eexists; eassumption.
      * exact (proj2 (iv_dead _ _ _ I _ _ N Q)).
    + rewrite (Or r Hr) in Nr. exact (iv_dead _ _ _ I _ _ Nr Qr).
  - intros r r' d d' Nr Nr' s s' f. destruct (Nat.eq_dec r p) as [->|Hr]; [unfold has in s; congruence|]. destruct (Nat.eq_dec r' p) as [->|Hr']; [unfold has in s'; congruence|].
    rewrite (Or r Hr) in Nr. rewrite (Or r' Hr') in Nr'. exact (iv_one _ _ _ I _ _ _ _ Nr Nr' s s' f).
  - intros fd k A F. assert (D : p_queue c = Some k \/ p_queue c <> Some k) by (destruct (p_queue c) as [k0|]; [destruct (Nat.eq_dec k0 k); [left|right]; congruence|right; discriminate]).
    destruct D as [D|D]; [exact (cl_queues _ _ _ Cl _ D)|]. rewrite (Oh k D). apply (iv_free _ _ _ I fd k A).
    intros r d Nr s. destruct (Nat.eq_dec r p) as [->|Hr].
    + assert (d = c) by congruence; subst d. destruct (p_queue c) as [h|] eqn:Q; [|reflexivity]. destruct (iv_live _ _ _ I _ _ _ N Q) as (As & _). exfalso. apply D. congruence.
    + rewrite <- (Or r Hr) in Nr. exact (F _ _ Nr s).
  - intros r Nr. destruct (silent_app _ evs r Si) as (-> & ->). apply (iv_new _ _ _ I). assert (r <> p) by congruence. rewrite <- (Or r); assumption.
Qed.

Lemma inv_noop : forall w evs l p c ev, Inv w evs l -> nth_error (w_conns w) p = Some c -> p_queue c = None -> about p ev [] -> Inv w (evs ++ [ev]) l.
Proof.
  intros w evs l p c ev I N Q A.
  assert (O : forall r, r <> p -> puts r (evs ++ [ev]) = puts r evs /\ feeds r (evs ++ [ev]) = feeds r evs).
  { intros r Hr. destruct (A r Hr) as (a1 & a2 & _ & _). rewrite puts_app, feeds_app, a1, a2, !app_nil_r. auto. }
  destruct I. constructor; auto.
  - intros r d h Nr Qr. assert (Hr : r <> p) by congruence. destruct (O r Hr) as (-> & ->). eauto.
  - intros r d Nr Qr. destruct (iv_dead0 r d Nr Qr) as (lo & (x & X) & (y & Y)). split; [exact lo|].
    rewrite puts_app, feeds_app, X, Y. split; [exists (x ++ puts r [ev])|exists (y ++ feeds r [ev])]; rewrite app_assoc; reflexivity.
  - intros r Nr. assert (Hr : r <> p) by congruence. destruct (O r Hr) as (-> & ->). auto.
Qed.

Lemma inv_step : forall close beh pick fuel w evs l ev w' b, tame beh -> (forall p x, ev <> Stray p x) -> (forall fd, ev = Connect fd -> clean fd w) -> Inv w evs l ->
  worker_step close beh pick fuel w ev = Some (w', b) -> Inv w' (evs ++ [ev]) (l ++ b).
Proof.
  intros close beh pick fuel w evs l ev w' b T NS Cc I H.
  destruct ev as [fd|q x|q x|q x|q|q|q|q|q x|q|q]; cbn [worker_step] in H.
  - destruct (free fd w) eqn:F; [|discriminate]. injection H as <- <-. rewrite app_nil_r. apply inv_connect; auto.
  - destruct (nth_error (w_conns w) q) as [c|] eqn:N; [|discriminate].
    assert (A : about q (Feed q x) []) by (intros r Hr; cbn; rewrite (eqb_neq _ _ Hr); auto).
    destruct (p_queue c) as [h|] eqn:Q; injection H as <- <-.
    + destruct (iv_live _ _ _ I _ _ _ N Q) as (_ & (dr & E1 & K) & E2).
      eapply inv_heap; eauto; cbn [q_in q_out]; rewrite app_nil_r.
      * exists dr; split; [|exact K]. rewrite puts_app. cbn [puts flat_map]. rewrite app_nil_r. exact E1.
      * rewrite feeds_app, E2. cbn [feeds flat_map]. rewrite Nat.eqb_refl. cbn. rewrite app_assoc. reflexivity.
    + rewrite app_nil_r. eapply inv_noop; eauto.
  - destruct (nth_error (w_conns w) q) as [c|] eqn:N; [|discriminate].
    assert (A : about q (Put q x) []) by (intros r Hr; cbn; rewrite (eqb_neq _ _ Hr); auto).
    destruct (p_queue c) as [h|] eqn:Q; injection H as <- <-.
    + destruct (iv_live _ _ _ I _ _ _ N Q) as (_ & (dr & E1 & K) & E2).
      eapply inv_heap; eauto; cbn [q_in q_out]; rewrite app_nil_r.
      * exists dr; split; [|exact K]. rewrite puts_app, E1. cbn [puts flat_map]. rewrite Nat.eqb_refl. cbn. rewrite !app_assoc. reflexivity.
      * rewrite feeds_app. cbn [feeds flat_map]. rewrite app_nil_r. exact E2.
    + rewrite app_nil_r. eapply inv_noop; eauto.
  - exfalso. exact (NS q x eq_refl).
  - destruct (nth_error (w_conns w) q) as [c|] eqn:N; [|discriminate].
    destruct (p_queue c) as [h|] eqn:Q; [|discriminate]. destruct (q_in (heap_get w h)) as [|x r] eqn:E; [discriminate|]. injection H as <- <-.
    destruct (iv_live _ _ _ I _ _ _ N Q) as (_ & (dr & E1 & K) & E2). rewrite E in E2.
    eapply inv_heap; eauto; cbn [q_in q_out].
    + intros r' Hr; cbn; rewrite (eqb_neq _ _ Hr); auto.
    + exists dr; split; [|exact K]. rewrite puts_app, sent_app. cbn. rewrite !app_nil_r. exact E1.
    + rewrite feeds_app, took_app, E2. cbn. rewrite Nat.eqb_refl, app_nil_r. cbn. rewrite <- app_assoc. reflexivity.
  - destruct (nth_error (w_conns w) q) as [c|] eqn:N; [|discriminate].
    destruct (p_queue c) as [h|] eqn:Q; [|discriminate]. destruct (p_sending c); [|discriminate].
    destruct (q_out (heap_get w h)) as [|x r] eqn:E; [discriminate|]. injection H as <- <-.
    destruct (iv_live _ _ _ I _ _ _ N Q) as (_ & (dr & E1 & K) & E2). rewrite E in E1.
    eapply inv_heap; eauto; cbn [q_in q_out].
    + intros r' Hr; destruct (p_lost c); cbn; rewrite ?(eqb_neq _ _ Hr); auto.
    + destruct (p_lost c) eqn:Lo.
      * exists (dr ++ [x]); split; [|discriminate]. rewrite puts_app, sent_app, E1. cbn. rewrite !app_nil_r, <- app_assoc. reflexivity.
      * rewrite K in E1 by reflexivity. exists []; split; [|reflexivity]. rewrite puts_app, sent_app, E1. cbn. rewrite Nat.eqb_refl, app_nil_r. cbn. rewrite <- app_assoc. reflexivity.
    + rewrite feeds_app, took_app. destruct (p_lost c); cbn; rewrite !app_nil_r; exact E2.
  - destruct (nth_error (w_conns w) q) as [c|] eqn:N; [|discriminate]. destruct (p_transport c); [|discriminate]. injection H as <- <-. rewrite app_nil_r.
    eapply inv_conn; eauto. intro; split; reflexivity.
  - destruct (nth_error (w_conns w) q) as [c|] eqn:N; [|discriminate]. destruct (p_transport c); [|discriminate]. injection H as <- <-. rewrite app_nil_r.
    eapply inv_conn; eauto. intro; split; reflexivity.
  - destruct (nth_error (w_conns w) q) as [c|] eqn:N; [|discriminate]. injection H as <- <-. rewrite app_nil_r.
    eapply inv_conn; eauto. intro; split; reflexivity.
  - destruct (nth_error (w_conns w) q) as [c|] eqn:N; [|discriminate]. destruct (p_lost c) eqn:Lo; [discriminate|].
    assert (I1 : forall ev, silent ev -> Inv (conn_set w q (closed_sock c)) (evs ++ [ev]) l).
    { intros ev Si. eapply inv_conn; eauto. }
    assert (Sg : silent (Gone q)) by (intro; split; reflexivity).
    assert (N1 : nth_error (w_conns (conn_set w q (closed_sock c))) q = Some (closed_sock c)) by (rewrite conns_set, Nat.eqb_refl, N; reflexivity).
    destruct close; [injection H as <- <-; rewrite app_nil_r; auto|].
    destruct (connection_lost beh pick fuel q (conn_set w q (closed_sock c))) as [[l1 w1]|] eqn:E; cbn [option_map] in H; [|discriminate].
    cbn [snd] in H. injection H as <- <-. rewrite app_nil_r.
    (* the loss as two events *)
    pose proof (inv_lost _ _ _ _ _ _ _ _ _ _ (Gone q) T (I1 (Gone q) Sg) Sg N1 eq_refl E) as I2.
    destruct I2. constructor; auto.
    + intros p d h Nd Qd. destruct (iv_live0 p d h Nd Qd) as (A & (dr & E1 & K) & E2). rewrite puts_app in E1; rewrite feeds_app in E2; cbn in E1, E2; rewrite app_nil_r in E1, E2. eauto 10.
    + intros p d Nd Qd. destruct (iv_dead0 p d Nd Qd) as (A & E1 & E2). rewrite puts_app in E1; rewrite feeds_app in E2; cbn in E1, E2; rewrite app_nil_r in E1, E2. auto.
    + intros p Nd. destruct (iv_new0 p Nd) as (E1 & E2 & E3). rewrite puts_app in E1; rewrite feeds_app in E2; cbn in E1, E2; rewrite app_nil_r in E1, E2. auto.
  - destruct (nth_error (w_conns w) q) as [c|] eqn:N; [|discriminate]. destruct (close && p_lost c && p_transport c) eqn:B; [|discriminate].
    apply andb_true_iff in B as (B & _). apply andb_true_iff in B as (_ & Lo).
    destruct (connection_lost beh pick fuel q w) as [[l1 w1]|] eqn:E; cbn [option_map] in H; [|discriminate].
    cbn [snd] in H. injection H as <- <-. rewrite app_nil_r.
    eapply (inv_lost _ _ _ _ _ _ _ _ _ _ (CloseDone q) T I); eauto. intro; split; reflexivity.
Qed.

Lemma inv_run : forall close beh pick fuel, tame beh -> forall evs w evs0 l0 w' l, Inv w evs0 l0 -> no_stray evs ->
  (forall a fd b w1 l1, evs = a ++ Connect fd :: b -> worker_run close beh pick fuel w a = Some (w1, l1) -> clean fd w1) ->
  worker_run close beh pick fuel w evs = Some (w', l) -> Inv w' (evs0 ++ evs) (l0 ++ l).
Proof.
  intros close beh pick fuel T. induction evs as [|ev evs IH]; intros w evs0 l0 w' l I NS C H; cbn [worker_run] in H.
  - injection H as <- <-. rewrite !app_nil_r. exact I.
  - destruct (worker_step close beh pick fuel w ev) as [[w1 b1]|] eqn:S; [|discriminate].
    destruct (worker_run close beh pick fuel w1 evs) as [[w2 b2]|] eqn:R; [|discriminate]. injection H as <- <-.
    replace (evs0 ++ ev :: evs) with ((evs0 ++ [ev]) ++ evs) by (rewrite <- app_assoc; reflexivity).
    rewrite app_assoc. eapply IH; [| | |exact R].
    + eapply inv_step; eauto.
      * intros p x ->. exact (NS p x (or_introl eq_refl)).
      * intros fd ->. apply (C [] fd evs w []); reflexivity.
    + intros p x Hx. exact (NS p x (or_intror Hx)).
    + intros a fd b u m Ea Ra. apply (C (ev :: a) fd b u (b1 ++ m)); [rewrite Ea; reflexivity|]. cbn [worker_run]. rewrite S, Ra. reflexivity.
Qed.
Lemma inv_isolated : forall w evs l, Inv w evs l -> isolated evs l.
Proof.
  intros w evs l I p. destruct (nth_error (w_conns w) p) as [c|] eqn:N.
  - destruct (p_queue c) as [h|] eqn:Q.
    + destruct (iv_live _ _ _ I _ _ _ N Q) as (_ & (dr & E1 & _) & E2). split; eexists; eassumption.
    + exact (proj2 (iv_dead _ _ _ I _ _ N Q)).
  - destruct (iv_new _ _ _ I _ N) as (-> & -> & -> & ->). split; exists []; reflexivity.
Qed.

(** ** Without close middlewares the cleanup comes before the socket number is free *)
Definition tight (w : worker) : Prop := forall p c, nth_error (w_conns w) p = Some c -> has c -> p_sock c = true.
Lemma tight_clean : forall fd w, tight w -> free fd w = true -> clean fd w.
Proof.
  intros fd w Ti F p c N E. destruct (p_queue c) as [h|] eqn:Q; [|reflexivity]. exfalso.
  pose proof (Ti p c N (some_has _ _ Q)) as S. unfold free in F. rewrite forallb_forall in F. specialize (F c (nth_error_In _ _ N)). rewrite S, E, Nat.eqb_refl in F. discriminate.
Qed.
Lemma tight_set : forall w p c c', tight w -> nth_error (w_conns w) p = Some c -> (has c' -> has c /\ p_sock c' = p_sock c) -> tight (conn_set w p c').
Proof.
  intros w p c c' Ti N K r d Nr Hd. rewrite conns_set in Nr. destruct (p =? r)%nat eqn:E.
  - apply Nat.eqb_eq in E; subst r. rewrite N in Nr. injection Nr as <-. destruct (K Hd) as (h & ->). exact (Ti _ _ N h).
  - exact (Ti _ _ Nr Hd).
Qed.
Lemma tight_step : forall beh pick fuel w ev w' b, tame beh -> tight w -> worker_step false beh pick fuel w ev = Some (w', b) -> tight w'.
Proof.
  intros beh pick fuel w ev w' b T Ti H.
  destruct ev as [fd|q x|q x|q x|q|q|q|q|q x|q|q]; cbn [worker_step] in H.
  - destruct (free fd w); [|discriminate]. injection H as <- <-. unfold connection_made.
    assert (K : forall x, p_sock x = true -> forall r d, nth_error (w_conns w ++ [x]) r = Some d -> has d -> p_sock d = true).
    { intros x Sx r d Nr Hd. destruct (Nat.lt_ge_cases r (List.length (w_conns w))) as [L|L]; [rewrite nth_error_app1 in Nr by exact L; exact (Ti _ _ Nr Hd)|].
      rewrite nth_error_app2 in Nr by exact L. destruct (r - List.length (w_conns w))%nat as [|k]; [injection Nr as <-; exact Sx|destruct k; discriminate]. }
    destruct (assoc fd (w_queues w)); intros r d Nr Hd; cbn [w_conns] in Nr; eapply K; eauto; reflexivity.
  - destruct (nth_error (w_conns w) q) as [c|]; [|discriminate]. destruct (p_queue c); injection H as <- <-; exact Ti.
  - destruct (nth_error (w_conns w) q) as [c|]; [|discriminate]. destruct (p_queue c); injection H as <- <-; exact Ti.
  - destruct (nth_error (w_conns w) q) as [c|]; [|discriminate]. destruct (p_lost c); [|discriminate]. injection H as <- <-; exact Ti.
  - destruct (nth_error (w_conns w) q) as [c|]; [|discriminate]. destruct (p_queue c) as [h|]; [|discriminate].
    destruct (q_in (heap_get w h)); [discriminate|]. injection H as <- <-; exact Ti.
  - destruct (nth_error (w_conns w) q) as [c|]; [|discriminate]. destruct (p_queue c) as [h|]; [|discriminate]. destruct (p_sending c); [|discriminate].
    destruct (q_out (heap_get w h)); [discriminate|]. injection H as <- <-; exact Ti.
  - destruct (nth_error (w_conns w) q) as [c|] eqn:N; [|discriminate]. destruct (p_transport c); [|discriminate]. injection H as <- <-. eapply tight_set; eauto.
  - destruct (nth_error (w_conns w) q) as [c|] eqn:N; [|discriminate]. destruct (p_transport c); [|discriminate]. injection H as <- <-. eapply tight_set; eauto.
  - destruct (nth_error (w_conns w) q) as [c|] eqn:N; [|discriminate]. injection H as <- <-. eapply tight_set; eauto.
  - destruct (nth_error (w_conns w) q) as [c|] eqn:N; [|discriminate]. destruct (p_lost c) eqn:Lo; [discriminate|].
    set (w1 := conn_set w q (closed_sock c)) in *.
    assert (N1 : nth_error (w_conns w1) q = Some (closed_sock c)) by (unfold w1; rewrite conns_set, Nat.eqb_refl, N; reflexivity).
    unfold connection_lost in H. rewrite N1 in H.
    destruct (lost_loop beh pick fuel (p_tasks (closed_sock c))) as [[l1 r1] e1] eqn:E.
    pose proof (loop_tame _ _ _ T _ _ _ _ E) as Ne. destruct e1; [|congruence|discriminate]. cbn [option_map snd] in H. injection H as <- <-. unfold lost_end.
    intros r d Nr Hd. rewrite conns_set in Nr.
    replace (w_conns (match p_queue c with Some h => heap_set w1 h (mkQs [] []) | None => w1 end)) with (w_conns w1) in Nr by (destruct (p_queue c); reflexivity).
    destruct (q =? r)%nat eqn:Eq.
    + apply Nat.eqb_eq in Eq; subst r. rewrite N1 in Nr. injection Nr as <-. exfalso. apply Hd. reflexivity.
    + unfold w1 in Nr. rewrite conns_set, Eq in Nr. exact (Ti _ _ Nr Hd).
  - destruct (nth_error (w_conns w) q) as [c|]; [|discriminate]. cbn [andb] in H. discriminate.
Qed.
Lemma tight_run : forall beh pick fuel, tame beh -> forall evs w w' l, tight w -> worker_run false beh pick fuel w evs = Some (w', l) -> tight w'.
Proof.
  intros beh pick fuel T. induction evs as [|ev evs IH]; intros w w' l Ti H; cbn [worker_run] in H; [injection H as <- <-; exact Ti|].
  destruct (worker_step false beh pick fuel w ev) as [[w1 b1]|] eqn:S; [|discriminate].
  destruct (worker_run false beh pick fuel w1 evs) as [[w2 b2]|] eqn:R; [|discriminate]. injection H as <- <-.
  eapply IH; [|exact R]. eapply tight_step; eauto.
Qed.
Lemma run_app : forall close beh pick fuel a b w, worker_run close beh pick fuel w (a ++ b) =
  match worker_run close beh pick fuel w a with Some (w1, l1) => match worker_run close beh pick fuel w1 b with Some (w2, l2) => Some (w2, l1 ++ l2) | None => None end | None => None end.
Proof.
  induction a as [|ev a IH]; intros b w; cbn [worker_run app].
  - destruct (worker_run close beh pick fuel w b) as [[? ?]|]; reflexivity.
  - destruct (worker_step close beh pick fuel w ev) as [[w1 b1]|]; [|reflexivity]. rewrite IH.
    destruct (worker_run close beh pick fuel w1 a) as [[w2 b2]|]; [|reflexivity].
    destruct (worker_run close beh pick fuel w2 b) as [[w3 b3]|]; [|reflexivity]. rewrite app_assoc. reflexivity.
Qed.
Lemma plain_clean : forall beh pick fuel evs w' l, tame beh -> worker_run false beh pick fuel worker_new evs = Some (w', l) ->
  forall a fd b w1 l1, evs = a ++ Connect fd :: b -> worker_run false beh pick fuel worker_new a = Some (w1, l1) -> clean fd w1.
Proof.
  intros beh pick fuel evs w' l T R a fd b w1 l1 -> Ra. rewrite run_app, Ra in R. cbn [worker_run worker_step] in R.
  destruct (free fd w1) eqn:F; [|discriminate]. apply tight_clean; [|exact F]. eapply tight_run; [exact T| |exact Ra]. intros p c N; destruct p; discriminate.
Qed.
