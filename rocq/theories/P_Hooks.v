(** Proofs about hooks (C64). *)
From Verif Require Import PyBytes M_Hooks S_Hooks.

Section Walk.
Variables (call : nat -> mark) (ended : nat -> ending -> mark).
Lemma walk_nil order : walk call ended order [] false = [].
Proof. now destruct order. Qed.
Lemma walk_call order : forall es i, nth_error order (List.length es) = Some i -> walk call ended order es true = walk call ended order es false ++ [call i].
Proof.
  induction order as [|j order IH]; intros es i N; [destruct es; discriminate|]. destruct es as [|e es]; cbn [walk].
  - cbn in N. now injection N as ->.
  - rewrite (IH es i N). reflexivity.
Qed.
Lemma walk_end order : forall es i e, nth_error order (List.length es) = Some i -> walk call ended order (es ++ [e]) false = walk call ended order es true ++ [ended i e].
Proof.
  induction order as [|j order IH]; intros es i e N; [destruct es; discriminate|]. destruct es as [|x es]; cbn [walk app].
  - cbn in N. injection N as ->. now rewrite walk_nil.
  - rewrite (IH es i e N). reflexivity.
Qed.
End Walk.
Lemma nth_seq n i : i < n -> nth_error (seq 0 n) i = Some i.
Proof. intros L. rewrite (nth_error_nth' _ 0) by now rewrite seq_length. now rewrite seq_nth. Qed.
Lemma nth_rev n i : i < n -> nth_error (rev (seq 0 n)) i = Some (n - 1 - i).
Proof. intros L. rewrite (nth_error_nth' _ 0) by now rewrite rev_length, seq_length. rewrite rev_nth by now rewrite seq_length. rewrite seq_length, seq_nth by lia. f_equal. lia. Qed.
Lemma falsy_snoc es : all_falsy es -> all_falsy (es ++ [Falsy]).
Proof. intros F. apply Forall_app. split; [exact F|now repeat constructor]. Qed.

Section Run.
Variables nc nl : nat.
Definition connect_ok (s : hooks) (log : list mark) : Prop :=
  match k_connect s with
  | NoTask => connect_marks log = [] /\ (k_made s = true -> nc = 0)
  | Ready => connect_marks log = [] /\ 0 < nc
  | Inside i => i < nc /\ exists es, all_falsy es /\ List.length es = i /\ connect_marks log = connect_walk nc es true
  | Over ok => (exists es, connect_marks log = connect_walk nc es false /\ finished nc es ok) \/ (ok = false /\ connect_marks log = [] /\ In Cleaned log)
  end.
Definition close_ok (s : hooks) (log : list mark) : Prop :=
  match k_close s with
  | NoTask => close_marks log = [] /\ (k_lost s = true -> nl = 0 /\ k_clean s = true)
  | Ready => close_marks log = [] /\ 0 < nl /\ k_lost s = true /\ k_clean s = false
  | Inside i => i < nl /\ k_lost s = true /\ k_clean s = false /\ exists es, all_falsy es /\ List.length es = nl - 1 - i /\ close_marks log = close_walk nl es true
  | Over ok => k_lost s = true /\ k_clean s = true /\ exists es, close_marks log = close_walk nl es false /\ finished nl es ok
  end.
Definition inv (s : hooks) (log : list mark) : Prop :=
  connect_ok s log /\ close_ok s log /\ (k_clean s = true <-> In Cleaned log) /\ (k_lost s = true <-> In LostMark log) /\ (k_clean s = true -> k_lost s = true) /\ (k_made s = false -> k_connect s = NoTask).

Lemma marks_app f (a b : list mark) : filter f (a ++ b) = filter f a ++ filter f b.
Proof. apply filter_app. Qed.
Lemma connect_ended s log i e : k_connect s = Inside i -> inv s log ->
  let t := connect_next nc i e in
  connect_ok (mkHooks (k_made s) t (k_close s) (k_lost s) (k_clean s) (k_wait s)) (log ++ ConnectEnded i e :: called ConnectCalled t).
Proof.
  intros K (C & _). unfold connect_ok in C. rewrite K in C. destruct C as (L & es & F & N & W). cbv zeta. unfold connect_ok. cbn [k_connect].
  assert (nth_error (seq 0 nc) (List.length es) = Some i) as Ni by (rewrite N; now apply nth_seq).
  pose proof (walk_end ConnectCalled ConnectEnded _ es i e Ni) as We.
  assert (forall t, connect_marks (log ++ ConnectEnded i e :: called ConnectCalled t) = connect_walk nc (es ++ [e]) false ++ called ConnectCalled t) as M.
  { intros t. unfold connect_marks. rewrite marks_app. cbn [filter is_connect]. fold (connect_marks log). rewrite W. unfold connect_walk. rewrite We, <- app_assoc. cbn [app].
    f_equal. f_equal. destruct t; reflexivity. }
  destruct e; cbn [connect_next].
  - destruct (S i <? nc) eqn:B.
    + apply Nat.ltb_lt in B. split; [exact B|]. exists (es ++ [Falsy]). split; [now apply falsy_snoc|]. split; [rewrite app_length; cbn; lia|]. rewrite M. cbn [called].
      unfold connect_walk. rewrite (walk_call _ _ _ (es ++ [Falsy]) (S i)); [reflexivity|]. rewrite app_length, N. cbn [List.length]. rewrite Nat.add_1_r. now apply nth_seq.
    + apply Nat.ltb_ge in B. left. exists (es ++ [Falsy]). split; [rewrite M; cbn [called]; apply app_nil_r|]. left. split; [now apply falsy_snoc|]. split; [rewrite app_length; cbn; lia|reflexivity].
  - left. exists (es ++ [Truthy]). split; [rewrite M; cbn [called]; apply app_nil_r|]. right. exists es, Truthy. split; [reflexivity|]. split; [exact F|]. split; [rewrite app_length; cbn; lia|now left].
  - left. exists (es ++ [Fails]). split; [rewrite M; cbn [called]; apply app_nil_r|]. right. exists es, Fails. split; [reflexivity|]. split; [exact F|]. split; [rewrite app_length; cbn; lia|now right].
Qed.
Lemma close_ended s log i e : k_close s = Inside i -> inv s log ->
  let t := close_next i e in
  close_ok (mkHooks (k_made s) (k_connect s) t (k_lost s) (k_clean s || is_over t) (k_wait s)) (log ++ CloseEnded i e :: called CloseCalled t ++ cleaned t).
Proof.
  intros K (_ & C & _). unfold close_ok in C. rewrite K in C. destruct C as (L & Lo & Cl & es & F & N & W). cbv zeta. unfold close_ok. cbn [k_close k_lost k_clean]. rewrite Cl.
  assert (nth_error (rev (seq 0 nl)) (List.length es) = Some i) as Ni by (rewrite N, nth_rev by lia; f_equal; lia).
  pose proof (walk_end CloseCalled CloseEnded _ es i e Ni) as We.
  assert (forall t, close_marks (log ++ CloseEnded i e :: called CloseCalled t ++ cleaned t) = close_walk nl (es ++ [e]) false ++ called CloseCalled t) as M.
  { intros t. unfold close_marks. rewrite marks_app. cbn [filter is_close]. fold (close_marks log). rewrite W. unfold close_walk. rewrite We, <- app_assoc. cbn [app].
    f_equal. f_equal. destruct t; reflexivity. }
  destruct e; cbn [close_next].
  - destruct i as [|i]; cbn [is_over orb].
    + split; [exact Lo|]. split; [reflexivity|]. exists (es ++ [Falsy]). split; [rewrite M; cbn [called]; apply app_nil_r|]. left. split; [now apply falsy_snoc|].
      split; [rewrite app_length; cbn; lia|reflexivity].
    + split; [lia|]. split; [exact Lo|]. split; [reflexivity|]. exists (es ++ [Falsy]). split; [now apply falsy_snoc|]. split; [rewrite app_length; cbn; lia|]. rewrite M. cbn [called].
      unfold close_walk. rewrite (walk_call _ _ _ (es ++ [Falsy]) i); [reflexivity|]. rewrite app_length, N. cbn [List.length]. rewrite nth_rev by lia. f_equal. lia.
  - split; [exact Lo|]. split; [reflexivity|]. exists (es ++ [Truthy]). split; [rewrite M; cbn [called]; apply app_nil_r|]. right. exists es, Truthy. split; [reflexivity|]. split; [exact F|].
    split; [rewrite app_length; cbn; lia|now left].
  - split; [exact Lo|]. split; [reflexivity|]. exists (es ++ [Fails]). split; [rewrite M; cbn [called]; apply app_nil_r|]. right. exists es, Fails. split; [reflexivity|]. split; [exact F|].
    split; [rewrite app_length; cbn; lia|now right].
Qed.

Lemma connect_keep s s' log m : k_connect s' = k_connect s -> (k_made s' = true -> nc = 0 \/ k_made s = true) -> filter is_connect m = [] -> connect_ok s log -> connect_ok s' (log ++ m).
Proof.
  intros K Md N C. unfold connect_ok in *. rewrite K. unfold connect_marks. rewrite marks_app, N, app_nil_r. fold (connect_marks log).
  destruct (k_connect s) as [| |i|ok].
  - destruct C as (C1 & C2). split; [exact C1|]. intros X. destruct (Md X); auto.
  - exact C.
  - exact C.
  - destruct C as [C|(C1 & C2 & C3)]; [now left|right]. split; [exact C1|]. split; [exact C2|]. apply in_or_app. now left.
Qed.
Lemma close_keep s s' log m : k_close s' = k_close s -> k_lost s' = k_lost s -> k_clean s' = k_clean s -> filter is_close m = [] -> close_ok s log -> close_ok s' (log ++ m).
Proof.
  intros K L C N H. unfold close_ok in *. rewrite K, L, C. unfold close_marks. rewrite marks_app, N, app_nil_r. exact H.
Qed.
Lemma in_keep (x : mark) (b : bool) log m : (b = true <-> In x log) -> ~ In x m -> (b = true <-> In x (log ++ m)).
Proof. intros H N. rewrite in_app_iff. tauto. Qed.
Lemma called_other f t x : (forall i, f i <> x) -> ~ In x (called f t).
Proof. intros N. destruct t; cbn [called In]; intuition. eapply N; eassumption. Qed.

Ltac ink := eapply in_keep; [eassumption|cbn [In]; intuition discriminate].
Lemma inv_step s log ev s' m : inv s log -> hook_step nc nl s ev = Some (s', m) -> inv s' (log ++ m).
Proof.
  intros I H. pose proof I as (C & L & Ic & Il & Icl & Im). unfold inv. destruct ev; cbn [hook_step] in H.
  - destruct (k_made s) eqn:Md; [discriminate|]. injection H as <- <-. cbn [k_clean k_lost k_made k_connect]. split; [|split; [|split; [|split; [|split]]]].
    + rewrite app_nil_r. specialize (Im eq_refl). unfold connect_ok in *. rewrite Im in C. cbn [k_connect k_made]. destruct (Nat.eqb_spec nc 0) as [E|E].
      * split; [apply C|easy].
      * split; [apply C|lia].
    + now apply (close_keep s).
    + ink.
    + ink.
    + exact Icl.
    + easy.
  - destruct (k_connect s) eqn:K; try discriminate. injection H as <- <-. cbn [k_clean k_lost k_made k_connect]. split; [|split; [|split; [|split; [|split]]]].
    + unfold connect_ok in *. rewrite K in C. cbn [k_connect]. destruct C as (C1 & C2). split; [exact C2|]. exists []. split; [constructor|]. split; [reflexivity|].
      unfold connect_marks. rewrite marks_app. fold (connect_marks log). rewrite C1. unfold connect_walk. rewrite (walk_call _ _ _ [] 0) by (cbn [List.length]; now apply nth_seq). now rewrite walk_nil.
    + now apply (close_keep s).
    + ink.
    + ink.
    + exact Icl.
    + intros X. specialize (Im X). congruence.
  - destruct (k_connect s) as [| |i|ok] eqn:K; try discriminate. injection H as <- <-. cbn [k_clean k_lost k_made k_connect].
    assert (forall x, (forall j, ConnectCalled j <> x) -> (forall j d, ConnectEnded j d <> x) -> ~ In x (ConnectEnded i e :: called ConnectCalled (connect_next nc i e))) as N.
    { intros x X1 X2 [X|X]; [now apply (X2 i e)|]. now apply (called_other ConnectCalled (connect_next nc i e) x X1). }
    split; [|split; [|split; [|split; [|split]]]].
    + now apply (connect_ended s log i e).
    + apply (close_keep s); try reflexivity; [|exact L]. cbn [filter is_close]. now destruct (connect_next nc i e).
    + eapply in_keep; [exact Ic|apply N; discriminate].
    + eapply in_keep; [exact Il|apply N; discriminate].
    + exact Icl.
    + intros X. specialize (Im X). congruence.
  - destruct (k_connect s) eqn:K; try discriminate. destruct (k_clean s) eqn:Cl; [|discriminate]. injection H as <- <-. cbn [k_clean k_lost k_made k_connect]. split; [|split; [|split; [|split; [|split]]]].
    + unfold connect_ok in *. rewrite K in C. cbn [k_connect]. rewrite app_nil_r. right. split; [reflexivity|]. split; [apply C|now apply Ic].
    + now apply (close_keep s).
    + ink.
    + ink.
    + exact Icl.
    + intros X. specialize (Im X). congruence.
  - destruct (k_made s && negb (k_lost s)) eqn:B; [|discriminate]. apply andb_true_iff in B. destruct B as (Md & _). destruct (nc =? 0); injection H as <- <-; cbn [k_clean k_lost k_made k_connect];
      (split; [|split; [|split; [|split; [|split]]]]); try (now apply (connect_keep s)); try (now apply (close_keep s)); try (apply (connect_keep s); try reflexivity; [now right|exact C]); try ink; try exact Icl; try exact Im.
  - destruct (existsb (Nat.eqb k) (k_wait s)); [|discriminate]. destruct (k_connect s) as [| |i|ok] eqn:K; try discriminate. injection H as <- <-. cbn [k_clean k_lost k_made k_connect].
    (split; [|split; [|split; [|split; [|split]]]]).
    + apply (connect_keep s); [now symmetry|now right| |exact C]. now destruct ok.
    + apply (close_keep s); try reflexivity; [|exact L]. now destruct ok.
    + eapply in_keep; [exact Ic|destruct ok; cbn [In]; intuition discriminate].
    + eapply in_keep; [exact Il|destruct ok; cbn [In]; intuition discriminate].
    + exact Icl.
    + intros X. specialize (Im X). congruence.
  - destruct (k_made s && negb (k_lost s)) eqn:B; [|discriminate]. apply andb_true_iff in B. destruct B as (Md & Lo). apply negb_true_iff in Lo.
    assert (k_close s = NoTask /\ k_clean s = false) as (K & Cl).
    { unfold close_ok in L. destruct (k_close s); [|destruct L as (_ & _ & X & _); congruence|destruct L as (_ & X & _); congruence|destruct L as (X & _); congruence].
      split; [reflexivity|]. destruct (k_clean s); [|reflexivity]. now rewrite Icl in Lo. }
    unfold close_ok in L. rewrite K in L. destruct L as (L1 & _).
    destruct (Nat.eqb_spec nl 0) as [E|E]; injection H as <- <-; cbn [k_clean k_lost k_made k_connect]; (split; [|split; [|split; [|split; [|split]]]]).
    + apply (connect_keep s); try reflexivity; [now right|exact C].
    + unfold close_ok. cbn [k_close k_lost k_clean]. rewrite K. unfold close_marks. rewrite marks_app. fold (close_marks log). rewrite L1. now split.
    + rewrite in_app_iff. split; [intros _; right; cbn [In]; intuition|easy].
    + rewrite in_app_iff. split; [intros _; right; cbn [In]; intuition|easy].
    + easy.
    + exact Im.
    + apply (connect_keep s); try reflexivity; [now right|exact C].
    + unfold close_ok. cbn [k_close k_lost k_clean]. unfold close_marks. rewrite marks_app. fold (close_marks log). rewrite L1. repeat split; [lia|exact Cl].
    + eapply in_keep; [exact Ic|cbn [In]; intuition discriminate].
    + rewrite in_app_iff. split; [intros _; right; cbn [In]; intuition|easy].
    + easy.
    + exact Im.
  - destruct (k_close s) eqn:K; try discriminate. injection H as <- <-. unfold close_ok in L. rewrite K in L. destruct L as (L1 & L2 & L3 & L4). cbn [k_clean k_lost k_made k_connect].
    split; [|split; [|split; [|split; [|split]]]].
    + apply (connect_keep s); try reflexivity; [now right|exact C].
    + unfold close_ok. cbn [k_close k_lost k_clean]. split; [lia|]. split; [exact L3|]. split; [exact L4|]. exists []. split; [constructor|]. split; [cbn; lia|].
      unfold close_marks. rewrite marks_app. fold (close_marks log). rewrite L1. unfold close_walk. rewrite (walk_call _ _ _ [] (nl - 1)); [now rewrite walk_nil|].
      cbn [List.length]. rewrite nth_rev by lia. f_equal. lia.
    + ink.
    + ink.
    + exact Icl.
    + exact Im.
  - destruct (k_close s) as [| |i|ok] eqn:K; try discriminate. injection H as <- <-. pose proof L as L'. unfold close_ok in L'. rewrite K in L'. destruct L' as (L1 & L2 & L3 & L4). cbn [k_clean k_lost k_made k_connect].
    split; [|split; [|split; [|split; [|split]]]].
    + apply (connect_keep s); try reflexivity; [now right| |exact C]. cbn [filter is_connect]. now destruct (close_next i e).
    + now apply (close_ended s log i e).
    + rewrite L3 in *. cbn [orb]. destruct (close_next i e); cbn [is_over called cleaned app]; rewrite in_app_iff; cbn [In]; intuition discriminate.
    + eapply in_keep; [exact Il|]. intros [X|X]; [discriminate|]. apply in_app_or in X. destruct X as [X|X]; [now apply (called_other CloseCalled (close_next i e) LostMark)|].
      destruct (close_next i e); cbn [cleaned In] in X; intuition discriminate.
    + intros _. exact L2.
    + exact Im.
Qed.
Lemma inv_new : inv hooks_new [].
Proof. repeat split; try easy. Qed.
Lemma inv_run evs : forall s log s' m, inv s log -> hook_run nc nl s evs = Some (s', m) -> inv s' (log ++ m).
Proof.
  induction evs as [|ev evs IH]; intros s log s' m I H; cbn [hook_run] in H.
  - injection H as <- <-. now rewrite app_nil_r.
  - destruct (hook_step nc nl s ev) as [[s1 l1]|] eqn:E1; [|discriminate]. destruct (hook_run nc nl s1 evs) as [[s2 l2]|] eqn:E2; [|discriminate]. injection H as <- <-.
    rewrite app_assoc. eapply IH; [|exact E2]. now apply (inv_step s log ev).
Qed.
(** Where an observation comes from. *)
Lemma run_split evs : forall s s' l1 x l2, hook_run nc nl s evs = Some (s', l1 ++ x :: l2) ->
  exists evs1 ev evs2 s1 s2 la p q l3, hook_run nc nl s evs1 = Some (s1, la) /\ hook_step nc nl s1 ev = Some (s2, p ++ x :: q) /\ hook_run nc nl s2 evs2 = Some (s', l3) /\
    l1 = la ++ p /\ l2 = q ++ l3.
Proof.
  induction evs as [|ev evs IH]; intros s s' l1 x l2 H; cbn [hook_run] in H; [destruct l1; discriminate|].
  destruct (hook_step nc nl s ev) as [[s1 m1]|] eqn:E1; [|discriminate]. destruct (hook_run nc nl s1 evs) as [[s2 m2]|] eqn:E2; [|discriminate]. injection H as <- E.
  destruct (Nat.lt_ge_cases (List.length l1) (List.length m1)) as [B|B].
  - exists [], ev, evs, s, s1, [], l1. assert (firstn (List.length m1) (l1 ++ x :: l2) = m1) as F1 by (rewrite <- E, firstn_app, firstn_all, Nat.sub_diag, firstn_O; apply app_nil_r).
    rewrite firstn_app, firstn_all2 in F1 by lia. replace (List.length m1 - List.length l1) with (S (List.length m1 - List.length l1 - 1)) in F1 by lia. cbn [firstn] in F1.
    set (q := firstn _ l2) in F1. exists q, m2. split; [reflexivity|]. split; [rewrite E1, <- F1; reflexivity|]. split; [exact E2|]. split; [reflexivity|].
    rewrite <- F1, <- app_assoc in E. cbn [app] in E. apply app_inv_head in E. congruence.
  - assert (exists l1', l1 = m1 ++ l1') as (l1' & ->).
    { exists (skipn (List.length m1) l1). rewrite <- (firstn_skipn (List.length m1) l1) at 1. f_equal.
      assert (firstn (List.length m1) (l1 ++ x :: l2) = m1) as F1 by (rewrite <- E, firstn_app, firstn_all, Nat.sub_diag, firstn_O; apply app_nil_r).
      rewrite firstn_app in F1. replace (List.length m1 - List.length l1) with 0 in F1 by lia. now rewrite firstn_O, app_nil_r in F1. }
    rewrite <- app_assoc in E. apply app_inv_head in E. subst m2. destruct (IH _ _ _ _ _ E2) as (evs1 & ev' & evs2 & s1' & s2' & la & p & q & l3 & R1 & St & R2 & -> & ->).
    exists (ev :: evs1), ev', evs2, s1', s2', (m1 ++ la), p, q, l3. split; [cbn [hook_run]; now rewrite E1, R1|]. split; [exact St|]. split; [exact R2|]. split; [apply app_assoc|reflexivity].
Qed.

(** ** After the cleanup *)
Definition over (s : hooks) : Prop := k_lost s = true /\ match k_close s with NoTask | Over _ => True | _ => False end.
Lemma over_run evs : forall s s' m, over s -> hook_run nc nl s evs = Some (s', m) -> close_marks m = [] /\ ~ In Cleaned m.
Proof.
  induction evs as [|ev evs IH]; intros s s' m (Lo & Cl) H; cbn [hook_run] in H; [injection H as <- <-; now split|].
  destruct (hook_step nc nl s ev) as [[s1 l1]|] eqn:E1; [|discriminate]. destruct (hook_run nc nl s1 evs) as [[s2 l2]|] eqn:E2; [|discriminate]. injection H as <- <-.
  assert (over s1 /\ close_marks l1 = [] /\ ~ In Cleaned l1) as (O & M1 & N1).
  { unfold over. destruct ev; cbn [hook_step] in E1.
    - destruct (k_made s); [discriminate|]. injection E1 as <- <-. now repeat split.
    - destruct (k_connect s); try discriminate. injection E1 as <- <-. repeat split; try assumption. cbn [In]. intuition discriminate.
    - destruct (k_connect s); try discriminate. injection E1 as <- <-. repeat split; try assumption.
      + cbn [close_marks filter is_close]. now destruct (connect_next nc i e).
      + intros [X|X]; [discriminate|]. now apply (called_other ConnectCalled (connect_next nc i e) Cleaned).
    - destruct (k_connect s); try discriminate. destruct (k_clean s); [|discriminate]. injection E1 as <- <-. now repeat split.
    - rewrite Lo, andb_false_r in E1. discriminate.
    - destruct (existsb _ _); [|discriminate]. destruct (k_connect s) as [| |i|ok]; try discriminate. injection E1 as <- <-. repeat split; try assumption; destruct ok; try reflexivity; cbn [In]; intuition discriminate.
    - rewrite Lo, andb_false_r in E1. discriminate.
    - destruct (k_close s); easy.
    - destruct (k_close s); easy. }
  destruct (IH _ _ _ O E2) as (M2 & N2). split; [unfold close_marks in *; now rewrite marks_app, M1, M2|]. rewrite in_app_iff. tauto.
Qed.
Lemma step_cleaned s log ev s' p q : inv s log -> hook_step nc nl s ev = Some (s', p ++ Cleaned :: q) -> q = [] /\ over s' /\
  In LostMark (log ++ p) /\ exists es ok, close_marks (log ++ p) = close_walk nl es false /\ finished nl es ok.
Proof.
  intros I H. pose proof (inv_step _ _ _ _ _ I H) as I'. destruct I as (_ & L & _ & Il & _).
  assert (forall (a : mark) l, a <> Cleaned -> ~ In Cleaned l -> a :: l = p ++ Cleaned :: q -> False) as K.
  { intros a l N1 N2 E. assert (In Cleaned (a :: l)) as [X|X] by (rewrite E; apply in_or_app; right; now left); easy. }
  destruct ev; cbn [hook_step] in H.
  - destruct (k_made s); [discriminate|]. injection H as _ E. now destruct p.
  - destruct (k_connect s); try discriminate. injection H as _ E. exfalso. eapply K; [| |exact E]; easy.
  - destruct (k_connect s); try discriminate. injection H as _ E. exfalso. eapply K; [| |exact E]; [easy|]. now apply called_other.
  - destruct (k_connect s); try discriminate. destruct (k_clean s); [|discriminate]. injection H as _ E. now destruct p.
  - destruct (k_made s && negb (k_lost s)); [|discriminate]. destruct (nc =? 0); injection H as _ E; [exfalso; eapply K; [| |exact E]; easy|now destruct p].
  - destruct (existsb _ _); [|discriminate]. destruct (k_connect s) as [| |i|ok]; try discriminate. injection H as _ E. exfalso. eapply K; [| |exact E]; [now destruct ok|easy].
  - destruct (k_made s && negb (k_lost s)) eqn:B; [|discriminate]. apply andb_true_iff in B. destruct B as (_ & Lo). apply negb_true_iff in Lo.
    destruct (Nat.eqb_spec nl 0) as [Z|Z]; injection H as <- E; [|exfalso; eapply K; [| |exact E]; easy].
    assert (p = [LostMark] /\ q = []) as (-> & ->). { destruct p as [|a [|b p]]; [discriminate| |]; injection E; [now intros <- <-|]. intros E' _ _. now destruct p. }
    assert (k_close s = NoTask /\ close_marks log = []) as (Kc & Mc).
    { unfold close_ok in L. destruct (k_close s); [|destruct L as (_ & _ & X & _); congruence|destruct L as (_ & X & _); congruence|destruct L as (X & _); congruence]. split; [reflexivity|apply L]. }
    split; [reflexivity|]. split; [split; [reflexivity|cbn [k_close]; now rewrite Kc]|]. split; [apply in_or_app; right; now left|].
    exists [], true. split; [unfold close_marks; rewrite marks_app; fold (close_marks log); rewrite Mc; unfold close_walk; now rewrite walk_nil|]. left. split; [constructor|]. now split.
  - destruct (k_close s); try discriminate. injection H as _ E. exfalso. eapply K; [| |exact E]; easy.
  - destruct (k_close s) as [| |i|ok] eqn:Kc; try discriminate. injection H as <- E. unfold close_ok in L. rewrite Kc in L. destruct L as (_ & Lo & _).
    destruct (close_next i e) as [| |j|ok] eqn:Nx; cbn [called cleaned app] in E; try (exfalso; eapply K; [| |exact E]; [easy|cbn [In]; intuition discriminate]).
    assert (p = [CloseEnded i e] /\ q = []) as (-> & ->). { destruct p as [|a [|b p]]; [discriminate| |]; injection E; [now intros <- <-|]. intros E' _ _. now destruct p. }
    split; [reflexivity|]. split; [now split|]. split; [apply in_or_app; left; now apply Il|].
    destruct I' as (_ & L' & _). unfold close_ok in L'. cbn [k_close] in L'. destruct L' as (_ & _ & es & W & Fi). exists es, ok. split; [|exact Fi].
    rewrite <- W. unfold close_marks. rewrite !marks_app. cbn [filter is_close]. reflexivity.
Qed.
(** What lets requests go on. *)
Lemma step_handles s log ev s' p k q : inv s log -> hook_step nc nl s ev = Some (s', p ++ Handles k :: q) -> p = [] /\ (nc = 0 \/ k_connect s = Over true).
Proof.
  intros I H.
  assert (forall (a : mark) l, a <> Handles k -> ~ In (Handles k) l -> a :: l = p ++ Handles k :: q -> False) as K.
  { intros a l N1 N2 E. assert (In (Handles k) (a :: l)) as [X|X] by (rewrite E; apply in_or_app; right; now left); easy. }
  destruct ev; cbn [hook_step] in H.
  - destruct (k_made s); [discriminate|]. injection H as _ E. now destruct p.
  - destruct (k_connect s); try discriminate. injection H as _ E. exfalso. eapply K; [| |exact E]; easy.
  - destruct (k_connect s); try discriminate. injection H as _ E. exfalso. eapply K; [| |exact E]; [easy|]. now apply called_other.
  - destruct (k_connect s); try discriminate. destruct (k_clean s); [|discriminate]. injection H as _ E. now destruct p.
  - destruct (k_made s && negb (k_lost s)); [|discriminate]. destruct (Nat.eqb_spec nc 0) as [Z|Z]; injection H as _ E; [|now destruct p].
    destruct p as [|a p]; [split; [reflexivity|now left]|]. injection E as _ E. now destruct p.
  - destruct (existsb _ _); [|discriminate]. destruct (k_connect s) as [| |i|ok]; try discriminate. injection H as _ E. destruct p as [|a p]; [|injection E as _ E; now destruct p].
    split; [reflexivity|]. right. destruct ok; [reflexivity|discriminate].
  - destruct (k_made s && negb (k_lost s)); [|discriminate]. destruct (nl =? 0); injection H as _ E; exfalso; (eapply K; [| |exact E]); try easy; cbn [In]; intuition discriminate.
  - destruct (k_close s); try discriminate. injection H as _ E. exfalso. eapply K; [| |exact E]; easy.
  - destruct (k_close s) as [| |i|ok]; try discriminate. injection H as _ E. exfalso. eapply K; [| |exact E]; [easy|].
    intros X. apply in_app_or in X. destruct X as [X|X]; [now apply (called_other CloseCalled (close_next i e) (Handles k))|destruct (close_next i e); cbn [cleaned In] in X; intuition discriminate].
Qed.
Lemma step_refuses s log ev s' p k q : inv s log -> hook_step nc nl s ev = Some (s', p ++ Refuses k :: q) -> p = [] /\ k_connect s = Over false.
Proof.
  intros I H.
  assert (forall (a : mark) l, a <> Refuses k -> ~ In (Refuses k) l -> a :: l = p ++ Refuses k :: q -> False) as K.
  { intros a l N1 N2 E. assert (In (Refuses k) (a :: l)) as [X|X] by (rewrite E; apply in_or_app; right; now left); easy. }
  destruct ev; cbn [hook_step] in H.
  - destruct (k_made s); [discriminate|]. injection H as _ E. now destruct p.
  - destruct (k_connect s); try discriminate. injection H as _ E. exfalso. eapply K; [| |exact E]; easy.
  - destruct (k_connect s); try discriminate. injection H as _ E. exfalso. eapply K; [| |exact E]; [easy|]. now apply called_other.
  - destruct (k_connect s); try discriminate. destruct (k_clean s); [|discriminate]. injection H as _ E. now destruct p.
  - destruct (k_made s && negb (k_lost s)); [|discriminate]. destruct (Nat.eqb_spec nc 0) as [Z|Z]; injection H as _ E; [|now destruct p].
    exfalso. eapply K; [| |exact E]; easy.
  - destruct (existsb _ _); [|discriminate]. destruct (k_connect s) as [| |i|ok]; try discriminate. injection H as _ E. destruct p as [|a p]; [|injection E as _ E; now destruct p].
    split; [reflexivity|]. destruct ok; [discriminate|reflexivity].
  - destruct (k_made s && negb (k_lost s)); [|discriminate]. destruct (nl =? 0); injection H as _ E; exfalso; (eapply K; [| |exact E]); try easy; cbn [In]; intuition discriminate.
  - destruct (k_close s); try discriminate. injection H as _ E. exfalso. eapply K; [| |exact E]; easy.
  - destruct (k_close s) as [| |i|ok]; try discriminate. injection H as _ E. exfalso. eapply K; [| |exact E]; [easy|].
    intros X. apply in_app_or in X. destruct X as [X|X]; [now apply (called_other CloseCalled (close_next i e) (Refuses k))|destruct (close_next i e); cbn [cleaned In] in X; intuition discriminate].
Qed.
(** ** The close middlewares come to an end *)
Definition left_over (s : hooks) : nat := match k_close s with Ready => S nl | Inside i => S i | _ => 0 end.
Lemma step_left s log ev s' m : inv s log -> k_lost s = true -> hook_step nc nl s ev = Some (s', m) -> k_lost s' = true /\
  (if close_event ev then left_over s' < left_over s else left_over s' = left_over s).
Proof.
  intros I Lo H. destruct I as (_ & L & _). unfold left_over, close_ok in *. destruct ev; cbn [hook_step close_event] in *.
  - destruct (k_made s); [discriminate|]. injection H as <- <-. now split.
  - destruct (k_connect s); try discriminate. injection H as <- <-. now split.
  - destruct (k_connect s); try discriminate. injection H as <- <-. now split.
  - destruct (k_connect s); try discriminate. destruct (k_clean s); [|discriminate]. injection H as <- <-. now split.
  - rewrite Lo, andb_false_r in H. discriminate.
  - destruct (existsb _ _); [|discriminate]. destruct (k_connect s); try discriminate. injection H as <- <-. now split.
  - rewrite Lo, andb_false_r in H. discriminate.
  - destruct (k_close s) eqn:K; try discriminate. injection H as <- <-. cbn [k_lost k_close]. split; [exact Lo|lia].
  - destruct (k_close s) as [| |i|ok] eqn:K; try discriminate. injection H as <- <-. cbn [k_lost k_close]. split; [exact Lo|]. destruct e, i; cbn [close_next]; lia.
Qed.
Lemma run_left evs : forall s log s' m, inv s log -> k_lost s = true -> hook_run nc nl s evs = Some (s', m) ->
  left_over s' + List.length (filter close_event evs) <= left_over s.
Proof.
  induction evs as [|ev evs IH]; intros s log s' m I Lo H; cbn [hook_run] in H; [injection H as <- <-; cbn; lia|].
  destruct (hook_step nc nl s ev) as [[s1 l1]|] eqn:E1; [|discriminate]. destruct (hook_run nc nl s1 evs) as [[s2 l2]|] eqn:E2; [|discriminate]. injection H as <- <-.
  destruct (step_left _ _ _ _ _ I Lo E1) as (Lo1 & D). specialize (IH s1 (log ++ l1) s2 l2 (inv_step _ _ _ _ _ I E1) Lo1 E2). cbn [filter]. destruct (close_event ev); cbn [List.length]; lia.
Qed.
Lemma left_pos s log : inv s log -> k_lost s = true -> k_clean s = false -> 0 < left_over s /\
  ((exists r, hook_step nc nl s CloseRuns = Some r) \/ (forall e, exists r, hook_step nc nl s (CloseReturns e) = Some r)).
Proof.
  intros (_ & L & _) Lo Cl. unfold left_over, close_ok in *. cbn [hook_step]. destruct (k_close s) as [| |i|ok]; [destruct L as (_ & L); destruct (L Lo); congruence| | |destruct L as (_ & L & _); congruence].
  - split; [lia|]. left. now eexists.
  - split; [lia|]. right. intros e. now eexists.
Qed.
Lemma finished_falsy es ok : finished nc es ok -> ok = false -> exists es', es = es' ++ [Fails].
Proof. intros [(_ & _ & E)|(es' & e & E & _ & _ & [(_ & X)|(-> & _)])] O; try congruence. now exists es'. Qed.
End Run.
