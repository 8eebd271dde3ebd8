From Verif Require Import PyBytes PyBytesFacts PyRe.
From Coq Require Import ZifyN ZifyBool ZifyNat.

(** ** What the matcher finds: the relation between the places before and after *)
Inductive den : re -> st -> st -> Prop :=
| dempty s : den REmpty s s
| dlit c s : one (Ascii.eqb c) s = true -> den (RLit c) s (advance s)
| dany s : one (fun x => negb (Ascii.eqb x LF)) s = true -> den RAny s (advance s)
| dset_ neg xs s : one (fun x => xorb neg (existsb (fun c => in_cls c x) xs)) s = true -> den (RSet neg xs) s (advance s)
| dbol s : s_pos s = 0 -> den RBol s s
| deol s : at_end s = true -> den REol s s
| dseq a b s s1 s2 : den a s s1 -> den b s1 s2 -> den (RSeq a b) s s2
| dalt1 a b s s' : den a s s' -> den (RAlt a b) s s'
| dalt2 a b s s' : den b s s' -> den (RAlt a b) s s'
| dstar0 a s : den (RStar a) s s
| dstar1 a s s1 s2 : den a s s1 -> s_pos s1 <> s_pos s -> den (RStar a) s1 s2 -> den (RStar a) s s2
| dgroup n a s s' : den a s s' -> den (RGroup n a) s (capture n s s').

Lemma one_rest p s : one p s = true -> exists c, s_rest s = c :: s_rest (advance s) /\ p c = true.
Proof. unfold one, advance. destruct (s_rest s) as [|c r]; [discriminate|]. intros H. now exists c. Qed.
Lemma den_moves r s s' : den r s s' -> exists l, s_rest s = l ++ s_rest s' /\ s_pos s' = s_pos s + List.length l.
Proof.
  assert (forall p s, one p s = true -> exists l, s_rest s = l ++ s_rest (advance s) /\ s_pos (advance s) = s_pos s + List.length l) as K.
  { intros p s0 H. destruct (one_rest p s0 H) as (c & E & _). exists [c]. rewrite E. split; [reflexivity|]. unfold advance. cbn [s_pos List.length]. lia. }
  induction 1 as [s|c s H|s H|neg xs s H|s H|s H|a b s s1 s2 _ (l1 & E1 & P1) _ (l2 & E2 & P2)|a b s s' _ IH|a b s s' _ IH|a s|a s s1 s2 _ (l1 & E1 & P1) _ _ (l2 & E2 & P2)|n a s s' _ IH];
    try (now apply (K _ _ H)); try exact IH; try (exists []; split; [reflexivity|cbn; lia]).
  - exists (l1 ++ l2). rewrite <- app_assoc, app_length. split; [congruence|lia].
  - exists (l1 ++ l2). rewrite <- app_assoc, app_length. split; [congruence|lia].
Qed.

Lemma mt_sound {R} r : forall s (k : st -> option R) x, mt r s k = Some x -> exists s', den r s s' /\ k s' = Some x.
Proof.
  induction r as [|c| |neg xs| | |a IHa b IHb|a IHa b IHb|a IHa|n a IHa]; intros s k x H; cbn [mt] in H.
  - exists s. split; [constructor|exact H].
  - destruct (one _ s) eqn:E; [|discriminate]. eexists. split; [now constructor|exact H].
  - destruct (one _ s) eqn:E; [|discriminate]. eexists. split; [now constructor|exact H].
  - destruct (one _ s) eqn:E; [|discriminate]. eexists. split; [now constructor|exact H].
  - destruct (Nat.eqb_spec (s_pos s) 0); [|discriminate]. eexists. split; [now constructor|exact H].
  - destruct (at_end s) eqn:E; [|discriminate]. eexists. split; [now constructor|exact H].
  - apply IHa in H as (s1 & D1 & H). apply IHb in H as (s2 & D2 & H). exists s2. split; [now apply (dseq _ _ _ s1)|exact H].
  - destruct (mt a s k) eqn:E.
    + injection H as ->. apply IHa in E as (s' & D & E). exists s'. split; [now apply dalt1|exact E].
    + apply IHb in H as (s' & D & H). exists s'. split; [now apply dalt2|exact H].
  - revert s H. set (loop := fix loop (n : nat) (s : st) : option R := match n with O => k s | S n' => match mt a s (fun s' => if Nat.eqb (s_pos s') (s_pos s) then None else loop n' s') with Some x => Some x | None => k s end end).
    assert (forall n s, loop n s = Some x -> exists s', den (RStar a) s s' /\ k s' = Some x) as K; [|intros s; exact (K (S (List.length (s_rest s))) s)].
    induction n as [|n IH]; intros s H; cbn in H; [exists s; split; [constructor|exact H]|].
    destruct (mt a s _) as [y|] eqn:E.
    + injection H as ->. apply IHa in E as (s1 & D1 & E). destruct (Nat.eqb_spec (s_pos s1) (s_pos s)) as [|N]; [discriminate|]. apply IH in E as (s2 & D2 & E). exists s2. split; [now apply (dstar1 _ _ s1)|exact E].
    + exists s. split; [constructor|exact H].
  - apply IHa in H as (s' & D & H). exists (capture n s s'). split; [now constructor|exact H].
Qed.
Lemma mt_complete {R} r : forall s s' (k : st -> option R), den r s s' -> k s' <> None -> mt r s k <> None.
Proof.
  induction r as [|c| |neg xs| | |a IHa b IHb|a IHa b IHb|a IHa|n a IHa]; intros s s' k D H; cbn [mt].
  - inversion D; subst. exact H.
  - inversion D as [|? ? O| | | | | | | | | | ]; subst. now rewrite O.
  - inversion D as [| |? O| | | | | | | | | ]; subst. now rewrite O.
  - inversion D as [| | |? ? ? O| | | | | | | | ]; subst. now rewrite O.
  - inversion D as [| | | |? O| | | | | | | ]; subst. now rewrite O.
  - inversion D as [| | | | |? O| | | | | | ]; subst. now rewrite O.
  - inversion D; subst. eapply IHa; [eassumption|]. eapply IHb; eassumption.
  - inversion D; subst.
    + assert (mt a s k <> None) as N by (eapply IHa; eassumption). destruct (mt a s k); [discriminate|easy].
    + destruct (mt a s k); [discriminate|]. eapply IHb; eassumption.
  - set (loop := fix loop (n : nat) (s : st) : option R := match n with O => k s | S n' => match mt a s (fun s' => if Nat.eqb (s_pos s') (s_pos s) then None else loop n' s') with Some x => Some x | None => k s end end).
    assert (forall n s, List.length (s_rest s) < n -> den (RStar a) s s' -> loop n s <> None) as K; [|exact (K (S (List.length (s_rest s))) s (Nat.lt_succ_diag_r _) D)].
    clear s D. induction n as [|n IH]; intros s L D; [lia|]. cbn. inversion D as [| | | | | | | | | |? ? s1 ? D1 N D2|]; subst.
    + destruct (mt a s' _); [discriminate|exact H].
    + assert (mt a s (fun s'0 => if Nat.eqb (s_pos s'0) (s_pos s) then None else loop n s'0) <> None) as X.
      { apply (IHa s s1); [exact D1|]. destruct (Nat.eqb_spec (s_pos s1) (s_pos s)); [easy|]. apply IH; [|exact D2].
        destruct (den_moves _ _ _ D1) as (l & E & P). rewrite E, app_length in L. lia. }
      destruct (mt a s _); [discriminate|easy].
  - inversion D; subst. eapply IHa; eassumption.
Qed.
Lemma mt_some {R} r s (k : st -> option R) : (forall s', k s' <> None) -> (mt r s k <> None <-> exists s', den r s s').
Proof.
  intros T. split.
  - intros H. destruct (mt r s k) as [x|] eqn:E; [|easy]. apply mt_sound in E as (s' & D & _). now exists s'.
  - intros (s' & D). now apply (mt_complete r s s').
Qed.

(** ** The pieces of literal patterns *)
Lemma den_lit c s s' : den (RLit c) s s' -> s_rest s = c :: s_rest s'.
Proof. intros D. inversion D as [|? ? O| | | | | | | | | | ]; subst. destruct (one_rest _ _ O) as (x & E & P). apply Ascii.eqb_eq in P as ->. exact E. Qed.
Lemma lit_den c s r : s_rest s = c :: r -> exists s', den (RLit c) s s' /\ s_rest s' = r /\ s_pos s' = S (s_pos s).
Proof. intros E. exists (advance s). unfold advance. rewrite E. split; [|split; reflexivity]. assert (mkSt (S (s_pos s)) (tl (c :: r)) (s_groups s) = advance s) as -> by (unfold advance; now rewrite E). constructor. unfold one. rewrite E. apply Ascii.eqb_refl. Qed.
Lemma den_star_lit c s s' : den (RStar (RLit c)) s s' -> exists n, s_rest s = repeat c n ++ s_rest s'.
Proof.
  intros D. remember (RStar (RLit c)) as r eqn:Er. induction D as [| | | | | | | | |a s|a s s1 s2 D1 _ N D2 IH|]; try discriminate; injection Er as ->; [now exists 0|].
  apply den_lit in D1. destruct (IH eq_refl) as (n & E). exists (S n). rewrite D1, E. reflexivity.
Qed.
Lemma star_lit_den c n : forall s r, s_rest s = repeat c n ++ r -> exists s', den (RStar (RLit c)) s s' /\ s_rest s' = r /\ s_pos s' = s_pos s + n.
Proof.
  induction n as [|n IH]; intros s r E; [exists s; split; [constructor|split; [exact E|lia]]|]. cbn [repeat app] in E.
  destruct (lit_den c s _ E) as (s1 & D1 & E1 & P1). destruct (IH s1 r E1) as (s2 & D2 & E2 & P2). exists s2. split; [|split; [exact E2|lia]]. apply (dstar1 _ _ s1); [exact D1|lia|exact D2].
Qed.
Lemma den_plus_lit c s s' : den (RPlus (RLit c)) s s' -> exists n, s_rest s = repeat c (S n) ++ s_rest s'.
Proof. intros D. inversion D as [| | | | | |? ? ? s1 ? D1 D2| | | | | ]; subst. apply den_lit in D1. destruct (den_star_lit _ _ _ D2) as (n & E). exists n. rewrite D1, E. reflexivity. Qed.
Lemma plus_lit_den c n s r : s_rest s = repeat c (S n) ++ r -> exists s', den (RPlus (RLit c)) s s' /\ s_rest s' = r.
Proof.
  intros E. cbn [repeat app] in E. destruct (lit_den c s _ E) as (s1 & D1 & E1 & _). destruct (star_lit_den c n s1 r E1) as (s2 & D2 & E2 & _). exists s2. split; [now apply (dseq _ _ _ s1)|exact E2].
Qed.
Lemma den_star_any s s' : den (RStar RAny) s s' -> exists q, s_rest s = q ++ s_rest s' /\ ~ In LF q.
Proof.
  intros D. remember (RStar RAny) as r eqn:Er. induction D as [| | | | | | | | |a s|a s s1 s2 D1 _ N D2 IH|]; try discriminate; injection Er as ->; [now exists []|].
  inversion D1 as [| |? O| | | | | | | | | ]; subst. destruct (one_rest _ _ O) as (c & E & P). destruct (IH eq_refl) as (q & Eq & Nq). exists (c :: q). split; [rewrite E, Eq; reflexivity|].
  intros [->|I]; [now rewrite Ascii.eqb_refl in P|easy].
Qed.
Lemma star_any_den q : forall s r, s_rest s = q ++ r -> ~ In LF q -> exists s', den (RStar RAny) s s' /\ s_rest s' = r.
Proof.
  induction q as [|c q IH]; intros s r E N; [exists s; split; [constructor|exact E]|]. cbn [app] in E.
  assert (den RAny s (advance s)) as D. { constructor. unfold one. rewrite E. destruct (Ascii.eqb_spec c LF) as [->|]; [exfalso; apply N; now left|reflexivity]. }
  destruct (IH (advance s) r) as (s2 & D2 & E2). { unfold advance. rewrite E. reflexivity. } { intros I. apply N. now right. }
  exists s2. split; [|exact E2]. apply (dstar1 _ _ (advance s)); [exact D|unfold advance; cbn; lia|exact D2].
Qed.

(** ** Literal routes *)
Definition lits (p : bytes) (r : re) : re := fold_right (fun c r => RSeq (RLit c) r) r p.
Lemma den_lits p : forall r s s', den (lits p r) s s' <-> exists s1, s_rest s = p ++ s_rest s1 /\ s_pos s1 = s_pos s + List.length p /\ s_groups s1 = s_groups s /\ den r s1 s'.
Proof.
  induction p as [|c p IH]; intros r s s'; cbn [lits fold_right].
  - split; [intros D; exists s; repeat split; [cbn; lia|exact D]|]. intros (s1 & E & P & G & D). cbn [app List.length] in *. destruct s, s1. cbn in *. subst. now rewrite Nat.add_0_r in D.
  - split.
    + intros D. inversion D as [| | | | | |? ? ? s1 ? D1 D2| | | | | ]; subst. apply IH in D2 as (s2 & E & P & G & D2). inversion D1 as [|? ? O| | | | | | | | | | ]; subst.
      destruct (one_rest _ _ O) as (x & Ex & Px). apply Ascii.eqb_eq in Px as <-. exists s2. rewrite Ex, E. cbn [List.length advance s_pos s_groups] in *. repeat split; [lia|exact G|exact D2].
    + intros (s1 & E & P & G & D). apply (dseq _ _ _ (advance s)).
      * constructor. unfold one. rewrite E. apply Ascii.eqb_refl.
      * apply IH. exists s1. unfold advance. rewrite E. cbn [tl app s_rest s_pos s_groups List.length] in *. repeat split; [lia|exact G|exact D].
Qed.
Definition ordinary (c : ascii) : Prop := ~ In c metas.
Lemma parse_lits p : Forall ordinary p -> forall f g l sq alt g2 rest, match l with c :: _ => memb c (bs "*+?{") = false | [] => True end ->
  parse_re f g l = Some (sq, alt, g2, rest) -> ~ In ")"%char p -> parse_re (List.length p + f) g (p ++ l) = Some (lits p sq, alt, g2, rest).
Proof.
  intros F. induction F as [|c p O F IH]; intros f g l sq alt g2 rest Q E N; [exact E|]. cbn [List.length Nat.add app].
  assert (forall l', match l' with c :: _ => memb c (bs "*+?{") = false | [] => True end -> quantify (RLit c) l' = Some (RLit c, l')) as Kq.
  { intros [|d l'] H; [reflexivity|]. unfold quantify. cbn in H. apply Bool.orb_false_iff in H as [H1 H]. apply Bool.orb_false_iff in H as [H2 H]. apply Bool.orb_false_iff in H as [H3 H]. apply Bool.orb_false_iff in H as [H4 _]. now rewrite H1, H2, H3, H4. }
  assert (match p ++ l with c :: _ => memb c (bs "*+?{") = false | [] => True end) as Q2.
  { destruct p as [|d p]; [exact Q|]. cbn [app]. inversion F as [|? ? O2 _]. apply memb_notIn. intros I. apply O2. cbn in I. cbn. tauto. }
  specialize (Kq _ Q2). specialize (IH f g l sq alt g2 rest Q E ltac:(intros I; apply N; now right)).
  assert (forall x, In x metas \/ x = ")"%char -> Ascii.eqb c x = false) as Kc.
  { intros x Ix. destruct (Ascii.eqb_spec c x) as [->|]; [|reflexivity]. destruct Ix as [Ix| ->]; [now destruct (O Ix)|]. exfalso. apply N. now left. }
  cbn [parse_re]. rewrite (Kc ")"%char) by now right. rewrite (Kc "|"%char), (Kc "("%char), (Kc "."%char), (Kc "^"%char), (Kc "$"%char), (Kc "["%char), (Kc "\"%char) by (left; cbn; tauto).
  assert (memb c metas = false) as -> by now apply memb_notIn. rewrite Kq, IH. reflexivity.
Qed.
