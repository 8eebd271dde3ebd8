From Verif Require Import PyBytes PyBytesFacts PyBytesFacts2 PyDictFacts PyRe P_Re M_Route S_Route P_Parser.
From Coq Require Import ZifyN ZifyBool ZifyNat.

(** ** The pattern of a literal path *)
Definition tail_re : re :=
  RSeq (ROpt (RSeq (RPlus (RLit "/")) REmpty)) (RSeq (ROpt (RSeq (RLit "?") (RSeq (RStar RAny) REmpty))) (RSeq REol REmpty)).
Lemma compile_literal p : p <> [] -> Forall ordinary p -> compile (literal_pattern p) = Some (RSeq RBol (RSeq (RPlus (RLit "/")) (lits p tail_re))).
Proof.
  intros Ne F. unfold compile, literal_pattern.
  assert (parse_re (S (List.length (bs "^/+" ++ p ++ bs "(?:/+)?(?:\?.*)?$"))) 1 (bs "^/+" ++ p ++ bs "(?:/+)?(?:\?.*)?$") = Some (RSeq RBol (RSeq (RPlus (RLit "/")) (lits p tail_re)), None, 1, [])) as ->; [|reflexivity].
  rewrite !app_length. change (List.length (bs "^/+")) with 3. change (List.length (bs "(?:/+)?(?:\?.*)?$")) with 17.
  replace (S (3 + (List.length p + 17))) with (S (S (List.length p + 19))) by lia.
  assert (parse_re (List.length p + 19) 1 (p ++ bs "(?:/+)?(?:\?.*)?$") = Some (lits p tail_re, None, 1, [])) as E.
  { apply parse_lits; [exact F|reflexivity|vm_compute; reflexivity|]. intros I. rewrite Forall_forall in F. apply (F _ I). cbn. tauto. }
  change (bs "^/+" ++ p ++ bs "(?:/+)?(?:\?.*)?$") with ("^"%char :: "/"%char :: "+"%char :: p ++ bs "(?:/+)?(?:\?.*)?$"). set (l := p ++ bs "(?:/+)?(?:\?.*)?$") in *.
  assert (exists c l', l = c :: l' /\ memb c (bs "*+?{") = false) as (c & l' & El & Mc).
  { destruct p as [|c p]; [easy|]. exists c. eexists. split; [reflexivity|]. inversion F as [|? ? O _]. apply memb_notIn. intros I. apply O. cbn in I. cbn. tauto. }
  rewrite El in *. cbn [parse_re Ascii.eqb Bool.eqb orb].
  assert (quantify (RLit "/") ("+"%char :: c :: l') = Some (RPlus (RLit "/"), c :: l')) as Q by (unfold quantify; cbn [Ascii.eqb Bool.eqb orb]; now rewrite Mc).
  assert (forall a, quantify RBol ("/"%char :: a) = Some (RBol, "/"%char :: a)) as Q0 by reflexivity.
  rewrite Q0. change (memb "/" metas) with false. cbv iota. rewrite Q, E. reflexivity.
Qed.
Lemma at_end_spec s : at_end s = true <-> s_rest s = [] \/ s_rest s = [LF].
Proof.
  unfold at_end. destruct (s_rest s) as [|c [|d r]]; split; intros H; try easy; try (now left).
  - apply Ascii.eqb_eq in H as ->. now right.
  - destruct H as [H|H]; [discriminate|]. injection H as ->. reflexivity.
  - destruct H as [H|H]; discriminate.
Qed.
Lemma den_seq a b s s' : den (RSeq a b) s s' <-> exists s1, den a s s1 /\ den b s1 s'.
Proof. split; [intros D; inversion D; subst; eauto|intros (s1 & A & B); now apply (dseq _ _ _ s1)]. Qed.
Lemma den_empty s s' : den REmpty s s' <-> s' = s.
Proof. split; [intros D; now inversion D|intros ->; constructor]. Qed.
Lemma den_alt a b s s' : den (RAlt a b) s s' <-> den a s s' \/ den b s s'.
Proof. split; [intros D; inversion D; subst; auto|intros [D|D]; [now apply dalt1|now apply dalt2]]. Qed.
Definition url_tail (l : bytes) : Prop := exists b q e, l = slashes b ++ q ++ e /\ (q = [] \/ exists q', q = "?"%char :: q' /\ ~ In LF q') /\ (e = [] \/ e = [LF]).
Lemma den_tail s : (exists s', den tail_re s s') <-> url_tail (s_rest s).
Proof.
  unfold tail_re. split.
  - intros (s' & D). apply den_seq in D as (s1 & D1 & D). apply den_seq in D as (s2 & D2 & D). apply den_seq in D as (s3 & D3 & _).
    inversion D3 as [| | | | |? Ae| | | | | | ]; subst. apply at_end_spec in Ae. unfold ROpt in *. apply den_alt in D1. apply den_alt in D2.
    assert (exists b, s_rest s = slashes b ++ s_rest s1) as (b & E1).
    { destruct D1 as [D1|D1]; [|apply den_empty in D1 as ->; now exists 0]. apply den_seq in D1 as (s4 & D1 & D4). apply den_empty in D4 as ->. destruct (den_plus_lit _ _ _ D1) as (n & E). now exists (S n). }
    assert (exists q, s_rest s1 = q ++ s_rest s3 /\ (q = [] \/ exists q', q = "?"%char :: q' /\ ~ In LF q')) as (q & E2 & Q).
    { destruct D2 as [D2|D2]; [|apply den_empty in D2 as ->; exists []; split; [reflexivity|now left]].
      apply den_seq in D2 as (s4 & D4 & D2). apply den_seq in D2 as (s5 & D5 & D2). apply den_empty in D2 as ->. apply den_lit in D4. destruct (den_star_any _ _ D5) as (q & E & N).
      exists ("?"%char :: q). split; [rewrite D4, E; reflexivity|right; eauto]. }
    exists b, q, (s_rest s3). split; [congruence|]. split; [exact Q|exact Ae].
  - intros (b & q & e & E & Q & Ee).
    assert (exists s1, den (ROpt (RSeq (RPlus (RLit "/")) REmpty)) s s1 /\ s_rest s1 = q ++ e) as (s1 & D1 & E1).
    { destruct b as [|b]; [exists s; split; [apply dalt2; constructor|exact E]|]. destruct (plus_lit_den _ _ _ _ E) as (s1 & D & E1). exists s1. split; [|exact E1]. apply dalt1, den_seq. exists s1. split; [exact D|constructor]. }
    assert (exists s2, den (ROpt (RSeq (RLit "?") (RSeq (RStar RAny) REmpty))) s1 s2 /\ s_rest s2 = e) as (s2 & D2 & E2).
    { destruct Q as [->|(q' & -> & N)]; [exists s1; split; [apply dalt2; constructor|exact E1]|]. destruct (lit_den _ _ _ E1) as (s2 & D2 & E2 & _). destruct (star_any_den _ _ _ E2 N) as (s3 & D3 & E3).
      exists s3. split; [|exact E3]. apply dalt1, den_seq. exists s2. split; [exact D2|]. apply den_seq. exists s3. split; [exact D3|constructor]. }
    exists s2. apply den_seq. exists s1. split; [exact D1|]. apply den_seq. exists s2. split; [exact D2|]. apply den_seq. exists s2. split; [|constructor]. constructor. apply at_end_spec. rewrite E2. tauto.
Qed.
Lemma search_bol r p l : p <> 0 -> search_from (RSeq RBol r) p l = None.
Proof.
  revert p. induction l as [|c l IH]; intros p Np; cbn [search_from mt s_pos]; destruct (Nat.eqb_spec p 0); try easy. now apply IH.
Qed.
Lemma search_at0 r url : search_from (RSeq RBol r) 0 url <> None <-> exists s', den r (mkSt 0 url []) s'.
Proof.
  assert (search_from (RSeq RBol r) 0 url = mt (RSeq RBol r) (mkSt 0 url []) (fun s => Some (s_groups s))) as ->.
  { destruct url as [|c url]; cbn [search_from]; destruct (mt (RSeq RBol r) _ _); try reflexivity. now apply search_bol. }
  rewrite mt_some by easy. split.
  - intros (s' & D). apply den_seq in D as (s1 & D1 & D). inversion D1; subst. now exists s'.
  - intros (s' & D). exists s'. apply den_seq. exists (mkSt 0 url []). split; [now constructor|exact D].
Qed.
Lemma search_literal p url : p <> [] -> Forall ordinary p -> ~ In LF url ->
  (search (literal_pattern p) url <> None <-> exists a b q, url = slashes (S a) ++ p ++ slashes b ++ q /\ (q = [] \/ exists q', q = "?"%char :: q')).
Proof.
  intros Ne F N. unfold search. rewrite compile_literal by assumption. rewrite search_at0. split.
  - intros (s' & D). apply den_seq in D as (s1 & D1 & D). destruct (den_plus_lit _ _ _ D1) as (a & E). cbn [s_rest] in E. apply den_lits in D as (s2 & E2 & _ & _ & D).
    assert (url_tail (s_rest s2)) as (b & q & e & Et & Q & Ee) by (apply den_tail; eauto). exists a, b, q. rewrite E, E2, Et. split; [|destruct Q as [Q|(q' & Q & _)]; eauto].
    destruct Ee as [->| ->]; [now rewrite app_nil_r|]. exfalso. apply N. rewrite E, E2, Et, !in_app_iff. cbn. tauto.
  - intros (a & b & q & E & Q). destruct (plus_lit_den "/" a (mkSt 0 url []) _ E) as (s1 & D1 & E1).
    destruct (proj2 (den_tail (mkSt (s_pos s1 + List.length p) (slashes b ++ q) (s_groups s1)))) as (s' & D).
    { exists b, q, []. rewrite app_nil_r. split; [reflexivity|]. split; [|now left]. destruct Q as [Q|(q' & Q)]; [now left|right]. exists q'. split; [exact Q|]. intros I. apply N. rewrite E, Q, !in_app_iff. cbn. tauto. }
    exists s'. apply den_seq. exists s1. split; [exact D1|]. apply den_lits. eexists. split; [|split; [|split; [|exact D]]]; [exact E1|reflexivity|reflexivity].
Qed.
Lemma search_root url : ~ In LF url -> (search root_pattern url <> None <-> exists a q, url = slashes (S a) ++ q /\ (q = [] \/ exists q', q = "?"%char :: q')).
Proof.
  intros N. unfold search.
  assert (compile root_pattern = Some (RSeq RBol (RSeq (RPlus (RLit "/")) (RSeq (ROpt (RSeq (RLit "?") (RSeq (RStar RAny) REmpty))) (RSeq REol REmpty))))) as -> by (vm_compute; reflexivity).
  rewrite search_at0. split.
  - intros (s' & D). apply den_seq in D as (s1 & D1 & D). destruct (den_plus_lit _ _ _ D1) as (a & E). cbn [s_rest] in E.
    assert (url_tail (s_rest s1)) as (b & q & e & Et & Q & Ee). { apply den_tail. exists s'. apply den_seq. exists s1. split; [apply dalt2; constructor|exact D]. }
    exists (a + b), q. rewrite E, Et. split; [|destruct Q as [Q|(q' & Q & _)]; eauto].
    replace (S (a + b)) with (S a + b) by lia. unfold slashes. rewrite repeat_app, <- app_assoc.
    destruct Ee as [->| ->]; [now rewrite app_nil_r|]. exfalso. apply N. rewrite E, Et, !in_app_iff. cbn. tauto.
  - intros (a & q & E & Q). destruct (plus_lit_den "/" a (mkSt 0 url []) _ E) as (s1 & D1 & E1).
    assert (exists s2, den (ROpt (RSeq (RLit "?") (RSeq (RStar RAny) REmpty))) s1 s2 /\ s_rest s2 = []) as (s2 & D2 & E2).
    { destruct Q as [->|(q' & ->)]; [exists s1; split; [apply dalt2; constructor|exact E1]|]. destruct (lit_den _ _ _ E1) as (s2 & D2 & E2 & _).
      destruct (star_any_den q' s2 []) as (s3 & D3 & E3); [now rewrite app_nil_r|intros I; apply N; rewrite E, !in_app_iff; cbn; tauto|].
      exists s3. split; [|exact E3]. apply dalt1, den_seq. exists s2. split; [exact D2|]. apply den_seq. exists s3. split; [exact D3|constructor]. }
    exists s2. apply den_seq. exists s1. split; [exact D1|]. apply den_seq. exists s2. split; [exact D2|]. apply den_seq. exists s2. split; [|constructor]. constructor. apply at_end_spec. now left.
Qed.

(** ** Stripping the slashes *)
Lemma lstrip_slashes n l : lstrip_by (fun x => memb x (bs "/")) (slashes n ++ l) = lstrip_by (fun x => memb x (bs "/")) l.
Proof. induction n as [|n IH]; [reflexivity|]. cbn [slashes repeat app lstrip_by]. change (memb "/" (bs "/")) with true. exact IH. Qed.
Lemma lstrip_hd l : hd " "%char l <> "/"%char -> lstrip_by (fun x => memb x (bs "/")) l = l.
Proof.
  destruct l as [|c l]; [reflexivity|]. cbn [hd lstrip_by]. intros N. assert (memb c (bs "/") = false) as ->; [|reflexivity]. apply memb_notIn. intros [<-|[]]. easy.
Qed.
Lemma rev_slashes n : rev (slashes n) = slashes n.
Proof. unfold slashes. induction n as [|n IH]; [reflexivity|]. cbn [repeat rev]. rewrite IH. clear. induction n as [|n IH]; [reflexivity|]. cbn [repeat app]. now rewrite IH. Qed.
Lemma hd_rev (l : bytes) d : hd d (rev l) = last l d.
Proof. destruct l as [|c l] using rev_ind; [reflexivity|]. rewrite rev_app_distr, last_last. reflexivity. Qed.
Lemma strip_bare a p b : bare p -> strip (bs "/") (slashes a ++ p ++ slashes b) = p.
Proof.
  intros (_ & H & L). unfold strip, strip_by, rstrip_by. rewrite lstrip_slashes. destruct p as [|c p].
  - cbn [app]. assert (slashes b = slashes b ++ []) as -> by now rewrite app_nil_r. rewrite lstrip_slashes. reflexivity.
  - rewrite (lstrip_hd ((c :: p) ++ slashes b)) by exact H. rewrite rev_app_distr, rev_slashes, lstrip_slashes, lstrip_hd; [apply rev_involutive|]. now rewrite hd_rev.
Qed.
Lemma url_path url p : has_path url p -> strip (bs "/") (fst (fst (partition (bs "?") url))) = p.
Proof.
  intros (B & a & b & q & -> & Q). assert (fst (fst (partition (bs "?") (slashes (S a) ++ p ++ slashes b ++ q))) = slashes (S a) ++ p ++ slashes b) as ->; [|now apply strip_bare].
  assert (~ In "?"%char (slashes (S a) ++ p ++ slashes b)) as N.
  { rewrite !in_app_iff. destruct B as (B & _). intros [I|[I|I]]; [|easy|]; apply repeat_spec in I; discriminate. }
  assert (slashes (S a) ++ p ++ slashes b ++ q = (slashes (S a) ++ p ++ slashes b) ++ q) as -> by now rewrite <- !app_assoc. set (x := slashes (S a) ++ p ++ slashes b) in *.
  unfold partition. change (bs "?") with ["?"%char]. destruct Q as [->|(q' & ->)].
  - rewrite app_nil_r. rewrite (proj2 (find1_none _ _) N). reflexivity.
  - rewrite (find1_app "?"%char x q' N). cbn [fst]. apply firstn_app_len.
Qed.

(** ** The table *)
Definition regs_with (regs : list (bytes * nat)) (paths : list bytes) : Prop := Forall2 (fun r p => literal (fst r) p) regs paths.
Lemma literal_ordinary w p : literal w p -> Forall ordinary p.
Proof. intros (_ & N & _). apply Forall_forall. intros c I. apply (N c I). Qed.
Lemma repeat_In {A} (x y : A) n : In y (repeat x n) -> y = x.
Proof. apply repeat_spec. Qed.
Lemma literal_chars w p c : literal w p -> In c special -> ~ In c w.
Proof.
  intros (_ & N & a & b & ->) I J. rewrite !in_app_iff in J. destruct J as [J|[J|J]]; [|exact (N c J I)|]; apply repeat_In in J as ->; cbn in I; intuition discriminate.
Qed.
Lemma not_end c w : ~ In c w -> endswith [c] w = false.
Proof.
  intros N. unfold endswith. cbn [rev app]. destruct (rev w) as [|d r] eqn:E; [reflexivity|]. cbn [startswith]. destruct (Ascii.eqb_spec c d) as [->|]; [|reflexivity].
  exfalso. apply N. apply in_rev. rewrite E. now left.
Qed.
Lemma not_start c w : ~ In c w -> startswith [c] w = false.
Proof. intros N. destruct w as [|d w]; [reflexivity|]. cbn [startswith]. destruct (Ascii.eqb_spec c d) as [->|]; [|reflexivity]. exfalso. apply N. now left. Qed.
Lemma add_literal t w p f : literal w p ->
  add_route t w f = match p with
                    | [] => mkTable [mkRoute (root_pat t) f] (t_regex t) (t_lit t)
                    | _ => mkTable (t_root t) (t_regex t) (dset beqb (key_of p) (match dget beqb (key_of p) (t_lit t) with Some l => l | None => [] end ++ [mkRoute (literal_pattern p) f]) (t_lit t))
                    end.
Proof.
  intros L. unfold add_route. change (bs "^") with ["^"%char]. change (bs "$") with ["$"%char]. rewrite not_start, not_end by (apply (literal_chars w p _ L); cbn; tauto). cbn [orb].
  assert (split_max (bs "?") 1 w = [w]) as ->. { cbn [split_max]. change (bs "?") with ["?"%char]. rewrite (proj2 (find1_none "?"%char w)); [reflexivity|]. apply (literal_chars w p _ L). cbn. tauto. }
  cbn [hd]. destruct L as (B & _ & a & b & ->). rewrite strip_bare by exact B. cbv zeta. destruct p as [|c p]; [reflexivity|]. now destruct (dget beqb (key_of (c :: p)) (t_lit t)).
Qed.
Definition of_key (k : bytes) (rp : (bytes * nat) * bytes) : bool := match snd rp with [] => false | _ => beqb (key_of (snd rp)) k end.
Definition as_route (rp : (bytes * nat) * bytes) : route := mkRoute (literal_pattern (snd rp)) (snd (fst rp)).
Definition root_list (regs : list (bytes * nat)) (paths : list bytes) (d : nat) : nat :=
  fold_left (fun d rp => match snd rp with [] => snd (fst rp) | _ => d end) (combine regs paths) d.
Lemma table_of regs paths : regs_with regs paths -> forall t d, t_root t = [mkRoute root_pattern d] ->
  let t' := fold_left (fun t r => add_route t (fst r) (snd r)) regs t in
  t_root t' = [mkRoute root_pattern (root_list regs paths d)] /\ t_regex t' = t_regex t /\
  forall k, match dget beqb k (t_lit t') with Some l => l | None => [] end = (match dget beqb k (t_lit t) with Some l => l | None => [] end) ++ map as_route (filter (of_key k) (combine regs paths)) /\
            (dget beqb k (t_lit t') = None -> dget beqb k (t_lit t) = None).
Proof.
  intros R. induction R as [|[w f] p regs paths L R IH]; intros t d E; cbn [fold_left combine filter map fst snd].
  - cbn. split; [exact E|]. split; [reflexivity|]. intros k. rewrite app_nil_r. now split.
  - cbn [fst] in L. rewrite (add_literal t w p f L). destruct p as [|c p].
    + destruct (IH (mkTable [mkRoute (root_pat t) f] (t_regex t) (t_lit t)) f) as (A & B & C). { unfold root_pat. rewrite E. reflexivity. }
      split; [exact A|]. split; [exact B|]. intros k. apply C.
    + destruct (IH (mkTable (t_root t) (t_regex t) (dset beqb (key_of (c :: p)) ((match dget beqb (key_of (c :: p)) (t_lit t) with Some l => l | None => [] end) ++ [mkRoute (literal_pattern (c :: p)) f]) (t_lit t))) d E) as (A & B & C).
      split; [exact A|]. split; [exact B|]. intros k. destruct (C k) as [C1 C2]. cbn [t_lit] in *. rewrite C1. unfold of_key at 2. cbn [snd]. destruct (beqb (key_of (c :: p)) k) eqn:Ek.
      * apply beqb_eq in Ek as <-. rewrite dget_dset_same in *. cbn [map filter]. rewrite <- app_assoc. split; [reflexivity|]. intros N. apply C2 in N. discriminate.
      * rewrite dget_dset_other in * by (apply beqb_neq; now rewrite beqb_sym). split; [reflexivity|exact C2].
Qed.

(** ** Choosing *)
Lemma has_path_unique url p p' : has_path url p -> has_path url p' -> p = p'.
Proof. intros A B. apply url_path in A. apply url_path in B. congruence. Qed.
Lemma first_match_paths l url p : ~ In LF url -> has_path url p -> p <> [] -> Forall (fun rp => literal (fst (fst rp)) (snd rp) /\ snd rp <> []) l ->
  match List.find (fun rp => beqb (snd rp) p) l with
  | Some rp => exists m, first_match search (map as_route l) url = Some (snd (fst rp), m)
  | None => first_match search (map as_route l) url = None
  end.
Proof.
  intros NL HP Np F. induction F as [|[[w f] p2] l [L N2] F IH]; [reflexivity|]. cbn [List.find map first_match as_route rt_pat rt_func fst snd] in *.
  pose proof (search_literal p2 url N2 (literal_ordinary _ _ L) NL) as Sr. destruct (beqb p2 p) eqn:E.
  - apply beqb_eq in E as ->. destruct (search (literal_pattern p) url) as [m|] eqn:Es; [now exists m|]. exfalso. apply (proj2 Sr); [|reflexivity]. destruct HP as (_ & H). exact H.
  - destruct (search (literal_pattern p2) url) as [m|] eqn:Es; [|exact IH]. exfalso. apply beqb_neq in E. apply E. symmetry. apply (has_path_unique url); [exact HP|]. split; [apply L|]. apply Sr. discriminate.
Qed.
Lemma combine_Forall2 {A B} (P : A -> B -> Prop) l1 l2 : Forall2 P l1 l2 -> Forall (fun ab => P (fst ab) (snd ab)) (combine l1 l2).
Proof. induction 1; constructor; assumption. Qed.
Lemma find_filter {A} (f g : A -> bool) l : (forall x, f x = true -> g x = true) -> List.find f (filter g l) = List.find f l.
Proof.
  intros H. induction l as [|x l IH]; [reflexivity|]. cbn [filter List.find]. destruct (g x) eqn:G; cbn [List.find]; [now rewrite IH|]. destruct (f x) eqn:Fx; [|exact IH]. apply H in Fx. congruence.
Qed.
Lemma choose_literal regs paths url p : regs_with regs paths -> has_path url p -> p <> [] -> ~ In LF url ->
  match List.find (fun rp => beqb (snd rp) p) (combine regs paths) with
  | Some rp => exists m, choose search (add_routes regs) url = (Found (snd (fst rp)) m None, add_routes regs)
  | None => choose search (add_routes regs) url = (Missing, add_routes regs)
  end.
Proof.
  intros R HP Np NL. destruct (table_of regs paths R table0 index eq_refl) as (Tr & Tx & Tl). fold (add_routes regs) in *. set (t := add_routes regs) in *.
  destruct (Tl (key_of p)) as [T1 T2]. cbn [t_lit table0 dget app] in T1.
  unfold choose. rewrite (url_path url p HP). cbv zeta.
  assert (Forall (fun rp => literal (fst (fst rp)) (snd rp) /\ snd rp <> []) (filter (of_key (key_of p)) (combine regs paths))) as F.
  { apply Forall_forall. intros rp I. apply filter_In in I as [I K]. pose proof (combine_Forall2 _ _ _ R) as FR. rewrite Forall_forall in FR. split; [now apply FR|]. unfold of_key in K. intros E. now rewrite E in K. }
  pose proof (first_match_paths _ url p NL HP Np F) as M. rewrite find_filter in M.
  2:{ intros rp E. apply beqb_eq in E. unfold of_key. rewrite E. destruct p; [easy|]. apply beqb_refl. }
  destruct p as [|c p]; [easy|]. destruct (dget beqb (key_of (c :: p)) (t_lit t)) as [rs|] eqn:D.
  - cbn [app] in T1. rewrite T1. destruct (List.find _ (combine regs paths)) as [rp|].
    + destruct M as (m & ->). now exists m.
    + now rewrite M.
  - rewrite Tx. cbn [t_regex table0 last_match]. destruct (List.find _ (combine regs paths)) as [rp|]; [|reflexivity]. destruct M as (m & M). cbn [app] in T1. rewrite <- T1 in M. discriminate.
Qed.
Lemma choose_root regs paths url : regs_with regs paths -> has_path url [] -> ~ In LF url ->
  exists m, choose search (add_routes regs) url = (Found (root_list regs paths index) m None, add_routes regs).
Proof.
  intros R HP NL. destruct (table_of regs paths R table0 index eq_refl) as (Tr & _ & _). fold (add_routes regs) in *. unfold choose. rewrite (url_path url [] HP). cbv zeta. rewrite Tr. cbn [first_match rt_pat rt_func].
  pose proof (search_root url NL) as Sr. destruct (search root_pattern url) as [m|]; [now exists m|]. exfalso. apply (proj2 Sr); [|reflexivity].
  destruct HP as (_ & a & b & q & E & Q). cbn [app] in E. exists (a + b), q. split; [|exact Q]. rewrite E, app_assoc. f_equal. replace (S (a + b)) with (S a + b) by lia. unfold slashes. now rewrite repeat_app.
Qed.
Lemma choose_other regs paths url : regs_with regs paths -> hd " "%char url <> "/"%char -> ~ In LF url -> choose search (add_routes regs) url = (Missing, add_routes regs).
Proof.
  intros R H NL. destruct (table_of regs paths R table0 index eq_refl) as (Tr & Tx & Tl). fold (add_routes regs) in *. set (t := add_routes regs) in *.
  assert (forall rs, (forall r, In r rs -> search (rt_pat r) url = None) -> first_match search rs url = None) as K.
  { induction rs as [|r rs IH]; intros A; [reflexivity|]. cbn [first_match]. rewrite (A r) by now left. apply IH. intros r' I. apply A. now right. }
  unfold choose. cbv zeta. destruct (strip (bs "/") (fst (fst (partition (bs "?") url)))) as [|c p].
  - rewrite Tr, K; [reflexivity|]. intros r [<-|[]]. cbn [rt_pat]. pose proof (search_root url NL) as Sr. destruct (search root_pattern url); [|reflexivity]. destruct (proj1 Sr ltac:(discriminate)) as (a & q & -> & _). now destruct H.
  - destruct (Tl (key_of (c :: p))) as [T1 T2]. cbn [t_lit table0 dget app] in T1. destruct (dget beqb (key_of (c :: p)) (t_lit t)) as [rs|].
    + rewrite K; [reflexivity|]. subst rs. intros r I. apply in_map_iff in I as (rp & <- & I). apply filter_In in I as [I K2]. pose proof (combine_Forall2 _ _ _ R) as FR. rewrite Forall_forall in FR. specialize (FR rp I).
      unfold as_route. cbn [rt_pat]. assert (snd rp <> []) as N2 by (unfold of_key in K2; intros E; now rewrite E in K2).
      pose proof (search_literal (snd rp) url N2 (literal_ordinary _ _ FR) NL) as Sr. destruct (search (literal_pattern (snd rp)) url); [|reflexivity]. destruct (proj1 Sr ltac:(discriminate)) as (a & b & q & -> & _). now destruct H.
    + rewrite Tx. reflexivity.
Qed.

(** ** Over a worker's life *)
Section Life.
Context {M : Type} (sr : bytes -> bytes -> option M).
Definition handler_of (c : @choice M) : option (nat * M) := match c with Found f m _ => Some (f, m) | Missing => None end.
Definition upath (u : bytes) : bytes := strip (bs "/") (fst (fst (partition (bs "?") u))).
Definition settled (t : table) (u : bytes) : Prop :=
  upath u = [] \/ dget beqb (key_of (upath u)) (t_lit t) <> None \/ forall r, In r (t_regex t) -> sr (rt_pat r) u = None.
Lemma last_match_none rs u : forall i, (forall r, In r rs -> sr (rt_pat r) u = None) -> last_match sr i rs u = None.
Proof. induction rs as [|r rs IH]; intros i H; [reflexivity|]. cbn [last_match]. rewrite IH by (intros r' I; apply H; now right). now rewrite (H r) by now left. Qed.
Lemma none_last_match rs u : forall i, last_match sr i rs u = None -> forall r, In r rs -> sr (rt_pat r) u = None.
Proof.
  induction rs as [|r rs IH]; intros i H r' I; [easy|]. cbn [last_match] in H. destruct (last_match sr (S i) rs u) eqn:E; [discriminate|]. destruct I as [<-|I]; [now destruct (sr (rt_pat r) u)|now apply (IH (S i))].
Qed.
Lemma last_match_in rs u : forall i j r m, last_match sr i rs u = Some (j, r, m) -> In r rs /\ sr (rt_pat r) u = Some m.
Proof.
  induction rs as [|r rs IH]; intros i j r' m H; [discriminate|]. cbn [last_match] in H. destruct (last_match sr (S i) rs u) as [x|] eqn:E.
  - injection H as ->. destruct (IH _ _ _ _ E). split; [now right|assumption].
  - destruct (sr (rt_pat r) u) eqn:Es; [|discriminate]. injection H as <- <- <-. split; [now left|exact Es].
Qed.
Lemma choose_settles t u : settled (snd (choose sr t u)) u /\ handler_of (fst (choose sr (snd (choose sr t u)) u)) = handler_of (fst (choose sr t u)).
Proof.
  assert (exists c t', choose sr t u = (c, t')) as (c0 & t' & E) by (destruct (choose sr t u); eauto). rewrite E. cbn [fst snd]. unfold settled. revert E. unfold choose. fold (upath u). cbv zeta.
  destruct (upath u) as [|c p]; [intros E; injection E as <- <-; split; [now left|reflexivity]|].
  destruct (dget beqb (key_of (c :: p)) (t_lit t)) as [rs|] eqn:D.
  - intros E. injection E as <- <-. split; [right; left; congruence|]. rewrite D. reflexivity.
  - destruct (last_match sr 0 (t_regex t) u) as [[[i r] m]|] eqn:L; intros E; injection E as <- <-; cbn [t_lit t_regex].
    + rewrite dget_dset_same. split; [right; left; discriminate|]. cbn [first_match].
      apply last_match_in in L as [_ ->]. reflexivity.
    + split; [right; right; now apply (none_last_match _ _ 0)|]. rewrite D, L. reflexivity.
Qed.
(** A request does not change what another URL gets, once that was requested. *)
Lemma choose_other_url t u v : settled t v -> settled (snd (choose sr t u)) v /\ handler_of (fst (choose sr (snd (choose sr t u)) v)) = handler_of (fst (choose sr t v)).
Proof.
  intros S. assert (snd (choose sr t u) = t \/ exists i r m, last_match sr 0 (t_regex t) u = Some (i, r, m) /\ dget beqb (key_of (upath u)) (t_lit t) = None /\
     snd (choose sr t u) = mkTable (t_root t) (t_regex t) (dset beqb (key_of (upath u)) [r] (t_lit t))) as [E|(i & r & m & L & D & E)].
  { unfold choose. fold (upath u). cbv zeta. destruct (upath u) as [|c p]; [now left|]. destruct (dget beqb (key_of (c :: p)) (t_lit t)); [now left|]. destruct (last_match sr 0 (t_regex t) u) as [[[i r] m]|]; [right; now exists i, r, m|now left]. }
  - rewrite E. now split.
  - rewrite E. clear E. unfold settled in *. unfold choose. fold (upath v). cbv zeta. cbn [t_lit t_regex t_root]. destruct (upath v) as [|c p] eqn:Ev; [split; [now left|reflexivity]|]. destruct S as [S|S]; [discriminate|].
    rewrite dget_dset. destruct (beqb (key_of (c :: p)) (key_of (upath u))) eqn:Ek.
    + split; [right; left; discriminate|]. apply beqb_eq in Ek. rewrite <- Ek in D. rewrite D in *. destruct S as [S|S]; [easy|]. apply last_match_in in L as [I _]. cbn [first_match]. rewrite (S r I). now rewrite (last_match_none _ v 0 S).
    + split; [destruct S as [S|S]; [right; now left|right; now right]|]. destruct (dget beqb (key_of (c :: p)) (t_lit t)); [reflexivity|]. now destruct (last_match sr 0 (t_regex t) v) as [[[i0 r0] m0]|].
Qed.
Lemma finish_keeps t i v : settled t v -> settled (finish t i) v /\ handler_of (fst (choose sr (finish t i) v)) = handler_of (fst (choose sr t v)).
Proof.
  intros S. unfold settled in *. unfold choose. fold (upath v). cbv zeta. cbn [finish t_lit t_regex t_root]. destruct (upath v) as [|c p]; [split; [now left|reflexivity]|]. destruct S as [S|S]; [discriminate|].
  assert (forall r, In r (remove_nth i (t_regex t)) -> In r (t_regex t)) as Sub.
  { intros r I. unfold remove_nth in I. rewrite in_app_iff in I. destruct I as [I|I]; [rewrite <- (firstn_skipn i (t_regex t)); apply in_or_app; now left|].
    rewrite <- (firstn_skipn (Datatypes.S i) (t_regex t)). apply in_or_app. now right. }
  destruct (dget beqb (key_of (c :: p)) (t_lit t)) eqn:D.
  - split; [right; left; discriminate|reflexivity].
  - destruct S as [S|S]; [easy|]. split; [right; right; intros r I; apply S; now apply Sub|]. rewrite !last_match_none; [reflexivity|exact S|]. intros r I. apply S. now apply Sub.
Qed.
Lemma life_inv s0 tr s : wrun sr s0 tr s -> forall u c, In (u, c) tr -> settled (fst s) u /\ handler_of (fst (choose sr (fst s) u)) = handler_of c.
Proof.
  induction 1 as [|s tr o s' R IH St|s tr i s' R IH St]; intros u c I; [easy| |].
  - apply in_app_iff in I. inversion St; subst. cbn [fst] in *. destruct I as [I|[I|[]]].
    + destruct (IH _ _ I) as [A B]. destruct (choose_other_url t url u A) as [C D]. split; [exact C|congruence].
    + injection I as -> <-. apply choose_settles.
  - destruct (IH _ _ I) as [A B]. inversion St; subst. cbn [fst] in *. destruct ok; [|now split]. destruct (finish_keeps t i u A) as [C D]. split; [exact C|congruence].
Qed.
Lemma life_same s0 tr s u c1 c2 : wrun sr s0 tr s -> In (u, c1) tr -> In (u, c2) tr -> handler_of c1 = handler_of c2.
Proof. intros R I1 I2. destruct (life_inv _ _ _ R _ _ I1) as [_ A]. destruct (life_inv _ _ _ R _ _ I2) as [_ B]. congruence. Qed.
(** URLs whose key is there from the start do not depend on the history at all. *)
Lemma life_keyed t0 tr s : wrun sr (t0, []) tr s ->
  t_root (fst s) = t_root t0 /\ (t_regex t0 = [] -> t_regex (fst s) = [] /\ t_lit (fst s) = t_lit t0) /\
  (forall k, dget beqb k (t_lit t0) <> None -> dget beqb k (t_lit (fst s)) = dget beqb k (t_lit t0)).
Proof.
  induction 1 as [|s tr o s' R (A & B & C) St|s tr i s' R (A & B & C) St]; [repeat split; auto| |].
  - inversion St; subst. cbn [fst] in *. unfold choose. fold (upath url). cbv zeta. destruct (upath url) as [|c p]; [repeat split; auto|]; [now apply B..|].
    destruct (dget beqb (key_of (c :: p)) (t_lit t)) as [rs|] eqn:D; [repeat split; auto; now apply B|]. destruct (last_match sr 0 (t_regex t) url) as [[[i r] m]|] eqn:L; cbn [snd t_root t_regex t_lit]; [|repeat split; auto; now apply B].
    split; [exact A|]. split; [intros E; destruct (B E) as [B1 _]; rewrite B1 in L; discriminate|]. intros k Nk. rewrite dget_dset. destruct (beqb k (key_of (c :: p))) eqn:Ek; [|now apply C]. apply beqb_eq in Ek as ->. rewrite (C _ Nk) in D. easy.
  - inversion St; subst. cbn [fst] in *. destruct ok; [|repeat split; auto; now apply B]. cbn [finish t_root t_regex t_lit]. split; [exact A|]. split; [|exact C].
    intros E. destruct (B E) as [B1 B2]. rewrite B1. split; [now destruct i|exact B2].
Qed.
Lemma wrun_split s0 tr s u c : wrun sr s0 tr s -> In (u, c) tr -> exists tr1 s1, wrun sr s0 tr1 s1 /\ c = fst (choose sr (fst s1) u).
Proof.
  induction 1 as [|s tr o s' R IH St|s tr i s' R IH St]; intros I; [easy| |exact (IH I)].
  apply in_app_iff in I. destruct I as [I|[->|[]]]; [exact (IH I)|]. inversion St; subst. exists tr. eexists. split; [exact R|reflexivity].
Qed.
Lemma life_fixed t0 tr s u c : wrun sr (t0, []) tr s -> In (u, c) tr ->
  upath u = [] \/ dget beqb (key_of (upath u)) (t_lit t0) <> None \/ t_regex t0 = [] -> c = fst (choose sr t0 u).
Proof.
  intros R I H. destruct (wrun_split _ _ _ _ _ R I) as (tr1 & s1 & R1 & ->). destruct (life_keyed _ _ _ R1) as (A & B & C). unfold choose. fold (upath u). cbv zeta. destruct (upath u) as [|x p]; [now rewrite A|].
  destruct H as [H|[H|H]]; [discriminate| |].
  - rewrite (C _ H). destruct (dget beqb (key_of (x :: p)) (t_lit t0)); [reflexivity|easy].
  - destruct (B H) as [B1 B2]. rewrite B1, B2, H. destruct (dget beqb (key_of (x :: p)) (t_lit t0)); reflexivity.
Qed.
End Life.
Lemma root_list_rev regs paths d : root_list regs paths d = match List.find (fun rp => beqb (snd rp) []) (rev (combine regs paths)) with Some ((_, func), _) => func | None => d end.
Proof.
  enough (forall L : list ((bytes * nat) * bytes), fold_left (fun d rp => match snd rp with [] => snd (fst rp) | _ => d end) L d = match List.find (fun rp => beqb (snd rp) []) (rev L) with Some ((_, func), _) => func | None => d end) as K by exact (K _).
  intros L. induction L as [|[[w f] p] L IH] using rev_ind; [reflexivity|]. rewrite fold_left_app, rev_app_distr. cbn [fold_left rev app List.find fst snd]. destruct p; cbn; [reflexivity|exact IH].
Qed.
Lemma root_last regs paths url : regs_with regs paths -> has_path url [] -> ~ In LF url ->
  let last_root := List.find (fun rp => beqb (snd rp) []) (rev (combine regs paths)) in
  exists m, fst (choose search (add_routes regs) url) = Found (match last_root with Some ((_, func), _) => func | None => index end) m None.
Proof. intros R HP NL. destruct (choose_root regs paths url R HP NL) as [m ->]. exists m. cbv zeta. rewrite root_list_rev. reflexivity. Qed.
Lemma endswith_last c (w : bytes) : last w " "%char <> c -> c <> " "%char -> endswith [c] w = false.
Proof.
  intros H Nc. destruct (endswith [c] w) eqn:E; [|reflexivity]. exfalso. apply H. unfold endswith in E. cbn [rev app] in E. rewrite <- (hd_rev w " "%char). destruct (rev w) as [|x l]; [discriminate|]. cbn in E. destruct (Ascii.eqb x c) eqn:Ex; [|now destruct (Ascii.eqb c x) eqn:Ex'; [apply Ascii.eqb_eq in Ex'; subst; rewrite Ascii.eqb_refl in Ex|]]. now apply Ascii.eqb_eq in Ex.
Qed.
Lemma startswith_hd c (w : bytes) : hd " "%char w <> c -> startswith [c] w = false.
Proof. intros H. destruct w as [|x w]; [reflexivity|]. cbn in *. destruct (Ascii.eqb c x) eqn:E; [apply Ascii.eqb_eq in E; now destruct H|now rewrite ?E]. Qed.
Lemma no_regex (regs : list (bytes * nat)) : (forall r, In r regs -> hd " "%char (fst r) <> "^"%char /\ last (fst r) " "%char <> "$"%char) -> forall t, t_regex t = [] -> t_regex (fold_left (fun t r => add_route t (fst r) (snd r)) regs t) = [].
Proof.
  induction regs as [|[w f] regs IH]; intros H t E; [exact E|]. cbn [fold_left fst snd]. apply IH; [intros r I; apply H; now right|]. destruct (H (w, f)) as [H1 H2]; [now left|]. cbn [fst] in *. unfold add_route.
  change (bs "^") with ["^"%char]. change (bs "$") with ["$"%char]. rewrite startswith_hd, endswith_last by (assumption || discriminate). cbn [orb]. cbv zeta. now destruct (strip (bs "/") _).
Qed.
Lemma life_literal {M} (sr : bytes -> bytes -> option M) regs tr s url c :
  (forall r, In r regs -> hd " "%char (fst r) <> "^"%char /\ last (fst r) " "%char <> "$"%char) ->
  wrun sr (add_routes regs, []) tr s -> In (url, c) tr -> c = fst (choose sr (add_routes regs) url).
Proof. intros H R I. apply (life_fixed sr _ _ _ _ _ R I). right; right. now apply no_regex. Qed.
