(** Facts about the byte-string operations of [PyBytes.v]. *)
From Verif Require Import PyBytes.

Lemma beqb_refl a : beqb a a = true.
Proof. induction a as [|x a IH]; cbn; [reflexivity|]. now rewrite Ascii.eqb_refl, IH. Qed.

Lemma beqb_eq a b : beqb a b = true <-> a = b.
Proof.
  revert b; induction a as [|x a IH]; intros [|y b]; cbn; split; intros H; try easy.
  - apply andb_true_iff in H as [H1 H2]. apply Ascii.eqb_eq in H1. apply IH in H2. now subst.
  - injection H as -> ->. now rewrite Ascii.eqb_refl, beqb_refl.
Qed.

Lemma beqb_neq a b : beqb a b = false <-> a <> b.
Proof.
  rewrite <- beqb_eq. destruct (beqb a b); split; intros H; try easy.
Qed.

Lemma beqb_sym a b : beqb a b = beqb b a.
Proof.
  destruct (beqb a b) eqn:E; symmetry.
  - apply beqb_eq in E as ->. apply beqb_refl.
  - apply beqb_neq. apply beqb_neq in E. congruence.
Qed.

Lemma memb_In x l : memb x l = true <-> In x l.
Proof.
  unfold memb. rewrite existsb_exists. split.
  - intros (y & Hy & E). apply Ascii.eqb_eq in E. now subst.
  - intros H. exists x. split; [exact H|apply Ascii.eqb_refl].
Qed.

Lemma memb_notIn x l : memb x l = false <-> ~ In x l.
Proof. rewrite <- memb_In. destruct (memb x l); split; congruence. Qed.

Lemma memb_app x a b : memb x (a ++ b) = memb x a || memb x b.
Proof. apply existsb_app. Qed.

Lemma startswith_app p l : startswith p (p ++ l) = true.
Proof. induction p as [|x p IH]; cbn; [reflexivity|]. now rewrite Ascii.eqb_refl, IH. Qed.

Lemma startswith_spec p l : startswith p l = true <-> exists r, l = p ++ r.
Proof.
  revert l; induction p as [|x p IH]; intros l; cbn.
  - split; [intros _; now exists l|reflexivity].
  - destruct l as [|y l].
    + split; [easy|]. intros (r & H). easy.
    + rewrite andb_true_iff, Ascii.eqb_eq, IH. split.
      * intros (-> & r & ->). now exists r.
      * intros (r & H). injection H as -> ->. split; [reflexivity|now exists r].
Qed.

Lemma startswith_app_ext p l r : startswith p l = true -> startswith p (l ++ r) = true.
Proof.
  rewrite !startswith_spec. intros (q & ->). exists (q ++ r). now rewrite app_assoc.
Qed.

(** Appending bytes cannot change a prefix test that had enough bytes. *)
Lemma startswith_app_long p l r :
  List.length p <= List.length l -> startswith p (l ++ r) = startswith p l.
Proof.
  revert l; induction p as [|x p IH]; intros l H; cbn; [reflexivity|].
  destruct l as [|y l]; cbn in H |- *; [lia|]. rewrite IH by lia. reflexivity.
Qed.

Lemma find_unfold sub l :
  find sub l = if startswith sub l then Some 0
               else match l with [] => None | _ :: l' => option_map S (find sub l') end.
Proof. destruct l; reflexivity. Qed.

(** Full characterisation of [find]. *)
Lemma find_some sub l i :
  find sub l = Some i ->
  i + List.length sub <= List.length l /\
  startswith sub (skipn i l) = true /\
  forall j, j < i -> startswith sub (skipn j l) = false.
Proof.
  revert i; induction l as [|x l IH]; intros i; rewrite find_unfold.
  - destruct sub; cbn; intros H; [|easy]. injection H as <-. repeat split; intros; lia.
  - destruct (startswith sub (x :: l)) eqn:E.
    + intros H. injection H as <-. split; [|split; [exact E|intros; lia]].
      apply startswith_spec in E as (r & E). rewrite E, app_length. lia.
    + destruct (find sub l) as [k|] eqn:F; cbn [option_map]; intros H; [|easy].
      injection H as <-. destruct (IH k eq_refl) as (H1 & H2 & H3).
      split; [cbn; lia|]. split; [exact H2|].
      intros [|j] Hj; [exact E|]. cbn. apply H3. lia.
Qed.

Lemma find_none sub l :
  find sub l = None -> forall j, j <= List.length l -> startswith sub (skipn j l) = false.
Proof.
  induction l as [|x l IH]; rewrite find_unfold.
  - destruct (startswith sub []) eqn:E; [easy|]. intros _ j Hj.
    replace j with 0 by (cbn in Hj; lia). exact E.
  - destruct (startswith sub (x :: l)) eqn:E; [easy|].
    destruct (find sub l) eqn:F; cbn [option_map]; intros H; [easy|].
    intros [|j] Hj; [exact E|]. cbn in Hj |- *. apply IH; [reflexivity|lia].
Qed.

Lemma find_intro sub l i :
  startswith sub (skipn i l) = true -> i <= List.length l ->
  (forall j, j < i -> startswith sub (skipn j l) = false) ->
  find sub l = Some i.
Proof.
  revert i; induction l as [|x l IH]; intros i H1 H2 H3; rewrite find_unfold.
  - replace i with 0 in * by (cbn in H2; lia). cbn in H1. now rewrite H1.
  - destruct i as [|i].
    + cbn [skipn] in H1. now rewrite H1.
    + pose proof (H3 0 ltac:(lia)) as H0. cbn [skipn] in H0. rewrite H0. rewrite (IH i); [reflexivity|exact H1|cbn in H2; lia|].
      intros j Hj. apply (H3 (S j)). lia.
Qed.

Lemma find_none_intro sub l :
  (forall j, j <= List.length l -> startswith sub (skipn j l) = false) -> find sub l = None.
Proof.
  intros H. destruct (find sub l) as [i|] eqn:F; [|reflexivity].
  apply find_some in F as (H1 & H2 & _). rewrite H in H2; [easy|lia].
Qed.

Lemma skipn_add {A} n m (l : list A) : skipn (n + m) l = skipn m (skipn n l).
Proof.
  revert l; induction n as [|n IH]; intros l; cbn; [reflexivity|].
  destruct l; [now rewrite skipn_nil|apply IH].
Qed.

Lemma find_split sub l i :
  find sub l = Some i -> l = firstn i l ++ sub ++ skipn (i + List.length sub) l.
Proof.
  intros F. apply find_some in F as (H1 & H2 & _).
  apply startswith_spec in H2 as (r & H2).
  rewrite <- (firstn_skipn i l) at 1. f_equal. rewrite skipn_add, H2. f_equal.
  rewrite skipn_app, skipn_all, Nat.sub_diag. reflexivity.
Qed.

Lemma find_app_ext sub l r i : find sub l = Some i -> find sub (l ++ r) = Some i.
Proof.
  intros F. pose proof (find_some _ _ _ F) as (H1 & H2 & H3).
  apply find_intro.
  - rewrite skipn_app. apply startswith_app_ext. exact H2.
  - rewrite app_length. lia.
  - intros j Hj. rewrite skipn_app. replace (j - List.length l) with 0 by lia. cbn [skipn].
    rewrite startswith_app_long; [now apply H3|]. rewrite skipn_length. lia.
Qed.

Lemma contains_spec sub l : contains sub l = true <-> exists a c, l = a ++ sub ++ c.
Proof.
  unfold contains. destruct (find sub l) as [i|] eqn:F; split; intros H; try easy.
  - exists (firstn i l), (skipn (i + List.length sub) l). now apply find_split.
  - destruct H as (a & c & ->). pose proof (find_none _ _ F (List.length a)) as N.
    rewrite app_length in N. specialize (N ltac:(lia)).
    rewrite skipn_app, skipn_all, Nat.sub_diag in N. cbn [skipn app] in N.
    now rewrite startswith_app in N.
Qed.

Lemma contains_false sub l : contains sub l = false <-> find sub l = None.
Proof. unfold contains. destruct (find sub l); split; congruence. Qed.

(** Single-byte needles. *)
Lemma find1_none x l : find [x] l = None <-> ~ In x l.
Proof.
  induction l as [|y l IH]; rewrite find_unfold; cbn [startswith].
  - cbn. split; [intros _ []|reflexivity].
  - rewrite andb_true_r. destruct (Ascii.eqb x y) eqn:E.
    + apply Ascii.eqb_eq in E as ->. split; [easy|]. intros H. exfalso. apply H. now left.
    + apply Ascii.eqb_neq in E. destruct (find [x] l) eqn:F; cbn [option_map].
      * split; [easy|]. intros H. exfalso.
        assert (~ In x l) as H' by (intros H1; apply H; now right).
        apply IH in H'. easy.
      * split; [|reflexivity]. intros _ [H|H]; [congruence|]. revert H. now apply IH.
Qed.

Lemma find1_app x a r : ~ In x a -> find [x] (a ++ x :: r) = Some (List.length a).
Proof.
  induction a as [|y a IH]; intros H; rewrite find_unfold; cbn [app startswith].
  - now rewrite Ascii.eqb_refl.
  - rewrite andb_true_r. destruct (Ascii.eqb x y) eqn:E.
    + apply Ascii.eqb_eq in E as ->. exfalso. apply H. now left.
    + rewrite IH; [reflexivity|]. intros H1. apply H. now right.
Qed.

Lemma find1_some x l i : find [x] l = Some i ->
  l = firstn i l ++ x :: skipn (S i) l /\ ~ In x (firstn i l) /\ i < List.length l.
Proof.
  intros F. pose proof (find_split _ _ _ F) as S1.
  pose proof (find_some _ _ _ F) as (L & _ & M). cbn [List.length] in *.
  replace (i + 1) with (S i) in S1 by lia. split; [exact S1|]. split; [|lia].
  intros H. apply In_nth with (d := x) in H as (j & Hj & E).
  rewrite firstn_length in Hj.
  specialize (M j ltac:(lia)).
  assert (skipn j l = x :: skipn (S j) l) as E2.
  { clear -E Hj. revert j E Hj. revert i. induction l as [|y l IH]; intros i j E Hj; cbn in Hj; [lia|].
    destruct i; [lia|]. destruct j; cbn in E |- *; [congruence|]. apply (IH i); [exact E|lia]. }
  rewrite E2 in M. cbn in M. rewrite Ascii.eqb_refl in M. easy.
Qed.

(** CRLF after an LF-free line is found at the end of the line. *)
Lemma find_crlf_line line rest :
  ~ In LF line -> find CRLF (line ++ CRLF ++ rest) = Some (List.length line).
Proof.
  intros H. apply find_intro.
  - rewrite skipn_app, skipn_all, Nat.sub_diag. cbn [skipn app]. apply (startswith_app CRLF).
  - rewrite app_length. lia.
  - intros j Hj. destruct (startswith CRLF (skipn j (line ++ CRLF ++ rest))) eqn:E; [|reflexivity].
    exfalso. apply H. apply startswith_spec in E as (r & E).
    rewrite skipn_app in E. replace (j - List.length line) with 0 in E by lia. cbn [skipn] in E.
    assert (In LF (skipn j line)) as I.
    { assert (List.length (skipn j line) = List.length line - j) as L by apply skipn_length.
      destruct (skipn j line) as [|a [|c l]]; [cbn in L; lia| |].
      - cbn in E. injection E as _ E. easy.
      - cbn in E. injection E as _ E _. right. now left. }
    rewrite <- (firstn_skipn j line). apply in_or_app. now right.
Qed.

(** ** split/join *)
Lemma join_cons new (q : bytes) qs : qs <> [] -> join new (q :: qs) = q ++ new ++ join new qs.
Proof. destruct qs; [easy|reflexivity]. Qed.

Lemma split_max_nonempty sep n l : split_max sep n l <> [].
Proof. destruct n; cbn [split_max]; [easy|]. destruct (find sep l); easy. Qed.

Lemma join_split_max sep n l : sep <> [] -> join sep (split_max sep n l) = l.
Proof.
  intros Hs. revert l; induction n as [|n IH]; intros l; cbn [split_max]; [reflexivity|].
  destruct (find sep l) as [i|] eqn:F; [|reflexivity].
  rewrite join_cons by apply split_max_nonempty. rewrite IH. symmetry. now apply find_split.
Qed.

Lemma split_max_length sep n l : List.length (split_max sep n l) <= S n.
Proof.
  revert l; induction n as [|n IH]; intros l; cbn [split_max]; [cbn; lia|].
  destruct (find sep l) as [i|]; cbn [List.length]; [|lia].
  specialize (IH (skipn (i + List.length sep) l)). lia.
Qed.

(** Splitting on a single byte inverts joining byte-free parts. *)
Lemma split_max_join x parts n :
  Forall (fun p => ~ In x p) parts -> parts <> [] -> List.length parts <= S n ->
  split_max [x] n (join [x] parts) = parts.
Proof.
  revert n; induction parts as [|p ps IH]; intros n HF Hne Hn; [easy|].
  inversion HF as [|? ? Hp HF']; subst. destruct ps as [|q qs].
  - cbn [join]. destruct n; cbn [split_max]; [reflexivity|].
    apply find1_none in Hp. now rewrite Hp.
  - destruct n; [cbn in Hn; lia|].
    change (join [x] (p :: q :: qs)) with (p ++ [x] ++ join [x] (q :: qs)).
    cbn [split_max app]. rewrite find1_app by exact Hp.
    rewrite firstn_app, Nat.sub_diag, firstn_all, firstn_O, app_nil_r.
    f_equal. replace (List.length p + List.length [x]) with (List.length p + 1) by reflexivity.
    rewrite skipn_add, skipn_app, skipn_all, Nat.sub_diag. cbn [skipn app].
    apply IH; [exact HF'|easy|cbn in Hn |- *; lia].
Qed.

Lemma split_max_parts x n l :
  List.length l <= n -> Forall (fun p => ~ In x p) (split_max [x] n l).
Proof.
  revert l; induction n as [|n IH]; intros l Hl; cbn [split_max].
  - destruct l; [|cbn in Hl; lia]. constructor; [easy|constructor].
  - destruct (find [x] l) as [i|] eqn:F.
    + apply find1_some in F as (S1 & N & L). constructor; [exact N|].
      apply IH. rewrite skipn_length. cbn [List.length]. lia.
    + apply find1_none in F. constructor; [exact F|constructor].
Qed.

Lemma split_parts x l : Forall (fun p => ~ In x p) (split [x] l).
Proof. apply split_max_parts. lia. Qed.

Lemma join_split x l : join [x] (split [x] l) = l.
Proof. apply join_split_max. easy. Qed.

Lemma join_length_ge sep parts : sep <> [] ->
  List.length parts <= S (List.length (join sep parts)).
Proof.
  intros Hs. induction parts as [|p ps IH]; cbn [join List.length]; [lia|].
  destruct ps; [cbn; lia|]. rewrite !app_length. destruct sep; [easy|]. cbn in *. lia.
Qed.

Lemma split_join x parts :
  Forall (fun p => ~ In x p) parts -> parts <> [] -> split [x] (join [x] parts) = parts.
Proof.
  intros H1 H2. apply split_max_join; [exact H1|exact H2|]. apply join_length_ge. easy.
Qed.

(** Replacing one byte by a string is a byte-wise map. *)
Lemma replace1_flat_map x new l :
  replace [x] new l = flat_map (fun y => if Ascii.eqb x y then new else [y]) l.
Proof.
  unfold replace, split. remember (List.length l) as n eqn:En. assert (List.length l <= n) as Hn by lia.
  clear En. revert l Hn; induction n as [|n IH]; intros l Hn.
  - destruct l; [reflexivity|cbn in Hn; lia].
  - cbn [split_max]. destruct (find [x] l) as [i|] eqn:F.
    + apply find1_some in F as (S1 & N & L).
      rewrite join_cons by apply split_max_nonempty.
      cbn [List.length]. replace (i + 1) with (S i) by lia.
      rewrite IH by (rewrite skipn_length; lia).
      rewrite S1 at 3. rewrite flat_map_app. cbn [flat_map]. rewrite Ascii.eqb_refl. f_equal.
      clear -N. induction (firstn i l) as [|y p IH]; [reflexivity|]. cbn [flat_map].
      destruct (Ascii.eqb x y) eqn:E; [apply Ascii.eqb_eq in E; subst; exfalso; apply N; now left|].
      cbn. f_equal. apply IH. intros H; apply N; now right.
    + cbn [join]. apply find1_none in F. clear -F. induction l as [|y p IH]; [reflexivity|]. cbn [flat_map].
      destruct (Ascii.eqb x y) eqn:E; [apply Ascii.eqb_eq in E; subst; exfalso; apply F; now left|].
      cbn. f_equal. apply IH. intros H; apply F; now right.
Qed.

(** ** Dict facts *)
Section Dict.
  Context {K V : Type} (eqb : K -> K -> bool) (eqb_eq : forall a b, eqb a b = true <-> a = b).
  Lemma dget_dset_same k v (d : list (K * V)) : dget eqb k (dset eqb k v d) = Some v.
  Proof.
    assert (eqb k k = true) as R by now apply eqb_eq.
    induction d as [|[k' v'] d IH]; cbn; [now rewrite R|].
    destruct (eqb k k') eqn:E; cbn; rewrite E; [reflexivity|exact IH].
  Qed.
  Lemma dget_dset_other k k' v (d : list (K * V)) :
    k <> k' -> dget eqb k (dset eqb k' v d) = dget eqb k d.
  Proof.
    intros Hn. assert (eqb k k' = false) as R.
    { destruct (eqb k k') eqn:E; [apply eqb_eq in E; easy|reflexivity]. }
    induction d as [|[k2 v2] d IH]; cbn; [now rewrite R|].
    destruct (eqb k' k2) eqn:E; cbn.
    - apply eqb_eq in E as <-. now rewrite R.
    - destruct (eqb k k2); [reflexivity|exact IH].
  Qed.
End Dict.
