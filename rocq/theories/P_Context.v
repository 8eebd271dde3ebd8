(** Proofs about contexts (C76). *)
From Verif Require Import PyBytes PyBytesFacts PyDictFacts M_Context S_Context.

Lemma beqb_spec a b : reflect (a = b) (beqb a b).
Proof. destruct (beqb a b) eqn:E; constructor; [now apply beqb_eq|]. intros ->. rewrite beqb_refl in E. discriminate. Qed.
Lemma in_b n l : existsb (beqb n) l = true <-> In n l.
Proof.
  rewrite existsb_exists. split; [intros (x & I & E); apply beqb_eq in E; now subst|]. intros I. exists n. split; [exact I|apply beqb_refl].
Qed.
Lemma notin_b n l : ~ In n l -> existsb (beqb n) l = false.
Proof. intros H. apply not_true_iff_false. now rewrite in_b. Qed.

(** The dict of context i after [l]. *)
Record good (l : list op) (i : nat) (k : kind) (c : ctx) : Prop := {
  g_kind : x_kind c = k;
  g_nodup : NoDup (map fst (x_dict c));
  g_props : forall p, In p (props k) -> dget beqb p (x_dict c) = Some (Made i p);
  g_free : writes i (bs "__setattr__") l = [] -> forall n, ~ In n (props k) -> ~ In n slots -> dget beqb n (x_dict c) = option_map Given (latest i n l) }.

Lemma writes_app i n a b : writes i n (a ++ b) = writes i n a ++ writes i n b.
Proof. apply flat_map_app. Qed.
Lemma latest_snoc i n l o : latest i n (l ++ [o]) = match writes i n [o] with [] => latest i n l | x :: _ => x end.
Proof.
  unfold latest. rewrite writes_app. destruct (writes i n [o]) as [|x [|y t]] eqn:E; [now rewrite app_nil_r|apply last_last|].
  exfalso. unfold writes in E. cbn [flat_map] in E. rewrite app_nil_r in E. destruct o as [k'|j m v|j m v|j m]; [discriminate|..]; destruct ((j =? i) && beqb m n); discriminate.
Qed.
Lemma other_same l i k c o : good l i k c -> (forall n, writes i n [o] = []) -> good (l ++ [o]) i k c.
Proof.
  intros [A B C D] H. split; try assumption. intros W n N1 N2. rewrite latest_snoc, (H n). apply D; try assumption. rewrite writes_app, (H _), app_nil_r in W. exact W.
Qed.
Lemma make_good l i k : (forall n, writes i n l = []) -> good l i k (make i k).
Proof.
  intros H. split; [reflexivity|..].
  - destruct k; cbn; repeat constructor; cbn; intuition discriminate.
  - intros p Hp. destruct k; cbn in Hp; repeat (destruct Hp as [<-|Hp]; [reflexivity|]); contradiction.
  - intros _ n N1 _. unfold latest. rewrite H. cbn [option_map last]. apply dget_none. cbn [make x_dict]. rewrite map_map, map_id. exact N1.
Qed.
Lemma nth_update (h : list ctx) i c : i < List.length h -> forall j, nth_error (firstn i h ++ c :: skipn (S i) h) j = if j =? i then Some c else nth_error h j.
Proof.
  intros Li j. destruct (Nat.eqb_spec j i) as [->|N].
  - rewrite nth_error_app2; rewrite firstn_length_le by lia; [|lia]. now rewrite Nat.sub_diag.
  - destruct (Nat.lt_ge_cases j i) as [L|G].
    + rewrite nth_error_app1 by (rewrite firstn_length_le; lia). rewrite <- (firstn_skipn i h) at 2. now rewrite nth_error_app1 by (rewrite firstn_length_le; lia).
    + rewrite nth_error_app2; rewrite firstn_length_le by lia; [|lia]. destruct (j - i) as [|d] eqn:E; [lia|]. cbn [nth_error].
      rewrite <- (firstn_skipn (S i) h) at 2. rewrite nth_error_app2; rewrite firstn_length_le by lia; [|lia]. f_equal. lia.
Qed.
Lemma set_good l i k c n v o : good l i k c -> (o = SetAttr i n v) \/ o = SetItem i n v /\ (forall f, getattr c (bs "__setattr__") <> Val f) -> good (l ++ [o]) i k (fst (setattr c n (Given v))).
Proof.
  intros G Ho. assert (forall m, writes i m [o] = if beqb n m then [Some v] else []) as Wo.
  { intros m. destruct Ho as [->|[-> _]]; unfold writes; cbn [flat_map]; rewrite Nat.eqb_refl, app_nil_r; reflexivity. }
  unfold setattr. pose proof (g_kind _ _ _ _ G) as K. rewrite K. destruct (existsb (beqb n) (props k)) eqn:Ep; cbn [fst]; [apply in_b in Ep|].
  { destruct G as [A B C D]. split; try assumption. intros W m N1 N2. rewrite latest_snoc, Wo. destruct (beqb n m) eqn:E; [apply beqb_eq in E; now subst|].
    apply D; try assumption. rewrite writes_app in W. now apply app_eq_nil in W. }
  destruct (existsb (beqb n) slots) eqn:Es; cbn [fst]; [apply in_b in Es|].
  { destruct G as [A B C D]. split; try assumption. intros W m N1 N2. rewrite latest_snoc, Wo. destruct (beqb n m) eqn:E; [apply beqb_eq in E; now subst|].
    apply D; try assumption. rewrite writes_app in W. now apply app_eq_nil in W. }
  destruct G as [A B C D]. split; cbn [x_kind x_dict]; [reflexivity|now apply dset_nodup|..].
  - intros p Hp. rewrite dget_dset. destruct (beqb p n) eqn:E; [|now apply C]. apply beqb_eq in E. subst. apply in_b in Hp. congruence.
  - intros W m N1 N2. rewrite dget_dset, latest_snoc, Wo. destruct (beqb_spec n m) as [->|N].
    + now rewrite beqb_refl.
    + destruct (beqb_spec m n) as [->|_]; [contradiction|]. apply D; try assumption. rewrite writes_app in W. now apply app_eq_nil in W.
Qed.
Lemma del_good l i k c n : good l i k c -> good (l ++ [DelAttr i n]) i k (fst (delattr c n)).
Proof.
  intros G. assert (forall m, writes i m [DelAttr i n] = if beqb n m then [None] else []) as Wo.
  { intros m. unfold writes; cbn [flat_map]; rewrite Nat.eqb_refl, app_nil_r; reflexivity. }
  unfold delattr. pose proof (g_kind _ _ _ _ G) as K. rewrite K. destruct (existsb (beqb n) (props k)) eqn:Ep; cbn [fst]; [apply in_b in Ep|].
  { destruct G as [A B C D]. split; try assumption. intros W m N1 N2. rewrite latest_snoc, Wo. destruct (beqb n m) eqn:E; [apply beqb_eq in E; now subst|].
    apply D; try assumption. rewrite writes_app in W. now apply app_eq_nil in W. }
  destruct (existsb (beqb n) slots) eqn:Es; cbn [fst]; [apply in_b in Es|].
  { destruct G as [A B C D]. split; try assumption. intros W m N1 N2. rewrite latest_snoc, Wo. destruct (beqb n m) eqn:E; [apply beqb_eq in E; now subst|].
    apply D; try assumption. rewrite writes_app in W. now apply app_eq_nil in W. }
  destruct (dmem beqb n (x_dict c)) eqn:Em; cbn [fst].
  - destruct G as [A B C D]. split; cbn [x_kind x_dict]; [reflexivity|now apply ddel_nodup|..].
    + intros p Hp. rewrite dget_ddel by assumption. destruct (beqb p n) eqn:E; [|now apply C]. apply beqb_eq in E. subst. apply in_b in Hp. congruence.
    + intros W m N1 N2. rewrite dget_ddel, latest_snoc, Wo by assumption. destruct (beqb_spec n m) as [->|N].
      * now rewrite beqb_refl.
      * destruct (beqb_spec m n) as [->|_]; [contradiction|]. apply D; try assumption. rewrite writes_app in W. now apply app_eq_nil in W.
  - destruct G as [A B C D]. split; try assumption. intros W m N1 N2. rewrite latest_snoc, Wo.
    destruct (beqb_spec n m) as [->|N]; [|apply D; try assumption; rewrite writes_app in W; now apply app_eq_nil in W].
    unfold dmem in Em. destruct (dget beqb m (x_dict c)); [discriminate|reflexivity].
Qed.

Lemma run_app a b : forall h, run h (a ++ b) = run (run h a) b.
Proof. induction a as [|o a IH]; intros h; [reflexivity|]. cbn [app run]. apply IH. Qed.
Definition Inv (l : list op) (h : list ctx) : Prop :=
  List.length h = List.length (kinds l) /\ forall i k, nth_error (kinds l) i = Some k -> exists c, nth_error h i = Some c /\ good l i k c.
Lemma kinds_app a b : kinds (a ++ b) = kinds a ++ kinds b.
Proof. apply flat_map_app. Qed.
Lemma made_app a b : made_first (a ++ b) -> made_first a.
Proof. intros H pre o post i E A. apply (H pre o (post ++ b) i); [|exact A]. now rewrite E, <- app_assoc. Qed.
Lemma no_writes l i n : made_first l -> List.length (kinds l) <= i -> writes i n l = [].
Proof.
  intros M L. assert (forall o, In o l -> writes i n [o] = []) as H.
  { intros o I. apply in_split in I as (pre & post & E). assert (about o <> Some i) as N.
    { intros A. specialize (M pre o post i E A). rewrite E, kinds_app, app_length in L. lia. }
    unfold writes. cbn [flat_map]. rewrite app_nil_r. destruct o as [k'|j m v|j m v|j m]; [reflexivity|..]; cbn [about] in N; destruct (Nat.eqb_spec j i); try congruence; reflexivity. }
  clear M L. induction l as [|o l IH]; [reflexivity|]. change (o :: l) with ([o] ++ l). rewrite writes_app, (H o (or_introl eq_refl)). cbn [app]. apply IH. intros o' I. apply H. now right.
Qed.
Lemma update_inv l o i f h : Inv l h -> about o = Some i -> i < List.length (kinds l) ->
  (forall k c, nth_error h i = Some c -> good l i k c -> good (l ++ [o]) i k (fst (f c))) ->
  Inv (l ++ [o]) (fst (update i f h)).
Proof.
  intros [L H] A Li F. assert (kinds (l ++ [o]) = kinds l) as Ek by (rewrite kinds_app; destruct o; cbn; try discriminate; apply app_nil_r).
  unfold update. destruct (nth_error h i) as [c|] eqn:Ei; [|apply nth_error_None in Ei; lia]. destruct (f c) as [c' r] eqn:Ef. cbn [fst]. unfold Inv. rewrite Ek. split.
  - rewrite app_length. cbn [List.length]. rewrite firstn_length_le, skipn_length by lia. lia.
  - intros j k Hj. destruct (H j k Hj) as (cj & Ej & Gj). rewrite nth_update by lia. destruct (Nat.eqb_spec j i) as [->|N].
    + exists c'. split; [reflexivity|]. assert (cj = c) as -> by congruence. specialize (F k c eq_refl Gj). now rewrite Ef in F.
    + exists cj. split; [exact Ej|]. apply other_same; [exact Gj|]. intros n. unfold writes. cbn [flat_map]. rewrite app_nil_r.
      destruct o as [k'|x m v|x m v|x m]; [reflexivity|..]; cbn [about] in A; destruct (Nat.eqb_spec x j); try congruence; reflexivity.
Qed.
Lemma run_inv l : made_first l -> Inv l (run [] l).
Proof.
  induction l as [|o l IH] using rev_ind; intros M; [split; [reflexivity|intros [|]; discriminate]|].
  specialize (IH (made_app _ _ M)). rewrite run_app. cbn [run].
  assert (forall i, about o = Some i -> i < List.length (kinds l)) as Ab by (intros i; now apply (M l o [])).
  destruct o as [k|i n v|i n v|i n]; cbn [step].
  - destruct IH as [L H]. unfold Inv. rewrite kinds_app. cbn [kinds flat_map app fst]. split; [rewrite !app_length; cbn [List.length]; lia|].
    intros i k' Hi. destruct (Nat.lt_ge_cases i (List.length (kinds l))) as [Lt|Ge].
    + rewrite nth_error_app1 in Hi by assumption. destruct (H i k' Hi) as (c & Ec & G). exists c. rewrite nth_error_app1 by lia. split; [exact Ec|]. now apply other_same.
    + rewrite nth_error_app2 in Hi by assumption. destruct (i - List.length (kinds l)) as [|d] eqn:E; [|destruct d; discriminate]. assert (i = List.length (kinds l)) as -> by lia.
      injection Hi as <-. exists (make (List.length (run [] l)) k). rewrite nth_error_app2 by lia. rewrite L, Nat.sub_diag. split; [reflexivity|]. apply other_same; [|reflexivity].
      apply make_good. intros n. apply no_writes; [now apply made_app in M|lia].
  - apply (update_inv _ _ i); [exact IH|reflexivity|now apply Ab|]. intros k c _ G. apply set_good; [exact G|now left].
  - apply (update_inv _ _ i); [exact IH|reflexivity|now apply Ab|]. intros k c _ G. unfold setitem.
    assert (fst (match getattr c (bs "__setattr__") with Val f => (c, Called f) | _ => setattr c n (Given v) end) = match getattr c (bs "__setattr__") with Val f => c | _ => fst (setattr c n (Given v)) end) as -> by now destruct (getattr c (bs "__setattr__")).
    destruct (getattr c (bs "__setattr__")) as [f| | | | | | | |] eqn:Ea; try (apply set_good; [exact G|]; right; split; [reflexivity|intros f; rewrite Ea; discriminate]).
    destruct G as [A B C D]. split; try assumption. intros W. exfalso. rewrite writes_app in W. apply app_eq_nil in W as [W _].
    specialize (D W (bs "__setattr__")). unfold getattr in Ea. rewrite A in Ea. rewrite (notin_b (bs "__setattr__") (props k)) in Ea by (destruct k; cbn; intuition discriminate).
    rewrite (notin_b (bs "__setattr__") slots) in Ea by (cbn; intuition discriminate). rewrite D in Ea by (try (destruct k; cbn; intuition discriminate); cbn; intuition discriminate).
    unfold latest in Ea. rewrite W in Ea. discriminate Ea.
  - apply (update_inv _ _ i); [exact IH|reflexivity|now apply Ab|]. intros k c _ G. now apply del_good.
Qed.
