(** Facts about insertion-ordered dicts with byte-string keys. *)
From Verif Require Import PyBytes PyBytesFacts.

Section Facts.
  Context {V : Type}.
  Implicit Types (d : list (bytes * V)) (k : bytes) (v : V).

  Lemma dget_dset_same k v d : dget beqb k (dset beqb k v d) = Some v.
  Proof.
    induction d as [|[k' v'] d IH]; cbn [dset dget]; [now rewrite beqb_refl|].
    destruct (beqb k k') eqn:E; cbn [dget]; now rewrite E.
  Qed.
  Lemma dget_dset_other k k' v d : k <> k' -> dget beqb k (dset beqb k' v d) = dget beqb k d.
  Proof.
    intros N. induction d as [|[k2 v2] d IH]; cbn [dset dget].
    - apply beqb_neq in N. now rewrite N.
    - destruct (beqb k' k2) eqn:E; cbn [dget].
      + apply beqb_eq in E as <-. apply beqb_neq in N. now rewrite N.
      + now rewrite IH.
  Qed.
  Lemma dget_dset k k' v d : dget beqb k (dset beqb k' v d) = if beqb k k' then Some v else dget beqb k d.
  Proof.
    destruct (beqb k k') eqn:E; [apply beqb_eq in E as <-; apply dget_dset_same|].
    apply dget_dset_other. now apply beqb_neq.
  Qed.
  Lemma dget_none k d : dget beqb k d = None <-> ~ In k (map fst d).
  Proof.
    induction d as [|[k' v'] d IH]; cbn [dget map fst]; [firstorder|].
    destruct (beqb k k') eqn:E.
    - apply beqb_eq in E as <-. split; [easy|]. intros H. destruct H. now left.
    - apply beqb_neq in E. rewrite IH. cbn [In]. intuition congruence.
  Qed.
  Lemma dget_some_in k v d : dget beqb k d = Some v -> In (k, v) d.
  Proof.
    induction d as [|[k' v'] d IH]; cbn [dget]; [easy|].
    destruct (beqb k k') eqn:E; [apply beqb_eq in E as <-; intros [= ->]; now left|]. right; auto.
  Qed.
  Lemma in_dget k v d : NoDup (map fst d) -> In (k, v) d -> dget beqb k d = Some v.
  Proof.
    induction d as [|[k' v'] d IH]; intros ND I; [easy|]. cbn [map fst] in ND. inversion_clear ND as [|? ? N ND'].
    cbn [dget]. destruct I as [[= -> ->]|I]; [now rewrite beqb_refl|].
    destruct (beqb k k') eqn:E; [|auto]. apply beqb_eq in E as <-. destruct N.
    apply in_map_iff. exists (k, v). auto.
  Qed.
  Lemma dset_in k v d k' v' : In (k', v') (dset beqb k v d) -> (k', v') = (k, v) \/ In (k', v') d.
  Proof.
    induction d as [|[k2 v2] d IH]; cbn [dset In]; [intuition|].
    destruct (beqb k k2) eqn:E; cbn [In].
    - apply beqb_eq in E as <-. intuition.
    - intuition.
  Qed.
  Lemma dset_keys k v d : map fst (dset beqb k v d) = map fst d ++ (if dmem beqb k d then [] else [k]).
  Proof.
    unfold dmem. induction d as [|[k2 v2] d IH]; cbn [dset dget map fst app]; [reflexivity|].
    destruct (beqb k k2) eqn:E; cbn [map fst app]; [now rewrite app_nil_r|]. now rewrite IH.
  Qed.
  Lemma NoDup_snoc {A} (l : list A) x : NoDup l -> ~ In x l -> NoDup (l ++ [x]).
  Proof.
    intros ND N. induction ND as [|y l Hy ND IH]; cbn [app]; [constructor; [easy|constructor]|].
    constructor; [|apply IH; intros H; apply N; now right].
    intros H. apply in_app_or in H as [H|[<-|[]]]; [now apply Hy|]. apply N. now left.
  Qed.
  Lemma dset_nodup k v d : NoDup (map fst d) -> NoDup (map fst (dset beqb k v d)).
  Proof.
    intros ND. rewrite dset_keys. unfold dmem. destruct (dget beqb k d) eqn:G; [now rewrite app_nil_r|].
    apply NoDup_snoc; [exact ND|]. now apply dget_none.
  Qed.
  Lemma ddel_in k d k' v' : In (k', v') (ddel beqb k d) -> In (k', v') d.
  Proof.
    induction d as [|[k2 v2] d IH]; cbn [ddel]; [easy|]. destruct (beqb k k2); cbn [In]; intuition.
  Qed.
  Lemma ddel_keys_in k d x : In x (map fst (ddel beqb k d)) -> In x (map fst d).
  Proof.
    intros H. apply in_map_iff in H as ((k', v') & <- & H). apply ddel_in in H. apply in_map_iff. now exists (k', v').
  Qed.
  Lemma ddel_nodup k d : NoDup (map fst d) -> NoDup (map fst (ddel beqb k d)).
  Proof.
    induction d as [|[k2 v2] d IH]; cbn [ddel map fst]; intros ND; [exact ND|]. inversion_clear ND as [|? ? N ND'].
    destruct (beqb k k2); [exact ND'|]. cbn [map fst]. constructor; [|auto]. intros H. apply N. eapply ddel_keys_in, H.
  Qed.
  Lemma dget_ddel k k' d : NoDup (map fst d) -> dget beqb k (ddel beqb k' d) = if beqb k k' then None else dget beqb k d.
  Proof.
    induction d as [|[k2 v2] d IH]; cbn [ddel map fst dget]; intros ND; [now destruct (beqb k k')|].
    inversion_clear ND as [|? ? N ND']. destruct (beqb k' k2) eqn:E.
    - apply beqb_eq in E as <-. destruct (beqb k k') eqn:E2; [|reflexivity]. apply beqb_eq in E2 as ->.
      now apply dget_none.
    - cbn [dget]. destruct (beqb k k2) eqn:E3.
      + apply beqb_eq in E3 as <-. rewrite beqb_sym in E. now rewrite E.
      + now apply IH.
  Qed.
End Facts.
