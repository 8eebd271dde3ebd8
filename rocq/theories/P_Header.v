(** Proofs about the head phase (C10, C11). *)
From Verif Require Import PyBytes PyBytesFacts M_Header P_Parser P_Parser2.
From Coq Require Import ZifyBool ZifyNat.
Local Open Scope Z_scope.

Lemma find_prefix_none s l k : find s (l ++ k) = None -> find s l = None.
Proof. intros H. destruct (find s l) eqn:E; [|reflexivity]. now rewrite (find_app_ext _ _ k _ E) in H. Qed.

Lemma find_prefix_some s l k p : find s (l ++ k) = Some p -> s <> [] ->
  if (Nat.leb (p + List.length s) (List.length l)) then find s l = Some p else find s l = None.
Proof.
  intros H Hs. destruct (Nat.leb_spec (p + List.length s) (List.length l)) as [L|L].
  - pose proof (find_upto _ _ _ (List.length l) H L) as F. rewrite firstn_app_len in F. exact F.
  - destruct (find s l) eqn:E; [|reflexivity]. pose proof (find_app_ext _ _ k _ E) as E2.
    rewrite H in E2. injection E2 as ->. apply find_some in E as [E _]. lia.
Qed.

Lemma head_step_cases max buf data : data <> [] -> 0 <= max ->
  head_step max buf data =
  match find (CRLF ++ CRLF) (buf ++ data) with
  | Some p => if Z.of_nat p + 2 <=? max then HDispatch (buf ++ data) (Z.of_nat p + 2) else HAbort
  | None => if blen (buf ++ data) <=? max then HWait (buf ++ data) else HAbort
  end.
Proof.
  intros Hd Hm. unfold head_step. destruct data as [|x data]; [easy|].
  destruct (find (CRLF ++ CRLF) (buf ++ x :: data)) as [p|] eqn:F; cbn [pos].
  - replace (1 <? Z.of_nat p + 2) with true by lia. cbn [andb].
    destruct (Z.leb_spec (Z.of_nat p + 2) max); [reflexivity|].
    now replace (max <? Z.of_nat p + 2) with true by lia.
  - change (-1 + 2) with 1. cbn [Z.ltb Z.compare Pos.compare Pos.compare_cont andb]. rewrite Z.eqb_refl. cbn [andb].
    destruct (Z.ltb_spec max 1).
    + assert (blen (buf ++ x :: data) <=? max = false) as ->; [|reflexivity].
      unfold blen. rewrite app_length. cbn [List.length]. lia.
    + now destruct (blen (buf ++ x :: data) <=? max).
Qed.

Lemma head_step_nil max buf : head_step max buf [] = HWait buf.
Proof. reflexivity. Qed.

Lemma head_feed_some max segs : 0 <= max -> forall buf p,
  find (CRLF ++ CRLF) buf = None -> find (CRLF ++ CRLF) (buf ++ concat segs) = Some p ->
  (Z.of_nat p + 3 <= max -> exists data rest, head_feed max buf segs = (HDispatch data (Z.of_nat p + 2), rest) /\
     data ++ concat rest = buf ++ concat segs /\ (p + 4 <= List.length data)%nat) /\
  (max < Z.of_nat p + 2 -> fst (head_feed max buf segs) = HAbort).
Proof.
  intros Hm. induction segs as [|d segs IH]; intros buf p N F.
  - cbn [concat] in F. rewrite app_nil_r in F. congruence.
  - cbn [concat head_feed] in *. destruct d as [|x d].
    + rewrite head_step_nil. exact (IH buf p N F).
    + rewrite head_step_cases by (discriminate || exact Hm).
      rewrite app_assoc in F |- *. set (b := buf ++ x :: d) in *.
      pose proof (find_prefix_some _ _ _ _ F ltac:(discriminate)) as P.
      change (List.length (CRLF ++ CRLF)) with 4%nat in P.
      destruct (Nat.leb_spec (p + 4) (List.length b)) as [L|L]; rewrite P.
      * destruct (Z.leb_spec (Z.of_nat p + 2) max).
        -- split; [|lia]. intros _. exists b, segs. repeat split. lia.
        -- split; [lia|reflexivity].
      * destruct (Z.leb_spec (blen b) max).
        -- exact (IH b p P F).
        -- unfold blen in *. split; [lia|reflexivity].
Qed.

Lemma head_feed_none max segs : 0 <= max -> forall buf,
  find (CRLF ++ CRLF) (buf ++ concat segs) = None -> blen buf <= max ->
  if blen (buf ++ concat segs) <=? max then head_feed max buf segs = (HWait (buf ++ concat segs), [])
  else fst (head_feed max buf segs) = HAbort.
Proof.
  intros Hm. induction segs as [|d segs IH]; intros buf F Hb.
  - cbn [concat head_feed] in *. rewrite app_nil_r in *. now replace (blen buf <=? max) with true by lia.
  - cbn [concat head_feed] in *. destruct d as [|x d].
    + rewrite head_step_nil. exact (IH buf F Hb).
    + rewrite head_step_cases by (discriminate || exact Hm).
      rewrite app_assoc in F |- *. set (b := buf ++ x :: d) in *.
      rewrite (find_prefix_none _ _ _ F).
      destruct (Z.leb_spec (blen b) max) as [L|L]; [exact (IH b F L)|].
      replace (blen (b ++ concat segs) <=? max) with false; [reflexivity|].
      unfold blen in *. rewrite app_length. lia.
Qed.

Lemma c10_main max segs : 0 <= max ->
  match find (CRLF ++ CRLF) (concat segs) with
  | Some p =>
      (Z.of_nat p + 3 <= max -> exists data rest,
         head_feed max [] segs = (HDispatch data (Z.of_nat p + 2), rest) /\
         data ++ concat rest = concat segs /\ (p + 4 <= List.length data)%nat) /\
      (max < Z.of_nat p + 2 -> fst (head_feed max [] segs) = HAbort)
  | None =>
      (blen (concat segs) <= max -> head_feed max [] segs = (HWait (concat segs), [])) /\
      (max < blen (concat segs) -> fst (head_feed max [] segs) = HAbort)
  end.
Proof.
  intros Hm. destruct (find (CRLF ++ CRLF) (concat segs)) as [p|] eqn:F.
  - exact (head_feed_some max segs Hm [] p eq_refl F).
  - pose proof (head_feed_none max segs Hm [] F ltac:(exact Hm)) as H. cbn [app] in H.
    destruct (Z.leb_spec (blen (concat segs)) max); split; intros; (assumption || lia).
Qed.

Lemma head_feed_waits max segs : 0 <= max -> forall buf b rest, blen buf <= max ->
  head_feed max buf segs = (HWait b, rest) -> rest = [] /\ b = buf ++ concat segs /\ blen b <= max.
Proof.
  intros Hm. induction segs as [|d segs IH]; intros buf b rest Hb; cbn [head_feed concat].
  - intros E. injection E as <- <-. now rewrite app_nil_r.
  - destruct d as [|x d]; [rewrite head_step_nil; now apply IH|].
    rewrite head_step_cases by (discriminate || exact Hm).
    destruct (find _ _) as [p|]; [now destruct (_ <=? _)|].
    destruct (Z.leb_spec (blen (buf ++ x :: d)) max) as [L|L]; [|easy].
    intros E. destruct (IH _ _ _ L E) as (-> & -> & ?). repeat split; [|assumption]. now rewrite <- app_assoc.
Qed.

Lemma head_feed_dispatch max segs : 0 <= max -> forall buf data hs rest,
  head_feed max buf segs = (HDispatch data hs, rest) ->
  hs <= max /\ exists p, find (CRLF ++ CRLF) data = Some p /\ hs = Z.of_nat p + 2 /\ data ++ concat rest = buf ++ concat segs.
Proof.
  intros Hm. induction segs as [|d segs IH]; intros buf data hs rest; cbn [head_feed concat]; [easy|].
  destruct d as [|x d]; [rewrite head_step_nil; apply IH|].
  rewrite head_step_cases by (discriminate || exact Hm).
  destruct (find _ _) as [p|] eqn:F.
  - destruct (Z.leb_spec (Z.of_nat p + 2) max) as [L|L]; [|easy]. intros E. injection E as <- <- <-.
    split; [exact L|]. exists p. split; [exact F|]. split; [reflexivity|]. now rewrite <- app_assoc.
  - destruct (Z.leb_spec (blen (buf ++ x :: d)) max) as [L|L]; [|easy].
    intros E. destruct (IH _ _ _ _ E) as (? & p & ? & ? & ->). split; [assumption|]. exists p. repeat split; try assumption. now rewrite <- app_assoc.
Qed.

Lemma c11_main max segs : 0 <= max ->
  match fst (head_feed max [] segs) with
  | HWait buf => blen buf <= max
  | HDispatch data hs => hs <= max /\ exists p, find (CRLF ++ CRLF) data = Some p /\ hs = Z.of_nat p + 2
  | HAbort => True
  end.
Proof.
  intros Hm. destruct (head_feed max [] segs) as [o rest] eqn:E. cbn [fst]. destruct o as [b|data hs|]; [| |exact I].
  - now destruct (head_feed_waits max segs Hm [] b rest ltac:(exact Hm) E) as (_ & _ & H).
  - destruct (head_feed_dispatch max segs Hm [] data hs rest E) as (H & p & F & Q & _). split; [exact H|]. now exists p.
Qed.

Definition edge := bs "GET / HTTP/1.0".
Lemma c10_refuted_main : exists max segs1 segs2, concat segs1 = concat segs2 /\
  fst (head_feed max [] segs1) = HAbort /\ exists d hs, fst (head_feed max [] segs2) = HDispatch d hs.
Proof.
  exists 16, [edge ++ CRLF ++ [CR]; [LF]], [edge ++ CRLF ++ CRLF]. split; [reflexivity|]. split; [reflexivity|].
  do 2 eexists. vm_compute. reflexivity.
Qed.

Lemma c11_both max segs : 0 <= max ->
  match fst (head_feed max [] segs) with
  | HWait buf => blen buf <= max
  | HDispatch data hs => hs <= max /\ exists p, find (CRLF ++ CRLF) data = Some p /\ hs = Z.of_nat p + 2
  | HAbort => True
  end /\
  (find (CRLF ++ CRLF) (concat segs) = None -> max < blen (concat segs) -> fst (head_feed max [] segs) = HAbort).
Proof.
  intros Hm. split; [now apply c11_main|]. intros F L. pose proof (c10_main max segs Hm) as H. rewrite F in H. now apply H.
Qed.
