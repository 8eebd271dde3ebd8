(** Proofs about request body reading: fuel, Content-Length bodies (C12), limits (C18). *)
From Verif Require Import PyBytes PyBytesFacts PyInt PyExn M_Stream S_Chunked P_Parser P_Parser2.
From Coq Require Import ZifyBool ZifyNat.
Local Open Scope Z_scope.

Lemma slice_nonneg {A} (l : list A) i j : 0 <= i <= j ->
  slice l i j = firstn (Z.to_nat (j - i)) (skipn (Z.to_nat i) l).
Proof.
  intros H. unfold slice. rewrite !norm_index_nonneg by lia.
  set (a := Z.to_nat i). set (n := List.length l).
  destruct (Nat.le_gt_cases n a) as [L|L].
  - replace (Nat.min n a) with n by lia. replace (Nat.min n (Z.to_nat j)) with n by lia.
    rewrite Nat.sub_diag. cbn [firstn]. rewrite (skipn_all2 l) by exact L. now rewrite firstn_nil.
  - replace (Nat.min n a) with a by lia. destruct (Nat.le_gt_cases n (Z.to_nat j)) as [M|M].
    + replace (Nat.min n (Z.to_nat j)) with n by lia. rewrite !firstn_all2; [reflexivity| |]; rewrite skipn_length; fold n; lia.
    + replace (Nat.min n (Z.to_nat j)) with (Z.to_nat j) by lia. f_equal. lia.
Qed.

Lemma blen_app a b : blen (a ++ b) = blen a + blen b.
Proof. unfold blen. rewrite app_length. lia. Qed.
Lemma blen_nonneg a : 0 <= blen a.
Proof. unfold blen. lia. Qed.

(** ** The fuel given by [work] always suffices. *)

Definition wf (g : gen) : Prop :=
  match g with GChunk _ true unread _ => unread <= 0 | _ => True end.

Lemma chunk_pass_yield o buf unread d b' p u' : chunk_pass o buf unread = PYield d b' p u' ->
  (List.length b' <= List.length buf)%nat /\ (p = true -> u' <= 0) /\
  (unread <= 0 \/ buf <> [] -> (List.length b' < List.length buf)%nat).
Proof.
  unfold chunk_pass. destruct (Z.ltb_spec 0 unread) as [U|U].
  - rewrite upto_nonneg, from_nonneg by lia. destruct (Z.ltb_spec 0 (unread - blen (firstn (Z.to_nat unread) buf))) as [V|V].
    + intros E. injection E as <- <- <- <-. rewrite skipn_length. split; [lia|]. split; [discriminate|].
      intros [?|N]; [lia|]. destruct buf; [easy|]. cbn [List.length]. lia.
    + intros E. injection E as <- <- <- <-. rewrite from_nonneg by lia. rewrite !skipn_length. split; [lia|]. split; [lia|].
      intros [?|N]; [lia|]. destruct buf; [easy|]. cbn [List.length]. lia.
  - destruct (find CRLF buf) as [i|] eqn:F; [|now destruct (_ <? _)].
    apply find_some in F as (L & _). change (List.length CRLF) with 2%nat in L.
    destruct (chunk_line_size _) as [n|]; [|easy]. destruct (Z.ltb_spec n 1) as [N|N]; [easy|].
    destruct (0 <? n - _) eqn:V.
    + intros E. injection E as <- <- <- <-. cbn [List.length]. split; [lia|]. split; [discriminate|]. lia.
    + intros E. injection E as <- <- <- <-. rewrite from_nonneg by lia. rewrite skipn_length. split; [lia|]. split; lia.
Qed.

Lemma after_pass_yield s p buf ad d s' g' : after_pass s p buf ad = (OYield d, s', g') ->
  exists b' pa u', p = PYield d b' pa u' /\ s' = s /\ g' = GChunk b' pa u' ad.
Proof. destruct p; cbn; intros E; [|discriminate E|discriminate E|discriminate E]. injection E as -> -> <-. now exists buf0, paused, unread. Qed.

Lemma items_work_cons i l : items_work (i :: l) = (inp_work i + items_work l)%nat.
Proof. reflexivity. Qed.

Lemma chunk_read_work o l : forall s buf unread d s' g',
  chunk_read o l s buf unread = (OYield d, s', g') ->
  wf g' /\ (items_work (items s') + gen_work g' < items_work l + List.length buf)%nat.
Proof.
  induction l as [|i l IH]; intros s buf unread d s' g'; cbn [chunk_read]; [easy|].
  destruct i as [x| |]; [| |easy].
  - destruct (chunk_pass o (buf ++ x) unread) as [d0 b0 p0 u0| | |] eqn:E; cbn [after_pass]; try easy.
    + intros H. injection H as <- <- <-. apply chunk_pass_yield in E as (E1 & E2 & _). cbn [wf gen_work took items].
      split; [destruct p0; [now apply E2|exact I]|]. rewrite items_work_cons. cbn [inp_work]. rewrite app_length in E1. lia.
    + intros H. apply IH in H as [W H]. split; [exact W|]. rewrite items_work_cons. cbn [inp_work]. rewrite app_length in H. lia.
  - destruct (contains _ buf); [|easy]. intros H. apply after_pass_yield in H as (b' & pa & u' & E & -> & ->).
    apply chunk_pass_yield in E as (E1 & E2 & _). cbn [wf gen_work set_items items].
    split; [destruct pa; [now apply E2|exact I]|]. rewrite items_work_cons. cbn [inp_work]. lia.
Qed.

Lemma contains_nonempty s l : s <> [] -> contains s l = true -> l <> [].
Proof. intros Hs C ->. apply contains_spec in C as (a & c & E). destruct a; [|discriminate]. destruct s; [easy|discriminate]. Qed.

Lemma chunk_next_work o s buf paused unread ad d s' g' : (paused = true -> unread <= 0) ->
  chunk_next o s buf paused unread ad = (OYield d, s', g') ->
  wf g' /\ (items_work (items s') + gen_work g' < items_work (items s) + List.length buf)%nat.
Proof.
  intros W. unfold chunk_next.
  assert ((if ad then chunk_over o s buf unread else chunk_read o (items s) s buf unread) = (OYield d, s', g') ->
     wf g' /\ (items_work (items s') + gen_work g' < items_work (items s) + List.length buf)%nat) as R.
  { destruct ad; [|apply chunk_read_work]. unfold chunk_over. destruct (contains _ buf) eqn:C; [|easy].
    intros H. apply after_pass_yield in H as (b' & pa & u' & E & -> & ->).
    apply chunk_pass_yield in E as (E1 & E2 & E3). cbn [wf gen_work].
    split; [destruct pa; [now apply E2|exact I]|].
    assert (List.length b' < List.length buf)%nat; [|lia]. apply E3. right. eapply contains_nonempty; [|exact C]. discriminate. }
  destruct paused; [|exact R].
  destruct (chunk_pass o buf unread) as [d0 b0 p0 u0| | |] eqn:E; cbn [after_pass]; try easy.
  intros H. injection H as <- <- <-. apply chunk_pass_yield in E as (E1 & E2 & E3). cbn [wf gen_work].
  split; [destruct p0; [now apply E2|exact I]|]. specialize (E3 (or_introl (W eq_refl))). lia.
Qed.

Lemma plain_next_work s d s' g' : plain_next s = (OYield d, s', g') ->
  wf g' /\ (items_work (items s') + gen_work g' < items_work (items s))%nat.
Proof.
  unfold plain_next. destruct (items s) as [|[x| |] l] eqn:E; try easy.
  destruct (_ && _); intros H; injection H as <- <- <-; cbn [wf gen_work took items]; rewrite items_work_cons; cbn [inp_work]; (split; [exact I|lia]).
Qed.

Lemma gen_next_work o s g d s' g' : wf g -> gen_next o s g = (OYield d, s', g') ->
  wf g' /\ (work s' g' < work s g)%nat.
Proof.
  intros W. unfold work. destruct g as [raw|buf paused unread ad| |]; cbn [gen_next gen_work].
  - destruct (eof_ s); [easy|]. unfold send_continue.
    assert (forall s0, items s0 = items s ->
      (if negb raw && chunked s0 then chunk_next o s0 [] false 0 false
       else if o_max_body o <? clen s0 then (ORaise PayloadTooLarge, s0, GDone) else plain_next s0) = (OYield d, s', g') ->
      wf g' /\ (S (items_work (items s') + gen_work g') < S (items_work (items s) + 0))%nat) as G.
    { intros s0 Hi. destruct (negb raw && chunked s0).
      - intros H. apply chunk_next_work in H as [A B]; [|easy]. rewrite Hi in B. cbn [List.length] in B. split; [exact A|lia].
      - destruct (_ <? _); [easy|]. intros H. apply plain_next_work in H as [A B]. rewrite Hi in B. split; [exact A|lia]. }
    destruct (cont s); [destruct (_ <? _); [easy|]|]; apply G; reflexivity.
  - intros H. apply chunk_next_work in H as [A B]; [split; [exact A|lia]|]. intros ->. exact W.
  - intros H. apply plain_next_work in H as [A B]. split; [exact A|lia].
  - easy.
Qed.

Lemma drain_fuel o : forall fuel s g, wf g -> (work s g <= fuel)%nat ->
  let '(_, r, _, _) := drain fuel o s g in r <> FFuel.
Proof.
  induction fuel as [|f IH]; intros s g W H; [unfold work in H; lia|]. cbn [drain].
  destruct (gen_next o s g) as [[[d| |e|] s'] g'] eqn:E; try easy.
  apply gen_next_work in E as [W' L]; [|exact W]. specialize (IH s' g' W' ltac:(lia)).
  destruct (drain f o s' g') as [[[ys r] s2] g2]. exact IH.
Qed.

(** More fuel does not change a result. *)
Lemma drain_more o : forall fuel s g ys r s' g', drain fuel o s g = (ys, r, s', g') -> r <> FFuel ->
  forall fuel', (fuel <= fuel')%nat -> drain fuel' o s g = (ys, r, s', g').
Proof.
  induction fuel as [|f IH]; intros s g ys r s' g' E N fuel' L; [cbn in E; congruence|].
  destruct fuel' as [|f']; [lia|]. cbn [drain] in *.
  destruct (gen_next o s g) as [[[d| |e|] s1] g1]; try exact E.
  destruct (drain f o s1 g1) as [[[ys1 r1] s2] g2] eqn:E1. injection E as <- <- <- <-.
  rewrite (IH _ _ _ _ _ _ E1 N f') by lia. reflexivity.
Qed.

(** ** Content-Length bodies (C12) *)

Lemma upto_neg {A} (l : list A) z : z < 0 -> upto l z = firstn (Z.to_nat (Z.of_nat (List.length l) + z)) l.
Proof. intros H. unfold upto, norm_index. replace (z <? 0) with true by lia. f_equal. lia. Qed.

Lemma plain_drain o n segs tail : forall fuel s, 0 <= n -> 0 <= consumed s -> clen s = n ->
  items s = map Data segs ++ End :: tail -> (work s GPlain <= fuel)%nat ->
  exists ys s', drain fuel o s GPlain = (ys, FStop, s', GDone) /\
    concat ys = firstn (Z.to_nat (n - consumed s)) (concat segs) /\ eof_ s' = true /\ items s' = tail.
Proof.
  induction segs as [|d segs IH]; intros fuel s Hn Hc Hl Hi Hf; (destruct fuel as [|f]; [unfold work in Hf; lia|]).
  - cbn [drain gen_next plain_next]. unfold plain_next. rewrite Hi. cbn [map app].
    do 2 eexists. split; [reflexivity|]. cbn [concat]. now rewrite firstn_nil.
  - cbn [drain gen_next]. unfold plain_next. rewrite Hi. cbn [map app concat].
    set (s1 := took s d (map Data segs ++ End :: tail)).
    assert (consumed s1 = consumed s + blen d) as C1 by reflexivity.
    assert (work s1 GPlain <= f)%nat as Hf1.
    { unfold work in *. rewrite Hi in Hf. cbn [map app] in Hf. rewrite items_work_cons in Hf. cbn [inp_work] in Hf.
      subst s1. cbn [took items]. lia. }
    destruct (IH f s1 Hn ltac:(rewrite C1; pose proof (blen_nonneg d); lia) Hl eq_refl Hf1) as (ys & s' & E & Ey & Es & Et).
    rewrite Hl. destruct ((-1 <? n) && (n <? consumed s1)) eqn:B.
    + rewrite E. do 2 eexists. split; [reflexivity|]. cbn [concat]. split; [|now split]. rewrite Ey, firstn_app.
      rewrite upto_neg by lia. unfold blen in *. f_equal; f_equal; lia.
    + rewrite E. do 2 eexists. split; [reflexivity|]. cbn [concat]. split; [|now split]. rewrite Ey, firstn_app.
      unfold blen in *. rewrite (firstn_all2 d) by lia. f_equal. f_equal. lia.
Qed.

(** A request just dispatched with a Content-Length. *)
Lemma c12_main o s raw n segs tail :
  0 <= n <= o_max_body o -> clen s = n -> raw = true \/ chunked s = false -> eof_ s = false -> consumed s = 0 ->
  items s = map Data segs ++ End :: tail ->
  exists ys s' g', stream o s raw = (ys, FStop, s', g') /\
    concat ys = firstn (Z.to_nat n) (concat segs) /\ eof_ s' = true /\ items s' = tail.
Proof.
  intros Hn Hl Hr He Hc Hi. unfold stream.
  assert (exists s0, send_continue o s = Some s0 /\ items s0 = items s /\ clen s0 = n /\ chunked s0 = chunked s /\ consumed s0 = 0) as
    (s0 & C0 & I0 & L0 & K0 & N0).
  { unfold send_continue. destruct (cont s).
    - replace (o_max_body o <? clen s) with false by lia. exists (sent s). now repeat split.
    - exists s. now repeat split. }
  assert (forall f, drain (S f) o s (GInit raw) = drain (S f) o s0 GPlain) as D.
  { intros f. cbn [drain gen_next]. rewrite He, C0, K0.
    replace (negb raw && chunked s) with false by (destruct Hr as [->| ->]; [reflexivity|now rewrite andb_false_r]).
    rewrite L0. now replace (o_max_body o <? n) with false by lia. }
  unfold work. cbn [gen_work]. rewrite D.
  destruct (plain_drain o n segs tail (S (items_work (items s) + 0)) s0 ltac:(lia) ltac:(lia) L0 ltac:(congruence)) as (ys & s' & E & Ey & Es).
  { unfold work. cbn [gen_work]. now rewrite I0. }
  exists ys, s', GDone. rewrite N0, Z.sub_0_r in Ey. now repeat split.
Qed.

(** ** Oversized declared bodies (C18) *)
Lemma c18_main o s raw : o_max_body o < clen s -> raw = true \/ chunked s = false -> eof_ s = false ->
  exists s' g', stream o s raw = ([], FRaise (if cont s then ExpectationFailed else PayloadTooLarge), s', g') /\
                sent100 s' = sent100 s /\ items s' = items s.
Proof.
  intros Hl Hr He. unfold stream. cbn [work gen_work drain gen_next]. unfold work. cbn [drain gen_next]. rewrite He.
  unfold send_continue. replace (o_max_body o <? clen s) with true by lia.
  destruct (cont s); [do 2 eexists; split; [reflexivity|split; reflexivity]|].
  replace (negb raw && chunked s) with false by (destruct Hr as [->| ->]; [reflexivity|now rewrite andb_false_r]).
  replace (o_max_body o <? clen s) with true by lia. do 2 eexists. split; [reflexivity|split; reflexivity].
Qed.

Lemma c12_body_main o s raw n segs tail :
  0 <= n <= o_max_body o -> clen s = n -> raw = true \/ chunked s = false -> eof_ s = false -> consumed s = 0 ->
  items s = map Data segs ++ End :: tail ->
  (exists ys s' g', stream o s raw = (ys, FStop, s', g') /\
     concat ys = firstn (Z.to_nat n) (concat segs) /\ items s' = tail) /\
  (exists s', body o s raw [] = (RRet (firstn (Z.to_nat n) (concat segs)), s', firstn (Z.to_nat n) (concat segs)) /\
     forall acc, body o s' raw acc = (RRet acc, s', acc)).
Proof.
  intros H1 H2 H3 H4 H5 H6. destruct (c12_main o s raw n segs tail H1 H2 H3 H4 H5 H6) as (ys & s' & g' & E & EC & Ee & Ei).
  split; [now exists ys, s', g'|]. exists s'. unfold body. rewrite E. cbn [app]. rewrite EC. split; [reflexivity|].
  intros acc. unfold stream, work. cbn [drain gen_next]. rewrite Ee. cbn [concat]. now rewrite app_nil_r.
Qed.
