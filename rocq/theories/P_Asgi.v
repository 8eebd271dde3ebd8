From Verif Require Import PyBytes PyBytesFacts PyExn M_Stream S_Chunked M_Asgi P_Stream P_Chunked.
Local Open Scope Z_scope.

Definition more_of (ev : received) : bool := match ev with Request _ m => m | _ => false end.
Definition body_of (ev : received) : bytes := match ev with Request d _ => d | _ => [] end.

(** The events are what the stream yields. *)
Lemma drain_receives o : forall fuel s g ys s' g', drain fuel o s g = (ys, FStop, s', g') ->
  exists ms, receives (S (List.length ys)) o s (Some g) = map (fun p => Request (fst p) (snd p)) (combine ys ms) ++ [Disconnect] /\ List.length ms = List.length ys.
Proof.
  induction fuel as [|f IH]; intros s g ys s' g' E; [discriminate|]. cbn [drain] in E. cbn [receives]. unfold receive.
  destruct (gen_next o s g) as [[[d| |x|] s1] g1]; try discriminate.
  - destruct (drain f o s1 g1) as [[[ys1 r1] s2] g2] eqn:E1. injection E as <- -> <- <-. destruct (IH _ _ _ _ _ E1) as (ms & R & L). cbn [List.length]. rewrite R.
    eexists (_ :: ms). cbn [combine map app fst snd List.length]. split; [reflexivity|now rewrite L].
  - injection E as <- <- <-. exists []. now split.
Qed.

(** Content-Length. *)
Lemma plain_receives o n segs : forall s rest, 0 <= consumed s < n -> clen s = n -> items s = map Data segs ++ rest -> n <= consumed s + blen (concat segs) ->
  exists evs last tail, receives (List.length evs + 1) o s (Some GPlain) = evs ++ [Request last false] /\ Forall (fun ev => more_of ev = true) evs /\
    concat (map body_of evs) ++ last = firstn (Z.to_nat (n - consumed s)) (concat segs) /\ (List.length evs < List.length segs)%nat /\ tail = rest.
Proof.
  induction segs as [|d segs IH]; intros s rest Hc Hl Hi Hn; [cbn in Hn; lia|]. cbn [map app concat] in Hi, Hn |- *. rewrite blen_app in Hn.
  assert (receive o s (Some GPlain) = let s1 := took s d (map Data segs ++ rest) in (Request (if (n <? consumed s + blen d) then upto d (n - (consumed s + blen d)) else d) (consumed s + blen d <? n), s1, Some GPlain)) as R.
  { unfold receive. cbn [gen_next]. unfold plain_next. rewrite Hi. cbv zeta. set (s1 := took s d _). assert (consumed s1 = consumed s + blen d) as -> by reflexivity. assert (clen s1 = n) as L1 by exact Hl.
    rewrite Hl. replace (-1 <? n) with true by lia. cbn [andb]. destruct (n <? consumed s + blen d) eqn:B; rewrite L1; (replace (n =? -1) with false by lia); rewrite andb_false_r; cbn [orb]; reflexivity. }
  cbv zeta in R. set (s1 := took s d _) in *. assert (consumed s1 = consumed s + blen d) as C1 by reflexivity. pose proof (blen_nonneg d) as Pd.
  destruct (Z.ltb_spec (consumed s + blen d) n) as [Lt|Ge].
  - replace (n <? consumed s + blen d) with false in R by lia. destruct (IH s1 rest ltac:(lia) Hl eq_refl ltac:(lia)) as (evs & last & tail & E & F & C & L & T).
    exists (Request d true :: evs), last, tail. cbn [List.length Nat.add receives]. rewrite R, E. split; [reflexivity|]. split; [now constructor|]. split; [|split; [lia|exact T]].
    cbn [map body_of concat]. rewrite <- app_assoc, C, firstn_app, C1. unfold blen in *. rewrite (firstn_all2 d) by lia. f_equal. f_equal. lia.
  - exists [], (if n <? consumed s + blen d then upto d (n - (consumed s + blen d)) else d), rest. cbn [List.length Nat.add receives]. rewrite R. split; [reflexivity|]. split; [constructor|]. split; [|split; [lia|reflexivity]].
    cbn [map concat app]. rewrite firstn_app. unfold blen in *. replace (Z.to_nat (n - consumed s) - List.length d)%nat with 0%nat by lia. rewrite firstn_O, app_nil_r.
    destruct (Z.ltb_spec n (consumed s + Z.of_nat (List.length d))).
    + rewrite upto_neg by lia. f_equal. lia.
    + now rewrite firstn_all2 by lia.
Qed.
Lemma plain_truncated o n segs tail : forall s, 0 <= consumed s -> clen s = n -> items s = map Data segs ++ End :: tail -> consumed s + blen (concat segs) < n ->
  receives (S (List.length segs)) o s (Some GPlain) = map (fun d => Request d true) segs ++ [Disconnect].
Proof.
  induction segs as [|d segs IH]; intros s Hc Hl Hi Hn; cbn [map app concat] in Hi, Hn |- *; cbn [List.length].
  - cbn [receives]. unfold receive. cbn [gen_next]. unfold plain_next. now rewrite Hi.
  - rewrite blen_app in Hn. pose proof (blen_nonneg d) as Pd. pose proof (blen_nonneg (concat segs)) as Pc. cbn [receives]. unfold receive at 1. cbn [gen_next]. unfold plain_next at 1. rewrite Hi. set (s1 := took s d _). assert (consumed s1 = consumed s + blen d) as C1 by reflexivity. assert (clen s1 = n) as L1 by exact Hl.
    rewrite Hl, C1. replace (n <? consumed s + blen d) with false by lia. rewrite andb_false_r. rewrite C1, L1. replace (consumed s + blen d <? n) with true by lia. rewrite orb_true_r. f_equal. apply IH; [lia|exact Hl|reflexivity|lia].
Qed.
(** The first call starts the generator. *)
Lemma first_receive o s k : eof_ s = false -> chunked s = false -> clen s <= o_max_body o -> exists s0, items s0 = items s /\ clen s0 = clen s /\ consumed s0 = consumed s /\
  receives (S k) o s (Some (GInit false)) = receives (S k) o s0 (Some GPlain).
Proof.
  intros He Hk Hn. assert (exists s0, send_continue o s = Some s0 /\ items s0 = items s /\ clen s0 = clen s /\ chunked s0 = chunked s /\ consumed s0 = consumed s) as (s0 & C0 & I0 & L0 & K0 & N0).
  { unfold send_continue. destruct (cont s); [replace (o_max_body o <? clen s) with false by lia; exists (sent s); now repeat split|exists s; now repeat split]. }
  exists s0. split; [exact I0|]. split; [exact L0|]. split; [exact N0|]. cbn [receives]. unfold receive. cbn [gen_next]. rewrite He, C0, K0, Hk, L0. cbn [negb andb]. now replace (o_max_body o <? clen s) with false by lia.
Qed.
Lemma length_main o s n segs rest : 0 < n <= o_max_body o -> clen s = n -> chunked s = false -> eof_ s = false -> consumed s = 0 -> items s = map Data segs ++ rest -> n <= blen (concat segs) ->
  exists evs last, receives (List.length evs + 1) o s (Some (GInit false)) = evs ++ [Request last false] /\ Forall (fun ev => more_of ev = true) evs /\ concat (map body_of evs) ++ last = firstn (Z.to_nat n) (concat segs).
Proof.
  intros Hn Hl Hk He Hc Hi Hs. destruct (first_receive o s 0 He Hk ltac:(lia)) as (s0 & I0 & L0 & N0 & _).
  destruct (plain_receives o n segs s0 rest ltac:(lia) ltac:(congruence) ltac:(congruence) ltac:(lia)) as (evs & last & tail & E & F & C & _). exists evs, last.
  split; [|split; [exact F|rewrite C; f_equal; f_equal; lia]]. rewrite <- E. rewrite Nat.add_comm. cbn [Nat.add]. destruct (first_receive o s (List.length evs) He Hk ltac:(lia)) as (s0' & I0' & L0' & N0' & ->).
  clear - I0 L0 N0 I0' L0' N0'. assert (forall k s1 s2, items s1 = items s2 -> clen s1 = clen s2 -> consumed s1 = consumed s2 -> forall l, l = receives k o s1 (Some GPlain) -> l = receives k o s2 (Some GPlain)) as K.
  { induction k as [|k IH]; intros s1 s2 A B C l ->; [reflexivity|]. cbn [receives]. unfold receive. cbn [gen_next]. unfold plain_next. rewrite A, B. destruct (items s2) as [|[d| |] l'] eqn:I2.
    - rewrite (IH s1 s2) with (l := receives k o s1 (Some GPlain)); [reflexivity|congruence..|reflexivity].
    - cbn [took consumed clen]. rewrite C. destruct (_ && _).
      + cbn [clen consumed took]. rewrite B, C. f_equal. apply IH with (s1 := took s1 d l'); cbn [took items clen consumed]; congruence.
      + cbn [clen consumed took]. rewrite B, C. f_equal. apply IH with (s1 := took s1 d l'); cbn [took items clen consumed]; congruence.
    - f_equal. clear. generalize (set_eof (set_items s1 l')), (set_eof (set_items s2 l')). induction k as [|k IHk]; intros a b; [reflexivity|]. cbn [receives receive gen_next]. f_equal. apply IHk.
    - f_equal. clear. generalize (set_items s1 l'), (set_items s2 l'). induction k as [|k IHk]; intros a b; [reflexivity|]. cbn [receives receive gen_next]. f_equal. apply IHk. }
  eapply K; [| | |reflexivity]; congruence.
Qed.
Lemma truncated_main o s n segs tail : n <= o_max_body o -> clen s = n -> chunked s = false -> eof_ s = false -> consumed s = 0 -> items s = map Data segs ++ End :: tail -> blen (concat segs) < n ->
  receives (S (List.length segs)) o s (Some (GInit false)) = map (fun d => Request d true) segs ++ [Disconnect].
Proof.
  intros Hn Hl Hk He Hc Hi Hs. destruct (first_receive o s (List.length segs) He Hk ltac:(lia)) as (s0 & I0 & L0 & N0 & ->). apply (plain_truncated o n segs tail); [lia|congruence|congruence|lia].
Qed.
Lemma clen_const o s g d s' g' : gen_next o s g = (OYield d, s', g') -> clen s' = clen s.
Proof.
  assert (forall p s2 buf ad d s3 g3, after_pass s2 p buf ad = (OYield d, s3, g3) -> clen s3 = clen s2) as Ka by (intros p s2 buf ad d2 s3 g3; destruct p; cbn; intros H; try discriminate; now injection H as _ <- _).
  assert (forall l s2 buf u d s3 g3, chunk_read o l s2 buf u = (OYield d, s3, g3) -> clen s3 = clen s2) as Kr.
  { induction l as [|[d2| |] l IH]; intros s2 buf u d3 s3 g3; cbn [chunk_read]; try discriminate.
    - destruct (chunk_pass o (buf ++ d2) u) eqn:P; intros H; [apply Ka in H; exact H|apply IH in H; exact H|discriminate..].
    - destruct (contains _ _); [|discriminate]. intros H. now apply Ka in H. }
  assert (forall s2 buf p u ad d s3 g3, chunk_next o s2 buf p u ad = (OYield d, s3, g3) -> clen s3 = clen s2) as Kn.
  { intros s2 buf p u ad d2 s3 g3. unfold chunk_next. assert ((if ad then chunk_over o s2 buf u else chunk_read o (items s2) s2 buf u) = (OYield d2, s3, g3) -> clen s3 = clen s2) as K.
    { destruct ad; [unfold chunk_over; destruct (contains _ _); [intros H; now apply Ka in H|discriminate]|intros H; now apply Kr in H]. }
    destruct p; [destruct (chunk_pass o buf u)|]; intros H; try (now apply Ka in H); now apply K. }
  assert (forall s2 d s3 g3, plain_next s2 = (OYield d, s3, g3) -> clen s3 = clen s2) as Kp.
  { intros s2 d2 s3 g3. unfold plain_next. destruct (items s2) as [|[x| |] l]; try discriminate. cbv zeta. destruct (_ && _); intros H; now injection H as _ <- _. }
  destruct g as [raw|buf p u ad| |]; cbn [gen_next]; intros H; [|now apply Kn in H|now apply Kp in H|discriminate].
  destruct (eof_ s); [discriminate|]. unfold send_continue in H. destruct (cont s); [destruct (o_max_body o <? clen s); [discriminate|]|]; (destruct (negb raw && _); [now apply Kn in H|]; destruct (_ <? _); [discriminate|]; now apply Kp in H).
Qed.
Lemma drain_more o : forall fuel s g ys s' g', clen s = -1 -> (forall d s1 g1 s2 g2, gen_next o s1 g1 = (OYield d, s2, g2) -> 0 <= consumed s1 -> 0 <= consumed s2) -> 0 <= consumed s -> drain fuel o s g = (ys, FStop, s', g') ->
  receives (S (List.length ys)) o s (Some g) = map (fun y => Request y (negb (beqb y []))) ys ++ [Disconnect].
Proof.
  induction fuel as [|f IH]; intros s g ys s' g' Hl Kc Hc E; [discriminate|]. cbn [drain] in E. cbn [receives]. unfold receive.
  destruct (gen_next o s g) as [[[d| |x|] s1] g1] eqn:N; try discriminate.
  - destruct (drain f o s1 g1) as [[[ys1 r1] s2] g2] eqn:E1. injection E as <- -> <- <-. apply clen_const in N as L1. pose proof (Kc _ _ _ _ _ N Hc) as C1.
    cbn [List.length]. rewrite (IH _ _ _ _ _ (eq_trans L1 Hl) Kc C1 E1). cbn [map app]. rewrite L1, Hl. replace (consumed s1 <? -1) with false by lia. now rewrite orb_false_r, andb_true_r.
  - injection E as <- <- <-. reflexivity.
Qed.
Lemma consumed_pos o d s1 g1 s2 g2 : gen_next o s1 g1 = (OYield d, s2, g2) -> 0 <= consumed s1 -> 0 <= consumed s2.
Proof.
  assert (forall p s2 buf ad d s3 g3, after_pass s2 p buf ad = (OYield d, s3, g3) -> consumed s3 = consumed s2) as Ka by (intros p s3 buf ad d2 s4 g3; destruct p; cbn; intros H; try discriminate; now injection H as _ <- _).
  assert (forall l s2 buf u d s3 g3, chunk_read o l s2 buf u = (OYield d, s3, g3) -> 0 <= consumed s2 -> 0 <= consumed s3) as Kr.
  { induction l as [|[d2| |] l IH]; intros s3 buf u d3 s4 g3; cbn [chunk_read]; try discriminate.
    - destruct (chunk_pass o (buf ++ d2) u) eqn:P; intros H Hc; [apply Ka in H; rewrite H; cbn; pose proof (blen_nonneg d2); lia|apply IH in H; [exact H|cbn; pose proof (blen_nonneg d2); lia]|discriminate..].
    - destruct (contains _ _); [|discriminate]. intros H Hc. apply Ka in H. now rewrite H. }
  assert (forall s2 buf p u ad d s3 g3, chunk_next o s2 buf p u ad = (OYield d, s3, g3) -> 0 <= consumed s2 -> 0 <= consumed s3) as Kn.
  { intros s3 buf p u ad d2 s4 g3. unfold chunk_next. assert ((if ad then chunk_over o s3 buf u else chunk_read o (items s3) s3 buf u) = (OYield d2, s4, g3) -> 0 <= consumed s3 -> 0 <= consumed s4) as K.
    { destruct ad; [unfold chunk_over; destruct (contains _ _); [intros H Hc; apply Ka in H; now rewrite H|discriminate]|intros H Hc; now apply Kr in H]. }
    destruct p; [destruct (chunk_pass o buf u)|]; intros H Hc; try (apply Ka in H; now rewrite H); now apply K. }
  assert (forall s2 d s3 g3, plain_next s2 = (OYield d, s3, g3) -> 0 <= consumed s2 -> 0 <= consumed s3) as Kp.
  { intros s3 d2 s4 g3. unfold plain_next. destruct (items s3) as [|[x| |] l]; try discriminate. cbv zeta. destruct (_ && _); intros H Hc; injection H as _ <- _; cbn; pose proof (blen_nonneg x); lia. }
  destruct g1 as [raw|buf p u ad| |]; cbn [gen_next]; intros H Hc; [|now apply Kn in H|now apply Kp in H|discriminate].
  destruct (eof_ s1); [discriminate|]. unfold send_continue in H. destruct (cont s1); [destruct (o_max_body o <? clen s1); [discriminate|]|]; (destruct (negb raw && _); [now apply Kn in H|]; destruct (_ <? _); [discriminate|]; now apply Kp in H).
Qed.
Lemma chunked_main o s ys s' g' : clen s = -1 -> consumed s = 0 -> stream o s false = (ys, FStop, s', g') ->
  receives (S (List.length ys)) o s (Some (GInit false)) = map (fun y => Request y (negb (beqb y []))) ys ++ [Disconnect].
Proof. intros Hl Hc E. apply (drain_more o _ _ _ _ _ _ Hl (consumed_pos o) ltac:(lia) E). Qed.
