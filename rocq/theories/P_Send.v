(** Proofs for C48. *)
From Verif Require Import PyBytes M_Send S_Send.
Local Open Scope Z_scope.

Record Inv (s : snd) : Prop := {
  iv_buf : 0 <= s_buf s;
  iv_low : 0 <= t_low s <= t_high s;
  iv_high : s_high s = t_high s;
  iv_paused : t_high s < s_buf s -> t_paused s = true;
  iv_wait : forall d, s_pc s = Waiting d -> t_paused s = true
}.
Lemma blen_nonneg : forall d, 0 <= blen d.
Proof. intro; unfold blen; lia. Qed.
Lemma inv_new : Inv snd_new.
Proof. constructor; cbn; try lia; discriminate. Qed.

Ltac fields := cbn [s_q s_pc s_high s_tr s_buf t_high t_low t_paused].
Lemma inv_write : forall d n s s' b, Inv s -> write d n s = (s', b) -> Inv s'.
Proof.
  intros d n s s' b [i1 i2 i3 i4 i5] H. unfold write in H. pose proof (blen_nonneg d) as L. destruct (s_tr s); injection H as <- <-; constructor; fields; try assumption; try discriminate.
  - destruct (s_buf s =? 0); lia.
  - intros K. destruct (t_paused s); [reflexivity|]. cbn [orb]. apply Z.ltb_lt. exact K.
Qed.
Lemma inv_close : forall p s s' b, Inv s -> (forall d, p = Waiting d -> s_pc s = Waiting d) -> close p s = (s', b) -> Inv s'.
Proof.
  intros p s s' b [i1 i2 i3 i4 i5] K H. unfold close in H. destruct (s_tr s); injection H as <- <-; constructor; fields; try assumption; intros d E; apply (i5 d); auto.
Qed.
Lemma inv_abort : forall s s' b, Inv s -> abort s = (s', b) -> Inv s'.
Proof.
  intros s s' b I H. unfold abort in H. destruct (s_tr s); injection H as <- <-; try exact I. destruct I as [i1 i2 i3 i4 i5]. constructor; fields; try assumption; lia.
Qed.
Lemma inv_step : forall s ev s' b, Inv s -> send_step s ev = Some (s', b) -> Inv s'.
Proof.
  intros s ev s' b I H. destruct ev as [x|keep n|n|n| |hi lo| | |]; cbn [send_step] in H.
  - destruct I as [i1 i2 i3 i4 i5]. injection H as <- <-. destruct (s_tr s); constructor; fields; assumption.
  - destruct (s_pc s) eqn:P; try discriminate. destruct (s_q s) as [|[d|] q]; try discriminate.
    + destruct (s_high s <? s_buf s) eqn:B.
      * injection H as <- <-. destruct I as [i1 i2 i3 i4 i5]. constructor; fields; try assumption. intros d0 _. apply i4. apply Z.ltb_lt in B. lia.
      * injection H as H. eapply inv_write; [|exact H]. destruct I as [i1 i2 i3 i4 i5]. constructor; fields; try assumption; discriminate.
    + assert (I1 : Inv (mkS q Getting (s_high s) (s_tr s) (s_buf s) (t_high s) (t_low s) (t_paused s))).
      { destruct I as [i1 i2 i3 i4 i5]. constructor; fields; try assumption; discriminate. }
      destruct keep; injection H as H; [subst s'; exact I1|]. eapply inv_close; [exact I1| |exact H]. discriminate.
  - destruct (s_pc s); try discriminate. injection H as H. eapply inv_write; eauto.
  - destruct ((0 <? n) && (n <=? s_buf s) && match s_tr s with Gone => false | _ => true end) eqn:C; [|discriminate].
    apply andb_true_iff in C as (C & _). apply andb_true_iff in C as (C1 & C2). apply Z.ltb_lt in C1. apply Z.leb_le in C2.
    destruct I as [i1 i2 i3 i4 i5]. destruct (t_paused s && (s_buf s - n <=? t_low s)) eqn:R; injection H as <- <-; constructor; fields; try assumption; try lia.
    + destruct (s_pc s); discriminate.
    + intros K. apply i4. lia.
  - destruct (s_pc s) eqn:P; try discriminate. destruct (abort s) as [s1 b1] eqn:A. destruct (write d 0 s1) as [s2 b2] eqn:W. injection H as <- <-.
    eapply inv_write; [|exact W]. eapply inv_abort; eauto.
  - destruct ((0 <=? lo) && (lo <=? hi) && match s_tr s with Gone => false | _ => true end) eqn:C; [|discriminate].
    apply andb_true_iff in C as (C & _). apply andb_true_iff in C as (C1 & C2). apply Z.leb_le in C1, C2.
    injection H as <- <-. destruct I as [i1 i2 i3 i4 i5]. constructor; fields; try assumption; try lia.
    + intros d E. rewrite (i5 d E). reflexivity.
  - injection H as H. eapply inv_close; [exact I| |exact H]. auto.
  - injection H as H. eapply inv_abort; eauto.
  - destruct I as [i1 i2 i3 i4 i5]. destruct (s_tr s); try discriminate; injection H as <- <-; constructor; fields; try assumption; try lia; discriminate.
Qed.

(** ** Bounds *)
Record Bnd (H M : Z) (s : snd) : Prop := {
  bd_high : t_high s <= H;
  bd_buf : s_buf s <= H + M;
  bd_woken : forall d, s_pc s = Woken d -> s_buf s <= H;
  bd_items : forall d, In d (holds (s_pc s) ++ datas (s_q s)) -> blen d <= M
}.
Definition small (H : Z) (o : sobs) : Prop := match o with Handed _ b => b <= H | _ => True end.
Lemma datas_app : forall a b, datas (a ++ b) = datas a ++ datas b.
Proof. intros; unfold datas; apply flat_map_app. Qed.

Lemma bnd_write : forall H M d n s s' b, 0 <= M -> Bnd H M s -> s_buf s <= H -> blen d <= M -> write d n s = (s', b) -> Bnd H M s' /\ Forall (small H) b.
Proof.
  intros H M d n s s' b M0 [b1 b2 b3 b4] L Ld E. unfold write in E. pose proof (blen_nonneg d) as Nd.
  assert (Dq : forall x, In x (datas (s_q s)) -> blen x <= M) by (intros x Hx; apply b4, in_or_app; auto).
  destruct (s_tr s); injection E as <- <-; (split; [constructor; fields; try assumption; try discriminate; try lia|]); auto.
  - destruct (s_buf s =? 0) eqn:Z0; [apply Z.eqb_eq in Z0|]; lia.
Qed.
Lemma bnd_step : forall H M s ev s' b, 65536 <= H -> 0 <= M -> (forall h l, ev = Limits h l -> h <= H) -> (forall d, ev = Put (Some d) -> blen d <= M) -> Inv s -> Bnd H M s ->
  send_step s ev = Some (s', b) -> Bnd H M s' /\ Forall (small H) b.
Proof.
  intros H M s ev s' b H0 M0 HL HP I B E. pose proof (bd_items _ _ _ B) as Items. pose proof (bd_high _ _ _ B) as Hh. pose proof (bd_buf _ _ _ B) as Hb.
  pose proof (iv_low _ I) as Lo. pose proof (iv_high _ I) as Hi. pose proof (iv_buf _ I) as B0.
  destruct ev as [x|keep n|n|n| |hi lo| | |]; cbn [send_step] in E.
  - injection E as <- <-. split; [|constructor]. destruct (s_tr s); [| |exact B]; destruct B as [b1 b2 b3 b4]; constructor; fields; try assumption;
      intros d Hd; rewrite datas_app in Hd; apply in_app_or in Hd as [Hd|Hd]; try (apply Items, in_or_app; auto; fail);
      (apply in_app_or in Hd as [Hd|Hd]; [apply Items, in_or_app; auto|]); (destruct x as [y|]; [|destruct Hd]); destruct Hd as [<-|[]]; apply HP; reflexivity.
  - destruct (s_pc s) eqn:P; try discriminate. destruct (s_q s) as [|[d|] q] eqn:Q; try discriminate.
    + destruct (s_high s <? s_buf s) eqn:K.
      * injection E as <- <-. split; [|constructor]. destruct B as [b1 b2 b3 b4]. constructor; fields; try assumption; discriminate.
      * apply Z.ltb_ge in K. injection E as E. eapply bnd_write; [exact M0| | | |exact E]; fields.
        -- destruct B as [b1 b2 b3 b4]. constructor; fields; try assumption; try discriminate. intros x Hx. apply Items. right. exact Hx.
        -- lia.
        -- apply Items. left; reflexivity.
    + assert (B1 : Bnd H M (mkS q Getting (s_high s) (s_tr s) (s_buf s) (t_high s) (t_low s) (t_paused s))).
      { destruct B as [b1 b2 b3 b4]. constructor; fields; try assumption; discriminate. }
      destruct keep; injection E as E; [subst s' b; split; [exact B1|constructor]|].
      unfold close in E. cbn [s_tr s_q s_high s_buf t_high t_low t_paused] in E. destruct B1 as [b1 b2 b3 b4]; cbn [s_q s_pc s_high s_tr s_buf t_high t_low t_paused] in *.
      destruct (s_tr s); injection E as <- <-; (split; [constructor; fields; try assumption; discriminate|repeat constructor]).
  - destruct (s_pc s) eqn:P; try discriminate. injection E as E. eapply bnd_write; [exact M0|exact B| | |exact E].
    + exact (bd_woken _ _ _ B d P).
    + apply Items. left; reflexivity.
  - destruct ((0 <? n) && (n <=? s_buf s) && match s_tr s with Gone => false | _ => true end) eqn:C; [|discriminate].
    apply andb_true_iff in C as (C & _). apply andb_true_iff in C as (C1 & C2). apply Z.ltb_lt in C1. apply Z.leb_le in C2.
    destruct B as [b1 b2 b3 b4]. destruct (t_paused s && (s_buf s - n <=? t_low s)) eqn:R; injection E as <- <-; (split; [|constructor]); constructor; fields; try assumption; try lia.
    + intros d Hd. apply Items. destruct (s_pc s); exact Hd.
    + intros d P. specialize (b3 d P). lia.
  - destruct (s_pc s) eqn:P; try discriminate. destruct (abort s) as [s1 b1] eqn:A. destruct (write d 0 s1) as [s2 b2] eqn:W. injection E as <- <-.
    unfold abort in A. destruct B as [x1 x2 x3 x4]. 
    destruct (s_tr s) eqn:T; injection A as <- <-; unfold write in W; cbn [s_tr s_q s_high s_buf t_high t_low t_paused] in W; rewrite ?T in W; injection W as <- <-;
      (split; [constructor; fields; try assumption; try discriminate; try lia|repeat constructor]); intros y Hy; apply Items; right; exact Hy.
  - destruct ((0 <=? lo) && (lo <=? hi) && match s_tr s with Gone => false | _ => true end) eqn:C; [|discriminate].
    injection E as <- <-. split; [|constructor]. destruct B as [b1 b2 b3 b4]. constructor; fields; try assumption. apply (HL hi lo eq_refl).
  - injection E as E. unfold close in E. destruct B as [b1 b2 b3 b4]. destruct (s_tr s); injection E as <- <-; (split; [constructor; fields; assumption|repeat constructor]).
  - injection E as E. unfold abort in E. destruct B as [b1 b2 b3 b4]. destruct (s_tr s); injection E as <- <-; (split; [constructor; fields; try assumption; try lia|repeat constructor]).
  - destruct (s_tr s); try discriminate; injection E as <- <-; (split; [|constructor]); destruct B as [b1 b2 b3 b4]; constructor; fields; try assumption; try lia; try discriminate; intros y [].
Qed.

(** ** Order *)
Lemma puts_app : forall a b, puts (a ++ b) = puts a ++ puts b.
Proof. intros; unfold puts; apply flat_map_app. Qed.
Lemma handed_app : forall a b, handed (a ++ b) = handed a ++ handed b.
Proof. intros; unfold handed; apply flat_map_app. Qed.
Definition Ord (s : snd) (ps : list bytes) (hs : list bytes) : Prop := (s_tr s = Open -> ps = hs ++ holds (s_pc s) ++ datas (s_q s)) /\ is_prefix hs ps.
Lemma prefix_more : forall (h p x : list bytes), is_prefix h p -> is_prefix h (p ++ x).
Proof. intros h p x (r & ->). exists (r ++ x). rewrite app_assoc. reflexivity. Qed.
Lemma ord_write : forall d n s s' b ps hs, (s_tr s = Open -> ps = hs ++ d :: datas (s_q s)) -> is_prefix hs ps -> write d n s = (s', b) -> Ord s' ps (hs ++ handed b).
Proof.
  intros d n s s' b ps hs K P E. unfold write in E. destruct (s_tr s); injection E as <- <-; unfold Ord; fields; cbn [handed flat_map holds app].
  - rewrite <- app_assoc. split; [intros _; exact (K eq_refl)|]. rewrite (K eq_refl). exists (datas (s_q s)). rewrite <- app_assoc. reflexivity.
  - rewrite app_nil_r. split; [discriminate|exact P].
  - rewrite app_nil_r. split; [discriminate|exact P].
Qed.
Lemma ord_step : forall s ev s' b ps hs, Ord s ps hs -> send_step s ev = Some (s', b) -> Ord s' (ps ++ puts [ev]) (hs ++ handed b).
Proof.
  intros s ev s' b ps hs (O & P) E. destruct ev as [x|keep n|n|n| |hi lo| | |]; cbn [send_step] in E; try (cbn [puts flat_map]; rewrite app_nil_r).
  - injection E as <- <-. cbn [handed flat_map]. rewrite app_nil_r. split; [|apply prefix_more; exact P].
    destruct (s_tr s) eqn:T; fields; [|discriminate|rewrite T; discriminate]. intros _. rewrite (O eq_refl), datas_app, <- !app_assoc. f_equal. f_equal. f_equal. destruct x; reflexivity.
  - destruct (s_pc s) eqn:C; try discriminate. destruct (s_q s) as [|[d|] q] eqn:Q; try discriminate.
    + destruct (s_high s <? s_buf s).
      * injection E as <- <-. cbn [handed flat_map]. rewrite app_nil_r. split; fields; [|exact P]. intros T. rewrite (O T). reflexivity.
      * injection E as E. eapply ord_write; [|exact P|exact E]. fields. intros T. rewrite (O T). reflexivity.
    + assert (O1 : Ord (mkS q Getting (s_high s) (s_tr s) (s_buf s) (t_high s) (t_low s) (t_paused s)) ps hs) by (split; fields; [exact O|exact P]).
      destruct keep; injection E as E; [subst s' b; cbn [handed flat_map]; rewrite app_nil_r; exact O1|].
      unfold close in E. cbn [s_tr s_q s_high s_buf t_high t_low t_paused] in E. destruct (s_tr s); injection E as <- <-; cbn [handed flat_map]; rewrite app_nil_r; (split; [discriminate|exact P]).
  - destruct (s_pc s) eqn:C; try discriminate. injection E as E. eapply ord_write; [|exact P|exact E]. intros T. rewrite (O T). reflexivity.
  - destruct ((0 <? n) && (n <=? s_buf s) && match s_tr s with Gone => false | _ => true end); [|discriminate].
    destruct (t_paused s && (s_buf s - n <=? t_low s)); injection E as <- <-; cbn [handed flat_map]; rewrite app_nil_r; (split; [|exact P]); fields; intros T; rewrite (O T); destruct (s_pc s); reflexivity.
  - destruct (s_pc s) eqn:C; try discriminate. destruct (abort s) as [s1 b1] eqn:A. destruct (write d 0 s1) as [s2 b2] eqn:W. injection E as <- <-.
    assert (T1 : s_tr s1 <> Open /\ handed b1 = []). { unfold abort in A. destruct (s_tr s) eqn:T; injection A as <- <-; cbn [s_tr]; try rewrite T; split; try discriminate; reflexivity. }
    destruct T1 as (T1 & H1). rewrite handed_app, H1. cbn [app]. eapply ord_write; [|exact P|exact W]. intros T; contradiction.
  - destruct ((0 <=? lo) && (lo <=? hi) && match s_tr s with Gone => false | _ => true end); [|discriminate].
    injection E as <- <-. cbn [handed flat_map]. rewrite app_nil_r. split; [exact O|exact P].
  - injection E as E. unfold close in E. destruct (s_tr s); injection E as <- <-; cbn [handed flat_map]; rewrite app_nil_r; (split; [discriminate|exact P]).
  - injection E as E. unfold abort in E. destruct (s_tr s) eqn:T; injection E as <- <-; cbn [handed flat_map]; rewrite app_nil_r; (split; [|exact P]); fields; try discriminate; rewrite T; discriminate.
  - destruct (s_tr s); try discriminate; injection E as <- <-; cbn [handed flat_map]; rewrite app_nil_r; (split; [discriminate|exact P]).
Qed.

(** ** Runs *)
Lemma run_inv : forall evs s s' l, Inv s -> send_run s evs = Some (s', l) -> Inv s'.
Proof.
  induction evs as [|ev evs IH]; intros s s' l I R; cbn [send_run] in R; [injection R as <- <-; exact I|].
  destruct (send_step s ev) as [[s1 b1]|] eqn:E; [|discriminate]. destruct (send_run s1 evs) as [[s2 b2]|] eqn:R1; [|discriminate]. injection R as <- <-.
  eapply IH; [|exact R1]. eapply inv_step; eauto.
Qed.
Lemma run_bnd : forall H M evs s s' l, 65536 <= H -> 0 <= M -> (forall h lo, In (Limits h lo) evs -> h <= H) -> (forall d, In d (puts evs) -> blen d <= M) -> Inv s -> Bnd H M s ->
  send_run s evs = Some (s', l) -> Bnd H M s' /\ Forall (small H) l.
Proof.
  intros H M; induction evs as [|ev evs IH]; intros s s' l H0 M0 HL HP I B R; cbn [send_run] in R; [injection R as <- <-; split; [exact B|constructor]|].
  destruct (send_step s ev) as [[s1 b1]|] eqn:E; [|discriminate]. destruct (send_run s1 evs) as [[s2 b2]|] eqn:R1; [|discriminate]. injection R as <- <-.
  change (ev :: evs) with ([ev] ++ evs) in HP. rewrite puts_app in HP.
  destruct (bnd_step H M s ev s1 b1) as (B1 & F1); auto.
  - intros h lo ->. apply (HL h lo). left; reflexivity.
  - intros d ->. apply HP. left; reflexivity.
  - destruct (IH s1 s2 b2) as (B2 & F2); auto.
    + intros h lo Hin. apply (HL h lo). right; exact Hin.
    + intros d Hd. apply HP. apply in_or_app; auto.
    + eapply inv_step; eauto.
    + split; [exact B2|]. apply Forall_app; auto.
Qed.
Lemma run_ord : forall evs s s' l ps hs, Ord s ps hs -> send_run s evs = Some (s', l) -> Ord s' (ps ++ puts evs) (hs ++ handed l).
Proof.
  induction evs as [|ev evs IH]; intros s s' l ps hs O R; cbn [send_run] in R; [injection R as <- <-; cbn; rewrite !app_nil_r; exact O|].
  destruct (send_step s ev) as [[s1 b1]|] eqn:E; [|discriminate]. destruct (send_run s1 evs) as [[s2 b2]|] eqn:R1; [|discriminate]. injection R as <- <-.
  change (ev :: evs) with ([ev] ++ evs). rewrite puts_app, handed_app, !app_assoc. eapply IH; [|exact R1]. eapply ord_step; eauto.
Qed.

(** ** Waiting *)
Lemma wait_step : forall s d ev s' b, s_pc s = Waiting d -> match ev with Drain _ | Timeout | Abort | Lost => False | _ => True end -> send_step s ev = Some (s', b) -> s_pc s' = Waiting d /\ handed b = [].
Proof.
  intros s d ev s' b W N E. destruct ev as [x|keep n|n|n| |hi lo| | |]; cbn [send_step] in E; try contradiction.
  - injection E as <- <-. destruct (s_tr s); auto.
  - rewrite W in E. discriminate.
  - rewrite W in E. discriminate.
  - destruct ((0 <=? lo) && (lo <=? hi) && match s_tr s with Gone => false | _ => true end); [|discriminate]. injection E as <- <-. auto.
  - injection E as E. unfold close in E. destruct (s_tr s); injection E as <- <-; auto.
Qed.
Lemma wait_run : forall evs s d s' l, s_pc s = Waiting d -> no_relief evs -> send_run s evs = Some (s', l) -> s_pc s' = Waiting d /\ handed l = [].
Proof.
  induction evs as [|ev evs IH]; intros s d s' l W N R; cbn [send_run] in R; [injection R as <- <-; auto|].
  destruct (send_step s ev) as [[s1 b1]|] eqn:E; [|discriminate]. destruct (send_run s1 evs) as [[s2 b2]|] eqn:R1; [|discriminate]. injection R as <- <-.
  destruct (wait_step s d ev s1 b1 W (N ev (or_introl eq_refl)) E) as (W1 & H1).
  destruct (IH s1 d s2 b2 W1) as (W2 & H2); [intros e He; apply N; right; exact He|exact R1|]. rewrite handed_app, H1, H2. auto.
Qed.
Lemma shut_step : forall s ev s' b, s_tr s <> Open -> send_step s ev = Some (s', b) -> s_tr s' <> Open /\ handed b = [].
Proof.
  intros s ev s' b T E.
  assert (Wr : forall d n x y z, s_tr x <> Open -> write d n x = (y, z) -> s_tr y <> Open /\ handed z = []).
  { intros d n x y z Tx Ex. unfold write in Ex. destruct (s_tr x) eqn:Q; [contradiction|..]; injection Ex as <- <-; cbn; split; try discriminate; reflexivity. }
  assert (Cl : forall p x y z, s_tr x <> Open -> close p x = (y, z) -> s_tr y <> Open /\ handed z = []).
  { intros p x y z Tx Ex. unfold close in Ex. destruct (s_tr x) eqn:Q; [contradiction|..]; injection Ex as <- <-; cbn; split; try discriminate; reflexivity. }
  assert (Ab : forall x y z, s_tr x <> Open -> abort x = (y, z) -> s_tr y <> Open /\ handed z = []).
  { intros x y z Tx Ex. unfold abort in Ex. destruct (s_tr x) eqn:Q; [contradiction|..]; injection Ex as <- <-; split; try congruence; reflexivity. }
  destruct ev as [x|keep n|n|n| |hi lo| | |]; cbn [send_step] in E.
  - injection E as <- <-. destruct (s_tr s) eqn:Q; [contradiction|..]; cbn; split; try reflexivity; try discriminate. rewrite Q; discriminate.
  - destruct (s_pc s); try discriminate. destruct (s_q s) as [|[d|] q]; try discriminate.
    + destruct (s_high s <? s_buf s); [injection E as <- <-; auto|injection E as E; eapply Wr; [|exact E]; exact T].
    + destruct keep; injection E as E; [subst s' b; auto|eapply Cl; [|exact E]; exact T].
  - destruct (s_pc s); try discriminate. injection E as E. eapply Wr; eauto.
  - destruct ((0 <? n) && (n <=? s_buf s) && match s_tr s with Gone => false | _ => true end); [|discriminate]. destruct (t_paused s && (s_buf s - n <=? t_low s)); injection E as <- <-; auto.
  - destruct (s_pc s); try discriminate. destruct (abort s) as [s1 b1] eqn:A. destruct (write d 0 s1) as [s2 b2] eqn:W. injection E as <- <-.
    destruct (Ab _ _ _ T A) as (T1 & H1). destruct (Wr _ _ _ _ _ T1 W) as (T2 & H2). rewrite handed_app, H1, H2. auto.
  - destruct ((0 <=? lo) && (lo <=? hi) && match s_tr s with Gone => false | _ => true end); [|discriminate]. injection E as <- <-. auto.
  - injection E as E. eapply Cl; eauto.
  - injection E as E. eapply Ab; eauto.
  - destruct (s_tr s); try discriminate; injection E as <- <-; split; try discriminate; reflexivity.
Qed.
Lemma shut_run : forall evs s s' l, s_tr s <> Open -> send_run s evs = Some (s', l) -> handed l = [].
Proof.
  induction evs as [|ev evs IH]; intros s s' l T R; cbn [send_run] in R; [injection R as <- <-; reflexivity|].
  destruct (send_step s ev) as [[s1 b1]|] eqn:E; [|discriminate]. destruct (send_run s1 evs) as [[s2 b2]|] eqn:R1; [|discriminate]. injection R as <- <-.
  destruct (shut_step _ _ _ _ T E) as (T1 & H1). rewrite handed_app, H1, (IH _ _ _ T1 R1). reflexivity.
Qed.
