(** Facts about the timers of an idle WebSocket session (C74). *)
From Verif Require Import PyBytes M_Idle S_Idle.
From Coq Require Import Sorted.
Local Open Scope Z_scope.

Lemma run_app h listed l1 : forall st l2, run h listed st (l1 ++ l2) =
  let '(st1, o1) := run h listed st l1 in let '(st2, o2) := run h listed st1 l2 in (st2, o1 ++ o2).
Proof.
  induction l1 as [|e l1 IH]; intros st l2; [cbn [List.app run]; destruct (run h listed st l2); reflexivity|].
  cbn [List.app run]. destruct (step h listed st e) as [st1 o1]. rewrite IH. destruct (run h listed st1 l1) as [st2 o2]. destruct (run h listed st2 l2) as [st3 o3].
  now rewrite app_assoc.
Qed.
Lemma run_snoc h listed st l e : run h listed st (l ++ [e]) =
  let '(st1, o1) := run h listed st l in let '(st2, o2) := step h listed st1 e in (st2, o1 ++ o2).
Proof. rewrite run_app. destruct (run h listed st l) as [st1 o1]. cbn [run]. destruct (step h listed st1 e). now rewrite app_nil_r. Qed.
Lemma in_order_snoc l e : in_order (l ++ [e]) -> in_order l /\ forall x, In x l -> time x <= time e.
Proof.
  unfold in_order. induction l as [|a l IH]; cbn [List.app]; intros S; [split; [constructor|intros x []]|]. inversion_clear S as [|? ? S1 F]. destruct (IH S1) as [S2 T]. split.
  - constructor; [exact S2|]. apply Forall_forall. intros x I. rewrite Forall_forall in F. apply F, in_or_app. now left.
  - intros x [<-|I]; [|now apply T]. rewrite Forall_forall in F. apply F, in_or_app. right. now left.
Qed.
Lemma in_order_app l1 l2 : in_order (l1 ++ l2) -> in_order l1 /\ forall x y, In x l1 -> In y l2 -> time x <= time y.
Proof.
  unfold in_order. induction l1 as [|a l IH]; cbn [List.app]; intros S; [split; [constructor|intros x y []]|]. inversion_clear S as [|? ? S1 F]. destruct (IH S1) as [S2 T]. split.
  - constructor; [exact S2|]. apply Forall_forall. intros x I. rewrite Forall_forall in F. apply F, in_or_app. now left.
  - intros x y [<-|I] J; [|now apply T]. rewrite Forall_forall in F. apply F, in_or_app. now right.
Qed.

(** What is so after the events [l] with [o] seen. *)
Definition fits (h : Z) (listed : Z -> bool) (l : list event) (o : list (Z * seen)) (st : state) : Prop :=
  (forall x, In x o -> snd x = Pinged -> exists e, In e l /\ fst x <= time e) /\
  match st with
  | Busy _ => (forall c, ~ pending o c) /\ (forall t, ~ In (t, Closed) o)
  | Waiting s g p => (exists c, pending o c /\ latest c (frame_at l) s /\ latest c (bytes_at l) g) /\ (forall t, ~ In (t, Closed) o) /\ s <= g /\
      (exists e, In e l /\ time e = s) /\ (forall e, In e l -> time e < g + 2 * h) /\
      (if p then (exists e, In e l /\ s + h <= time e) /\ (listed (s + h) = true -> In (s + h, Pinged) o)
       else (forall e, In e l -> time e < s + h) /\ (forall t, In (t, Pinged) o -> t <= s))
  | Over => (forall c, ~ pending o c) /\ exists t, In (t, Closed) o
  end.
Lemma pending_snoc o x c : snd x <> Called -> pending (o ++ [x]) c <-> pending o c /\ snd x = Pinged.
Proof.
  intros N. split.
  - intros (o1 & o2 & E & F). destruct o2 as [|y o2 _] using rev_ind.
    + apply app_inj_tail in E as [_ ->]. now contradiction N.
    + rewrite app_comm_cons, app_assoc in E. apply app_inj_tail in E as [-> ->]. split; [|apply F, in_or_app; right; now left].
      exists o1, o2. split; [reflexivity|]. intros z I. apply F, in_or_app. now left.
  - intros ((o1 & o2 & -> & F) & P). exists o1, (o2 ++ [x]). split; [now rewrite <- app_assoc|]. intros z I. apply in_app_or in I as [I|[<-|[]]]; auto.
Qed.
Lemma pending_called o c c' : pending (o ++ [(c, Called)]) c' <-> c' = c.
Proof.
  split.
  - intros (o1 & o2 & E & F). destruct o2 as [|y o2 _] using rev_ind.
    + apply app_inj_tail in E as [_ [= ->]]. reflexivity.
    + rewrite app_comm_cons, app_assoc in E. apply app_inj_tail in E as [-> <-]. specialize (F (c, Called) ltac:(apply in_or_app; right; now left)). discriminate F.
  - intros ->. exists o, []. split; [reflexivity|]. intros x [].
Qed.
Lemma pending_unique o : forall c c', pending o c -> pending o c' -> c = c'.
Proof.
  induction o as [|x o IH] using rev_ind; intros c c' P P'; [destruct P as ([|? ?] & ? & E & _); discriminate E|]. destruct x as [t []].
  - apply pending_called in P, P'. congruence.
  - apply pending_snoc in P as [_ P]; [discriminate P|discriminate].
  - apply pending_snoc in P as [P _]; [|discriminate]. apply pending_snoc in P' as [P' _]; [|discriminate]. eauto.
  - apply pending_snoc in P as [_ P]; [discriminate P|discriminate].
Qed.
Lemma latest_unique c P a b : latest c P a -> latest c P b -> a = b.
Proof. intros ([->|A] & A1 & A2) ([->|B] & B1 & B2); [reflexivity|specialize (A2 _ B); lia|specialize (B2 _ A); lia|specialize (A2 _ B); specialize (B2 _ A); lia]. Qed.

Lemma frame_at_snoc l e t : frame_at (l ++ [e]) t <-> frame_at l t \/ exists fs, e = Seg t fs /\ fs <> [].
Proof.
  unfold frame_at. split.
  - intros (fs & I & N). apply in_app_or in I as [I|[->|[]]]; eauto.
  - intros [(fs & I & N)|(fs & -> & N)]; exists fs; (split; [apply in_or_app|exact N]); [now left|right; now left].
Qed.
Lemma bytes_at_snoc l e t : bytes_at (l ++ [e]) t <-> bytes_at l t \/ exists fs, e = Seg t fs.
Proof.
  unfold bytes_at. split.
  - intros (fs & I). apply in_app_or in I as [I|[->|[]]]; eauto.
  - intros [(fs & I)|(fs & ->)]; exists fs; apply in_or_app; [now left|right; now left].
Qed.
Lemma frame_time l t : frame_at l t -> exists e, In e l /\ time e = t.
Proof. intros (fs & I & _). now exists (Seg t fs). Qed.
Lemma bytes_time l t : bytes_at l t -> exists e, In e l /\ time e = t.
Proof. intros (fs & I). now exists (Seg t fs). Qed.

(** The timers alone: as if only time passed. *)
Definition timed (h : Z) (listed : Z -> bool) (l : list event) (t : Z) (o : list (Z * seen)) (st : state) : Prop :=
  (forall x, In x o -> snd x = Pinged -> fst x <= t) /\
  match st with
  | Busy _ => (forall c, ~ pending o c) /\ (forall t, ~ In (t, Closed) o)
  | Waiting s g p => (exists c, pending o c /\ latest c (frame_at l) s /\ latest c (bytes_at l) g) /\ (forall t, ~ In (t, Closed) o) /\ s <= g /\ (exists e, In e l /\ time e = s) /\ g <= t /\ t < g + 2 * h /\
      (if p then s + h <= t /\ (listed (s + h) = true -> In (s + h, Pinged) o) else t < s + h /\ (forall t, In (t, Pinged) o -> t <= s))
  | Over => (forall c, ~ pending o c) /\ exists t, In (t, Closed) o
  end.
Lemma timers_fit h listed l e o st : 0 < h -> in_order (l ++ [e]) -> fits h listed l o st ->
  let '(st', o') := timers h listed st (time e) in timed h listed l (time e) (o ++ o') st'.
Proof.
  intros H O [Pi F]. apply in_order_snoc in O as [O T]. destruct st as [q|s g p|]; cbn [timers].
  - rewrite app_nil_r. split; [|exact F]. intros x I N. destruct (Pi x I N) as (e' & I' & L). specialize (T e' I'). lia.
  - destruct F as ((c & Pc & Ls & Lg) & NC & SG & (es & Ies & Tes) & G & Q).
    assert (g <= time e) as GE. { destruct Lg as ([->|B] & _); [|apply bytes_time in B as (e' & I' & <-); now apply T].
      destruct Ls as (_ & Ls & _). specialize (T es Ies). lia. }
    assert (forall x, In x o -> snd x = Pinged -> fst x <= time e) as Pi'. { intros x I N. destruct (Pi x I N) as (e' & I' & L). specialize (T e' I'). lia. }
    destruct (negb p && (s + h <=? time e) && (s + h <=? g + 2 * h) && listed (s + h)) eqn:Ping.
    + rewrite !andb_true_iff in Ping. destruct Ping as (((Np & Le) & _) & Li). apply negb_true_iff in Np. subst p. apply Z.leb_le in Le. destruct Q as [Q1 Q2].
      destruct (g + 2 * h <=? time e) eqn:Out.
      * split; [|split].
        -- intros x I N. rewrite app_assoc in I. apply in_app_or in I as [I|[<-|[]]]; [|discriminate N]. apply in_app_or in I as [I|[<-|[]]]; [now apply Pi'|exact Le].
        -- intros c' Pc'. rewrite app_assoc in Pc'. apply pending_snoc in Pc' as [_ Pc']; discriminate.
        -- exists (g + 2 * h). rewrite app_assoc. apply in_or_app. right. now left.
      * apply Z.leb_gt in Out. rewrite orb_false_l. assert (s + h <=? time e = true) as -> by now apply Z.leb_le. split; [|split; [|split; [|split; [|split; [|split; [|split; [|split]]]]]]]; try assumption.
        -- intros x I N. apply in_app_or in I as [I|[<-|[]]]; [now apply Pi'|exact Le].
        -- exists c. split; [|auto]. apply pending_snoc; [discriminate|]. auto.
        -- intros t I. apply in_app_or in I as [I|[[=]|[]]]. now apply NC in I.
        -- eauto.
        -- intros _. apply in_or_app. right. now left.
    + destruct (g + 2 * h <=? time e) eqn:Out.
      * cbn [List.app]. split; [|split].
        -- intros x I N. apply in_app_or in I as [I|[<-|[]]]; [now apply Pi'|discriminate N].
        -- intros c' Pc'. apply pending_snoc in Pc' as [_ Pc']; discriminate.
        -- exists (g + 2 * h). apply in_or_app. right. now left.
      * apply Z.leb_gt in Out. rewrite app_nil_r. split; [exact Pi'|]. split; [eauto|]. split; [exact NC|]. split; [exact SG|]. split; [eauto|]. split; [exact GE|]. split; [exact Out|].
        destruct p; cbn [orb negb andb] in *.
        -- destruct Q as [(e' & I' & L') Q]. specialize (T e' I'). split; [lia|exact Q].
        -- destruct (s + h <=? time e) eqn:Le; [|apply Z.leb_gt in Le; destruct Q; auto]. apply Z.leb_le in Le. split; [exact Le|]. intros Li. rewrite Li in Ping.
           assert (s + h <=? g + 2 * h = true) as W by (apply Z.leb_le; lia). rewrite W in Ping. discriminate Ping.
  - rewrite app_nil_r. split; [|exact F]. intros x I N. destruct (Pi x I N) as (e' & I' & L). specialize (T e' I'). lia.
Qed.
Lemma eat_fit h listed l e o fs c : 0 < h -> in_order (l ++ [e]) -> (forall x, In x o -> snd x = Pinged -> fst x <= time e) -> pending o c -> (forall t, ~ In (t, Closed) o) -> c <= time e ->
  (time e = c \/ frame_at (l ++ [e]) (time e)) ->
  let '(st', o') := eat (time e) fs in fits h listed (l ++ [e]) (o ++ o') st'.
Proof.
  intros H O Pi Pc NC Ce Fe. apply in_order_snoc in O as [O T]. assert (In e (l ++ [e])) as Ie by (apply in_or_app; right; now left).
  assert (forall x, In x (l ++ [e]) -> time x <= time e) as T'. { intros x I. apply in_app_or in I as [I|[<-|[]]]; [now apply T|lia]. }
  induction fs as [|[] fs IH]; cbn [eat].
  - rewrite app_nil_r. split; [intros x I N; exists e; split; [exact Ie|now apply Pi]|]. split; [|split; [exact NC|split; [lia|split; [eauto|split]]]].
    + exists c. split; [exact Pc|]. split; (split; [|split; [exact Ce|]]).
      * exact Fe.
      * intros t' F. apply frame_time in F as (x & I & <-). now apply T'.
      * destruct Fe as [->|(fs & I & _)]; [now left|right; now exists fs].
      * intros t' F. apply bytes_time in F as (x & I & <-). now apply T'.
    + intros x I. specialize (T' x I). lia.
    + split; [intros x I; specialize (T' x I); lia|]. intros t I. now apply (Pi (t, Pinged)).
  - exact IH.
  - split; [|split].
    + intros x I N. apply in_app_or in I as [I|[<-|[]]]; [|discriminate N]. exists e. split; [exact Ie|now apply Pi].
    + intros c' P. apply pending_snoc in P as [_ P]; discriminate.
    + intros t I. apply in_app_or in I as [I|[[=]|[]]]. now apply NC in I.
Qed.
Lemma act_fit h listed l e o st : 0 < h -> in_order (l ++ [e]) -> timed h listed l (time e) o st -> let '(st', o') := act st e in fits h listed (l ++ [e]) (o ++ o') st'.
Proof.
  intros H O [Pi F]. pose proof (in_order_snoc _ _ O) as [O1 T]. assert (In e (l ++ [e])) as Ie by (apply in_or_app; right; now left).
  assert (forall x, In x o -> snd x = Pinged -> exists e', In e' (l ++ [e]) /\ fst x <= time e') as Pi' by (intros x I N; exists e; split; [exact Ie|now apply Pi]).
  assert (forall x, In x (l ++ [e]) -> time x <= time e) as T'. { intros x I. apply in_app_or in I as [I|[<-|[]]]; [now apply T|lia]. }
  destruct st as [q|s g p|].
  - destruct e as [t fs|t|t]; cbn [act]; try (rewrite app_nil_r; now split).
    destruct F as [NP NC]. pose proof (eat_fit h listed l (Call t) (o ++ [(t, Called)]) q t H O) as Q. cbn [time] in *. destruct (eat t q) as [st' o'].
    change ((t, Called) :: o') with ([(t, Called)] ++ o'). rewrite app_assoc. apply Q.
    + intros x I N. apply in_app_or in I as [I|[<-|[]]]; [now apply Pi|discriminate N].
    + now apply pending_called.
    + intros t' I. apply in_app_or in I as [I|[[=]|[]]]. now apply NC in I.
    + lia.
    + now left.
  - destruct F as ((c & Pc & Ls & Lg) & NC & SG & (es & Ies & Tes) & GE & G & Q).
    assert (forall g', (forall fs, e = Seg (time e) fs -> fs = []) -> latest c (bytes_at (l ++ [e])) g' -> s <= g' -> time e < g' + 2 * h -> fits h listed (l ++ [e]) o (Waiting s g' p)) as Pass.
    { intros g' Ne Lg' Sg' Eg'. split; [exact Pi'|]. split; [|split; [exact NC|split; [exact Sg'|split; [|split]]]].
      - exists c. split; [exact Pc|]. split; [|exact Lg']. destruct Ls as (A & B & C). split; [|split; [exact B|]].
        + destruct A as [A|A]; [now left|right]. apply frame_at_snoc. now left.
        + intros t' X. apply frame_at_snoc in X as [X|(fs & X & X')]; [now apply C|]. contradict X'. apply (Ne fs). rewrite X. reflexivity.
      - exists es. split; [apply in_or_app; now left|exact Tes].
      - intros x I. specialize (T' x I). lia.
      - destruct p; destruct Q as [Q1 Q2]; (split; [|exact Q2]); [now exists e|]. intros x I. specialize (T' x I). lia. }
    destruct e as [t fs|t|t]; cbn [act time] in *.
    + destruct fs as [|f fs].
      * rewrite app_nil_r. apply Pass.
        -- intros fs [= <-]. reflexivity.
        -- split; [right; apply bytes_at_snoc; right; eauto|]. destruct Ls as (_ & B & _). split; [lia|]. intros t' X. apply bytes_time in X as (x & I & <-). now apply T'.
        -- lia.
        -- lia.
      * apply (eat_fit h listed l (Seg t (f :: fs)) o (f :: fs) c H O); cbn [time]; [exact Pi|exact Pc|exact NC| |].
        -- destruct Ls as (_ & B & _). lia.
        -- right. apply frame_at_snoc. right. now exists (f :: fs).
    + rewrite app_nil_r. apply Pass; [intros fs [=]| |exact SG|exact G]. destruct Lg as (A & B & C). split; [|split; [exact B|]].
      * destruct A as [A|A]; [now left|right; apply bytes_at_snoc; now left].
      * intros t' X. apply bytes_at_snoc in X as [X|(fs & [=])]. now apply C.
    + rewrite app_nil_r. apply Pass; [intros fs [=]| |exact SG|exact G]. destruct Lg as (A & B & C). split; [|split; [exact B|]].
      * destruct A as [A|A]; [now left|right; apply bytes_at_snoc; now left].
      * intros t' X. apply bytes_at_snoc in X as [X|(fs & [=])]. now apply C.
  - assert (act Over e = (Over, [])) as -> by now destruct e. rewrite app_nil_r. now split.
Qed.
Lemma run_fits h listed l : 0 < h -> in_order l -> let '(st, o) := run h listed (Busy []) l in fits h listed l o st.
Proof.
  intros H. induction l as [|e l IH] using rev_ind; intros O.
  - cbn [run]. split; [intros x []|]. split; [intros c ([|? ?] & o2 & E & _); discriminate E|intros t []].
  - rewrite run_snoc. pose proof (in_order_snoc _ _ O) as [O1 _]. specialize (IH O1). destruct (run h listed (Busy []) l) as [st o]. unfold step.
    pose proof (timers_fit h listed l e o st H O IH) as Q. destruct (timers h listed st (time e)) as [st1 o1]. pose proof (act_fit h listed l e (o ++ o1) st1 H O Q) as R.
    destruct (act st1 e) as [st2 o2]. now rewrite app_assoc.
Qed.

(** What a step adds. *)
Lemma eat_closed t fs t' : ~ In (t', Closed) (snd (eat t fs)) /\ ~ In (t', Pinged) (snd (eat t fs)).
Proof. induction fs as [|[] fs IH]; cbn [eat snd]; [split; intros []|exact IH|split; intros [[=]|[]]]. Qed.
Lemma act_closed st e t' : ~ In (t', Closed) (snd (act st e)) /\ ~ In (t', Pinged) (snd (act st e)).
Proof.
  destruct st as [q|s g p|]; destruct e as [t fs|t|t]; cbn [act snd]; try (split; intros []; fail).
  - pose proof (eat_closed t q t') as [A B]. destruct (eat t q) as [st' o']. cbn [snd] in *. split; intros [[=]|I]; auto.
  - destruct fs as [|f fs]; [cbn [snd]; split; intros []|]. apply eat_closed.
Qed.
Lemma step_closed h listed st e t : In (t, Closed) (snd (step h listed st e)) <-> exists s g p, st = Waiting s g p /\ t = g + 2 * h /\ t <= time e.
Proof.
  unfold step. destruct (timers h listed st (time e)) as [st1 o1] eqn:T. pose proof (act_closed st1 e t) as [A _]. destruct (act st1 e) as [st2 o2]. cbn [snd] in *.
  rewrite in_app_iff. split.
  - intros [I|I]; [|contradiction]. destruct st as [q|s g p|]; cbn [timers] in T; [injection T as _ <-; destruct I| |injection T as _ <-; destruct I].
    exists s, g, p. split; [reflexivity|]. destruct (g + 2 * h <=? time e) eqn:L.
    + injection T as _ <-. apply in_app_or in I as [I|[[= <-]|[]]]; [|apply Z.leb_le in L; auto]. destruct (_ && _ && _ && _) in I; [destruct I as [[=]|[]]|destruct I].
    + injection T as _ <-. destruct (_ && _ && _ && _) in I; [destruct I as [[=]|[]]|destruct I].
  - intros (s & g & p & -> & -> & L). left. cbn [timers] in T. apply Z.leb_le in L. rewrite L in T. injection T as _ <-. apply in_or_app. right. now left.
Qed.
Lemma step_pinged h listed st e t : 0 < h -> In (t, Pinged) (snd (step h listed st e)) <-> exists s g, st = Waiting s g false /\ t = s + h /\ t <= time e /\ t <= g + 2 * h /\ listed t = true.
Proof.
  intros H. unfold step. destruct (timers h listed st (time e)) as [st1 o1] eqn:T. pose proof (act_closed st1 e t) as [_ A]. destruct (act st1 e) as [st2 o2]. cbn [snd] in *.
  rewrite in_app_iff. split.
  - intros [I|I]; [|contradiction]. destruct st as [q|s g p|]; cbn [timers] in T; [injection T as _ <-; destruct I| |injection T as _ <-; destruct I].
    assert (In (t, Pinged) (if negb p && (s + h <=? time e) && (s + h <=? g + 2 * h) && listed (s + h) then [(s + h, Pinged)] else [])) as J.
    { destruct (g + 2 * h <=? time e); injection T as _ <-; [|exact I]. apply in_app_or in I as [I|[[=]|[]]]. exact I. }
    destruct (negb p && (s + h <=? time e) && (s + h <=? g + 2 * h) && listed (s + h)) eqn:E; [|destruct J]. destruct J as [[= <-]|[]].
    rewrite !andb_true_iff, !Z.leb_le in E. destruct E as (((Np & E1) & E2) & E3). apply negb_true_iff in Np. subst p. eauto 10.
  - intros (s & g & -> & -> & L1 & L2 & L3). left. cbn [timers negb andb] in T. apply Z.leb_le in L1, L2. rewrite L1, L2, L3 in T. cbn [andb] in T.
    destruct (g + 2 * h <=? time e); injection T as _ <-; now left.
Qed.
Lemma run_in h listed x l : forall st, In x (snd (run h listed st l)) <-> exists l1 e l2, l = l1 ++ e :: l2 /\ In x (snd (step h listed (fst (run h listed st l1)) e)).
Proof.
  induction l as [|e l IH]; intros st; cbn [run].
  - split; [intros []|intros ([|? ?] & ? & ? & [=] & _)].
  - destruct (step h listed st e) as [st1 o1] eqn:E. specialize (IH st1). destruct (run h listed st1 l) as [st2 o2]. cbn [snd] in *. rewrite in_app_iff, IH. split.
    + intros [I|(l1 & e' & l2 & -> & I)].
      * exists [], e, l. split; [reflexivity|]. cbn [run fst]. now rewrite E.
      * exists (e :: l1), e', l2. split; [reflexivity|]. cbn [run]. rewrite E. destruct (run h listed st1 l1). exact I.
    + intros ([|e0 l1] & e' & l2 & [= -> ->] & I).
      * left. cbn [run fst] in I. now rewrite E in I.
      * right. exists l1, e', l2. split; [reflexivity|]. cbn [run] in I. rewrite E in I. destruct (run h listed st1 l1). exact I.
Qed.
Lemma pending_waiting h listed l c : 0 < h -> in_order l -> pending (session h listed l) c -> exists s g p, fst (run h listed (Busy []) l) = Waiting s g p /\
  latest c (frame_at l) s /\ latest c (bytes_at l) g /\ s <= g /\ (p = false <-> forall e, In e l -> time e < s + h).
Proof.
  intros H O P. pose proof (run_fits h listed l H O) as F. unfold session in P. destruct (run h listed (Busy []) l) as [st o]. cbn [fst snd] in *. destruct F as [_ F].
  destruct st as [q|s g p|]; [now apply (proj1 F) in P| |now apply (proj1 F) in P]. destruct F as ((c' & P' & Ls & Lg) & _ & SG & _ & _ & Q).
  rewrite (pending_unique _ _ _ P P'). exists s, g, p. split; [reflexivity|]. split; [exact Ls|]. split; [exact Lg|]. split; [exact SG|]. destruct p; destruct Q as [Q1 Q2].
  - split; [discriminate|]. destruct Q1 as (e & I & L). intros X. specialize (X e I). lia.
  - split; [intros _; exact Q1|reflexivity].
Qed.
Lemma closed_iff h listed l t : 0 < h -> in_order l -> In (t, Closed) (session h listed l) <->
  exists l1 e l2 c g, l = l1 ++ e :: l2 /\ pending (session h listed l1) c /\ latest c (bytes_at l1) g /\ t = g + 2 * h /\ t <= time e.
Proof.
  intros H O. unfold session at 1. rewrite run_in. split.
  - intros (l1 & e & l2 & -> & I). apply step_closed in I as (s & g & p & E & -> & L). destruct (in_order_app _ _ O) as [O1 _]. pose proof (run_fits h listed l1 H O1) as F. unfold session.
    exists l1, e, l2. destruct (run h listed (Busy []) l1) as [st o] eqn:R. cbn [fst] in E. subst st. destruct F as (_ & (c & P & _ & Lg) & _). exists c, g. cbn [snd]. auto.
  - intros (l1 & e & l2 & c & g & -> & P & Lg & -> & L). exists l1, e, l2. split; [reflexivity|]. apply step_closed. destruct (in_order_app _ _ O) as [O1 _].
    destruct (pending_waiting h listed l1 c H O1 P) as (s & g' & p & E & _ & Lg' & _). rewrite (latest_unique _ _ _ _ Lg Lg') in *. eauto 10.
Qed.
Lemma pinged_iff h listed l t : 0 < h -> in_order l -> In (t, Pinged) (session h listed l) <->
  exists l1 e l2 c s, l = l1 ++ e :: l2 /\ pending (session h listed l1) c /\ latest c (frame_at l1) s /\ (forall x, In x l1 -> time x < t) /\ t = s + h /\ t <= time e /\ listed t = true.
Proof.
  intros H O. unfold session at 1. rewrite run_in. split.
  - intros (l1 & e & l2 & -> & I). apply step_pinged in I as (s & g & E & -> & L1 & L2 & L3); [|exact H]. destruct (in_order_app _ _ O) as [O1 _].
    pose proof (run_fits h listed l1 H O1) as F. unfold session. exists l1, e, l2. destruct (run h listed (Busy []) l1) as [st o] eqn:R. cbn [fst] in E. subst st.
    destruct F as (_ & (c & P & Ls & _) & _ & _ & _ & _ & Q & _). exists c, s. cbn [snd]. auto 10.
  - intros (l1 & e & l2 & c & s & -> & P & Ls & B & -> & L & Li). exists l1, e, l2. split; [reflexivity|]. apply step_pinged; [exact H|]. destruct (in_order_app _ _ O) as [O1 _].
    destruct (pending_waiting h listed l1 c H O1 P) as (s' & g & p & E & Ls' & _ & SG & Q). rewrite (latest_unique _ _ _ _ Ls Ls') in *. apply Q in B. subst p.
    exists s', g. repeat split; auto. lia.
Qed.
Lemma in_order_mid l1 e l2 x : in_order (l1 ++ e :: l2) -> In x (e :: l2) -> time e <= time x.
Proof.
  unfold in_order. induction l1 as [|a l1 IH]; cbn [List.app]; intros S I; inversion_clear S as [|? ? S1 F].
  - destruct I as [<-|I]; [lia|]. rewrite Forall_forall in F. now apply F.
  - now apply IH.
Qed.
Lemma sorted_snoc (R : Z -> Z -> Prop) l x : StronglySorted R l -> (forall y, In y l -> R y x) -> StronglySorted R (l ++ [x]).
Proof.
  induction 1 as [|a l S IH F]; intros Q; cbn [List.app]; [repeat constructor|]. constructor; [apply IH; intros y I; apply Q; now right|].
  apply Forall_app. split; [exact F|]. constructor; [apply Q; now left|constructor].
Qed.
Lemma pings_app a b : pings (a ++ b) = pings a ++ pings b.
Proof. unfold pings. now rewrite filter_app, map_app. Qed.
Lemma pings_eat t fs : pings (snd (eat t fs)) = [].
Proof. induction fs as [|[] fs IH]; cbn [eat snd]; [reflexivity|exact IH|reflexivity]. Qed.
Lemma pings_act st e : pings (snd (act st e)) = [].
Proof.
  destruct st as [q|s g p|]; destruct e as [t fs|t|t]; cbn [act snd]; try reflexivity.
  - pose proof (pings_eat t q) as E. destruct (eat t q) as [st' o']. exact E.
  - destruct fs as [|f fs]; [reflexivity|]. apply pings_eat.
Qed.
Lemma pings_step h listed st e : pings (snd (step h listed st e)) = [] \/ exists s g, st = Waiting s g false /\ pings (snd (step h listed st e)) = [s + h].
Proof.
  unfold step. destruct (timers h listed st (time e)) as [st1 o1] eqn:T. pose proof (pings_act st1 e) as A. destruct (act st1 e) as [st2 o2]. cbn [snd] in *. rewrite pings_app, A, app_nil_r.
  destruct st as [q|s g p|]; cbn [timers] in T; [injection T as _ <-; now left| |injection T as _ <-; now left].
  destruct (negb p && (s + h <=? time e) && (s + h <=? g + 2 * h) && listed (s + h)) eqn:E.
  - right. exists s, g. destruct p; [discriminate E|]. split; [reflexivity|]. destruct (g + 2 * h <=? time e); injection T as _ <-; reflexivity.
  - left. destruct (g + 2 * h <=? time e); injection T as _ <-; reflexivity.
Qed.
Lemma pings_sorted h listed l : 0 < h -> in_order l -> StronglySorted (fun a b => a + h <= b) (pings (session h listed l)).
Proof.
  intros H. unfold session. induction l as [|e l IH] using rev_ind; intros O; [constructor|]. apply in_order_snoc in O as [O _]. specialize (IH O). pose proof (run_fits h listed l H O) as F.
  rewrite run_snoc. destruct (run h listed (Busy []) l) as [st o]. pose proof (pings_step h listed st e) as Q. destruct (step h listed st e) as [st2 o2]. cbn [snd] in *. rewrite pings_app.
  destruct Q as [->|(s & g & -> & ->)]; [now rewrite app_nil_r|]. apply sorted_snoc; [exact IH|]. intros y I. destruct F as (_ & _ & _ & _ & _ & _ & _ & F).
  unfold pings in I. apply in_map_iff in I as ([y' w] & <- & I). apply filter_In in I as [I W]. destruct w; try discriminate W. cbn [fst]. specialize (F y' I). lia.
Qed.
