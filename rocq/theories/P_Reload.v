(** Proofs about the reload of changed modules (C73). *)
From Verif Require Import PyBytes PyBytesFacts M_Reload S_Reload.

Lemma sigeqb_eq a b : sigeqb a b = true <-> a = b.
Proof.
  destruct a as [[x y] z], b as [[x' y'] z']. cbn [sigeqb]. rewrite !andb_true_iff, Nat.eqb_eq, !N.eqb_eq. split; [intros [[-> ->] ->]; reflexivity|intros [= -> -> ->]; auto].
Qed.
Lemma begins_iff p f : startswith p f = true <-> begins p f.
Proof. rewrite startswith_spec. reflexivity. Qed.
Lemma watched_mine sys app_dir m f : watched (paths_of sys app_dir) m = Some f <-> mine sys app_dir m f.
Proof.
  unfold watched, mine. destruct (m_file m) as [f'|]; [|split; [discriminate|intros [[=] _]]].
  destruct (existsb (fun p => startswith p f') (paths_of sys app_dir)) eqn:E.
  - split; [discriminate|]. intros [[= ->] H]. apply existsb_exists in E as (p & I & B). apply filter_In in I as [I N]. apply begins_iff in B. apply (H p I), begins_iff in B. now rewrite B in N.
  - split; [|intros [[= ->] _]; reflexivity]. intros [= ->]. split; [reflexivity|]. intros p I B. apply begins_iff in B. apply begins_iff.
    destruct (startswith p app_dir) eqn:E2; [reflexivity|]. exfalso. assert (existsb (fun p => startswith p f) (paths_of sys app_dir) = true) as E3; [|congruence].
    apply existsb_exists. exists p. split; [apply filter_In; split; [exact I|now rewrite E2]|exact B].
Qed.

(** ** Dicts by identity *)
Definition ids (k : known) := map (fun x => m_id (fst x)) k.
Lemma mget_in m s (k : known) : dget modeqb m k = Some s -> exists m', In (m', s) k /\ m_id m' = m_id m.
Proof.
  induction k as [|[m' s'] k IH]; cbn [dget]; [discriminate|]. unfold modeqb at 1. destruct (Nat.eqb_spec (m_id m) (m_id m')) as [E|N].
  - intros [= ->]. exists m'. split; [now left|auto].
  - intros H. destruct (IH H) as (x & I & E). exists x. split; [now right|exact E].
Qed.
Lemma mget_none m (k : known) : dget modeqb m k = None <-> ~ In (m_id m) (ids k).
Proof.
  induction k as [|[m' s'] k IH]; cbn [dget ids map fst In]; [split; auto|]. unfold modeqb at 1. destruct (Nat.eqb_spec (m_id m) (m_id m')) as [E|N]; [split; [discriminate|intros H; destruct H; auto]|].
  rewrite IH. unfold ids. intuition.
Qed.
Lemma mset_new m s (k : known) : dget modeqb m k = None -> dset modeqb m s k = k ++ [(m, s)].
Proof. induction k as [|[m' s'] k IH]; cbn [dget dset app]; [reflexivity|]. destruct (modeqb m m'); [discriminate|]. intros H. now rewrite IH. Qed.
Lemma mdel_in x m (k : known) : In x (ddel modeqb m k) -> In x k.
Proof. induction k as [|[m' s'] k IH]; cbn [ddel]; [easy|]. destruct (modeqb m m'); [now right|]. intros [<-|I]; [now left|right; auto]. Qed.
Lemma mget_self m s (k : known) : NoDup (ids k) -> In (m, s) k -> dget modeqb m k = Some s.
Proof.
  induction k as [|[m' s'] k IH]; [easy|]. cbn [ids map fst dget]. intros ND [[= -> ->]|I]; inversion_clear ND as [|? ? N ND'].
  - unfold modeqb. now rewrite Nat.eqb_refl.
  - unfold modeqb at 1. destruct (Nat.eqb_spec (m_id m) (m_id m')) as [E|_]; [|now apply IH]. exfalso. apply N. rewrite <- E. apply (in_map (fun x => m_id (fst x)) _ _ I).
Qed.

(** ** No reload without a change: for all sights *)
(** Every entry was seen: the signature is that of the file of the module at some look of [past]. *)
Definition seen (paths : list bytes) (past : list sight) (k : known) : Prop :=
  Forall (fun x => exists g f, In g past /\ watched paths (fst x) = Some f /\ g_files g f = Some (snd x)) k.
(** Modules with one identity are one module. *)
Definition one (l : list pymod) : Prop := forall a b, In a l -> In b l -> m_id a = m_id b -> a = b.
Lemma look_seen paths g past all l : forall k, one all -> incl l all -> incl (map fst k) all -> In g past -> seen paths past k ->
  match look paths (g_files g) l k with
  | inl m => exists f g0 s s', In g0 past /\ watched paths m = Some f /\ g_files g0 f = Some s /\ g_files g f = Some s' /\ s <> s'
  | inr k' => seen paths past k' /\ incl (map fst k') all
  end.
Proof.
  induction l as [|m l IH]; intros k O Il Ik Ig S1; cbn [look]; [auto|]. assert (incl l all) as Il' by (intros x I; apply Il; now right).
  destruct (watched paths m) as [f|] eqn:W; [|now apply IH]. destruct (g_files g f) as [s|] eqn:Fs.
  - destruct (dget modeqb m k) as [s'|] eqn:G.
    + destruct (sigeqb s' s) eqn:E; [now apply IH|]. destruct (mget_in _ _ _ G) as (m' & I & Em). unfold seen in S1. rewrite Forall_forall in S1. destruct (S1 _ I) as (g0 & f0 & Ig0 & W0 & F0). cbn [fst snd] in *.
      assert (m' = m) as ->. { apply O; [apply Ik; apply (in_map fst _ _ I)|apply Il; now left|exact Em]. }
      rewrite W in W0. injection W0 as <-. exists f, g0, s', s. repeat split; try assumption. intros ->. rewrite (proj2 (sigeqb_eq s s) eq_refl) in E. discriminate.
    + rewrite mset_new by exact G. apply IH; try assumption.
      * rewrite map_app. intros x I. apply in_app_or in I as [I|[<-|[]]]; [auto|apply Il; now left].
      * apply Forall_app. split; [exact S1|]. constructor; [|constructor]. exists g, f. auto.
  - apply IH; try assumption.
    + intros x I. apply Ik. apply in_map_iff in I as (y & <- & I). apply in_map. eapply mdel_in, I.
    + unfold seen in *. rewrite Forall_forall in *. intros x I. apply S1. eapply mdel_in, I.
Qed.
Lemma looks_seen paths all gs : forall past k limit reload n m, one all -> (forall g, In g gs -> incl (g_modules g) all) -> incl (map fst k) all -> seen paths past k ->
  looks reload limit paths gs k = Some (n, Reload m) ->
  exists g f g0 s s', nth_error gs n = Some g /\ In g0 (past ++ firstn n gs) /\ watched paths m = Some f /\ g_files g0 f = Some s /\ g_files g f = Some s' /\ s <> s'.
Proof.
  induction gs as [|g gs IH]; intros past k limit reload n m O Ig Ik S1; cbn [looks]; [discriminate|]. unfold turn.
  set (l := match k with [] => g_modules g | _ => map fst k end).
  assert (incl l all) as Il by (unfold l; destruct k; [apply Ig; now left|exact Ik]).
  match goal with |- context [match (if reload then ?a else ?b) with inl _ => _ | inr _ => _ end] => destruct (if reload then a else b) as [m'|k'] eqn:E end.
  - destruct reload; [|discriminate]. intros [= <- <-].
    pose proof (look_seen paths g (past ++ [g]) all l k O Il Ik) as L. rewrite E in L.
    destruct L as (f & g0 & s & s' & I0 & W & F0 & F1 & N).
    { apply in_or_app. right. now left. }
    { unfold seen in *. rewrite Forall_forall in *. intros x I. destruct (S1 x I) as (g0 & f & I0 & W & F0). exists g0, f. split; [apply in_or_app; now left|auto]. }
    exists g, f, g0, s, s'. split; [reflexivity|]. split; [|auto]. cbn [firstn]. rewrite app_nil_r. apply in_app_or in I0 as [I0|[<-|[]]]; [exact I0|]. congruence.
  - destruct ((0 <? limit)%Z && (limit <? g_memory g)%Z); [discriminate|].
    destruct (looks reload limit paths gs k') as [[n' e]|] eqn:R; [|discriminate]. intros [= <- ->].
    assert (seen paths (past ++ [g]) k) as S2.
    { unfold seen in *. rewrite Forall_forall in *. intros x I. destruct (S1 x I) as (g0 & f & I0 & W & F0). exists g0, f. split; [apply in_or_app; now left|auto]. }
    assert (seen paths (past ++ [g]) k' /\ incl (map fst k') all) as [S3 I3].
    { destruct reload; [|injection E as <-; auto]. pose proof (look_seen paths g (past ++ [g]) all l k O Il Ik ltac:(apply in_or_app; right; now left) S2) as L. now rewrite E in L. }
    destruct (IH (past ++ [g]) k' limit reload n' m O (fun x I => Ig x (or_intror I)) I3 S3 R) as (g1 & f & g0 & s & s' & N1 & I0 & W & F0 & F1 & N).
    exists g1, f, g0, s, s'. split; [exact N1|]. split; [|auto]. cbn [firstn]. rewrite <- app_assoc in I0. exact I0.
Qed.

(** ** Every change of a watched module *)
(** All of [k] are as at the look [g]: then nothing happens; if one differs there is a reload. *)
Definition same (paths : list bytes) (g : sight) (k : known) : Prop := Forall (fun x => exists f, watched paths (fst x) = Some f /\ g_files g f = Some (snd x)) k.
Lemma look_same paths g l : forall k, NoDup (ids k) -> incl l k -> same paths g l -> look paths (g_files g) (map fst l) k = inr k.
Proof.
  induction l as [|[m s] l IH]; intros k ND I S1; cbn [map fst look]; [reflexivity|]. inversion_clear S1 as [|? ? (f & W & F) S2]. cbn [fst snd] in *. rewrite W, F.
  rewrite (mget_self m s k ND) by (apply I; now left). rewrite (proj2 (sigeqb_eq s s) eq_refl). apply IH; [exact ND|intros y J; apply I; now right|assumption].
Qed.
Lemma look_differs paths g l : forall k, NoDup (ids k) -> incl l k -> Forall (fun x => exists f, watched paths (fst x) = Some f /\ g_files g f <> None) l -> ~ same paths g l ->
  exists m, look paths (g_files g) (map fst l) k = inl m /\ In m (map fst l).
Proof.
  induction l as [|[m s] l IH]; intros k ND I T N; [destruct N; constructor|]. inversion_clear T as [|? ? (f & W & F) T2]. cbn [map fst look] in *. rewrite W.
  destruct (g_files g f) as [s'|] eqn:Fs; [|easy]. rewrite (mget_self m s k ND) by (apply I; now left). destruct (sigeqb s s') eqn:E.
  - apply sigeqb_eq in E as <-. destruct (IH k ND) as (y & L & J); [intros y J; apply I; now right|assumption| |exists y; split; [exact L|now right]].
    intros S2. apply N. constructor; [exists f; auto|exact S2].
  - exists m. split; [reflexivity|now left].
Qed.
(** The first look. *)
Fixpoint taken (paths : list bytes) (files : bytes -> option sig) (l : list pymod) : known :=
  match l with [] => [] | m :: l' => match watched paths m with Some f => match files f with Some s => (m, s) :: taken paths files l' | None => taken paths files l' end | None => taken paths files l' end end.
Lemma mdel_absent m (k : known) : dget modeqb m k = None -> ddel modeqb m k = k.
Proof. induction k as [|[m' s'] k IH]; cbn [dget ddel]; [reflexivity|]. destruct (modeqb m m'); [discriminate|]. intros H. now rewrite IH. Qed.
Lemma look_first paths files l : forall k, NoDup (map m_id l) -> (forall m, In m l -> ~ In (m_id m) (ids k)) -> look paths files l k = inr (k ++ taken paths files l).
Proof.
  induction l as [|m l IH]; intros k ND D; cbn [look taken]; [now rewrite app_nil_r|]. inversion_clear ND as [|? ? N ND'].
  assert (dget modeqb m k = None) as G by (apply mget_none, D; now left).
  assert (forall x, In x l -> ~ In (m_id x) (ids k)) as D' by (intros x I; apply D; now right).
  destruct (watched paths m) as [f|]; [|now apply IH]. destruct (files f) as [s|]; [|rewrite mdel_absent by exact G; now apply IH].
  rewrite G, mset_new by exact G. rewrite IH; [now rewrite <- app_assoc|exact ND'|]. intros x I. unfold ids. rewrite map_app, in_app_iff. intros [J|[J|[]]]; [now apply (D' x I)|].
  cbn [fst] in J. apply N. rewrite J. now apply in_map.
Qed.
Lemma taken_in paths files l m s : In (m, s) (taken paths files l) <-> In m l /\ exists f, watched paths m = Some f /\ files f = Some s.
Proof.
  induction l as [|x l IH]; cbn [taken In]; [split; [easy|intros [[] _]]|]. destruct (watched paths x) as [f|] eqn:W; [destruct (files f) as [s'|] eqn:F|]; cbn [In]; rewrite IH.
  - split; [intros [[= <- <-]|[I H]]; [split; [now left|eauto]|auto]|]. intros [[<-|I] (f' & W' & F')]; [left|right; eauto]. rewrite W in W'. injection W' as <-. congruence.
  - split; [intros [I H]; auto|]. intros [[<-|I] (f' & W' & F')]; [|eauto]. rewrite W in W'. injection W' as <-. congruence.
  - split; [intros [I H]; auto|]. intros [[<-|I] (f' & W' & F')]; [congruence|eauto].
Qed.
Lemma taken_ids paths files l : NoDup (map m_id l) -> NoDup (ids (taken paths files l)).
Proof.
  induction l as [|x l IH]; intros ND; cbn [taken]; [constructor|]. inversion_clear ND as [|? ? N ND']. destruct (watched paths x) as [f|]; [|auto]. destruct (files f) as [s|]; [|auto].
  cbn [ids map fst]. constructor; [|auto]. intros I. apply N. apply in_map_iff in I as ((m & s') & E & I). cbn [fst] in E. rewrite <- E. apply taken_in in I as [I _]. now apply in_map.
Qed.
(** The looks after the first one, for a dict that is not empty. *)
Lemma looks_on paths gs : forall k limit, k <> [] -> NoDup (ids k) -> (limit <= 0)%Z ->
  (forall g, In g gs -> Forall (fun x => exists f, watched paths (fst x) = Some f /\ g_files g f <> None) k) ->
  match looks true limit paths gs k with
  | None => forall g, In g gs -> same paths g k
  | Some (n, e) => (exists m, e = Reload m /\ In m (map fst k)) /\ (forall g, nth_error gs n = Some g -> ~ same paths g k) /\ n < List.length gs /\ forall g, In g (firstn n gs) -> same paths g k
  end.
Proof.
  induction gs as [|g gs IH]; intros k limit Nk ND L T; cbn [looks]; [easy|]. unfold turn.
  assert (match k with [] => g_modules g | _ => map fst k end = map fst k) as -> by (now destruct k).
  assert ({same paths g k} + {~ same paths g k}) as [S1|S1].
  { unfold same. apply Forall_dec. intros [m s]. cbn [fst snd]. destruct (watched paths m) as [f|]; [|right; intros (f & [=] & _)].
    destruct (g_files g f) as [s'|] eqn:F; [|right; intros (f' & [= <-] & F'); congruence].
    destruct (sigeqb s s') eqn:E; [apply sigeqb_eq in E as <-; left; eauto|right]. intros (f' & [= <-] & F'). rewrite F in F'. injection F' as ->. rewrite (proj2 (sigeqb_eq s s) eq_refl) in E. discriminate. }
  - rewrite (look_same paths g k k ND (incl_refl k) S1). assert ((0 <? limit)%Z = false) as -> by lia. cbn [andb].
    specialize (IH k limit Nk ND L (fun x I => T x (or_intror I))). destruct (looks true limit paths gs k) as [[n e]|].
    + destruct IH as (A & B & C & D). split; [exact A|]. split; [exact B|]. split; [cbn [List.length]; lia|]. cbn [firstn]. intros x [<-|I]; [exact S1|auto].
    + intros x [<-|I]; [exact S1|auto].
  - destruct (look_differs paths g k k ND (incl_refl k) (T g ltac:(now left)) S1) as (m & -> & I).
    split; [eauto|]. split; [intros x [= <-]; exact S1|]. split; [cbn [List.length]; lia|]. intros x [].
Qed.
Lemma looks_main paths g0 gs limit : NoDup (map m_id (g_modules g0)) -> (limit <= 0)%Z ->
  (exists m f, In m (g_modules g0) /\ watched paths m = Some f /\ g_files g0 f <> None) ->
  (forall m f g, In m (g_modules g0) -> watched paths m = Some f -> g_files g0 f <> None -> In g gs -> g_files g f <> None) ->
  match looks true limit paths (g0 :: gs) [] with
  | None => forall m f g, In m (g_modules g0) -> watched paths m = Some f -> g_files g0 f <> None -> In g gs -> g_files g f = g_files g0 f
  | Some (n, e) => exists i m, n = S i /\ e = Reload m /\ i < List.length gs /\
      (exists m f g, In m (g_modules g0) /\ watched paths m = Some f /\ g_files g0 f <> None /\ nth_error gs i = Some g /\ g_files g f <> g_files g0 f) /\
      (forall m f g, In m (g_modules g0) -> watched paths m = Some f -> g_files g0 f <> None -> In g (firstn i gs) -> g_files g f = g_files g0 f)
  end.
Proof.
  intros ND L (m0 & f0 & I0 & W0 & F0) T. cbn [looks]. unfold turn. rewrite look_first; [|exact ND|intros m _ []]. cbn [app].
  set (k := taken paths (g_files g0) (g_modules g0)). assert ((0 <? limit)%Z = false) as -> by lia. cbn [andb].
  assert (k <> []) as Nk. { destruct (g_files g0 f0) as [s|] eqn:E; [|easy]. assert (In (m0, s) k) as I by (apply taken_in; eauto). now destruct k. }
  pose proof (taken_ids paths (g_files g0) (g_modules g0) ND) as NDk. fold k in NDk.
  assert (forall g, same paths g k -> forall m f, In m (g_modules g0) -> watched paths m = Some f -> g_files g0 f <> None -> g_files g f = g_files g0 f) as Sm.
  { intros g S1 m f I W F. destruct (g_files g0 f) as [s|] eqn:E; [|easy]. unfold same in S1. rewrite Forall_forall in S1. destruct (S1 (m, s)) as (f' & W' & F').
    { apply taken_in. eauto. } cbn [fst snd] in *. rewrite W in W'. now injection W' as <-. }
  pose proof (looks_on paths gs k limit Nk NDk L) as Q.
  assert (forall g, In g gs -> Forall (fun x => exists f, watched paths (fst x) = Some f /\ g_files g f <> None) k) as Tk.
  { intros g I. rewrite Forall_forall. intros [m s] J. apply taken_in in J as (Im & f & W & F). exists f. split; [exact W|]. apply (T m f g Im W); [congruence|exact I]. }
  specialize (Q Tk). destruct (looks true limit paths gs k) as [[n e]|].
  - destruct Q as ((m & -> & Im) & B & C & D). exists n, m. split; [reflexivity|]. split; [reflexivity|]. split; [exact C|]. split.
    + destruct (nth_error gs n) as [g|] eqn:En; [|apply nth_error_None in En; lia]. specialize (B g eq_refl).
      assert (exists x, In x k /\ ~ (exists f, watched paths (fst x) = Some f /\ g_files g f = Some (snd x))) as ((m1 & s1) & I1 & N1).
      { unfold same in B. apply Exists_exists. apply neg_Forall_Exists_neg; [|exact B]. intros [m' s']. cbn [fst snd]. destruct (watched paths m') as [f|]; [|right; intros (f & [=] & _)].
        destruct (g_files g f) as [s2|] eqn:F; [|right; intros (f' & [= <-] & F'); congruence].
        destruct (sigeqb s' s2) eqn:E; [apply sigeqb_eq in E as <-; left; eauto|right]. intros (f' & [= <-] & F'). rewrite F in F'. injection F' as ->. rewrite (proj2 (sigeqb_eq s' s') eq_refl) in E. discriminate. }
      apply taken_in in I1 as (Im1 & f1 & W1 & F1). exists m1, f1, g. split; [exact Im1|]. split; [exact W1|]. split; [congruence|]. split; [reflexivity|].
      intros E. apply N1. cbn [fst snd]. exists f1. split; [exact W1|congruence].
    + intros m' f g Im' W F I. apply (Sm g (D g I) m' f Im' W F).
  - intros m f g Im W F I. apply (Sm g (Q g I) m f Im W F).
Qed.

(** ** Memory *)
Lemma looks_memory paths gs : forall reload limit k n, looks reload limit paths gs k = Some (n, Memory) -> (0 < limit)%Z /\ exists g, nth_error gs n = Some g /\ (limit < g_memory g)%Z.
Proof.
  induction gs as [|g gs IH]; intros reload limit k n; cbn [looks]; [discriminate|]. unfold turn. destruct (if reload then _ else _) as [m|k']; [discriminate|].
  destruct ((0 <? limit)%Z && (limit <? g_memory g)%Z) eqn:E.
  - intros [= <-]. apply andb_true_iff in E as [A B]. split; [lia|]. exists g. split; [reflexivity|lia].
  - destruct (looks reload limit paths gs k') as [[n' e]|] eqn:R; [|discriminate]. intros [= <- ->]. destruct (IH reload limit k' n' R) as (A & g' & B & C). split; [exact A|]. now exists g'.
Qed.
Lemma looks_over paths gs : forall reload limit k n g, (0 < limit)%Z -> nth_error gs n = Some g -> (limit < g_memory g)%Z -> exists n' e, looks reload limit paths gs k = Some (n', e) /\ n' <= n.
Proof.
  induction gs as [|g0 gs IH]; intros reload limit k n g L N M; [destruct n; discriminate|]. cbn [looks]. unfold turn. destruct (if reload then _ else _) as [m|k']; [exists 0, (Reload m); split; [reflexivity|lia]|].
  destruct ((0 <? limit)%Z && (limit <? g_memory g0)%Z) eqn:E; [exists 0, Memory; split; [reflexivity|lia]|].
  destruct n as [|n]; [injection N as ->; exfalso; lia|]. destruct (IH reload limit k' n g L N M) as (n' & e & R & Le). rewrite R. exists (S n'), e. split; [reflexivity|lia].
Qed.
Lemma looks_no_goes paths gs : forall reload limit k n k', looks reload limit paths gs k <> Some (n, Goes k').
Proof.
  induction gs as [|g gs IH]; intros reload limit k n k'; cbn [looks]; [discriminate|]. unfold turn. destruct (if reload then _ else _) as [m|k2]; [discriminate|].
  destruct ((0 <? limit)%Z && (limit <? g_memory g)%Z); [discriminate|]. destruct (looks reload limit paths gs k2) as [[n2 e]|] eqn:R; [|discriminate]. intros [= <- ->]. now apply IH in R.
Qed.
Lemma rebind_one {A} (l1 l2 : mod_attrs (A := A)) name o self : startswith (bs "__") name = false -> (forall kv x, In kv (l1 ++ l2) -> snd kv = inr x -> startswith (bs "__") (fst kv) = true) ->
  rebind (l1 ++ (name, inr o) :: l2) self = o.
Proof.
  intros N H. unfold rebind. rewrite fold_left_app. cbn [fold_left fst snd]. rewrite N.
  assert (forall l acc, (forall kv x, In kv l -> snd kv = inr x -> startswith (bs "__") (fst kv) = true) ->
    fold_left (fun acc (kv : bytes * (unit + A)) => if startswith (bs "__") (fst kv) then acc else match snd kv with inr o => o | inl _ => acc end) l acc = acc) as K.
  { clear. induction l as [|[k v] l IH]; intros acc H; [reflexivity|]. cbn [fold_left fst snd]. destruct (startswith (bs "__") k) eqn:E; [apply IH; intros kv x I; apply H; now right|].
    destruct v as [u|o]; [apply IH; intros kv x I; apply H; now right|]. specialize (H (k, inr o) o ltac:(now left) eq_refl). cbn [fst] in H. congruence. }
  apply K. intros kv x I. apply (H kv x). apply in_or_app. now right.
Qed.
