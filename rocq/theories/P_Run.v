(** Proofs about where the server listens and with which settings (C70, C71, C72). *)
From Verif Require Import PyBytes PyBytesFacts PyDictFacts PyInt PyIntFacts PyExn M_App P_App M_Utils S_Utils P_Utils M_Run S_Run.

(** ** Listeners *)
Definition key_of (t : target) : option bytes * option Z := match t with At h n => (h, Some n) | Named s => (Some s, None) end.
Lemma key_inj t u : key_of t = key_of u -> t = u.
Proof. destruct t, u; cbn; congruence. Qed.
Lemma port_key_of p h : port_key p h = key_of (target_of p h).
Proof. now destruct p. Qed.
Definition entry (a : asked) := (key_of (k_target a), k_opts a).
Definition add (ps : ports) (a : asked) : ports :=
  if dmem okeqb (key_of (k_target a)) ps then ps else dset okeqb (key_of (k_target a)) (k_opts a) ps.
Lemma listen_add p h o ps : snd (listen p h o ps) = add ps (mkAsked (target_of p h) o).
Proof. unfold listen, add. cbn [k_target k_opts]. rewrite port_key_of. now destruct (dmem okeqb _ ps). Qed.
Lemma kdset_new k (o : opts) ps : dmem okeqb k ps = false -> dset okeqb k o ps = ps ++ [(k, o)].
Proof.
  unfold dmem. induction ps as [|[k' o'] ps IH]; cbn [dget dset Datatypes.app]; [reflexivity|]. destruct (okeqb k k'); [discriminate|]. intros H. now rewrite IH.
Qed.
Lemma kmem k (ps : ports) : dmem okeqb k ps = true <-> In k (map fst ps).
Proof.
  unfold dmem. induction ps as [|[k' o'] ps IH]; cbn [dget map fst In]; [easy|]. destruct (okeqb_spec k k') as [->|N]; [split; auto|]. rewrite IH. intuition congruence.
Qed.
Lemma adds l : forall ps seen, (forall t, In t seen <-> In (key_of t) (map fst ps)) -> fold_left add l ps = ps ++ map entry (firsts seen l).
Proof.
  induction l as [|a l IH]; intros ps seen H; cbn [fold_left firsts map]; [now rewrite app_nil_r|].
  unfold add at 2. destruct (in_dec target_dec (k_target a) seen) as [I|N].
  - apply H, kmem in I. rewrite I. now apply IH.
  - destruct (dmem okeqb (key_of (k_target a)) ps) eqn:E; [apply kmem, H in E; easy|]. rewrite kdset_new by exact E.
    rewrite (IH _ (k_target a :: seen)); [cbn [map]; now rewrite <- app_assoc|]. intros t. rewrite map_app, in_app_iff. cbn [map fst In].
    rewrite <- H. split; [intros [<-|I]; auto|intros [I|[E'|[]]]; [auto|left; now apply key_inj]].
Qed.
Lemma firsts_app l x : forall seen, exists b, firsts seen (l ++ [x]) = firsts seen l ++ (if b : bool then [x] else []) /\ (b = false <-> In (k_target x) (seen ++ map k_target l)).
Proof.
  induction l as [|a l IH]; intros seen; cbn [Datatypes.app firsts map].
  - rewrite app_nil_r. destruct (in_dec target_dec (k_target x) seen); [exists false|exists true]; cbn; intuition congruence.
  - destruct (in_dec target_dec (k_target a) seen) as [I|N].
    + destruct (IH seen) as (b & E & B). exists b. split; [exact E|]. rewrite B, !in_app_iff. cbn [In]. intuition. left. congruence.
    + destruct (IH (k_target a :: seen)) as (b & E & B). exists b. split; [now rewrite E|]. rewrite B. cbn [Datatypes.app In]. rewrite !in_app_iff. cbn [In]. intuition.
Qed.
(** The first ones are of the list. *)
Lemma firsts_in a l : forall seen, In a (firsts seen l) -> In a l.
Proof.
  induction l as [|b l IH]; intros seen; cbn [firsts]; [easy|]. destruct (in_dec _ _ _); [right; eauto|]. intros [<-|I]; [now left|right; eauto].
Qed.

(** ** Options *)
Lemma dget_merged k b : forall a, NoDup (map fst b) -> dget beqb k (merged a b) = match dget beqb k b with Some v => Some v | None => dget beqb k a end.
Proof.
  induction b as [|[k' v'] b IH]; intros a ND; [reflexivity|]. inversion_clear ND as [|? ? N ND']. unfold merged in *. cbn [fold_left fst snd dget]. rewrite IH by exact ND'.
  rewrite dget_dset. destruct (beqb k k') eqn:E; [|reflexivity]. apply beqb_eq in E as <-. apply dget_none in N. now rewrite N.
Qed.
Lemma upper_capital s : upper s = map capital s.
Proof. reflexivity. Qed.
Definition level_ok (kw : opts) : Prop := forall v, dget beqb (bs "log_level") kw = Some v -> exists s, v = VStr s.
Lemma run_kwargs_main reuse kw : level_ok kw -> NoDup (map fst kw) ->
  exists kw', run_kwargs reuse kw = Ok kw' /\ NoDup (map fst kw') /\ forall k, dget beqb k kw' = run_says reuse kw k.
Proof.
  intros L ND. unfold run_kwargs. set (kw1 := dset beqb (bs "reuse_port") reuse kw).
  assert (dget beqb (bs "log_level") kw1 = dget beqb (bs "log_level") kw) as G1 by (unfold kw1; now rewrite dget_dset_other by discriminate).
  assert (exists s, getd kw1 "log_level" (VStr (bs "DEBUG")) = VStr s /\
    match dget beqb (bs "log_level") kw with Some (VStr s) => Some (VStr (map capital s)) | _ => Some (VStr (bs "DEBUG")) end = Some (VStr (upper s))) as (s & -> & G2).
  { unfold getd. rewrite G1. destruct (dget beqb (bs "log_level") kw) as [v|] eqn:E; [|exists (bs "DEBUG"); split; reflexivity].
    destruct (L v E) as (s & ->). exists s. split; reflexivity. }
  set (kw2 := dset beqb (bs "log_level") (VStr (upper s)) kw1).
  assert (dget beqb (bs "app") kw2 = dget beqb (bs "app") kw) as G3 by (unfold kw2, kw1; now rewrite !dget_dset_other by discriminate).
  assert (NoDup (map fst kw2)) as ND2 by (unfold kw2, kw1; now do 2 apply dset_nodup).
  assert (forall k, k <> bs "app" -> dget beqb k kw2 = run_says reuse kw k) as G.
  { intros k Nk. unfold run_says. apply beqb_neq in Nk. rewrite Nk. unfold kw2, kw1. rewrite !dget_dset.
    destruct (beqb k (bs "log_level")) eqn:E; [apply beqb_eq in E as ->; now rewrite G2|reflexivity]. }
  unfold getd. rewrite G3. unfold run_says in *.
  assert (forall v, (forall c s, v <> Some (VStr (c :: s))) -> dget beqb (bs "app") kw = v -> NoDup (map fst (dset beqb (bs "app") VNone kw2)) /\
    forall k, dget beqb k (dset beqb (bs "app") VNone kw2) = run_says reuse kw k) as K.
  { intros v Nv Ev. split; [now apply dset_nodup|]. intros k. rewrite dget_dset. unfold run_says. destruct (beqb k (bs "app")) eqn:E.
    - apply beqb_eq in E as ->. rewrite Ev. destruct v as [[| | |[|c t]|]|]; try reflexivity. now destruct (Nv c t).
    - apply beqb_neq in E. rewrite (G k E). unfold run_says. apply beqb_neq in E. now rewrite E. }
  destruct (dget beqb (bs "app") kw) as [[| | |[|c t]|]|] eqn:Ea; try (eexists; split; [reflexivity|]; eapply K; [|reflexivity]; congruence).
  exists kw2. split; [reflexivity|]. split; [exact ND2|]. intros k. destruct (beqb k (bs "app")) eqn:E.
  - apply beqb_eq in E as ->. now rewrite G3, Ea.
  - apply beqb_neq in E. rewrite (G k E). apply beqb_neq in E. now rewrite E.
Qed.

(** ** The plans *)
Definition workers_ok (o : opts) : Prop := forall v, dget beqb (bs "worker_num") o = Some v -> exists n, v = VInt n.
Definition workers_of (reuse : val) (kw : opts) (a : asked) (workers : Z) : Z :=
  match option_of reuse kw a (bs "worker_num") with Some (VInt n) => n | _ => workers end.
Definition planned (reuse : val) (kw : opts) (host : bytes) (port : Z) (workers : Z) (a : asked) (p : plan) : Prop :=
  (n_host p, n_port p) = address host port (k_target a) /\ (forall k, dget beqb k (n_opts p) = option_of reuse kw a k) /\
  n_workers p = workers_of reuse kw a workers.
Lemma plans_main reuse kw kw' host port workers l : (forall k, dget beqb k kw' = run_says reuse kw k) -> workers_ok kw ->
  Forall (fun a => NoDup (map fst (k_opts a)) /\ workers_ok (k_opts a)) l ->
  exists ps, plans host (PInt port) workers kw' (map entry l) = Ok ps /\ Forall2 (planned reuse kw host port workers) l ps.
Proof.
  intros G W. induction 1 as [|a l [ND Wa] F IH]; cbn [map plans]; [exists []; split; [reflexivity|constructor]|].
  destruct IH as (ps & E & R). unfold entry at 1.
  assert (forall k, dget beqb k (merged kw' (k_opts a)) = option_of reuse kw a k) as M by (intros k; rewrite dget_merged by exact ND; unfold option_of; now rewrite G).
  assert (exists w, getd (merged kw' (k_opts a)) "worker_num" (VInt workers) = VInt w /\ w = workers_of reuse kw a workers) as (w & Ew & Hw).
  { unfold getd, workers_of. rewrite M. unfold option_of. destruct (dget beqb (bs "worker_num") (k_opts a)) as [v|] eqn:D; [destruct (Wa v D) as (n & ->); eauto|].
    assert (run_says reuse kw (bs "worker_num") = dget beqb (bs "worker_num") kw) as -> by reflexivity.
    destruct (dget beqb (bs "worker_num") kw) as [v|] eqn:D2; [destruct (W v D2) as (n & ->); eauto|eauto]. }
  destruct (key_of (k_target a)) as [h p] eqn:Ek.
  assert (exists n, match p with Some n => Ok n | None => Ok port end = Ok n /\ (match h with Some h => h | None => host end, n) = address host port (k_target a)) as (n & En & Ea).
  { destruct (k_target a) as [[h'|] n'|s]; cbn in Ek; injection Ek as <- <-; eexists; split; reflexivity. }
  assert (match p with Some n => Ok n | None => match PInt port with PInt n => Ok n | PPath _ => Raise TypeError end end = Ok n) as -> by exact En.
  cbn [bind]. rewrite Ew. cbn [bind]. rewrite E. cbn [bind]. eexists. split; [reflexivity|]. constructor; [|exact R].
  split; [exact Ea|]. split; [exact M|exact Hw].
Qed.

(** run, after the listeners of [calls]. *)
Definition own (host : option bytes) (port : Z) : list asked := match host with Some h => [mkAsked (At (Some h) port) []] | None => [] end.
Definition host_of (host : option bytes) : bytes := match host with Some h => h | None => bs "localhost" end.
Lemma run_main_lemma cpus host port reuse workers kw calls :
  level_ok kw -> NoDup (map fst kw) -> workers_ok kw -> Forall (fun a => NoDup (map fst (k_opts a)) /\ workers_ok (k_opts a)) calls ->
  (host <> None \/ calls <> []) -> (1 <= workers)%Z ->
  exists ps, run cpus host (PInt port) reuse workers kw (fold_left add calls []) = Ok ps /\
    Forall2 (planned reuse kw (host_of host) port (Z.min workers cpus)) (firsts [] (calls ++ own host port)) ps.
Proof.
  intros L ND W F Ex Wn. destruct (run_kwargs_main reuse kw L ND) as (kw' & Ek & NDk & Gk). unfold run. rewrite Ek. cbn [bind].
  rewrite (adds calls [] []) by (intros t; split; intros []). cbn [Datatypes.app].
  assert (Forall (fun a => NoDup (map fst (k_opts a)) /\ workers_ok (k_opts a)) (firsts [] calls)) as F1.
  { rewrite Forall_forall in *. intros a I. apply F. eapply firsts_in, I. }
  assert ((workers <? 1)%Z = false) as Lt by lia. destruct host as [h|].
  - cbn [bind fst snd host_of own]. rewrite Lt. rewrite listen_add. unfold add. cbn [k_target k_opts target_of].
    destruct (firsts_app calls (mkAsked (At (Some h) port) []) []) as (b & -> & B). cbn [Datatypes.app k_target] in B.
    destruct (dmem okeqb (key_of (At (Some h) port)) (map entry (firsts [] calls))) eqn:Dm.
    + assert (b = false) as ->.
      { apply B. apply kmem in Dm. rewrite map_map in Dm. cbn [entry fst] in Dm. apply in_map_iff in Dm as (a & E & I). apply key_inj in E. rewrite <- E. apply in_map. eapply firsts_in, I. }
      rewrite app_nil_r. now apply plans_main.
    + assert (b = true) as ->.
      { destruct b; [reflexivity|]. assert (false = false) as R by reflexivity. apply B in R. exfalso.
        assert (forall l seen t, In t (map k_target l) -> In t seen \/ In t (map k_target (firsts seen l))) as K.
        { clear. induction l as [|a l IH]; intros seen t; cbn [map In firsts]; [easy|]. destruct (in_dec _ _ _) as [I|N].
          - intros [<-|J]; [now left|auto].
          - intros [<-|J]; [right; now left|]. destruct (IH (k_target a :: seen) t J) as [[<-|Q]|Q]; [right; now left|now left|right; now right]. }
        destruct (K _ [] _ R) as [[]|I]. apply in_map_iff in I as (a & E & I).
        assert (dmem okeqb (key_of (At (Some h) port)) (map entry (firsts [] calls)) = true) as D2; [|congruence].
        apply kmem. rewrite map_map. apply in_map_iff. exists a. split; [cbn [entry fst]; now rewrite E|exact I]. }
      rewrite kdset_new by exact Dm. change [(key_of (At (Some h) port), kw')] with (map entry [mkAsked (At (Some h) port) kw']). rewrite <- map_app.
      destruct (plans_main reuse kw kw' h port (Z.min workers cpus) (firsts [] calls ++ [mkAsked (At (Some h) port) kw']) Gk W) as (ps & E & R).
      { apply Forall_app. split; [exact F1|]. constructor; [|constructor]. cbn [k_opts]. split; [exact NDk|]. intros v. rewrite Gk.
        assert (run_says reuse kw (bs "worker_num") = dget beqb (bs "worker_num") kw) as -> by reflexivity. apply W. }
      exists ps. split; [exact E|]. apply Forall2_app_inv_l in R as (p1 & p2 & R1 & R2 & ->). apply Forall2_app; [exact R1|].
      inversion_clear R2 as [|? p ? ? R3 R4]. inversion_clear R4. constructor; [|constructor].
      assert (forall k, option_of reuse kw (mkAsked (At (Some h) port) kw') k = option_of reuse kw (mkAsked (At (Some h) port) []) k) as O.
      { intros k. unfold option_of. cbn [k_opts dget]. rewrite Gk. now destruct (run_says reuse kw k). }
      destruct R3 as (Q1 & Q2 & Q3). split; [exact Q1|]. split; [intros k; now rewrite Q2|]. rewrite Q3. unfold workers_of. now rewrite O.
  - cbn [own]. rewrite app_nil_r. destruct Ex as [Ex|Ex]; [easy|]. destruct calls as [|a calls]; [easy|].
    assert (exists x y, map entry (firsts [] (a :: calls)) = x :: y) as (x & y & Exy) by (cbn [firsts in_dec]; destruct (in_dec target_dec (k_target a) []) as [[]|]; eexists; eexists; reflexivity).
    rewrite Exy. cbn [bind fst snd]. rewrite Lt. rewrite <- Exy. now apply plans_main.
Qed.

(** ** --bind *)
Lemma no_backslash s : ~ In "\"%char s -> find (":"%char :: ["\"%char]) s = None.
Proof.
  intros N. destruct (find (":"%char :: ["\"%char]) s) as [i|] eqn:E; [|reflexivity]. exfalso. apply N. pose proof (find_split _ _ _ E) as S1.
  rewrite S1. apply in_or_app. right. right. now left.
Qed.
Lemma rsplit1_last c a b : ~ In c b -> rsplit1 c (a ++ c :: b) = (a, b).
Proof.
  intros N. unfold rsplit1. rewrite rev_app_distr. cbn [rev]. rewrite <- !app_assoc. cbn [Datatypes.app].
  rewrite find1_app by (rewrite <- in_rev; exact N). rewrite rev_length. f_equal.
  - change (S (List.length b)) with (1 + List.length b). rewrite Nat.add_comm. rewrite <- (rev_length b). rewrite <- (rev_involutive a) at 2. f_equal.
    replace (List.length (rev b) + 1) with (List.length (rev b ++ [c])) by (rewrite app_length; reflexivity).
    change (c :: rev a) with ([c] ++ rev a). rewrite app_assoc. rewrite skipn_app, Nat.sub_diag, skipn_all. reflexivity.
  - rewrite <- (rev_involutive b) at 3. f_equal. rewrite <- (rev_length b). rewrite firstn_app, Nat.sub_diag, firstn_all, firstn_O. now rewrite app_nil_r.
Qed.
Lemma memb_mid c a b : memb c (a ++ c :: b) = true.
Proof. apply memb_In. apply in_or_app. right. now left. Qed.
Lemma strip_none chars l : (forall c, In c l -> ~ In c chars) -> strip chars l = l.
Proof.
  intros H. apply strip_by_id. rewrite Forall_forall. intros c I. destruct (memb c chars) eqn:E; [|reflexivity]. apply memb_In in E. now destruct (H c I).
Qed.
Lemma strip_brackets h : h <> [] -> (forall c, In c h -> ~ In c ["["; "]"]%char) -> strip (bs "[]") (bs "[" ++ h ++ bs "]") = h.
Proof.
  intros Ne H. unfold strip, strip_by, rstrip_by. change (bs "[" ++ h ++ bs "]") with ("["%char :: h ++ ["]"%char]). cbn [lstrip_by].
  replace (memb "["%char (bs "[]")) with true by reflexivity.
  assert (forall c, In c h -> memb c (bs "[]") = false) as M.
  { intros c I. destruct (memb c (bs "[]")) eqn:E; [|reflexivity]. apply memb_In in E. now destruct (H c I). }
  cbn iota. rewrite (lstrip_by_id _ (h ++ _)).
  - rewrite rev_app_distr. cbn [rev Datatypes.app lstrip_by]. replace (memb "]"%char (bs "[]")) with true by reflexivity. cbn iota.
    rewrite lstrip_by_id; [apply rev_involutive|]. destruct (rev h) as [|c r] eqn:E; [reflexivity|]. rewrite (M c); [reflexivity|].
    apply in_rev. rewrite E. now left.
  - destruct h as [|c h]; [easy|]. cbn [Datatypes.app]. rewrite (M c); [reflexivity|now left].
Qed.
Definition bare (t : target) : asked := mkAsked t [].
Lemma bind_one_part s t ps : part s t -> bind_one s ps = Some (add ps (bare t)).
Proof.
  intros P. unfold bind_one.
  assert (forall h t n, ~ In "\"%char h -> number t n -> strip (bs "[]") h = h \/ True ->
     bind_one (h ++ ":"%char :: t) ps = Some (add ps (bare (At (match strip (bs "[]") h with [] => None | x => Some x end) n)))) as K.
  { clear. intros h t n Nh (Pn & Nc & Nb) _. unfold bind_one. rewrite no_backslash.
    2: { rewrite in_app_iff. cbn [In]. intros [I|[I|I]]; [easy|discriminate I|easy]. }
    rewrite memb_mid. cbn [andb]. rewrite rsplit1_last by exact Nc. rewrite Pn. rewrite listen_add. cbn [target_of]. now destruct (strip (bs "[]") h). }
  destruct P as [h t n Ne H Nm|h t n Ne H Nm|t n Nm|s N].
  - fold (bind_one (h ++ bs ":" ++ t) ps). change (bs ":" ++ t) with (":"%char :: t). rewrite (K h t n); [|intros I; apply (H _ I); cbn; auto|exact Nm|auto].
    rewrite strip_none. 2: { intros c I J. apply (H c I). cbn in J |- *. intuition. } now destruct h.
  - fold (bind_one (bs "[" ++ h ++ bs "]:" ++ t) ps).
    replace (bs "[" ++ h ++ bs "]:" ++ t) with ((bs "[" ++ h ++ bs "]") ++ ":"%char :: t) by (rewrite <- !app_assoc; reflexivity).
    rewrite (K _ t n).
    + rewrite strip_brackets; [now destruct h|exact Ne|]. intros c I J. apply (H c I). cbn in J |- *. intuition.
    + rewrite !in_app_iff. intros [I|[I|I]]; [cbn in I; intuition discriminate|apply (H _ I); cbn; auto|cbn in I; intuition discriminate].
    + exact Nm.
    + auto.
  - fold (bind_one (bs ":" ++ t) ps). change (bs ":" ++ t) with ([] ++ ":"%char :: t). rewrite (K [] t n); [reflexivity|easy|exact Nm|auto].
  - destruct (find _ s); cbn [andb]; [rewrite listen_add; reflexivity|]. destruct (memb ":"%char s) eqn:E; [apply memb_In in E; easy|]. now rewrite listen_add.
Qed.
Lemma bind_all_parts l : forall ps, (forall s t, In (s, t) l -> part s t) -> bind_all (map fst l) ps = Some (fold_left add (map bare (map snd l)) ps).
Proof.
  induction l as [|[s t] l IH]; intros ps H; cbn [map bind_all fst snd fold_left]; [reflexivity|]. rewrite (bind_one_part s t) by (apply H; now left). apply IH. intros s' t' I. apply H. now right.
Qed.
Lemma bind_value_main l ps : item_ok (Bind l) -> bind_value (join (bs ",") (map fst l)) ps = Some (fold_left add (map bare (map snd l)) ps).
Proof.
  intros (Ne & H & _). unfold bind_value. change (bs ",") with [","%char]. rewrite split_join.
  - apply bind_all_parts. intros s t I. now apply H.
  - rewrite Forall_forall. intros s I. apply in_map_iff in I as ((s' & t) & <- & I). now apply (H s' t).
  - now destruct l.
Qed.

(** ** The command line *)
Definition result_item (o : popts) (i : item) : popts :=
  match i with Set_ x => result o x | Bind _ => mkOpts (ddel beqb (bs "host") (o_opts o)) (o_ssl o) end.
Lemma bind_step v o : arg_step main_cb (bs "--bind") v o = match bind_value v [] with Some _ => Some (mkOpts (ddel beqb (bs "host") (o_opts o)) (o_ssl o)) | None => None end.
Proof. reflexivity. Qed.
Lemma items_loop l : Forall item_ok l -> forall prev next o o', (forall v, arg_step main_cb prev v o = Some o') ->
    args_loop main_cb prev (flat_map item_words l ++ [next]) o = Some (fold_left result_item l o').
Proof.
  induction 1 as [|i l X F IH]; intros prev next o o' P; cbn [flat_map Datatypes.app fold_left].
  - cbn [args_loop]. now rewrite P.
  - destruct i as [x|parts].
    + destruct x as [|op k|op k v|op k t n|p|p]; cbn [item_words words Datatypes.app args_loop result_item result setting_ok item_ok] in *.
      * rewrite P. apply IH. reflexivity.
      * rewrite P. apply IH. intros v. now apply flag_step.
      * rewrite P. destruct X as [X N]. rewrite (text_step main_cb op k v o' X). apply IH. intros w. now apply no_dash_step.
      * rewrite P. destruct X as (X & N & Y). rewrite (number_step main_cb op k t n o' X Y). apply IH. intros w. now apply no_dash_step.
      * rewrite P. change (arg_step main_cb (bs "--ssl-cert") p o') with (Some (sset (bs "cert") p o')). apply IH. intros w. now apply no_dash_step.
      * rewrite P. change (arg_step main_cb (bs "--ssl-key") p o') with (Some (sset (bs "key") p o')). apply IH. intros w. now apply no_dash_step.
    + cbn [item_words Datatypes.app args_loop result_item]. rewrite P. rewrite bind_step, (bind_value_main parts [] X). apply IH. intros w. apply no_dash_step.
      now destruct X as (_ & _ & X).
Qed.
Lemma parse_main prog l app : no_dash prog -> no_dash app -> Forall item_ok l ->
  parse_args main_cb (prog :: flat_map item_words l ++ [app]) = Some (fold_left result_item l defaults).
Proof.
  intros P A F. unfold parse_args. assert (last (prog :: flat_map item_words l ++ [app]) [] = app) as -> by (rewrite app_comm_cons; apply last_last).
  cbn [args_loop]. rewrite no_dash_step by exact A. apply items_loop; [exact F|]. intros v. now apply no_dash_step.
Qed.
(** Words that are no --bind leave the listeners alone. *)
Definition quiet (a : bytes) : Prop := startswith (bs "-") a && beqb (opt_name a) (bs "bind") = false.
Lemma no_dash_quiet a : no_dash a -> quiet a.
Proof. intros N. unfold quiet. destruct a as [|c a]; [reflexivity|]. cbn [no_dash bs list_ascii_of_string startswith] in *. apply not_eq_sym, Ascii.eqb_neq in N. now rewrite N. Qed.
Lemma option_quiet o k : In (o, k) flags \/ In (o, k) textual \/ In (o, k) numeric -> quiet o.
Proof.
  intros [I|[I|I]]; cbn in I; repeat (destruct I as [I|I]; [injection I as <- <-; vm_compute; reflexivity|]); destruct I.
Qed.
Lemma ports_loop l : Forall item_ok l -> forall prev next ps, quiet prev ->
  args_ports prev (flat_map item_words l ++ [next]) ps = Some (fold_left add (map bare (bound_targets l)) ps).
Proof.
  induction 1 as [|i l X F IH]; intros prev next ps Q; cbn [flat_map Datatypes.app bound_targets map fold_left].
  - cbn [args_ports]. now rewrite Q.
  - destruct i as [x|parts]; cbn [item_ok] in X.
    + change (flat_map (fun i => match i with Set_ _ => [] | Bind l0 => map snd l0 end) l) with (bound_targets l). cbn [Datatypes.app].
      destruct x as [|op k|op k v|op k t n|p|p]; cbn [item_words words Datatypes.app args_ports setting_ok] in *; rewrite Q.
      * apply IH. reflexivity.
      * apply IH. eapply option_quiet; eauto.
      * destruct X as [X N]. rewrite (option_quiet op k) by auto. apply IH. now apply no_dash_quiet.
      * destruct X as (X & N & Y). rewrite (option_quiet op k) by auto. apply IH. now apply no_dash_quiet.
      * change (startswith (bs "-") (bs "--ssl-cert") && beqb (opt_name (bs "--ssl-cert")) (bs "bind")) with false. apply IH. now apply no_dash_quiet.
      * change (startswith (bs "-") (bs "--ssl-key") && beqb (opt_name (bs "--ssl-key")) (bs "bind")) with false. apply IH. now apply no_dash_quiet.
    + cbn [item_words Datatypes.app args_ports]. rewrite Q. change (startswith (bs "-") (bs "--bind") && beqb (opt_name (bs "--bind")) (bs "bind")) with true. cbn iota.
      rewrite (bind_value_main parts ps X). rewrite map_app, fold_left_app. apply IH. apply no_dash_quiet. now destruct X as (_ & _ & X).
Qed.
Lemma ports_main prog l app : no_dash prog -> no_dash app -> Forall item_ok l ->
  args_ports app (prog :: flat_map item_words l ++ [app]) [] = Some (fold_left add (map bare (bound_targets l)) []).
Proof.
  intros P A F. cbn [args_ports]. rewrite (no_dash_quiet app A). apply ports_loop; [exact F|now apply no_dash_quiet].
Qed.

(** The options. *)
Lemma dget_ddel {V} k k' (d : list (bytes * V)) : NoDup (map fst d) -> dget beqb k (ddel beqb k' d) = if beqb k k' then None else dget beqb k d.
Proof.
  induction d as [|[k2 v2] d IH]; intros ND; cbn [ddel dget]; [now destruct (beqb k k')|]. inversion_clear ND as [|? ? N ND'].
  destruct (beqb k' k2) eqn:E; cbn [dget].
  - apply beqb_eq in E as <-. destruct (beqb k k') eqn:E2; [|reflexivity]. apply beqb_eq in E2 as ->. now apply dget_none.
  - rewrite IH by exact ND'. destruct (beqb k k2) eqn:E2; [|reflexivity]. apply beqb_eq in E2 as ->. destruct (beqb k2 k') eqn:E3; [|reflexivity]. apply beqb_eq in E3 as ->. now rewrite beqb_refl in E.
Qed.
Lemma result_nodup o i : NoDup (map fst (o_opts o)) -> NoDup (map fst (o_opts (result_item o i))).
Proof. intros H. destruct i as [[| | | | |]|]; cbn [result_item result oset sset o_opts]; try exact H; try now apply dset_nodup. now apply ddel_nodup. Qed.
Lemma results l : forall o, NoDup (map fst (o_opts o)) ->
  NoDup (map fst (o_opts (fold_left result_item l o))) /\
  (forall k, dget beqb k (o_opts (fold_left result_item l o)) = fold_left (fun acc i => match i with
                          | Set_ x => match says k x with Some v => Some v | None => acc end
                          | Bind _ => if beqb k (bs "host") then None else acc
                          end) l (dget beqb k (o_opts o))) /\
  (forall k, dget beqb k (o_ssl (fold_left result_item l o)) =
     fold_left (fun acc i => match i with Set_ x => match says_ssl k x with Some v => Some v | None => acc end | Bind _ => acc end) l (dget beqb k (o_ssl o))).
Proof.
  induction l as [|i l IH]; intros o ND; cbn [fold_left]; [auto|]. destruct (IH (result_item o i) (result_nodup o i ND)) as (A & B & C).
  split; [exact A|]. split; intros k.
  - rewrite B. f_equal. destruct i as [[| | | | |]|]; cbn [result_item result says oset sset o_opts]; try reflexivity; try (rewrite dget_dset; now destruct (beqb k _)).
    now apply dget_ddel.
  - rewrite C. f_equal. destruct i as [[| | | | |]|]; cbn [result_item result says_ssl oset sset o_ssl]; try reflexivity; rewrite dget_dset; now destruct (beqb k _).
Qed.
Lemma results_main l : NoDup (map fst (o_opts (fold_left result_item l defaults))) /\
  (forall k, dget beqb k (o_opts (fold_left result_item l defaults)) = given l k) /\ (forall k, dget beqb k (o_ssl (fold_left result_item l defaults)) = given_ssl l k).
Proof.
  destruct (results l defaults) as (A & B & C). { cbn. repeat constructor; cbn; intuition discriminate. }
  split; [exact A|]. split; [|exact C]. intros k. rewrite B. unfold given. f_equal.
Qed.
Lemma value_of_oval v : of_oval v = value_of v.
Proof. now destruct v. Qed.
Lemma dget_map_app (o : popts) k rest : dget beqb k (map (fun kv => (fst kv, of_oval (snd kv))) (o_opts o) ++ rest) =
  match dget beqb k (o_opts o) with Some v => Some (value_of v) | None => dget beqb k rest end.
Proof.
  induction (o_opts o) as [|[k' v'] d IH]; cbn [map Datatypes.app dget fst snd]; [reflexivity|]. destruct (beqb k k'); [now rewrite value_of_oval|exact IH].
Qed.
Definition main_says (l : list item) (ssl : list (bytes * bytes)) (app : bytes) (k : bytes) : option val :=
  if beqb k (bs "app") then Some (VStr app)
  else match given l k with Some v => Some (value_of v) | None => if beqb k (bs "ssl") then Some (VDict ssl) else None end.
Lemma dget_main_opts l app k : dget beqb k (main_opts (fold_left result_item l defaults) app) = main_says l (o_ssl (fold_left result_item l defaults)) app k.
Proof.
  unfold main_opts, main_says. rewrite dget_dset. destruct (beqb k (bs "app")); [reflexivity|]. rewrite dget_map_app.
  destruct (results_main l) as (_ & B & _). rewrite B. cbn [dget]. reflexivity.
Qed.
(** The kinds of values. *)
Lemma says_kind k x v : setting_ok x -> says k x = Some v ->
  match v with OBool _ => In k [bs "ws"; bs "debug"; bs "reload"] | OStr _ => In k (map snd textual) | OInt _ => In k (map snd numeric) end.
Proof.
  intros X S1. destruct x as [|op k'|op k' t|op k' t n|p|p]; cbn [says setting_ok] in *; try discriminate;
    match type of S1 with (if beqb k ?k' then _ else _) = _ => destruct (beqb k k') eqn:E; [|discriminate]; apply beqb_eq in E as ->; injection S1 as <- end.
  - now left.
  - right. apply (in_map snd) in X. exact X.
  - destruct X as [X _]. apply (in_map snd) in X. exact X.
  - destruct X as [X _]. apply (in_map snd) in X. exact X.
Qed.
Lemma given_kind l k v : Forall item_ok l -> given l k = Some v ->
  match v with OBool _ => In k [bs "ws"; bs "debug"; bs "reload"] | OStr _ => In k (map snd textual) | OInt _ => In k (map snd numeric) end.
Proof.
  intros F. unfold given.
  assert (forall acc, (acc = Some v -> match v with OBool _ => In k [bs "ws"; bs "debug"; bs "reload"] | OStr _ => In k (map snd textual) | OInt _ => In k (map snd numeric) end) ->
    fold_left (fun acc i => match i with Set_ x => match says k x with Some v => Some v | None => acc end | Bind _ => if beqb k (bs "host") then None else acc end) l acc = Some v ->
    match v with OBool _ => In k [bs "ws"; bs "debug"; bs "reload"] | OStr _ => In k (map snd textual) | OInt _ => In k (map snd numeric) end) as G.
  { induction F as [|i l X F IH]; intros acc A; cbn [fold_left]; [exact A|]. apply IH. destruct i as [x|].
    - destruct (says k x) as [w|] eqn:E; [|exact A]. intros [= ->]. exact (says_kind k x v X E).
    - destruct (beqb k (bs "host")); [discriminate|exact A]. }
  apply G. unfold default_option. destruct (beqb k (bs "host")) eqn:E; [apply beqb_eq in E as ->; intros [= <-]; now left|].
  destruct (beqb k (bs "port")) eqn:E2; [apply beqb_eq in E2 as ->; intros [= <-]; now left|discriminate].
Qed.
Ltac not_in I := cbn [map snd textual numeric In] in I; repeat (destruct I as [I|I]; [discriminate I|]); destruct I.
Lemma given_port l : Forall item_ok l -> exists n, given l (bs "port") = Some (OInt n).
Proof.
  intros F. assert (exists v, given l (bs "port") = Some v) as (v & E).
  { unfold given. assert (exists v, default_option (bs "port") = Some v) as A by (eexists; reflexivity). revert A. generalize (default_option (bs "port")). clear F.
    induction l as [|i l IH]; intros acc A; cbn [fold_left]; [exact A|]. apply IH. destruct i as [x|]; [|exact A]. destruct (says (bs "port") x); [eauto|exact A]. }
  pose proof (given_kind l _ _ F E) as K. destruct v as [b|n|s]; [not_in K|eauto|not_in K].
Qed.
Lemma given_num l k v : Forall item_ok l -> k = bs "worker_num" -> given l k = Some v -> exists n, v = OInt n.
Proof. intros F -> E. pose proof (given_kind l _ _ F E) as K. destruct v as [b|n|s]; [not_in K|eauto|not_in K]. Qed.
Lemma given_text l k v : Forall item_ok l -> In k [bs "host"; bs "log_level"; bs "server_name"; bs "loop"] -> given l k = Some v -> exists s, v = OStr s.
Proof.
  intros F I E. pose proof (given_kind l _ _ F E) as K. repeat (destruct I as [<-|I]; [destruct v as [b|n|s]; [not_in K|not_in K|eauto]|]). destruct I.
Qed.
Lemma given_not l k : Forall item_ok l -> ~ In k [bs "ws"; bs "debug"; bs "reload"] -> ~ In k (map snd textual) -> ~ In k (map snd numeric) -> given l k = None.
Proof. intros F A B C. destruct (given l k) as [v|] eqn:E; [|reflexivity]. pose proof (given_kind l k v F E). destruct v; easy. Qed.
Lemma given_absent l k : Forall item_ok l -> In k [bs "ssl"; bs "app"; bs "reuse_port"] -> given l k = None.
Proof. intros F I. apply given_not; [exact F| | |]; intros J; repeat (destruct I as [<-|I]; [not_in J|]); destruct I. Qed.

Lemma dget_filter {V} (f : bytes -> bool) k (d : list (bytes * V)) : dget beqb k (filter (fun kv => f (fst kv)) d) = if f k then dget beqb k d else None.
Proof.
  induction d as [|[k' v'] d IH]; cbn [filter fst]; [now destruct (f k)|]. destruct (f k') eqn:E; cbn [dget]; rewrite IH; destruct (beqb k k') eqn:B; try reflexivity.
  - apply beqb_eq in B as ->. now rewrite E.
  - apply beqb_eq in B as ->. now rewrite E.
Qed.
Lemma filter_nodup {V} (f : bytes * V -> bool) d : NoDup (map fst d) -> NoDup (map fst (filter f d)).
Proof.
  induction d as [|x d IH]; intros ND; cbn [filter map]; [constructor|]. inversion_clear ND as [|? ? N ND']. destruct (f x); [|auto]. cbn [map]. constructor; [|auto].
  intros I. apply N. apply in_map_iff in I as (y & <- & I). apply filter_In in I as [I _]. now apply in_map.
Qed.
Lemma main_opts_nodup l app : Forall item_ok l -> NoDup (map fst (main_opts (fold_left result_item l defaults) app)).
Proof.
  intros F. unfold main_opts. apply dset_nodup. destruct (results_main l) as (A & B & _). rewrite map_app, map_map. cbn [map fst]. apply NoDup_snoc; [exact A|].
  apply dget_none. rewrite B. apply given_absent; [exact F|now left].
Qed.
Lemma Forall2_strengthen {A B} (P : A -> Prop) (R R' : A -> B -> Prop) l ps : Forall P l -> Forall2 R l ps -> (forall a p, P a -> R a p -> R' a p) -> Forall2 R' l ps.
Proof. intros F G H. induction G as [|a p l ps Q G IH]; constructor; inversion_clear F; auto. Qed.
Definition reserved (k : bytes) : bool := existsb (beqb k) [bs "host"; bs "port"; bs "reuse_port"; bs "worker_num"].
Definition given_workers (l : list item) : Z := match given l (bs "worker_num") with Some (OInt n) => n | _ => 1%Z end.
Definition given_host (l : list item) : option bytes := match given l (bs "host") with Some (OStr h) => Some h | _ => None end.
Definition given_portn (l : list item) : Z := match given l (bs "port") with Some (OInt n) => n | _ => 0%Z end.
Lemma bound_or_host l : given_host l <> None \/ bound_targets l <> [] \/ exists i, In i l /\ ~ item_ok i.
Proof.
  assert (forall acc, (exists h, acc = Some (OStr h)) \/ bound_targets l <> [] -> (exists i, In i l /\ ~ item_ok i) \/ bound_targets l <> [] \/
    exists h, fold_left (fun acc i => match i with Set_ x => match says (bs "host") x with Some v => Some v | None => acc end | Bind _ => if beqb (bs "host") (bs "host") then None else acc end) l acc = Some (OStr h)) as G.
  { induction l as [|i l IH]; intros acc [A|A]; cbn [fold_left]; try (right; left; exact A).
    - right; right; exact A.
    - destruct i as [x|parts].
      + destruct (says (bs "host") x) as [v|] eqn:E.
        * destruct v as [b|n|s].
          -- left. exists (Set_ x). split; [now left|]. intros X. pose proof (says_kind _ _ _ X E) as K. not_in K.
          -- left. exists (Set_ x). split; [now left|]. intros X. pose proof (says_kind _ _ _ X E) as K. not_in K.
          -- destruct (IH (Some (OStr s))) as [(i & I & N)|[B|B]]; [left; eauto|left; exists i; split; [now right|exact N]|right; left; exact B|right; right; exact B].
        * destruct (IH acc) as [(i & I & N)|[B|B]]; [left; exact A|left; exists i; split; [now right|exact N]|right; left; exact B|right; right; exact B].
      + destruct parts as [|pt parts]; [left; exists (Bind []); split; [now left|intros (X & _); easy]|]. right; left. cbn [bound_targets flat_map map Datatypes.app]. discriminate. }
  destruct (G (default_option (bs "host"))) as [B|[B|(h & B)]]; [left; eexists; reflexivity|right; right; exact B|right; left; exact B|left].
  unfold given_host, given. rewrite B. discriminate.
Qed.
Lemma main_lemma cpus prog l app : no_dash prog -> no_dash app -> app <> prog -> app <> [] -> Forall item_ok l -> (1 <= given_workers l)%Z ->
  exists ps ssl, main cpus (prog :: flat_map item_words l ++ [app]) = Some (Ok ps) /\
    (forall k, dget beqb k ssl = given_ssl l k) /\
    Forall2 (fun a p => (n_host p, n_port p) = address (host_of (given_host l)) (given_portn l) (k_target a) /\ n_workers p = Z.min (given_workers l) cpus /\
      forall k, dget beqb k (n_opts p) = if beqb k (bs "log_level") then match given l k with Some (OStr s) => Some (VStr (map capital s)) | _ => Some (VStr (bs "DEBUG")) end
                                         else if beqb k (bs "reuse_port") then Some (VBool true)
                                         else if reserved k then None else main_says l ssl app k)
      (firsts [] (map bare (bound_targets l) ++ own (given_host l) (given_portn l))) ps.
Proof.
  intros P A Np Ne F W. unfold main. assert (last (prog :: flat_map item_words l ++ [app]) [] = app) as -> by (rewrite app_comm_cons; apply last_last).
  rewrite parse_main by assumption. rewrite ports_main by assumption. cbn [hd].
  assert (beqb app prog = false) as -> by (now apply beqb_neq).
  assert (startswith (bs "-") app = false) as ->.
  { destruct app as [|c a]; [reflexivity|]. cbn [no_dash bs list_ascii_of_string startswith] in *. apply not_eq_sym, Ascii.eqb_neq in A. now rewrite A. }
  cbn [negb andb]. set (o := fold_left result_item l defaults). set (mo := main_opts o app).
  assert (forall k, dget beqb k mo = main_says l (o_ssl o) app k) as G by (intros k; apply dget_main_opts).
  unfold run_main, getd. rewrite !G. unfold main_says.
  change (beqb (bs "host") (bs "app")) with false. change (beqb (bs "port") (bs "app")) with false. change (beqb (bs "worker_num") (bs "app")) with false.
  change (beqb (bs "reuse_port") (bs "app")) with false. change (beqb (bs "host") (bs "ssl")) with false. change (beqb (bs "worker_num") (bs "ssl")) with false.
  change (beqb (bs "reuse_port") (bs "ssl")) with false. cbn iota.
  destruct (given_port l F) as (n & Ep). rewrite Ep. rewrite (given_absent l (bs "reuse_port") F) by (right; right; now left).
  set (rest := filter _ mo).
  assert (forall k, dget beqb k rest = if reserved k then None else dget beqb k mo) as Gr.
  { intros k. change rest with (filter (fun kv => negb (reserved (fst kv))) mo). rewrite (dget_filter (fun k => negb (reserved k))). now destruct (reserved k). }
  assert (NoDup (map fst rest)) as NDr by (apply filter_nodup; now apply main_opts_nodup).
  assert (level_ok rest) as Lr.
  { intros v. rewrite Gr, G. change (reserved (bs "log_level")) with false. cbn iota. unfold main_says. change (beqb (bs "log_level") (bs "app")) with false.
    change (beqb (bs "log_level") (bs "ssl")) with false. cbn iota. destruct (given l (bs "log_level")) as [w|] eqn:E; [|discriminate]. intros [= <-].
    destruct (given_text l _ _ F (or_intror (or_introl eq_refl)) E) as (s & ->). now exists s. }
  assert (workers_ok rest) as Wr. { intros v. rewrite Gr. discriminate. }
  assert (exists w, match given l (bs "worker_num") with Some v => Some (value_of v) | None => None end = match w with Some n => Some (VInt n) | None => None end /\
     match w with Some n => n | None => 1%Z end = given_workers l) as (w & Ew & Ew2).
  { unfold given_workers. destruct (given l (bs "worker_num")) as [v|] eqn:E; [|now exists None]. destruct (given_num l _ _ F eq_refl E) as (m & ->). now exists (Some m). }
  rewrite Ew.
  assert (exists h, match given l (bs "host") with Some v => Some (value_of v) | None => None end = match h with Some s => Some (VStr s) | None => None end /\ h = given_host l) as (h & Eh & Eh2).
  { unfold given_host. destruct (given l (bs "host")) as [v|] eqn:E; [|now exists None]. destruct (given_text l _ _ F (or_introl eq_refl) E) as (s & ->). now exists (Some s). }
  rewrite Eh.
  assert (given_portn l = n) as Epn by (unfold given_portn; now rewrite Ep).
  destruct (run_main_lemma cpus h n (VBool true) (given_workers l) rest (map bare (bound_targets l)) Lr NDr Wr) as (ps & E & R).
  { rewrite Forall_forall. intros a I. apply in_map_iff in I as (t & <- & _). split; [constructor|]. intros v. discriminate. }
  { rewrite Eh2. destruct (bound_or_host l) as [B|[B|(i & I & N)]]; [now left|right; now destruct (bound_targets l)|]. rewrite Forall_forall in F. now destruct (N (F i I)). }
  { exact W. }
  exists ps, (o_ssl o). split.
  { rewrite <- Ew2 in E. destruct h as [h|], w as [w|]; cbn [value_of]; exact (f_equal Some E). }
  split; [apply results_main|]. rewrite <- Eh2, Epn.
  refine (Forall2_strengthen (fun a => k_opts a = []) _ _ _ _ _ R _).
  { rewrite Forall_forall. intros a I. apply firsts_in in I. apply in_app_or in I as [I|I]; [apply in_map_iff in I as (t & <- & _); reflexivity|].
    unfold own in I. destruct h; [destruct I as [<-|[]]; reflexivity|destruct I]. }
  intros a p Ea (Q1 & Q2 & Q3). split; [exact Q1|]. assert (forall k, option_of (VBool true) rest a k = run_says (VBool true) rest k) as O by (intros k; unfold option_of; now rewrite Ea).
  split.
  { rewrite Q3. unfold workers_of. rewrite O. unfold run_says. change (beqb (bs "worker_num") (bs "app")) with false. change (beqb (bs "worker_num") (bs "log_level")) with false.
    change (beqb (bs "worker_num") (bs "reuse_port")) with false. cbn iota. rewrite Gr. reflexivity. }
  intros k. rewrite Q2, O. unfold run_says. rewrite Gr, G. destruct (beqb k (bs "app")) eqn:E1.
  { apply beqb_eq in E1 as ->. change (reserved (bs "app")) with false. change (beqb (bs "app") (bs "log_level")) with false. change (beqb (bs "app") (bs "reuse_port")) with false. cbn iota.
    unfold main_says. rewrite beqb_refl. destruct app as [|c r]; [easy|reflexivity]. }
  destruct (beqb k (bs "log_level")) eqn:E2.
  { apply beqb_eq in E2 as ->. change (reserved (bs "log_level")) with false. cbn iota. unfold main_says. rewrite E1. change (beqb (bs "log_level") (bs "ssl")) with false. cbn iota.
    destruct (given l (bs "log_level")) as [[| |]|]; reflexivity. }
  unfold main_says. rewrite E1. destruct (beqb k (bs "reuse_port")); reflexivity.
Qed.

(** ** What a plan of the command line uses *)
Lemma documented_use l ssl app p name use d : In (name, use, d) documented ->
  (forall k, dget beqb k (n_opts p) = if beqb k (bs "log_level") then match given l k with Some (OStr s) => Some (VStr (map capital s)) | _ => Some (VStr (bs "DEBUG")) end
                                         else if beqb k (bs "reuse_port") then Some (VBool true)
                                         else if reserved k then None else main_says l ssl app k) ->
  use p = Some (match given l (bs name) with Some v => value_of v | None => d end).
Proof.
  intros I G.
  assert (forall name d, beqb (bs name) (bs "log_level") = false -> beqb (bs name) (bs "reuse_port") = false -> reserved (bs name) = false -> beqb (bs name) (bs "app") = false ->
    beqb (bs name) (bs "ssl") = false -> getd (n_opts p) name d = match given l (bs name) with Some v => value_of v | None => d end) as K.
  { intros k dv A B C D E. unfold getd. rewrite G, A, B, C. unfold main_says. rewrite D, E. now destruct (given l (bs k)). }
  cbn [documented In] in I.
  repeat (destruct I as [I|I]; [injection I as <- <- <-; unfold of_worker, of_conn, worker_of, conn_params;
     cbn [k_memory k_backlog k_registry]; etransitivity; [|apply f_equal, K; reflexivity]; reflexivity|]).
  destruct I.
Qed.
Lemma level_use o name n : In (name, n) levels -> dget beqb (bs "log_level") o = Some (VStr (bs name)) -> log_level o = Ok n.
Proof.
  intros I G. unfold log_level, getd. rewrite G. cbn [levels In] in I. repeat (destruct I as [I|I]; [injection I as <- <-; reflexivity|]). destruct I.
Qed.

(** ** Sockets *)
Lemma binds_other who : forall n, binds who (File (S n)) = File (S n).
Proof. induction who as [|w who IH]; intros n; [reflexivity|]. exact (IH n). Qed.
Lemma binds_last who w x : (forall n, x <> File (S n)) -> binds (who ++ [w]) x = Sock w.
Proof.
  intros N. unfold binds. rewrite fold_left_app. cbn [fold_left].
  assert (forall who x, (forall n, x <> File (S n)) -> forall n, fold_left (fun y w => snd (bind_unix w y)) who x <> File (S n)) as G.
  { clear. induction who as [|v who IH]; intros x N; [exact N|]. cbn [fold_left]. apply IH. destruct x as [|[|k]|s]; try discriminate. now destruct (N k). }
  specialize (G who x N). destruct (fold_left _ who x) as [|[|k]|s]; try reflexivity. now destruct (G k).
Qed.
Lemma close_keeps sh path x : close_unix sh path x = x.
Proof. destruct sh; reflexivity. Qed.

(** ** The application *)
Lemma count_mid c a b : List.length (filter (Ascii.eqb c) (a ++ c :: b)) = S (List.length (filter (Ascii.eqb c) a) + List.length (filter (Ascii.eqb c) b)).
Proof. rewrite filter_app, app_length. cbn [filter]. rewrite Ascii.eqb_refl. cbn [List.length]. lia. Qed.
Lemma locate_attr abspath path attr : ~ In "\"%char (path ++ attr) -> ~ In ":"%char attr ->
  locate abspath (path ++ ":"%char :: attr) = let '(dir, base) := rsplit1 "/" (abspath path) in (match dir with [] => bs "/" | _ => dir end, splitext base, attr).
Proof.
  intros Nb Nc. unfold locate. rewrite no_backslash.
  2: { rewrite in_app_iff in *. cbn [In]. intros [I|[I|I]]; [auto|discriminate|auto]. }
  rewrite memb_mid. cbn [andb negb orb]. rewrite rsplit1_last by exact Nc. reflexivity.
Qed.
Lemma locate_plain abspath path : ~ In ":"%char path ->
  locate abspath path = let '(dir, base) := rsplit1 "/" (abspath path) in (match dir with [] => bs "/" | _ => dir end, splitext base, bs "app").
Proof.
  intros Nc. unfold locate. assert (memb ":"%char path = false) as ->. { destruct (memb ":"%char path) eqn:E; [apply memb_In in E; easy|reflexivity]. }
  cbn [negb]. rewrite orb_true_r. change (path ++ bs ":app") with (path ++ ":"%char :: bs "app"). rewrite rsplit1_last; [reflexivity|]. cbn. intuition discriminate.
Qed.
Lemma splitext_py m : (exists c, In c m /\ c <> "."%char) -> splitext (m ++ bs ".py") = m.
Proof.
  intros (c & I & N). unfold splitext. change (m ++ bs ".py") with (m ++ "."%char :: bs "py"). rewrite memb_mid. rewrite rsplit1_last by (cbn; intuition discriminate). cbn [fst].
  destruct (forallb (Ascii.eqb ".") m) eqn:E; [|reflexivity]. rewrite forallb_forall in E. apply E, Ascii.eqb_eq in I. now destruct N.
Qed.
Lemma splitext_none m : ~ In "."%char m -> splitext m = m.
Proof. intros N. unfold splitext. destruct (memb "."%char m) eqn:E; [apply memb_In in E; easy|reflexivity]. Qed.
Lemma loop_plain o s : dget beqb (bs "loop") o = Some (VStr s) -> ~ In "."%char s -> loop_of o = Ok (match s with [] => bs "asyncio" | _ => s end, bs "new_event_loop").
Proof.
  intros G N. unfold loop_of, getd. rewrite G. destruct (memb "."%char s) eqn:E; [apply memb_In in E; easy|].
  change (s ++ bs ".") with (s ++ "."%char :: []). rewrite rsplit1_last by easy. now destruct s.
Qed.
Lemma loop_class o m c : dget beqb (bs "loop") o = Some (VStr (m ++ bs "." ++ c)) -> ~ In "."%char c -> loop_of o = Ok (match m with [] => bs "asyncio" | _ => m end, match c with [] => bs "new_event_loop" | _ => c end).
Proof.
  intros G N. unfold loop_of, getd. rewrite G. change (bs "." ++ c) with ("."%char :: c). rewrite memb_mid. rewrite rsplit1_last by exact N.
  reflexivity.
Qed.
