(** Proofs about registrations (C65). *)
From Verif Require Import PyBytes PyBytesFacts PyDictFacts PyExn M_App S_App.

Section P.
Context {V : Type}.
Implicit Types (f : pyfun V) (o : options V) (a : app V) (cs : list (call V)).

Lemma fill_ok names : forall i (d : list V) o, NoDup names -> i + List.length names = List.length d ->
  exists o', fill names i d o = Ok o' /\ forall n v, dget beqb n o' = Some v <-> (exists j, nth_error names j = Some n /\ nth_error d (i + j) = Some v) \/ (~ In n names /\ dget beqb n o = Some v).
Proof.
  induction names as [|n names IH]; intros i d o ND L; cbn [fill].
  - exists o. split; [reflexivity|]. intros m v. split; [intros H; right; now split|]. intros [(j & H & _)|(_ & H)]; [now destruct j|exact H].
  - inversion_clear ND as [|? ? N ND']. cbn [List.length] in L. destruct (nth_error d i) as [x|] eqn:E; [|apply nth_error_None in E; lia].
    destruct (IH (S i) d (dset beqb n x o) ND') as (o' & F & H); [lia|]. exists o'. split; [exact F|]. intros m v. rewrite H. split.
    + intros [(j & H1 & H2)|(H1 & H2)].
      * left. exists (S j). split; [exact H1|]. now replace (i + S j) with (S i + j) by lia.
      * rewrite dget_dset in H2. destruct (beqb m n) eqn:B.
        -- apply beqb_eq in B as ->. left. exists 0. split; [reflexivity|]. rewrite Nat.add_0_r. congruence.
        -- right. split; [|exact H2]. intros [X|X]; [subst; now rewrite beqb_refl in B|easy].
    + intros [(j & H1 & H2)|(H1 & H2)].
      * destruct j as [|j].
        -- cbn in H1. injection H1 as <-. right. split; [exact N|]. rewrite dget_dset_same. rewrite Nat.add_0_r in H2. congruence.
        -- left. exists j. split; [exact H1|]. now replace (S i + j) with (i + S j) by lia.
      * right. split; [intros X; apply H1; now right|]. rewrite dget_dset_other; [exact H2|]. intros ->. apply H1. now left.
Qed.
Lemma NoDup_skipn {A} (l : list A) k : NoDup l -> NoDup (skipn k l).
Proof. revert k. induction l as [|x l IH]; intros k N; [now rewrite skipn_nil|]. destruct k; [exact N|]. inversion_clear N. cbn [skipn]. auto. Qed.
Lemma nth_skipn {A} (l : list A) k j : nth_error (skipn k l) j = nth_error l (k + j).
Proof. revert l. induction k as [|k IH]; intros l; [reflexivity|]. destruct l as [|x l]; [now destruct j|]. cbn [skipn plus nth_error]. apply IH. Qed.
Lemma norm_nat n k : k <= n -> norm_index n (Z.of_nat k) = k.
Proof. intros L. unfold norm_index. replace (Z.of_nat k <? 0)%Z with false by lia. lia. Qed.
Lemma slice_params (params locals : list bytes) k : k <= List.length params ->
  slice (params ++ locals) (Z.of_nat (List.length params) - Z.of_nat k) (Z.of_nat (List.length params)) = skipn (List.length params - k) params.
Proof.
  intros L. unfold slice. rewrite <- Nat2Z.inj_sub by exact L. rewrite !norm_nat by (rewrite app_length; lia).
  rewrite skipn_app. replace (List.length params - k - List.length params) with 0 by lia. cbn [skipn]. rewrite firstn_app, skipn_length.
  replace (List.length params - (List.length params - k) - (List.length params - (List.length params - k))) with 0 by lia. rewrite firstn_O, app_nil_r.
  apply firstn_all2. rewrite skipn_length. lia.
Qed.
Lemma options_ok f params defaults : py_function f params defaults -> exists o, getoptions f = Ok o /\ forall n v, dget beqb n o = Some v <-> default_of params defaults n v.
Proof.
  intros (ND & (locals & Lo) & A & D & L).
  destruct (fill_ok (skipn (List.length params - List.length defaults) params) 0 defaults []) as (o & F & H); [now apply NoDup_skipn|rewrite skipn_length; lia|].
  exists o. split.
  - rewrite <- F. unfold getoptions. rewrite Lo, A. destruct D as [-> |(-> & ->)].
    + now rewrite slice_params by exact L.
    + pose proof (slice_params params locals 0 (Nat.le_0_l _)) as S. cbn [Z.of_nat] in S. rewrite Z.sub_0_r in S. now rewrite S.
  - intros n v. rewrite H. unfold default_of. split.
    + intros [(j & H1 & H2)|(_ & H1)]; [|discriminate]. exists j. split; [exact H2|]. now rewrite nth_skipn in H1.
    + intros (j & H1 & H2). left. exists j. split; [now rewrite nth_skipn|exact H1].
Qed.
Lemma getoptions_has f : ok_fun f -> exists o, getoptions f = Ok o /\ has_defaults f o.
Proof. intros (p & d & F). destruct (options_ok f p d F) as (o & E & H). exists o. split; [exact E|]. now exists p, d. Qed.

Lemma dget_update n o2 : forall o1, dget beqb n (update o1 o2) = match dget beqb n (rev o2) with Some v => Some v | None => dget beqb n o1 end.
Proof.
  induction o2 as [|[k v] o2 IH]; intros o1; [reflexivity|]. cbn [update fold_left fst snd rev]. fold (update (dset beqb k v o1) o2). rewrite IH.
  assert (forall l, dget beqb n (l ++ [(k, v)]) = match dget beqb n l with Some x => Some x | None => if beqb n k then Some v else None end) as G.
  { induction l as [|[k2 v2] l IHl]; cbn [Datatypes.app dget]; [reflexivity|]. destruct (beqb n k2); [reflexivity|exact IHl]. }
  rewrite G, dget_dset. destruct (dget beqb n (rev o2)); [reflexivity|]. now destruct (beqb n k).
Qed.
Lemma fill_nodup names : forall i (d : list V) o o', fill names i d o = Ok o' -> NoDup (map fst o) -> NoDup (map fst o').
Proof.
  induction names as [|n names IH]; intros i d o o' F ND; cbn [fill] in F; [now injection F as <-|]. destruct (nth_error d i) as [x|]; [|discriminate].
  apply (IH _ _ _ _ F). rewrite dset_keys. destruct (dmem beqb n o) eqn:E; [now rewrite app_nil_r|]. apply NoDup_snoc; [exact ND|]. intros I. unfold dmem in E.
  destruct (dget beqb n o) eqn:G; [discriminate|]. clear -I G. induction o as [|[k v] o IHo]; [easy|]. cbn [dget map fst In] in *. destruct (beqb n k) eqn:B; [discriminate|].
  destruct I as [->|I]; [now rewrite beqb_refl in B|now apply IHo].
Qed.
Lemma getoptions_nodup f o : getoptions f = Ok o -> NoDup (map fst o).
Proof. unfold getoptions. destruct (f_defaults f); intros F; eapply fill_nodup; try exact F; constructor. Qed.
Lemma dget_in n o v : NoDup (map fst o) -> (dget beqb n o = Some v <-> In (n, v) o).
Proof.
  intros ND. induction o as [|[k x] o IH]; [easy|]. cbn [map fst] in ND. inversion_clear ND as [|? ? N ND']. cbn [dget In]. destruct (beqb n k) eqn:B.
  - apply beqb_eq in B as ->. split; [intros E; left; congruence|]. intros [E|E]; [congruence|]. exfalso. apply N. apply in_map_iff. now exists (k, v).
  - rewrite (IH ND'). split; [now right|]. intros [E|E]; [|exact E]. injection E as -> _. now rewrite beqb_refl in B.
Qed.
Lemma dget_rev n o : NoDup (map fst o) -> dget beqb n (rev o) = dget beqb n o.
Proof.
  intros ND. assert (NoDup (map fst (rev o))) as ND2 by (rewrite map_rev; now apply NoDup_rev).
  destruct (dget beqb n o) as [v|] eqn:E.
  - apply dget_in; [exact ND2|]. apply in_rev. rewrite rev_involutive. now apply dget_in.
  - destruct (dget beqb n (rev o)) as [v|] eqn:E2; [|reflexivity]. apply dget_in in E2; [|exact ND2]. apply in_rev in E2. apply dget_in in E2; [congruence|exact ND].
Qed.

(** ** All calls *)
Lemma calls_snoc cs : forall a c, app_calls a (cs ++ [c]) = let '(rs, a1) := app_calls a cs in let '(r, a2) := app_call a1 c in (rs ++ [r], a2).
Proof.
  induction cs as [|d cs IH]; intros a c; cbn [Datatypes.app app_calls].
  - destruct (app_call a c) as [r a1]. reflexivity.
  - destruct (app_call a d) as [r a1]. rewrite IH. destruct (app_calls a1 cs) as [rs a2]. destruct (app_call a2 c) as [r2 a3]. reflexivity.
Qed.
Variables (e400 e404 e500 : nat) (o404 : options V).
Let new := app_new e400 e404 e500 o404.
Definition after cs : app V := snd (app_calls new cs).
Lemma after_snoc cs c : after (cs ++ [c]) = snd (app_call (after cs) c).
Proof. unfold after. rewrite calls_snoc. destruct (app_calls new cs) as [rs a]. cbn [snd]. now destruct (app_call a c) as [r a2]. Qed.
Lemma after_ind (P : list (call V) -> app V -> Prop) : P [] new -> (forall cs c, ok_call c -> P cs (after cs) -> P (cs ++ [c]) (snd (app_call (after cs) c))) ->
  forall cs, Forall ok_call cs -> P cs (after cs).
Proof.
  intros H0 HS cs. induction cs as [|c cs IH] using rev_ind; intros F; [exact H0|]. apply Forall_app in F as (F & Fc). rewrite after_snoc. apply HS; [now inversion Fc|auto].
Qed.

Definition mid_names : list bytes := [bs "connect"; bs "close"; bs "request"; bs "response"].
Definition ev_names : list bytes := [bs "worker_start"; bs "worker_stop"].
Definition mid_ok cs (a : app V) : Prop :=
  (forall name, In name mid_names -> exists l, dget beqb name (a_middlewares a) = Some l /\
     Forall2 (fun m f => fst m = f_id f /\ has_defaults f (snd m)) l (middlewares_given name cs)) /\
  (forall name, ~ In name mid_names -> dget beqb name (a_middlewares a) = None).
Lemma given_snoc name cs c : middlewares_given name (cs ++ [c]) = middlewares_given name cs ++ middlewares_given name [c].
Proof. unfold middlewares_given. apply flat_map_app. Qed.
Lemma mid_all cs : Forall ok_call cs -> mid_ok cs (after cs).
Proof.
  apply (after_ind mid_ok).
  - split.
    + intros name I. exists []. split; [|constructor]. cbn [mid_names In] in I. destruct I as [<-|[<-|[<-|[<-|[]]]]]; reflexivity.
    + intros name N. cbn [new app_new a_middlewares dget].
      repeat match goal with |- context [beqb name ?k] => destruct (beqb name k) eqn:?B; [apply beqb_eq in B; subst name; exfalso; apply N; cbn [mid_names In]; tauto|]; clear B end. reflexivity.
  - intros cs0 c Oc (H & Hn). remember (after cs0) as a eqn:Ea. clear Ea.
    assert (forall a', a_middlewares a' = a_middlewares a -> middlewares_given (V:=V) [] [] = [] -> (forall name, middlewares_given name [c] = []) -> mid_ok (cs0 ++ [c]) a') as Same.
    { intros a' E _ G. split; [|now rewrite E]. intros name I. rewrite E, given_snoc, G, app_nil_r. now apply H. }
    destruct c as [p host o|code f|name f|name f]; cbn [app_call].
    + destruct (dmem okeqb _ _); now apply Same.
    + destruct (existsb _ _); [|now apply Same]. destruct (getoptions f); now apply Same.
    + cbn [ok_call] in Oc. destruct (getoptions_has f Oc) as (o & E & D). rewrite E.
      destruct (dget beqb name (a_middlewares a)) as [l|] eqn:G; cbn [snd].
      * split.
        -- intros n I. cbn [a_middlewares]. rewrite given_snoc. unfold middlewares_given at 2. cbn [flat_map]. rewrite app_nil_r. rewrite dget_dset. destruct (beqb n name) eqn:B.
           ++ apply beqb_eq in B as ->. rewrite beqb_refl. destruct (H name I) as (l' & G' & F). rewrite G in G'. injection G' as <-. eexists. split; [reflexivity|].
              apply Forall2_app; [exact F|]. now repeat constructor.
           ++ destruct (beqb name n) eqn:B2; [apply beqb_eq in B2 as ->; now rewrite beqb_refl in B|]. rewrite app_nil_r. now apply H.
        -- intros n N. cbn [a_middlewares]. rewrite dget_dset. destruct (beqb n name) eqn:B; [|now apply Hn]. apply beqb_eq in B as ->. rewrite Hn in G by exact N. discriminate.
      * split; [|exact Hn]. intros n I. rewrite given_snoc. unfold middlewares_given at 2. cbn [flat_map]. destruct (beqb name n) eqn:B.
        -- apply beqb_eq in B as ->. destruct (H n I) as (l & G' & _). congruence.
        -- cbn [Datatypes.app]. rewrite app_nil_r. now apply H.
    + destruct (dget beqb name (a_events a)); now apply Same.
Qed.
Definition ev_ok cs (a : app V) : Prop :=
  (forall name, In name ev_names -> dget beqb name (a_events a) = Some (events_given name cs)) /\ (forall name, ~ In name ev_names -> dget beqb name (a_events a) = None).
Lemma ev_all cs : Forall ok_call cs -> ev_ok cs (after cs).
Proof.
  apply (after_ind ev_ok).
  - split.
    + intros name I. cbn [ev_names In] in I. destruct I as [<-|[<-|[]]]; reflexivity.
    + intros name N. cbn [new app_new a_events dget].
      repeat match goal with |- context [beqb name ?k] => destruct (beqb name k) eqn:?B; [apply beqb_eq in B; subst name; exfalso; apply N; cbn [ev_names In]; tauto|]; clear B end. reflexivity.
  - intros cs0 c Oc (H & Hn). remember (after cs0) as a eqn:Ea. clear Ea.
    assert (forall a', a_events a' = a_events a -> (forall name, events_given name [c] = []) -> ev_ok (cs0 ++ [c]) a') as Same.
    { intros a' E G. split; [|now rewrite E]. intros name I. unfold events_given in *. rewrite E, flat_map_app, G, app_nil_r. now apply H. }
    destruct c as [p host o|code f|name f|name f]; cbn [app_call].
    + destruct (dmem okeqb _ _); now apply Same.
    + destruct (existsb _ _); [|now apply Same]. destruct (getoptions f); now apply Same.
    + destruct (getoptions f); [|now apply Same]. destruct (dget beqb name (a_middlewares a)); now apply Same.
    + destruct (dget beqb name (a_events a)) as [l|] eqn:G; cbn [snd].
      * split.
        -- intros n I. cbn [a_events]. unfold events_given. rewrite flat_map_app. fold (events_given n cs0). cbn [flat_map]. rewrite dget_dset. destruct (beqb n name) eqn:B.
           ++ apply beqb_eq in B as ->. rewrite beqb_refl. rewrite H in G by exact I. injection G as <-. reflexivity.
           ++ destruct (beqb name n) eqn:B2; [apply beqb_eq in B2 as ->; now rewrite beqb_refl in B|]. cbn [Datatypes.app]. rewrite app_nil_r. now apply H.
        -- intros n N. cbn [a_events]. rewrite dget_dset. destruct (beqb n name) eqn:B; [|now apply Hn]. apply beqb_eq in B as ->. rewrite Hn in G by exact N. discriminate.
      * split; [|exact Hn]. intros n I. unfold events_given. rewrite flat_map_app. fold (events_given n cs0). cbn [flat_map]. destruct (beqb name n) eqn:B.
        -- apply beqb_eq in B as ->. rewrite H in G by exact I. discriminate.
        -- cbn [Datatypes.app]. rewrite app_nil_r. now apply H.
Qed.

(** Error handlers *)
Definition entry_ok (code : Z) (e0 : nat) (o0 : options V) cs (x : Z * nat * options V) : Prop :=
  fst (fst x) = code /\ snd (fst x) = last (map f_id (errors_given code cs)) e0 /\
  exists os, Forall2 has_defaults (errors_given code cs) os /\ forall n, last_value n o0 os (dget beqb n (snd x)).
Definition err_ok cs (a : app V) : Prop :=
  exists x y z, a_errors a = [x; y; z] /\ entry_ok 400 e400 [] cs x /\ entry_ok 404 e404 o404 cs y /\ entry_ok 500 e500 [] cs z.
Lemma entry_other code e0 o0 cs c x : errors_given code [c] = [] -> entry_ok code e0 o0 cs x -> entry_ok code e0 o0 (cs ++ [c]) x.
Proof. intros E (A & B & C). unfold entry_ok, errors_given in *. rewrite flat_map_app, E, app_nil_r. now split. Qed.
Lemma entry_set code e0 o0 cs f o x : has_defaults f o -> NoDup (map fst o) -> entry_ok code e0 o0 cs x -> entry_ok code e0 o0 (cs ++ [Error code f]) (code, f_id f, update (snd x) o).
Proof.
  intros D ND (_ & _ & os & F & L). unfold entry_ok, errors_given in *. rewrite flat_map_app. cbn [flat_map fst snd]. rewrite Z.eqb_refl. cbn [Datatypes.app]. split; [reflexivity|]. split.
  - rewrite map_app. cbn [map]. now rewrite last_last.
  - exists (os ++ [o]). split; [apply Forall2_app; [exact F|now repeat constructor]|]. intros n. rewrite dget_update, dget_rev by exact ND. destruct (dget beqb n o) as [v|] eqn:E; [now apply lv_has|].
    apply lv_has_not; [exact E|apply L].
Qed.
Lemma err_all cs : Forall ok_call cs -> err_ok cs (after cs).
Proof.
  apply (after_ind err_ok).
  - do 3 eexists. split; [reflexivity|]. split; [|split]; (split; [reflexivity|]; split; [reflexivity|]; exists []; split; [constructor|]; intros n; apply lv_first).
  - intros cs0 c Oc (x & y & z & E & Hx & Hy & Hz). remember (after cs0) as a eqn:Ea. clear Ea.
    assert (forall a', a_errors a' = a_errors a -> errors_given 400 [c] = [] -> errors_given 404 [c] = [] -> errors_given 500 [c] = [] -> err_ok (cs0 ++ [c]) a') as Same.
    { intros a' E' G1 G2 G3. exists x, y, z. split; [congruence|]. split; [|split]; now apply entry_other. }
    destruct c as [p host o|code f|name f|name f]; cbn [app_call].
    + destruct (dmem okeqb _ _); now apply Same.
    + cbn [ok_call] in Oc. destruct (getoptions_has f Oc) as (o & G & D). rewrite E. destruct x as [[cx hx] ox], y as [[cy hy] oy], z as [[cz hz] oz].
      pose proof Hx as (Ex & _). pose proof Hy as (Ey & _). pose proof Hz as (Ez & _). cbn [fst] in Ex, Ey, Ez. subst cx cy cz. cbn [existsb fst].
      pose proof (getoptions_nodup f o G) as ND.
      assert (forall k, k <> code -> errors_given k [Error code f] = []) as Oth.
      { intros k N. unfold errors_given. cbn [flat_map]. destruct (Z.eqb_spec code k) as [->|]; [easy|reflexivity]. }
      destruct (Z.eqb_spec code 400) as [->|N1].
      { rewrite G. cbn [orb snd a_errors set_error]. exists (400%Z, f_id f, update ox o), (404%Z, hy, oy), (500%Z, hz, oz). split; [reflexivity|].
        split; [exact (entry_set 400 e400 [] cs0 f o _ D ND Hx)|]. split; apply entry_other; try assumption; now apply Oth. }
      destruct (Z.eqb_spec code 404) as [->|N2].
      { rewrite G. cbn [orb snd a_errors set_error Z.eqb Pos.eqb]. exists (400%Z, hx, ox), (404%Z, f_id f, update oy o), (500%Z, hz, oz). split; [reflexivity|].
        split; [apply entry_other; [now apply Oth|assumption]|]. split; [exact (entry_set 404 e404 o404 cs0 f o _ D ND Hy)|]. apply entry_other; [now apply Oth|assumption]. }
      destruct (Z.eqb_spec code 500) as [->|N3].
      { rewrite G. cbn [orb snd a_errors set_error Z.eqb Pos.eqb]. exists (400%Z, hx, ox), (404%Z, hy, oy), (500%Z, f_id f, update oz o). split; [reflexivity|].
        split; [apply entry_other; [now apply Oth|assumption]|]. split; [apply entry_other; [now apply Oth|assumption]|]. exact (entry_set 500 e500 [] cs0 f o _ D ND Hz). }
      cbn [orb snd]. exists (400%Z, hx, ox), (404%Z, hy, oy), (500%Z, hz, oz). split; [exact E|]. split; [|split]; apply entry_other; try assumption; apply Oth; congruence.
    + destruct (getoptions f); [|now apply Same]. destruct (dget beqb name (a_middlewares a)); now apply Same.
    + destruct (dget beqb name (a_events a)); now apply Same.
Qed.

(** Listeners *)
Lemma okeqb_spec x y : reflect (x = y) (okeqb x y).
Proof.
  unfold okeqb. destruct x as [[h|] [p|]], y as [[h'|] [p'|]]; cbn [fst snd]; rewrite ?andb_false_r; try (constructor; congruence).
  all: try (destruct (beqb h h') eqn:B; [apply beqb_eq in B as ->|apply beqb_neq in B]); try destruct (Z.eqb_spec p p') as [->|]; cbn [andb]; constructor; congruence.
Qed.
Lemma kget_set k k' (o : options V) d : dget okeqb k (dset okeqb k' o d) = if okeqb k k' then Some o else dget okeqb k d.
Proof.
  induction d as [|[k2 o2] d IH]; cbn [dset dget]; [reflexivity|]. destruct (okeqb_spec k' k2) as [->|N]; cbn [dget].
  - now destruct (okeqb k k2).
  - rewrite IH. destruct (okeqb_spec k k2) as [->|N2]; [|reflexivity]. destruct (okeqb_spec k2 k') as [->|]; easy.
Qed.
Fixpoint first_listener (k : option bytes * option Z) (cs : list (call V)) : option (options V) :=
  match cs with
  | [] => None
  | Listen p host o :: cs' => if okeqb (port_key p host) k then Some o else first_listener k cs'
  | _ :: cs' => first_listener k cs'
  end.
Lemma key_address p host p' host' : port_key p host = port_key p' host' <-> address p host = address p' host'.
Proof. destruct p, p'; cbn [port_key address]; split; congruence. Qed.
Lemma first_on_ok p host cs : first_on (address p host) cs (first_listener (port_key p host) cs).
Proof.
  assert (forall c cs0 r, (forall p' h' o', c = Listen p' h' o' -> address p' h' <> address p host) -> first_on (address p host) cs0 r -> first_on (address p host) (c :: cs0) r) as Skip.
  { intros c cs0 r N H. inversion H as [? X|cs1 p' h' o' cs2 X Y]; subst.
    - constructor. intros p' h' o' [->|I]; [now apply (N p' h' o')|now apply (X p' h' o')].
    - apply (fo_some _ (c :: cs1)); [|exact Y]. intros p2 h2 o2 [->|I]; [now apply (N p2 h2 o2)|now apply (X p2 h2 o2)]. }
  induction cs as [|c cs IH]; [constructor; easy|]. cbn [first_listener]. destruct c as [p' h' o'|? ?|? ?|? ?]; try (apply Skip; [discriminate|exact IH]).
  destruct (okeqb_spec (port_key p' h') (port_key p host)) as [E|N].
  - apply (fo_some _ []); [easy|now apply key_address].
  - apply Skip; [|exact IH]. intros p2 h2 o2 [= -> -> ->] E. now apply N, key_address.
Qed.
Lemma first_none p host cs : first_listener (port_key p host) cs = None <-> nobody_on (address p host) cs.
Proof.
  pose proof (first_on_ok p host cs) as F. split.
  - intros E. rewrite E in F. now inversion F.
  - intros N. inversion F as [|cs1 p' h' o' cs2 X Y Z]; [reflexivity|]. exfalso. apply (N p' h' o'); [|exact Y]. rewrite <- Z. apply in_or_app. right. now left.
Qed.
Lemma first_snoc k cs c : first_listener k (cs ++ [c]) = match first_listener k cs with Some o => Some o | None => first_listener k [c] end.
Proof.
  induction cs as [|d cs IH]; [reflexivity|]. cbn [Datatypes.app first_listener]. destruct d; try exact IH. destruct (okeqb _ _); [reflexivity|exact IH].
Qed.
Lemma ports_all cs : Forall ok_call cs -> forall k, dget okeqb k (a_ports (after cs)) = first_listener k cs.
Proof.
  apply (after_ind (fun cs a => forall k, dget okeqb k (a_ports a) = first_listener k cs)); [reflexivity|].
  intros cs0 c Oc H k. remember (after cs0) as a eqn:Ea. clear Ea. rewrite first_snoc. rewrite <- (H k).
  destruct c as [p host o|code f|name f|name f]; cbn [app_call first_listener].
  - unfold dmem. destruct (dget okeqb (port_key p host) (a_ports a)) as [o'|] eqn:G; cbn [snd a_ports].
    + destruct (dget okeqb k (a_ports a)) eqn:G2; [reflexivity|]. destruct (okeqb_spec (port_key p host) k) as [E|]; [congruence|reflexivity].
    + rewrite kget_set. destruct (okeqb_spec k (port_key p host)) as [->|N].
      * rewrite G. now destruct (okeqb_spec (port_key p host) (port_key p host)).
      * destruct (dget okeqb k (a_ports a)); [reflexivity|]. destruct (okeqb_spec (port_key p host) k); [congruence|reflexivity].
  - destruct (existsb _ _); [destruct (getoptions f)|]; cbn [snd a_ports]; now destruct (dget okeqb k (a_ports a)).
  - destruct (getoptions f); [destruct (dget beqb name _)|]; cbn [snd a_ports]; now destruct (dget okeqb k (a_ports a)).
  - destruct (dget beqb name _); cbn [snd a_ports]; now destruct (dget okeqb k (a_ports a)).
Qed.
Lemma listen_ret cs p host o : Forall ok_call cs ->
  fst (app_call (after cs) (Listen p host o)) = RBool (match first_listener (port_key p host) cs with None => true | Some _ => false end).
Proof.
  intros F. cbn [app_call]. unfold dmem at 1. rewrite (ports_all cs F). destruct (first_listener _ cs); [reflexivity|]. cbn [fst]. unfold dmem. rewrite kget_set.
  now destruct (okeqb_spec (port_key p host) (port_key p host)).
Qed.
End P.
