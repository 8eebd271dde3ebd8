From Verif Require Import PyBytes PyBytesFacts PyDictFacts PyInt PyExn M_Response M_Sse M_Server S_Response S_Server.
From Coq Require Import FinFun.

Section P.
Context {A : Type}.
Definition called (ev : event) : who * outcome := (ev_who ev, ev_out ev).

Lemma andthen_inl {X Y} (m : act A X) (k : X -> act A Y) w w1 x : m w = (w1, inl x) -> andthen m k w = k x w1.
Proof. intros E. unfold andthen. now rewrite E. Qed.
Lemma andthen_note {Y} n o r (k : unit -> act A Y) w : andthen (note n o r) k w = k tt (mkW (w_app w) (w_rsp w) (w_ctx w) (w_log w ++ [Called n o r])).
Proof. reflexivity. Qed.
Lemma dget_app k (a b : opts) : dget beqb k (a ++ b) = match dget beqb k a with Some v => Some v | None => dget beqb k b end.
Proof. induction a as [|[k' v] a IH]; [reflexivity|]. cbn [app dget]. destruct (beqb k k'); [reflexivity|exact IH]. Qed.
Lemma first_of_app {V} k (a b : list (list (bytes * V))) : first_of k (a ++ b) = match first_of k a with Some v => Some v | None => first_of k b end.
Proof. induction a as [|d a IH]; [reflexivity|]. cbn [app first_of]. destruct (dget beqb k d); [reflexivity|exact IH]. Qed.

(** Actions that do not log. *)
Definition quiet {X} (m : act A X) : Prop := forall w, w_log (fst (m w)) = w_log w.
Lemma quiet_ret {X} (x : X) : quiet (ret x). Proof. now intros w. Qed.
Lemma quiet_throw {X} x : quiet (@throw A X x). Proof. now intros w. Qed.
Lemma quiet_rsp {X} (m : call X) : quiet (rsp_do m). Proof. intros w. unfold rsp_do. now destruct (m (w_rsp w)). Qed.
Lemma quiet_ctx o : quiet (ctx_update o). Proof. now intros w. Qed.
Lemma quiet_run f : quiet (run_func f). Proof. intros w. unfold run_func. now destruct (f (w_app w) (w_rsp w) (w_ctx w)) as [[a s] r]. Qed.
Lemma quiet_then {X Y} (m : act A X) (k : X -> act A Y) : quiet m -> (forall x, quiet (k x)) -> quiet (andthen m k).
Proof. intros Q K w. unfold andthen. specialize (Q w). destruct (m w) as [w1 [x|x]]; cbn [fst] in *; [now rewrite K|exact Q]. Qed.
Lemma quiet_apply o : quiet (apply_options o).
Proof.
  unfold apply_options. apply quiet_then.
  - destruct (oget "status" o) as [[]|]; first [apply quiet_rsp|apply quiet_throw|apply quiet_ret].
  - intros _. destruct (oget "content_type" o) as [[]|]; first [apply quiet_rsp|apply quiet_throw|apply quiet_ret].
Qed.
Lemma quiet_gen e k steps : quiet (gen_loop e k steps).
Proof.
  induction steps as [|f steps IH]; [apply quiet_rsp|]. apply quiet_then; [apply quiet_run|]. intros [|[|c d]| |x]; try apply quiet_throw; [exact IH|]. apply quiet_then; [apply quiet_rsp|intros _; exact IH].
Qed.
Lemma quiet_size o : quiet (size_of o). Proof. unfold size_of. destruct (oget "buffer_size" o) as [[]|]; first [apply quiet_ret|apply quiet_throw]. Qed.

Lemma base_ok e s : one_line (e_date e) -> one_line (e_server e) -> fst (set_base_header e s) = Ok tt.
Proof.
  intros D Sv. unfold set_base_header. destruct (r_headers s) as [[|x d]|] eqn:E; [|reflexivity..]. unfold seq, set_header. cbn [bs memb orb existsb].
  assert (memb LF (e_date e) = false) as -> by now apply memb_notIn. assert (memb LF (e_server e) = false) as -> by now apply memb_notIn.
  change (memb LF (bs "Date")) with false. change (memb LF (bs "Server")) with false. cbn [orb]. unfold seq, get_headers. rewrite E. reflexivity.
Qed.

Section Base.
Context (e : renv) (D : one_line (e_date e)) (Sv : one_line (e_server e)).

Lemma handle_middleware_log n (f : func A) o (w : world A) : exists r,
  w_log (fst (handle_middleware e n f o w)) = w_log w ++ [Called n o r] /\
  (snd (handle_middleware e n f o w) = inl (Some o) <-> r = ONone) /\
  (forall o', snd (handle_middleware e n f o w) = inl (Some o') -> o' = o).
Proof.
  assert (exists r w1, w_log w1 = w_log w ++ [Called n o r] /\ handle_middleware e n f o w =
    (match r with
     | ONone => ret (Some o)
     | OOther => ret None
     | OExc x => throw x
     | OData d => act! _ <- apply_options o in act! _ <- rsp_do (end_ e d true None) in ret None
     end) w1) as (r & w1 & W1 & ->).
  { unfold handle_middleware. pose proof (base_ok e (w_rsp w) D Sv) as B. destruct (set_base_header e (w_rsp w)) as [r s] eqn:E. cbn [fst] in B. subst r.
    unfold andthen at 1. unfold rsp_do at 1. rewrite E. unfold andthen at 1. unfold ctx_update at 1. unfold andthen at 1. unfold run_func at 1. cbn [w_app w_rsp w_ctx w_log].
    destruct (f (w_app w) s (merge (w_ctx w) o)) as [[a s'] r]. unfold andthen at 1. unfold note at 1. cbn [w_app w_rsp w_ctx w_log]. exists r. eexists. split; [|reflexivity]. reflexivity. }
  exists r. rewrite <- W1. clear W1. destruct r as [|d| |x].
  - split; [reflexivity|]. split; [split; reflexivity|]. cbn. now intros o' [= <-].
  - assert (quiet (act! _ <- apply_options o in act! _ <- rsp_do (end_ e d true None) in @ret A _ (@None opts))) as Q.
    { apply quiet_then; [apply quiet_apply|]. intros _. apply quiet_then; [apply quiet_rsp|intros _; apply quiet_ret]. }
    split; [apply Q|]. enough (forall o', snd ((act! _ <- apply_options o in act! _ <- rsp_do (end_ e d true None) in @ret A _ (@None opts)) w1) <> inl (Some o')) as K by (split; [split; [intros H; now apply K in H|discriminate]|intros o' H; now apply K in H]).
    intros o'. unfold andthen at 1. destruct (apply_options o w1) as [w2 [[]|x]]; [|discriminate]. unfold andthen. destruct (rsp_do (end_ e d true None) w2) as [w3 [[]|x]]; discriminate.
  - split; [reflexivity|]. split; [split; discriminate|discriminate].
  - split; [reflexivity|]. split; [split; discriminate|discriminate].
Qed.

(** A chain of middlewares. *)
Lemma middlewares_log (l : list (who * (func A * opts))) : forall o w, exists tr b,
  w_log (fst (middlewares e l o w)) = w_log w ++ tr /\
  stops_at_first (fun r => r = ONone) (map fst l) (map called tr) b /\
  (forall i ev, nth_error tr i = Some ev -> forall k, dget beqb k (ev_opts ev) = first_of k (o :: map (fun x => snd (snd x)) (firstn (S i) l))) /\
  (b = true -> exists o', snd (middlewares e l o w) = inl (Some o') /\ forall k, dget beqb k o' = first_of k (o :: map (fun x => snd (snd x)) l)) /\
  (b = false -> forall o', snd (middlewares e l o w) <> inl (Some o')).
Proof.
  induction l as [|[n [f mo]] l IH]; intros o w.
  - exists [], true. rewrite app_nil_r. split; [reflexivity|]. split; [constructor|]. split; [intros i ev H; now destruct i|]. split; [|discriminate]. intros _. exists o. split; [reflexivity|]. intros k. cbn [first_of map]. now destruct (dget beqb k o).
  - cbn [middlewares]. destruct (handle_middleware_log n f (merge mo o) w) as (r & L & P & Q). unfold andthen. destruct (handle_middleware e n f (merge mo o) w) as [w1 x] eqn:E. cbn [fst snd] in *.
    assert (forall k, dget beqb k (merge mo o) = first_of k [o; mo]) as Mg. { intros k. unfold merge. rewrite dget_app. cbn [first_of]. destruct (dget beqb k o); [reflexivity|]. now destruct (dget beqb k mo). }
    assert (r = ONone \/ r <> ONone) as [R|R] by (destruct r; [now left|right; discriminate..]).
    + apply P in R as X. subst x. destruct (IH (merge mo o) w1) as (tr & b & L2 & S2 & O2 & T2 & F2). exists (Called n (merge mo o) r :: tr), b.
      assert (forall k ds, first_of k (merge mo o :: ds) = first_of k (o :: mo :: ds)) as Mf. { intros k ds. cbn [first_of]. rewrite Mg. cbn [first_of]. destruct (dget beqb k o); [reflexivity|]. now destruct (dget beqb k mo). }
      split; [rewrite L2, L, <- app_assoc; reflexivity|]. split; [cbn [map called ev_who ev_out fst]; now apply stop_next|]. split; [|split; [|exact F2]].
      * intros [|i] ev H k; cbn [nth_error] in H; [injection H as <-; cbn [ev_opts]; rewrite Mg; reflexivity|]. rewrite (O2 i ev H k). apply Mf.
      * intros B. destruct (T2 B) as (o' & H1 & H2). exists o'. split; [exact H1|]. intros k. rewrite H2. apply Mf.
    + exists [Called n (merge mo o) r], false. assert (forall o', x <> inl (Some o')) as X. { intros o' ->. apply R, P. f_equal. f_equal. now apply Q. }
      split; [destruct x as [[o'|]|x]; [exfalso; now apply (X o')|exact L..]|].
      split; [cbn [map called ev_who ev_out fst]; now apply stop_here|]. split; [|split; [discriminate|]].
      * intros [|i] ev H k; [injection H as <-; cbn [ev_opts firstn map]; rewrite Mg; reflexivity|destruct i; discriminate].
      * intros _ o'. destruct x as [[o''|]|x]; [exfalso; now apply (X o'')|discriminate..].
Qed.

Lemma after_quiet {X Y} (m : act A X) (k : X -> act A Y) w : quiet m ->
  (exists x w1, m w = (w1, inl x) /\ w_log w1 = w_log w /\ andthen m k w = k x w1) \/ (exists x, w_log (fst (andthen m k w)) = w_log w /\ snd (andthen m k w) = inr x).
Proof. intros Q. specialize (Q w). unfold andthen. destruct (m w) as [w1 [x|x]]; cbn [fst] in Q; [left; exists x, w1; now rewrite Q|right; exists x; now split]. Qed.

Definition resp_chain (sv : server) := rev (numbered RespMid (@s_resp A sv)).
(** The response middlewares and what follows them. *)
Definition resp_logged (sv : server) (o : opts) (w w' : world A) (res : unit + exc) (d : bytes) : Prop := exists tr,
  w_log w' = w_log w ++ tr /\
  (forall i ev, nth_error tr i = Some ev -> forall k, dget beqb k (ev_opts ev) = first_of k (o :: map (fun x => snd (snd x)) (firstn (S i) (resp_chain sv)))) /\
  ((exists b, stops_at_first (fun r => r = ONone) (map fst (resp_chain sv)) (map called tr) b) \/ tr = [] /\ exists x, res = inr x).
Lemma resp_chain_log sv o w (k : opts -> act A unit) : (forall o', quiet (k o')) -> forall d,
  resp_logged sv o w (fst ((act! r <- middlewares e (resp_chain sv) o in match r with None => ret tt | Some o' => k o' end) w))
    (snd ((act! r <- middlewares e (resp_chain sv) o in match r with None => ret tt | Some o' => k o' end) w)) d.
Proof.
  intros Q d. destruct (middlewares_log (resp_chain sv) o w) as (tr & b & L & St & O & T & F). unfold andthen. destruct (middlewares e (resp_chain sv) o w) as [w1 r]. cbn [fst snd] in *.
  exists tr. split; [|split; [exact O|left; now exists b]]. destruct r as [[o'|]|x]; [now rewrite Q|exact L..].
Qed.
Lemma resp_logged_first sv o w w1 w' res d : w_log w1 = w_log w -> resp_logged sv o w1 w' res d -> resp_logged sv o w w' res d.
Proof. intros E (tr & L & R). exists tr. rewrite E in L. now split. Qed.
Lemma resp_logged_raise sv o w w' x d : w_log w' = w_log w -> resp_logged sv o w w' (inr x) d.
Proof. intros E. exists []. rewrite app_nil_r. split; [exact E|]. split; [intros i ev H; now destruct i|]. right. split; [reflexivity|now exists x]. Qed.
Lemma send_value_log sv o st d w : resp_logged sv o w (fst (send_value e sv o st d w)) (snd (send_value e sv o st d w)) d.
Proof.
  unfold send_value. set (m1 := rsp_do _). set (k1 := fun _ : unit => _). destruct (after_quiet m1 k1 w (quiet_rsp _)) as [(x & w1 & E1 & L1 & ->)|(x & L1 & E1)].
  - apply (resp_logged_first _ _ _ w1 _ _ _ L1). unfold k1. apply resp_chain_log. intros o'. destruct (is_head e || snd st); [apply quiet_rsp|]. apply quiet_then.
    + destruct d; [apply quiet_ret|]. apply quiet_then; [apply quiet_size|intros n; apply quiet_rsp].
    + intros _. apply quiet_then; [apply quiet_rsp|intros _; apply quiet_rsp].
  - rewrite E1. now apply resp_logged_raise.
Qed.
Lemma send_stream_log sv o st d steps w : resp_logged sv o w (fst (send_stream e sv o st d steps w)) (snd (send_stream e sv o st d steps w)) d.
Proof.
  unfold send_stream. set (m1 := rsp_do _). set (k1 := fun _ : unit => _). destruct (after_quiet m1 k1 w (quiet_rsp _)) as [(x & w1 & E1 & L1 & ->)|(x & L1 & E1)].
  - apply (resp_logged_first _ _ _ w1 _ _ _ L1). unfold k1. apply resp_chain_log. intros o'. destruct (is_head e || snd st); [apply quiet_rsp|]. apply quiet_then; [apply quiet_size|]. intros n. apply quiet_then.
    + destruct d; [apply quiet_ret|apply quiet_rsp].
    + intros _. apply quiet_then; [apply quiet_gen|intros _; apply quiet_rsp].
  - rewrite E1. now apply resp_logged_raise.
Qed.
Definition handled (sv : server) (o : opts) (w w' : world A) (res : unit + exc) : Prop :=
  (w_log w' = w_log w /\ exists x, res = inr x) \/
  exists h tr, w_log w' = w_log w ++ h :: tr /\ ev_who h = Handler /\ ev_opts h = o /\
    (forall i ev, nth_error tr i = Some ev -> forall k, dget beqb k (ev_opts ev) = first_of k (o :: map (fun x => snd (snd x)) (firstn (S i) (resp_chain sv)))) /\
    match ev_out h with
    | OData _ => (exists b, stops_at_first (fun r => r = ONone) (map fst (resp_chain sv)) (map called tr) b) \/ tr = [] /\ exists x, res = inr x
    | _ => tr = []
    end.
Definition with_defaults (sv : server) (o : opts) : opts := o ++ [(bs "rate", s_rate sv)] ++ [(bs "buffer_size", @s_bufsize A sv)].
Lemma handle_response_log sv hb h o w : handled sv (with_defaults sv o) w (fst (handle_response e sv hb h o w)) (snd (handle_response e sv hb h o w)).
Proof.
  unfold handle_response. change (set_default "buffer_size" (s_bufsize sv) (set_default "rate" (s_rate sv) o)) with ((o ++ [(bs "rate", s_rate sv)]) ++ [(bs "buffer_size", s_bufsize sv)]). rewrite <- app_assoc. fold (with_defaults sv o).
  set (o1 := with_defaults sv o). cbv zeta.
  match goal with |- context [andthen ?m ?k w] => set (m1 := m); set (k1 := k) end. destruct (after_quiet m1 k1 w) as [(x & w1 & E1 & L1 & ->)|(x & L1 & E1)]; [unfold m1; destruct (oget "sse" o1); [destruct hb; [apply quiet_ret|apply quiet_rsp]|apply quiet_ret]| |left; split; [exact L1|now exists x]].
  unfold k1. match goal with |- context [andthen ?m ?k w1] => set (m2 := m); set (k2 := k) end. destruct (after_quiet m2 k2 w1) as [(x2 & w2 & E2 & L2 & ->)|(x2 & L2 & E2)]; [apply quiet_apply| |left; split; [congruence|now exists x2]].
  unfold k2. match goal with |- context [andthen ?m ?k w2] => set (m3 := m); set (k3 := k) end. destruct (after_quiet m3 k3 w2) as [(x3 & w3 & E3 & L3 & ->)|(x3 & L3 & E3)]; [apply quiet_rsp| |left; split; [congruence|now exists x3]].
  unfold k3. match goal with |- context [andthen ?m ?k w3] => set (m4 := m); set (k4 := k) end. destruct (after_quiet m4 k4 w3) as [(x4 & w4 & E4 & L4 & ->)|(x4 & L4 & E4)]; [apply quiet_ctx| |left; split; [congruence|now exists x4]].
  unfold k4. match goal with |- context [andthen ?m ?k w4] => set (m5 := m); set (k5 := k) end. destruct (after_quiet m5 k5 w4) as [(r & w5 & E5 & L5 & ->)|(x5 & L5 & E5)]; [unfold m5; destruct h as [f|[|f l]]; first [apply quiet_run|apply quiet_ret]| |left; split; [congruence|now exists x5]].
  unfold k5. rewrite andthen_note. set (w6 := mkW _ _ _ _). assert (w_log w6 = w_log w ++ [Called Handler o1 r]) as L6 by (unfold w6; cbn [w_log]; congruence). clearbody w6.
  right. exists (Called Handler o1 r). cbn [ev_who ev_opts ev_out].
  assert (forall m : act A unit, quiet m -> r = ONone \/ r = OOther \/ (exists x, r = OExc x) -> exists tr, w_log (fst (m w6)) = w_log w ++ Called Handler o1 r :: tr /\ Handler = Handler /\ o1 = o1 /\
    (forall i ev, nth_error tr i = Some ev -> forall k, dget beqb k (ev_opts ev) = first_of k (o1 :: map (fun x => snd (snd x)) (firstn (S i) (resp_chain sv)))) /\
    match r with OData _ => (exists b, stops_at_first (fun r => r = ONone) (map fst (resp_chain sv)) (map called tr) b) \/ tr = [] /\ exists x, snd (m w6) = inr x | _ => tr = [] end) as K.
  { intros m Q C. exists []. split; [now rewrite Q, L6|]. do 2 (split; [reflexivity|]). split; [intros i ev H; now destruct i|]. destruct C as [->|[->|[x' ->]]]; reflexivity. }
  assert (forall d (m : act A unit), r = OData d -> resp_logged sv o1 w6 (fst (m w6)) (snd (m w6)) d -> exists tr, w_log (fst (m w6)) = w_log w ++ Called Handler o1 r :: tr /\ Handler = Handler /\ o1 = o1 /\
    (forall i ev, nth_error tr i = Some ev -> forall k, dget beqb k (ev_opts ev) = first_of k (o1 :: map (fun x => snd (snd x)) (firstn (S i) (resp_chain sv)))) /\
    match r with OData _ => (exists b, stops_at_first (fun r => r = ONone) (map fst (resp_chain sv)) (map called tr) b) \/ tr = [] /\ exists x, snd (m w6) = inr x | _ => tr = [] end) as K2.
  { intros d m -> (tr & La & Lb & Lc). exists tr. split; [rewrite La, L6, <- app_assoc; reflexivity|]. do 2 (split; [reflexivity|]). now split. }
  destruct h as [f|steps], r as [|d| |x']; try (apply K; [first [apply quiet_throw|apply quiet_rsp|apply quiet_ret]|eauto]; fail).
  - apply (K2 d); [reflexivity|]. match goal with |- context [andthen ?m ?k w6] => set (m7 := m); set (k7 := k) end. destruct (after_quiet m7 k7 w6) as [(st & w7 & E7 & L7 & ->)|(x7 & L7 & E7)]; [apply quiet_rsp| |rewrite E7; now apply resp_logged_raise].
    apply (resp_logged_first _ _ _ w7 _ _ _ L7). apply send_value_log.
  - apply (K2 d); [reflexivity|]. match goal with |- context [andthen ?m ?k w6] => set (m7 := m); set (k7 := k) end. destruct (after_quiet m7 k7 w6) as [(st & w7 & E7 & L7 & ->)|(x7 & L7 & E7)]; [apply quiet_rsp| |rewrite E7; now apply resp_logged_raise].
    apply (resp_logged_first _ _ _ w7 _ _ _ L7). apply send_stream_log.
Qed.

Lemma stops_nth {K O} (pass : O -> Prop) ks (calls : list (K * O)) b : stops_at_first pass ks calls b -> forall i c, nth_error calls i = Some c -> nth_error ks i = Some (fst c).
Proof. induction 1 as [|k ks o calls b P R IH|k ks o P]; intros i c H; [now destruct i| |]; destruct i as [|i]; cbn [nth_error] in *; [now injection H as <-|now apply IH|now injection H as <-|now destruct i]. Qed.
Lemma stops_true {K O} (pass : O -> Prop) ks (calls : list (K * O)) : stops_at_first pass ks calls true -> map fst calls = ks /\ Forall (fun c => pass (snd c)) calls.
Proof. remember true as b. induction 1; [now split| |discriminate]. destruct (IHstops_at_first Heqb) as [A1 A2]. cbn [map fst]. split; [now f_equal|now constructor]. Qed.
Lemma numbered_fst (w : nat -> who) (l : list (func A * opts)) : map fst (numbered w l) = map w (List.seq 0 (List.length l)).
Proof.
  unfold numbered. generalize 0. induction l as [|x l IH]; intros n; [reflexivity|]. cbn [List.length List.seq map combine fst]. f_equal. apply IH.
Qed.
Lemma numbered_snd (w : nat -> who) (l : list (func A * opts)) : map (fun x => snd (snd x)) (numbered w l) = map snd l.
Proof.
  unfold numbered. generalize 0. induction l as [|x l IH]; intros n; [reflexivity|]. cbn [List.length List.seq map combine fst snd]. f_equal. apply IH.
Qed.
Lemma seq_nth_some n m i x : nth_error (List.seq n m) i = Some x -> x = n + i /\ i < m.
Proof. revert n i. induction m as [|m IH]; intros n [|i] H; cbn [List.seq nth_error] in H; try discriminate; [injection H as <-; lia|]. apply IH in H. lia. Qed.
Lemma nth_error_rev {B} (l : list B) i x : nth_error (rev l) i = Some x -> nth_error l (List.length l - S i) = Some x /\ i < List.length l.
Proof.
  intros H. assert (i < List.length l) as Li. { rewrite <- rev_length. apply nth_error_Some. congruence. } split; [|exact Li].
  rewrite <- (firstn_skipn (List.length l - S i) l) in H |- * at 1. rewrite rev_app_distr in H. rewrite nth_error_app2 by (rewrite firstn_length; lia). rewrite firstn_length.
  replace (List.length l - S i - Nat.min (List.length l - S i) (List.length l)) with 0 by lia.
  destruct (skipn (List.length l - S i) l) as [|y r] eqn:E; [pose proof (skipn_length (List.length l - S i) l) as K; rewrite E in K; cbn in K; lia|].
  assert (List.length r = i) as Lr. { pose proof (skipn_length (List.length l - S i) l) as K. rewrite E in K. cbn [List.length] in K. lia. }
  cbn [rev] in H. rewrite <- app_assoc in H. rewrite nth_error_app2 in H by (rewrite rev_length; lia). rewrite rev_length, Lr, Nat.sub_diag in H. exact H.
Qed.
Definition defaults (sv : server) : opts := [(bs "rate", s_rate sv); (bs "buffer_size", @s_bufsize A sv)].
Definition route_of (er : errors) (valid : bool) (route : option (handler A * opts)) : handler A * opts :=
  if valid then match route with Some x => x | None => on_404 er end else on_400 er.

Lemma received sv er valid hb route w :
  let '(w', res) := headers_received e sv er valid hb route w in
  exists trq rest b, w_log w' = w_log w ++ trq ++ rest /\
    stops_at_first (fun r => r = ONone) (map ReqMid (List.seq 0 (List.length (s_req sv)))) (map called trq) b /\
    (b = false -> rest = []) /\
    (b = true -> rest = [] /\ (exists x, res = inr x) \/
       exists h trr, rest = h :: trr /\ ev_who h = Handler /\
         match ev_out h with
         | OData _ => (exists b', stops_at_first (fun r => r = ONone) (rev (map RespMid (List.seq 0 (List.length (s_resp sv))))) (map called trr) b') \/
                      trr = [] /\ exists x, res = inr x
         | _ => trr = []
         end) /\
    (forall ev k, In ev (trq ++ rest) -> dget beqb k (ev_opts ev) =
       match ev_who ev with
       | ReqMid i => first_of k (firstn (S i) (map snd (s_req sv)))
       | Handler => first_of k (map snd (s_req sv) ++ [snd (route_of er valid route); defaults sv])
       | RespMid i => first_of k (map snd (s_req sv) ++ [snd (route_of er valid route); defaults sv] ++ rev (skipn i (map snd (s_resp sv))))
       end).
Proof.
  unfold headers_received. fold (route_of er valid route). destruct (middlewares_log (numbered ReqMid (s_req sv)) [] w) as (trq & b & L & St & O & T & F).
  rewrite numbered_fst in St.
  assert (forall ev k, In ev trq -> dget beqb k (ev_opts ev) = match ev_who ev with ReqMid i => first_of k (firstn (S i) (map snd (s_req sv))) | _ => None end /\ exists i, ev_who ev = ReqMid i) as Oq.
  { intros ev k I. apply In_nth_error in I as [i Hi]. pose proof (map_nth_error called i trq Hi) as Hc. apply (stops_nth _ _ _ _ St) in Hc. cbn [called fst] in Hc.
    destruct (nth_error (List.seq 0 (List.length (s_req sv))) i) as [j|] eqn:Ej.
    - rewrite (map_nth_error ReqMid _ _ Ej) in Hc. injection Hc as Hc. rewrite <- Hc. apply seq_nth_some in Ej as [-> _]. rewrite (O i ev Hi k). cbn [first_of dget Nat.add]. split; [|now exists i].
      f_equal. rewrite <- !firstn_map. now rewrite numbered_snd.
    - assert (nth_error (map ReqMid (List.seq 0 (List.length (s_req sv)))) i = None) as N. { apply nth_error_None. rewrite map_length. now apply nth_error_None. } congruence. }
  unfold andthen. destruct (middlewares e (numbered ReqMid (s_req sv)) [] w) as [w1 r]. cbn [fst snd] in *. destruct b.
  - destruct (T eq_refl) as (o & -> & Ho). destruct (route_of er valid route) as [h kw] eqn:Er.
    pose proof (handle_response_log sv hb h (merge kw o) w1) as H. destruct (handle_response e sv hb h (merge kw o) w1) as [w' res]. cbn [fst snd] in H.
    assert (forall k ds, first_of k (with_defaults sv (merge kw o) :: ds) = first_of k (map snd (s_req sv) ++ [kw; defaults sv] ++ ds)) as Hd.
    { intros k ds. cbn [first_of]. unfold with_defaults, merge. rewrite !dget_app, Ho. cbn [first_of dget]. rewrite numbered_snd. etransitivity; [|symmetry; apply (first_of_app k (map snd (s_req sv)) ([kw; defaults sv] ++ ds))]. cbn [app first_of]. destruct (first_of k (map snd (s_req sv))); [reflexivity|].
      destruct (dget beqb k kw); [reflexivity|]. unfold defaults. cbn [dget]. destruct (beqb k (bs "rate")); [reflexivity|]. now destruct (beqb k (bs "buffer_size")). }
    destruct H as [[H1 H2]|(hv & trr & H1 & H2 & H3 & H4 & H5)].
    + exists trq, [], true. split; [rewrite app_nil_r; congruence|]. split; [exact St|]. split; [discriminate|]. split; [intros _; left; now split|]. intros ev k I. rewrite app_nil_r in I. destruct (Oq ev k I) as [Q1 [i Q2]]. rewrite Q2 in *. exact Q1.
    + exists trq, (hv :: trr), true. split; [rewrite H1, L, <- app_assoc; reflexivity|]. split; [exact St|]. split; [discriminate|].
      assert (map fst (resp_chain sv) = rev (map RespMid (List.seq 0 (List.length (s_resp sv))))) as Rc. { unfold resp_chain. rewrite map_rev. now rewrite numbered_fst. }
      split.
      * intros _. right. exists hv, trr. split; [reflexivity|]. split; [exact H2|]. rewrite Rc in H5. exact H5.
      * intros ev k I. apply in_app_iff in I as [I|[<-|I]].
        -- destruct (Oq ev k I) as [Q1 [i Q2]]. rewrite Q2 in *. exact Q1.
        -- rewrite H2, H3. specialize (Hd k []). cbn [first_of] in Hd. rewrite app_nil_r in Hd. cbn [snd]. rewrite <- Hd. now destruct (dget beqb k (with_defaults sv (merge kw o))).
        -- apply In_nth_error in I as [i Hi]. destruct (ev_out hv); [destruct i; rewrite H5 in Hi; discriminate| |destruct i; rewrite H5 in Hi; discriminate..].
           destruct H5 as [[b' H5]|[-> _]]; [|destruct i; discriminate]. pose proof (map_nth_error called i trr Hi) as Hc. apply (stops_nth _ _ _ _ H5) in Hc. rewrite Rc in Hc. cbn [called fst] in Hc.
           apply nth_error_rev in Hc as [Hc Hl]. rewrite map_length, seq_length in *. set (n := List.length (s_resp sv)) in *.
           destruct (nth_error (List.seq 0 n) (n - S i)) as [j|] eqn:Ej; [|assert (nth_error (map RespMid (List.seq 0 n)) (n - S i) = None) as N by (apply nth_error_None; rewrite map_length; now apply nth_error_None); congruence].
           rewrite (map_nth_error RespMid _ _ Ej) in Hc. injection Hc as Hc. rewrite <- Hc. apply seq_nth_some in Ej as [-> _]. rewrite (H4 i ev Hi k), Hd. cbn [snd Nat.add]. do 3 f_equal.
           unfold resp_chain. rewrite <- firstn_map, map_rev, numbered_snd, firstn_rev, map_length. reflexivity.
  - destruct r as [[o|]|x]; [exfalso; now apply (F eq_refl o)| |]; exists trq, [], false; rewrite app_nil_r; (split; [exact L|]; split; [exact St|]; split; [reflexivity|]; split; [discriminate|]);
    intros ev k I; destruct (Oq ev k I) as [Q1 [i Q2]]; rewrite Q2 in *; exact Q1.
Qed.

(** ** The handler is reached *)
Definition fresh (s : rsp) : Prop := exists d, r_headers s = Some d /\ hget k_line d = None.
Definition polite (f : func A) : Prop := forall a s c, fresh s -> fresh (snd (fst (f a s c))).
Definition clean_opts (o : opts) : Prop :=
  (forall v, dget beqb (bs "status") o = Some v -> exists c m, v = VStatus c m /\ one_line m) /\
  (forall v, dget beqb (bs "content_type") o = Some v -> exists t, v = VText t /\ one_line t).
Lemma fresh_set_header n v s : one_line n -> one_line v -> beqb k_line (lower n) = false -> fresh s -> exists s', set_header n v s = (Ok tt, s') /\ fresh s'.
Proof.
  intros On Ov Nk (d & E & K). unfold set_header. assert (memb LF n = false) as -> by now apply memb_notIn. assert (memb LF v = false) as -> by now apply memb_notIn. cbn [orb]. unfold seq, get_headers. rewrite E.
  eexists. split; [reflexivity|]. eexists. split; [reflexivity|]. unfold hget, hset. now rewrite dget_dset, Nk.
Qed.
Lemma fresh_base s : fresh s -> exists s', set_base_header e s = (Ok tt, s') /\ fresh s'.
Proof.
  intros F. unfold set_base_header. destruct F as (d & E & K). rewrite E. destruct d as [|x d]; [|exists s; split; [reflexivity|]; eexists; split; eassumption]. unfold seq.
  destruct (fresh_set_header (bs "Date") (e_date e) s) as (s1 & -> & F1); [apply memb_notIn; reflexivity|exact D|reflexivity|eexists; split; eassumption|].
  destruct (fresh_set_header (bs "Server") (e_server e) s1) as (s2 & -> & F2); [apply memb_notIn; reflexivity|exact Sv|reflexivity|exact F1|]. now exists s2.
Qed.
Lemma fresh_ctype t s : one_line t -> fresh s -> exists s', set_content_type t s = (Ok tt, s') /\ fresh s'.
Proof.
  intros O (d & E & K). unfold set_content_type. assert (memb LF t = false) as -> by now apply memb_notIn. unfold seq, get_headers. rewrite E. destruct (hmem k_ctype d).
  - eexists. split; [reflexivity|]. eexists. split; [reflexivity|]. unfold hget, hset. rewrite dget_dset. now change (beqb k_line k_ctype) with false.
  - eexists. split; [reflexivity|]. exists d. now split.
Qed.
Lemma fresh_status c m s : one_line m -> fresh s -> exists s', set_status c m s = (Ok tt, s') /\ fresh s'.
Proof.
  intros O (d & E & K). unfold set_status. assert (memb LF m = false) as -> by now apply memb_notIn. unfold seq, get_headers. rewrite E, K. eexists. split; [reflexivity|]. exists d. now split.
Qed.
Definition with_rsp (w : world A) (s : rsp) : world A := mkW (w_app w) s (w_ctx w) (w_log w).
Lemma rsp_do_ok {X} (m : call X) w x s' : m (w_rsp w) = (Ok x, s') -> rsp_do m w = (with_rsp w s', inl x).
Proof. intros E. unfold rsp_do. now rewrite E. Qed.
Lemma fresh_apply o (w : world A) : clean_opts o -> fresh (w_rsp w) -> exists s', apply_options o w = (with_rsp w s', inl tt) /\ fresh s'.
Proof.
  intros [C1 C2] F. unfold apply_options.
  assert (exists s1, (match oget "status" o with Some (VStatus c m) => rsp_do (set_status c m) | Some _ => throw XOther | None => ret tt end) w = (with_rsp w s1, inl tt) /\ fresh s1) as (s1 & E1 & F1).
  { unfold oget. destruct (dget beqb (bs "status") o) as [v|] eqn:G.
    - destruct (C1 v eq_refl) as (c & m & -> & O). destruct (fresh_status c m _ O F) as (s1 & E & F1). exists s1. split; [now apply rsp_do_ok|exact F1].
    - exists (w_rsp w). split; [now destruct w|exact F]. }
  rewrite (andthen_inl _ _ _ _ _ E1). unfold oget. destruct (dget beqb (bs "content_type") o) as [v|] eqn:G.
  - destruct (C2 v eq_refl) as (t & -> & O). destruct (fresh_ctype t s1 O F1) as (s2 & E & F2). exists s2. split; [|exact F2]. now apply (rsp_do_ok _ (with_rsp w s1)).
  - now exists s1.
Qed.
Lemma fresh_sse s : fresh s -> exists s', do_mid e sse_hops s = (Ok tt, s') /\ fresh s'.
Proof.
  intros F. unfold sse_hops, do_mid, do_hop, seq.
  destruct (fresh_ctype (bs "text/event-stream") s) as (s1 & -> & F1); [apply memb_notIn; reflexivity|exact F|].
  destruct (fresh_set_header (bs "Cache-Control") (bs "no-cache, must-revalidate") s1) as (s2 & -> & F2); [apply memb_notIn; reflexivity..|reflexivity|exact F1|].
  destruct (fresh_set_header (bs "Expires") (bs "Thu, 01 Jan 1970 00:00:00 GMT") s2) as (s3 & -> & F3); [apply memb_notIn; reflexivity..|reflexivity|exact F2|]. now exists s3.
Qed.
Lemma fresh_middlewares (l : list (who * (func A * opts))) : Forall (fun x => polite (fst (snd x))) l -> forall o w w' o', fresh (w_rsp w) -> middlewares e l o w = (w', inl (Some o')) -> fresh (w_rsp w').
Proof.
  induction 1 as [|[n [f mo]] l P _ IH]; intros o w w' o' F H; cbn [middlewares] in H; [now injection H as <- _|]. unfold andthen at 1 in H.
  destruct (handle_middleware e n f (merge mo o) w) as [w1 [[o1|]|x]] eqn:E; [|discriminate..]. apply (IH _ _ _ _) in H; [exact H|]. clear H. revert E. unfold handle_middleware.
  destruct (fresh_base _ F) as (s1 & E1 & F1). rewrite (andthen_inl _ _ _ _ _ (rsp_do_ok _ w _ _ E1)). unfold andthen at 1, ctx_update, run_func at 1. unfold andthen at 1. cbn [w_app w_rsp w_ctx w_log with_rsp].
  cbn [fst snd] in P. specialize (P (w_app w) s1 (merge (w_ctx w) (merge mo o)) F1). destruct (f (w_app w) s1 (merge (w_ctx w) (merge mo o))) as [[a s2] r]. cbn [fst snd] in P. rewrite andthen_note. cbn [w_app w_rsp w_ctx w_log].
  destruct r as [|d| |x].
  - intros H. injection H as <- _. exact P.
  - set (w2 := mkW _ _ _ _). unfold andthen. destruct (apply_options (merge mo o) w2) as [w3 [[]|x]]; [|discriminate]. destruct (rsp_do (end_ e d true None) w3) as [w4 [[]|x]]; discriminate.
  - discriminate.
  - discriminate.
Qed.
Lemma handler_called sv hb (h : handler A) o (w : world A) : clean_opts o -> fresh (w_rsp w) -> exists hv tr, ev_who hv = Handler /\ w_log (fst (handle_response e sv hb h o w)) = w_log w ++ hv :: tr.
Proof.
  intros C F. assert (clean_opts (with_defaults sv o)) as C'. { destruct C as [C1 C2]. unfold with_defaults. split; intros v G; rewrite dget_app in G; [destruct (dget beqb (bs "status") o) eqn:E; [apply C1; congruence|discriminate]|destruct (dget beqb (bs "content_type") o) eqn:E; [apply C2; congruence|discriminate]]. }
  pose proof (handle_response_log sv hb h o w) as [[L [x R]]|(hv & tr & L & H & _)]; [|now exists hv, tr]. exfalso. revert L R.
  unfold handle_response. change (set_default "buffer_size" (s_bufsize sv) (set_default "rate" (s_rate sv) o)) with ((o ++ [(bs "rate", s_rate sv)]) ++ [(bs "buffer_size", s_bufsize sv)]). rewrite <- app_assoc. fold (with_defaults sv o).
  set (o1 := with_defaults sv o) in *. cbv zeta.
  match goal with |- context [andthen ?m ?k w] => set (m1 := m); set (k1 := k) end.
  assert (exists s1, m1 w = (with_rsp w s1, inl tt) /\ fresh s1) as (s1 & E1 & F1).
  { unfold m1. destruct (oget "sse" o1); [destruct hb|]; [exists (w_rsp w); split; [now destruct w|exact F]| |exists (w_rsp w); split; [now destruct w|exact F]]. destruct (fresh_sse _ F) as (s1 & E1 & F1). exists s1. split; [now apply rsp_do_ok|exact F1]. }
  rewrite (andthen_inl _ _ _ _ _ E1). unfold k1. destruct (fresh_apply o1 (with_rsp w s1) C' F1) as (s2 & E2 & F2). rewrite (andthen_inl _ _ _ _ _ E2).
  destruct (fresh_base s2 F2) as (s3 & E3 & F3). rewrite (andthen_inl _ _ _ _ _ (rsp_do_ok _ (with_rsp (with_rsp w s1) s2) _ _ E3)).
  match goal with |- context [andthen (ctx_update o1) ?k ?w] => rewrite (andthen_inl (ctx_update o1) k w _ _ eq_refl); set (w4 := mkW _ _ _ _) end. assert (w_log w4 = w_log w) as L4 by reflexivity. clearbody w4.
  match goal with |- context [andthen ?m ?k w4] => set (m5 := m); set (k5 := k) end. assert (exists r w5, m5 w4 = (w5, inl r) /\ w_log w5 = w_log w) as (r & w5 & E5 & L5).
  { unfold m5. destruct h as [f|[|f l]]; [|exists (OExc XOther), w4; now split|]; unfold run_func; destruct (f (w_app w4) (w_rsp w4) (w_ctx w4)) as [[a s] r]; exists r; eexists; (split; [reflexivity|exact L4]). }
  rewrite (andthen_inl _ _ _ _ _ E5). unfold k5. rewrite andthen_note. set (w6 := mkW _ _ _ _). assert (List.length (w_log w6) = S (List.length (w_log w))) as L6 by (unfold w6; cbn [w_log]; rewrite app_length, L5; cbn; lia). clearbody w6.
  intros L _. enough (exists tr, w_log (fst ((match h with
     | Coro _ => match r with ONone => rsp_do (close false) | OData d => act! st <- rsp_do (start_response e (mkHOpts (option_map truthy (oget "chunked" o1)) true 1)) in send_value e sv o1 st d | OOther => ret tt | OExc x => throw x end
     | Gen steps => match r with OData d => act! st <- rsp_do (start_response e (mkHOpts (option_map truthy (oget "chunked" o1)) true 1)) in send_stream e sv o1 st d (tl steps) | OExc x => throw x | _ => throw XOther end
     end) w6)) = w_log w6 ++ tr) as [tr K].
  { assert (List.length (w_log (fst ((match h with
     | Coro _ => match r with ONone => rsp_do (close false) | OData d => act! st <- rsp_do (start_response e (mkHOpts (option_map truthy (oget "chunked" o1)) true 1)) in send_value e sv o1 st d | OOther => ret tt | OExc x => throw x end
     | Gen steps => match r with OData d => act! st <- rsp_do (start_response e (mkHOpts (option_map truthy (oget "chunked" o1)) true 1)) in send_stream e sv o1 st d (tl steps) | OExc x => throw x | _ => throw XOther end
     end) w6))) = List.length (w_log w)) as K2. { f_equal. rewrite <- L. destruct h, r; reflexivity. } rewrite K, app_length in K2. lia. }
  assert (forall m : act A unit, quiet m -> exists tr, w_log (fst (m w6)) = w_log w6 ++ tr) as Kq by (intros m Q; exists []; now rewrite app_nil_r).
  assert (forall d (m : act A unit), resp_logged sv o1 w6 (fst (m w6)) (snd (m w6)) d -> exists tr, w_log (fst (m w6)) = w_log w6 ++ tr) as Kr by (intros d m (tr & T & _); now exists tr).
  destruct h as [f|steps], r as [|d| |x']; try (apply Kq; first [apply quiet_throw|apply quiet_rsp|apply quiet_ret]).
  - apply (Kr d). match goal with |- context [andthen ?m ?k w6] => set (m7 := m); set (k7 := k) end. destruct (after_quiet m7 k7 w6) as [(st & w7 & E7 & L7 & ->)|(x7 & L7 & E7)]; [apply quiet_rsp| |rewrite E7; now apply resp_logged_raise].
    apply (resp_logged_first _ _ _ w7 _ _ _ L7). apply send_value_log.
  - apply (Kr d). match goal with |- context [andthen ?m ?k w6] => set (m7 := m); set (k7 := k) end. destruct (after_quiet m7 k7 w6) as [(st & w7 & E7 & L7 & ->)|(x7 & L7 & E7)]; [apply quiet_rsp| |rewrite E7; now apply resp_logged_raise].
    apply (resp_logged_first _ _ _ w7 _ _ _ L7). apply send_stream_log.
Qed.
(** The handler is called if and only if every request middleware returned None. *)
Lemma reached sv er valid hb route (w : world A) : fresh (w_rsp w) -> Forall (fun m => polite (fst m) /\ clean_opts (snd m)) (s_req sv) -> clean_opts (snd (route_of er valid route)) -> w_log w = [] ->
  ((exists ev, In ev (w_log (fst (headers_received e sv er valid hb route w))) /\ ev_who ev = Handler) <->
   forall i, i < List.length (s_req sv) -> exists o, In (Called (ReqMid i) o ONone) (w_log (fst (headers_received e sv er valid hb route w)))).
Proof.
  intros F P C L0. pose proof (received sv er valid hb route w) as R. destruct (headers_received e sv er valid hb route w) as [w' res] eqn:E. cbn [fst]. destruct R as (trq & rest & b & L & St & Fa & Tr & _). rewrite L0 in L. cbn [app] in L.
  assert (forall ev, In ev trq -> exists i, ev_who ev = ReqMid i) as Wq.
  { intros ev I. apply In_nth_error in I as [i Hi]. pose proof (map_nth_error called i trq Hi) as Hc. apply (stops_nth _ _ _ _ St) in Hc. cbn [called fst] in Hc. apply nth_error_In in Hc. apply in_map_iff in Hc as (j & <- & _). now exists j. }
  destruct b.
  - apply stops_true in St as [S1 S2].
    assert (rest <> []) as Nr.
    { revert E. unfold headers_received. fold (route_of er valid route). unfold andthen. destruct (middlewares_log (numbered ReqMid (s_req sv)) [] w) as (tr & b & La & Lb & Lc & Ld & Le).
      destruct (middlewares e (numbered ReqMid (s_req sv)) [] w) as [w1 r] eqn:Em. cbn [fst snd] in *. intros E Er.
      subst rest. rewrite app_nil_r in L. destruct b.
      - destruct (Ld eq_refl) as (o & -> & Ho). destruct (route_of er valid route) as [h kw] eqn:Ero. cbn [snd] in C.
        assert (fresh (w_rsp w1)) as Fw. { refine (fresh_middlewares _ _ _ _ _ _ F Em). rewrite Forall_forall in P |- *. intros x I. apply (P (snd x)). unfold numbered in I. destruct x as [n x]. apply in_combine_r in I. exact I. }
        assert (clean_opts (merge kw o)) as Co.
        { assert (forall k v, dget beqb k (merge kw o) = Some v -> exists d, (In d (map snd (s_req sv)) \/ d = kw) /\ dget beqb k d = Some v) as K.
          { intros k v G. unfold merge in G. rewrite dget_app, Ho in G. cbn [first_of dget] in G. rewrite numbered_snd in G. assert (forall ds, first_of k ds = Some v -> exists d, In d ds /\ dget beqb k d = Some v) as K.
            { induction ds as [|d ds IHd]; [discriminate|]. cbn [first_of]. destruct (dget beqb k d) eqn:Gd; [intros G'; injection G' as ->; exists d; split; [now left|exact Gd]|]. intros G'. destruct (IHd G') as (d' & I & G2). exists d'. split; [now right|exact G2]. }
            destruct (first_of k (map snd (s_req sv))) eqn:G2; [|exists kw; split; [now right|exact G]]. injection G as ->. destruct (K _ G2) as (d & I & G3). exists d. split; [now left|exact G3]. }
          assert (forall d, In d (map snd (s_req sv)) \/ d = kw -> clean_opts d) as Kc. { intros d [I| ->]; [|exact C]. apply in_map_iff in I as (m & <- & I). rewrite Forall_forall in P. now apply P. }
          split; intros v G; apply K in G as (d & I & G); [now apply (Kc d I)|now apply (Kc d I)]. }
        destruct (handler_called sv hb h (merge kw o) w1 Co Fw) as (hv & tr2 & Hw & Hl). rewrite E in Hl. cbn [fst] in Hl. rewrite La, L0, L in Hl. cbn [app] in Hl.
        assert (In hv trq) as I by (rewrite Hl; apply in_or_app; right; now left). destruct (Wq hv I) as [i Hi]. congruence.
      - assert (map fst (map called tr) <> map fst (numbered ReqMid (s_req sv)) \/ ~ Forall (fun c => snd c = ONone) (map called tr)) as K.
        { right. clear - Lb. remember false as b. induction Lb; [discriminate| |]; intros X; inversion X; subst; [now apply IHLb|]. cbn [snd] in *. contradiction. }
        assert (w' = w1) as -> by (destruct r as [[o|]|x]; [exfalso; now apply (Le eq_refl o)|now injection E as <- _..]). assert (tr = trq) as -> by (rewrite L0 in La; cbn [app] in La; congruence). rewrite numbered_fst in K. destruct K as [K|K]; [now apply K|contradiction]. }
    split; [intros _|intros _].
    + intros i Li. assert (In (ReqMid i) (map fst (map called trq))) as I by (rewrite S1; apply in_map, in_seq; lia). apply in_map_iff in I as (c & Ec & I). apply in_map_iff in I as (ev & Ev & I). subst c. cbn [called fst] in Ec.
      rewrite Forall_forall in S2. assert (ev_out ev = ONone) as O by (apply (S2 (called ev)); now apply in_map). exists (ev_opts ev). rewrite L. apply in_or_app. left. destruct ev as [n o r]. cbn [ev_who ev_out ev_opts] in *. now subst.
    + destruct (Tr eq_refl) as [[-> _]|(h & trr & -> & Hw & _)]; [easy|]. exists h. split; [rewrite L; apply in_or_app; right; now left|exact Hw].
  - rewrite (Fa eq_refl), app_nil_r in L. split.
    + intros (ev & I & W). rewrite L in I. destruct (Wq ev I) as [i Hi]. congruence.
    + intros All. exfalso. rewrite L in All.
      assert (exists k o, In (k, o) (map called trq) /\ o <> ONone /\ In k (map ReqMid (List.seq 0 (List.length (s_req sv)))) /\ forall o', In (k, o') (map called trq) -> o' = o) as (k & o & I1 & I2 & I3 & I4).
      { assert (NoDup (map ReqMid (List.seq 0 (List.length (s_req sv))))) as ND by (apply FinFun.Injective_map_NoDup; [now intros x y [=]|apply seq_NoDup]). revert St ND. generalize (map ReqMid (List.seq 0 (List.length (s_req sv)))). generalize (map called trq). intros cs ks St. clear Fa Tr. remember false as b.
        induction St as [|k ks o cs b Po St IH|k ks o Po]; intros ND; [discriminate| |].
        - inversion_clear ND as [|? ? N1 N2]. destruct (IH Heqb N2) as (k' & o' & J1 & J2 & J3 & J4). exists k', o'. split; [now right|]. split; [exact J2|]. split; [now right|]. intros o2 [J|J]; [injection J as <- <-; contradiction|now apply J4].
        - exists k, o. split; [now left|]. split; [exact Po|]. split; [now left|]. intros o' [J|[]]. now injection J. }
      apply in_map_iff in I3 as (i & <- & Ii). apply in_seq in Ii. destruct (All i ltac:(lia)) as (o2 & J). apply I2. symmetry. apply (I4 ONone). now apply (in_map called) in J.
Qed.
End Base.
End P.
