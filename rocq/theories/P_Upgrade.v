From Verif Require Import PyBytes PyBytesFacts PyInt PyExn M_Parser M_Framing M_Conn S_Conn S_Upgrade P_Framing P_Header P_Parser2 P_Conn P_Conn2 P_Conn7.
From Coq Require Import ZifyBool ZifyNat ZifyN.

(** ** Lists *)
Lemma written_app a b : written (a ++ b) = written a ++ written b.
Proof. unfold written. now rewrite map_app, concat_app. Qed.
Lemma puts_app i a b : puts i (a ++ b) = puts i a ++ puts i b.
Proof. unfold puts. now rewrite map_app, concat_app. Qed.
Definition somes (q : list (option bytes)) : bytes := List.concat (map (fun x => match x with Some d => d | None => [] end) q).
Lemma somes_app a b : somes (a ++ b) = somes a ++ somes b.
Proof. unfold somes. now rewrite map_app, concat_app. Qed.
Lemma somes_map ds : somes (map Some ds) = List.concat ds.
Proof. unfold somes. rewrite map_map. now rewrite map_id. Qed.
Definition nnone (q : list (option bytes)) : nat := List.length (filter (fun x => match x with None => true | Some _ => false end) q).
Lemma nnone_app a b : nnone (a ++ b) = nnone a + nnone b.
Proof. unfold nnone. now rewrite filter_app, app_length. Qed.
(** What is in the queue before its (n + 1)-th end marker. *)
Fixpoint before (n : nat) (q : list (option bytes)) : bytes :=
  match q with
  | [] => []
  | Some d :: q' => d ++ before n q'
  | None :: q' => match n with O => [] | S n' => before n' q' end
  end.
Lemma before_put q d : forall n, before n (q ++ [Some d]) = before n q ++ (if nnone q <=? n then d else []).
Proof.
  induction q as [|[x|] q IH]; intros n; cbn [app before].
  - now rewrite app_nil_r.
  - rewrite IH, app_assoc. reflexivity.
  - destruct n as [|n]; [reflexivity|]. rewrite IH. reflexivity.
Qed.
Lemma before_end q : forall n, before n (q ++ [None]) = before n q.
Proof.
  induction q as [|[x|] q IH]; intros n; cbn [app before]; [now destruct n|now rewrite IH|]. destruct n; [reflexivity|apply IH].
Qed.
Definition closes0 (tr : list cev) : nat := List.length (filter (fun e => match e with HClose 0 _ => true | _ => false end) tr).
Lemma closes0_app a b : closes0 (a ++ b) = closes0 a + closes0 b.
Proof. unfold closes0. now rewrite filter_app, app_length. Qed.
Lemma said_snoc tr e : forall n, said n (tr ++ [e]) = said n tr ++ (if closes0 tr <=? n then match e with HPut 0 d => d | _ => [] end else []).
Proof.
  induction tr as [|x tr IH]; intros n.
  - cbn. destruct e; try reflexivity; destruct i; rewrite ?app_nil_r; try reflexivity. now destruct n.
  - cbn [app]. assert (closes0 (x :: tr) = match x with HClose 0 _ => S (closes0 tr) | _ => closes0 tr end) as -> by (destruct x; try reflexivity; now destruct i).
    destruct x; cbn [said]; try apply IH; destruct i; try apply IH.
    + rewrite IH, app_assoc. reflexivity.
    + destruct n as [|n]; [reflexivity|]. apply IH.
Qed.

Section Session.
Context (o : copts) (m : msg) (p : nat) (R : hreq).
Context (Fm : find (CRLF ++ CRLF) (m_head m) = Some p) (Lm : List.length (m_head m) = p + 4) (Hm : (Z.of_nat p + 2 <= o_head o)%Z).
Context (Rm : frame_head (m_head m) (Z.of_nat p + 2) = Framed R) (Bm : has_body R = false).
Let head := m_head m.

Lemma plain_request : rq_continue R = false /\ rq_content_length R = (-1)%Z.
Proof.
  revert Rm. unfold frame_head. cbn zeta. destruct (is_request _); [|discriminate].
  destruct (request_init _) as [r0|] eqn:Ei; [|discriminate]. destruct (frame r0) as [r1|] eqn:Ef; [|discriminate]. intros X. injection X as ->.
  apply frame_inv in Ef as (ka & _ & _ & Eh & _ & _ & _ & Ef). unfold has_body in *. rewrite Eh in Bm. rewrite Bm in Ef. destruct Ef as (_ & -> & ->).
  revert Ei. unfold request_init, bind. destruct (as_bytes _); [|discriminate]. destruct (as_bytes _); [|discriminate]. destruct (partition _ _) as [[? ?] ?]. intros X. injection X as <-. now split.
Qed.

(** ** The phases of an open connection *)
Definition rok (r : creq) : Prop := q_head r = head /\ q_info r = R /\ q_cont r = false.
Definition st0 bb := mkC (Some bb) false false false [] [] [false] (Some 0) None None [] None [] [] true.
Definition st1 := mkC None true false false [] [] [false] (Some 0) None None [] None [HStart head (Z.of_nat p + 2)] [] true.
Definition st2 r ds q1 := mkC None true false false (map Some ds) q1 [true] (Some 0) None None [r] (Some 0) [HOver] [] true.
Definition st3 r ds q1 w rc pa := mkC None pa false false (map Some ds) q1 [true] None None (Some w) [r] (Some 0) [HOver] rc true.

Record acc (tr : list cev) (b : list obs) (q1 : list (option bytes)) (r : creq) : Prop := {
  ac_rok : rok r;
  ac_eof : q_eof r = false;
  ac_said : forall n, ended b <= n -> said n tr = written b ++ before (n - ended b) q1;
  ac_count : ended b + nnone q1 = closes0 tr;
  ac_puts : puts 0 tr = written b ++ somes q1;
  ac_upg : In (HUpgrade 0) tr -> q_upg r = true;
  ac_closed : closes0 tr <> 0 -> In (HUpgrade 0) tr;
  ac_live : In (HEnd 0) tr \/ q_live r = true;
  ac_keep : In (HClose 0 false) tr \/ q_keep r = rq_keepalive R;
  ac_starts : starts b = [(0, head)];
  ac_got : ~ In (Got 0 None) b
}.
(** The receive tasks: the last one may run, and then reading is paused. *)
Definition tasks (w : wref) (rc : list rcv) (pa : bool) : Prop :=
  exists a, (rc = repeat ROver a /\ pa = false /\ (w = WFut 0 \/ exists j, w = WTask j /\ j < a)) \/
    (exists t, rc = repeat ROver a ++ [t] /\ pa = true /\ w = WTask a /\
       match t with RWait w' d => (w' = WFut 0 \/ exists j, w' = WTask j /\ j < a) | RPut _ _ => True | ROver => False end).
Inductive phase (tr : list cev) (s : conn) (b : list obs) : Prop :=
  | Ph0 bb : s = st0 bb -> find (CRLF ++ CRLF) bb = None -> is_prefix bb head -> input tr = bb -> Forall (fun e => exists d, e = Data d) tr -> b = [] -> phase tr s b
  | Ph1 : s = st1 -> input tr = head -> Forall (fun e => exists d, e = Data d) tr -> b = [] -> phase tr s b
  | Ph2 r ds q1 : s = st2 r ds q1 -> List.concat ds = [] -> input tr = head -> got 0 b = [] -> ended b = 0 -> acc tr b q1 r -> phase tr s b
  | Ph3 r ds q1 w rc pa : s = st3 r ds q1 w rc pa -> tasks w rc pa -> input tr = head ++ got 0 b ++ List.concat ds ++ pend rc -> ended b = 1 -> q_upg r = true ->
      acc tr b q1 r -> phase tr s b.

(** ** A connection that is closing *)
Record closed (tr : list cev) (s : conn) (b : list obs) : Prop := {
  cl_closing : c_closing s = true;
  cl_written : is_prefix (written b) (puts 0 tr);
  cl_upg : closes0 tr <> 0 -> In (HUpgrade 0) tr;
  cl_case :
    ((c_lost s = true \/ (c_reqs s = [] /\ c_hrs s = [] /\ c_rcv s = [])) /\
      ((got 0 b = [] /\ starts b = []) \/ (starts b = [(0, head)] /\ is_prefix (head ++ got 0 b) (input tr)))) \/
    (c_reqs s = [] /\ c_hrs s = [HStart head (Z.of_nat p + 2)] /\ c_rcv s = [] /\ c_q0 s = [] /\ c_q1 s = [] /\ c_hb s = None /\ c_wreq s = Some 0 /\ b = [] /\ input tr = head /\ ~ In (HUpgrade 0) tr /\ closes0 tr = 0) \/
    (exists r ov l junk, c_reqs s = [r] /\ rok r /\ c_hrs s = [HOver] /\ c_hb s = None /\ c_cur s = Some 0 /\ starts b = [(0, head)] /\
      c_rcv s = repeat ROver ov ++ l /\ (l = [] \/ exists t, l = [t] /\ t <> ROver /\ junk = [] /\ q_upg r = true) /\
      input tr = head ++ got 0 b ++ somes (c_q0 s) ++ pend l ++ junk /\ (In None (c_q1 s) -> q_upg r = true) /\ (In (HUpgrade 0) tr -> q_upg r = true))
}.

Definition why (tr : list cev) (b : list obs) (e : cev) (s' : conn) (bx : list obs) : Prop :=
  e = Abort \/ e = Eof \/ e = Lost \/ (o_head o < blen head)%Z \/ (o_queue o < Z.of_nat (List.length (c_q0 s')))%Z \/
  (In Ended bx /\ (ended b = 1 \/ In (HClose 0 false) tr \/ rq_keepalive R = false)).
Definition step_ok (tr : list cev) (b : list obs) (e : cev) : Prop :=
  match e with
  | Data d => is_prefix (input tr ++ d) head \/ exists h, In (Wrote h) b
  | HClose 0 _ => In (HUpgrade 0) tr
  | _ => True
  end.

Lemma input_snoc tr e : input (tr ++ [e]) = input tr ++ match e with Data d => d | _ => [] end.
Proof. rewrite input_app. unfold input at 2. cbn. now rewrite app_nil_r. Qed.
Lemma data_only tr : Forall (fun e => exists d, e = Data d) tr -> (forall n, said n tr = []) /\ puts 0 tr = [] /\ closes0 tr = 0 /\ ~ In (HUpgrade 0) tr.
Proof.
  induction 1 as [|e tr (d & ->) _ (A & B & C & D)]; [now repeat split|]. repeat split; try assumption. intros [X|X]; [discriminate|easy].
Qed.

(** A step that ends in neither of the other cases. *)
Lemma step0 tr s b e s' bx bb : s = st0 bb -> find (CRLF ++ CRLF) bb = None -> is_prefix bb head -> input tr = bb -> Forall (fun e => exists d, e = Data d) tr -> b = [] ->
  step_ok tr b e -> conn_step o s e = Some (s', bx) -> phase (tr ++ [e]) s' (b ++ bx) \/ (closed (tr ++ [e]) s' (b ++ bx) /\ why tr b e s' bx).
Proof.
  intros -> Fb Pb Ib Do -> Ok E. pose proof (data_only tr Do) as (Sd & Pd & Cd & Ud). unfold conn_step in E. cbn [c_lost st0] in E.
  assert (forall s'', c_closing s'' = true -> (c_lost s'' = true \/ c_reqs s'' = [] /\ c_hrs s'' = [] /\ c_rcv s'' = []) -> (match e with HClose _ _ | HPut _ _ | HUpgrade _ => False | _ => True end) -> closed (tr ++ [e]) s'' ([] ++ [])) as K.
  { intros s'' H1 H2 H3. split; [exact H1|exists (puts 0 (tr ++ [e])); reflexivity| |].
    - intros X. exfalso. apply X. rewrite closes0_app, Cd. destruct e; try reflexivity. destruct H3.
    - left. split; [exact H2|]. left. split; reflexivity. }
  destruct e; cbn [st0 c_paused c_closing c_hrs c_rcv nth_error orb live c_reqs] in E; try (now destruct j); try (now destruct i); try discriminate.
  - (* Data *) destruct d as [|c d]; [discriminate|]. change (Some (data_received o (Some (c :: d)) (st0 bb), @nil obs) = Some (s', bx)) in E. assert (s' = data_received o (Some (c :: d)) (st0 bb) /\ bx = []) as [-> ->] by (split; congruence). clear E.
    cbn [step_ok] in Ok. destruct Ok as [Ok|(h & [])]. rewrite Ib in Ok. unfold data_received. change (c_hb (st0 bb)) with (Some bb). cbn iota beta zeta.
    assert (blen (bb ++ c :: d) <= blen head)%Z as Bl by (apply prefix_length in Ok; unfold blen, head in *; lia).
    destruct (find (CRLF ++ CRLF) (bb ++ c :: d)) as [q|] eqn:Fq.
    + assert (bb ++ c :: d = head) as Eh.
      { apply prefix_full; [exact Ok|]. destruct Ok as [t Ok]. pose proof (find_app_ext _ _ t _ Fq) as X. rewrite Ok in X. unfold head in X. rewrite Fm in X. injection X as <-. apply find_some in Fq as (X & _). cbn [List.length app CRLF] in X. unfold head. lia. }
      left. rewrite Eh in Fq |- *. unfold head in Fq. rewrite Fm in Fq. injection Fq as <-. cbn [pos]. replace ((1 <? Z.of_nat p + 2) && (Z.of_nat p + 2 <=? o_head o))%Z with true by lia.
      apply Ph1; [reflexivity| |apply Forall_app; split; [exact Do|repeat constructor; now eexists]|reflexivity]. now rewrite input_snoc, Ib.
    + cbn [pos]. replace ((1 <? -1 + 2) && (-1 + 2 <=? o_head o))%Z with false by lia. replace (o_head o <? -1 + 2)%Z with false by lia. cbn [orb].
      replace (-1 + 2 =? 1)%Z with true by lia. cbn [andb]. destruct (blen (bb ++ c :: d) <=? o_head o)%Z eqn:Lq; cbn [negb].
      * left. apply (Ph0 _ _ _ (bb ++ c :: d)); [reflexivity|exact Fq|exact Ok|now rewrite input_snoc, Ib|apply Forall_app; split; [exact Do|repeat constructor; now eexists]|reflexivity].
      * right. split; [apply K; [reflexivity|right; repeat split|exact I]|]. unfold why. right; right; right; left. lia.
  - (* Eof *) injection E as <- <-. right. split; [apply K; [reflexivity|right; repeat split|exact I]|]. unfold why. tauto.
  - (* Abort *) injection E as <- <-. right. split; [apply K; [reflexivity|right; repeat split|exact I]|]. unfold why. tauto.
  - (* Lost *) injection E as <- <-. right. split; [apply K; [reflexivity|left; reflexivity|exact I]|]. unfold why. tauto.
Qed.

Lemma step1 tr s b e s' bx : s = st1 -> input tr = head -> Forall (fun e => exists d, e = Data d) tr -> b = [] ->
  step_ok tr b e -> conn_step o s e = Some (s', bx) -> phase (tr ++ [e]) s' (b ++ bx) \/ (closed (tr ++ [e]) s' (b ++ bx) /\ why tr b e s' bx).
Proof.
  intros -> Ib Do -> Ok E. pose proof (data_only tr Do) as (Sd & Pd & Cd & Ud). unfold conn_step in E. cbn [c_lost st1] in E.
  destruct e; cbn [st1 c_paused c_closing c_hrs c_rcv nth_error orb live c_reqs] in E; try (now destruct j); try (now destruct i); try discriminate.
  - (* Abort *) injection E as <- <-. right. split; [|unfold why; tauto]. split; [reflexivity|exists (puts 0 (tr ++ [Abort])); reflexivity| |].
    + intros X. exfalso. apply X. rewrite closes0_app, Cd. reflexivity.
    + right; left. rewrite input_snoc, Ib, closes0_app, Cd, (app_nil_r head). do 9 (split; [reflexivity|]). split; [|reflexivity]. rewrite in_app_iff. intros [X|[X|[]]]; [easy|discriminate].
  - (* RunHR *) destruct j as [|j]; [|now destruct j]. cbn [nth_error] in E.
    assert (upto head (Z.of_nat p + 2 + 2) = head) as Eu.
    { rewrite P_Parser2.upto_nonneg by lia. apply firstn_all2. unfold head. lia. }
    assert (run_hr o 0 head (Z.of_nat p + 2) st1 = (st2 (mkRq head R (rq_keepalive R) (rq_continue R) false 0 0 false false true) [[]] [], [Started 0 head])) as Er.
    { unfold run_hr. unfold head at 1. rewrite Rm. cbn zeta. rewrite Bm, Eu. replace (Z.of_nat p + 2 + 2 <? blen head)%Z with false by (unfold blen, head; lia). reflexivity. }
    change (Some (run_hr o 0 head (Z.of_nat p + 2) st1) = Some (s', bx)) in E. rewrite Er in E. injection E as <- <-. left.
    apply (Ph2 _ _ _ (mkRq head R (rq_keepalive R) (rq_continue R) false 0 0 false false true) [[]] []); [reflexivity|reflexivity|now rewrite input_snoc, app_nil_r|reflexivity|reflexivity|].
    assert (~ In (HUpgrade 0) (tr ++ [RunHR 0])) as Nu by (rewrite in_app_iff; intros [X|[X|[]]]; [easy|discriminate]).
    split; try reflexivity.
    + split; [reflexivity|]. split; [reflexivity|]. exact (proj1 plain_request).
    + intros n _. rewrite said_snoc, Sd. now destruct (closes0 tr <=? n).
    + now rewrite closes0_app, Cd.
    + now rewrite puts_app, Pd.
    + easy.
    + rewrite closes0_app, Cd. easy.
    + now right.
    + now right.
    + intros [X|[]]. discriminate.
  - (* Lost *) injection E as <- <-. right. split; [|unfold why; tauto]. split; [reflexivity|exists (puts 0 (tr ++ [Lost])); reflexivity| |].
    + intros X. exfalso. apply X. rewrite closes0_app, Cd. reflexivity.
    + left. split; [now left|]. left. now split.
Qed.

(** ** Steps of the handler *)
Definition of_handler (e : cev) : bool := match e with HRead _ | HTake _ | HPut _ _ | HClose _ _ | HContinue _ | HUpgrade _ | HEnd _ => true | _ => false end.
Definition added (e : cev) : list (option bytes) := match e with HPut _ d => [Some d] | HClose _ _ => [None] | _ => [] end.
Definition upd (s : conn) r' q0' q1' := mkC (c_hb s) (c_paused s) (c_closing s) (c_lost s) q0' q1' (c_futs s) (c_wreq s) (c_wkeep s) (c_wrecv s) [r'] (c_cur s) (c_hrs s) (c_rcv s) (c_sending s).
Definition targets (e : cev) (i : nat) : Prop := match e with HRead j | HTake j | HPut j _ | HClose j _ | HContinue j | HUpgrade j | HEnd j => j = i | _ => True end.
Lemma handler_step s e s' bx r : c_reqs s = [r] -> rok r -> of_handler e = true -> conn_step o s e = Some (s', bx) ->
  exists r' q0', s' = upd s r' q0' (c_q1 s ++ added e) /\ rok r' /\ targets e 0 /\ q_live r = true /\
    q_upg r' = q_upg r || match e with HUpgrade _ => true | _ => false end /\
    q_live r' = (q_live r && match e with HEnd _ => false | _ => true end) /\
    q_keep r' = (q_keep r && match e with HClose _ false => false | _ => true end) /\
    ((c_q0 s = q0' /\ bx = [] /\ q_eof r' = q_eof r) \/
     (exists x, c_q0 s = x :: q0' /\ bx = [Got 0 x] /\ q_eof r' = match x with None => true | Some _ => false end)).
Proof.
  intros Er (Hh & Hi & Hc) He E. destruct s as [hb pa cg lo q0 q1 fu wr wk wv rq cu hr rc se]. cbn [c_reqs] in Er. subst rq.
  destruct r as [h i k c u sz us eo rd lv]. cbn [q_head q_info q_cont] in Hh, Hi, Hc. subst h i c.
  unfold conn_step in E. cbn [c_lost] in E. destruct lo; [discriminate|].
  assert (forall i r, live (mkC hb pa cg false q0 q1 fu wr wk wv [mkRq head R k false u sz us eo rd lv] cu hr rc se) i = Some r -> i = 0 /\ r = mkRq head R k false u sz us eo rd lv /\ lv = true) as Lv.
  { intros i r. unfold live. cbn [c_reqs]. destruct i as [|i]; [|now destruct i]. cbn [nth_error q_live]. destruct lv; [|discriminate]. intros X. injection X as <-. now repeat split. }
  unfold rok, upd. csimp. destruct e; try discriminate; destruct (live _ i) as [r0|] eqn:Li; try discriminate; apply Lv in Li as (-> & -> & ->); clear Lv He.
  - cbn [q_eof q_info] in E. destruct eo.
    + injection E as <- <-. exists (mkRq head R k false u sz us true rd true), q0. cbn. rewrite app_nil_r, orb_false_r, andb_true_r. repeat split. left. now repeat split.
    + destruct (_ <? _)%Z; [discriminate|]. cbn in E. injection E as <- <-. eexists _, q0. split; [rewrite app_nil_r; reflexivity|]. cbn. rewrite orb_false_r, andb_true_r. repeat split. left. now repeat split.
  - cbn [q_reading q_eof] in E. destruct (rd && negb eo) eqn:X; [|discriminate]. cbn [c_q0] in E. destruct q0 as [|[d|] q0]; [discriminate| |].
    + unfold trimmed in E. cbn [q_info] in E. rewrite (proj2 plain_request) in E. cbn [Z.ltb Z.compare Pos.compare Pos.compare_cont andb] in E. injection E as <- <-.
      eexists _, q0. split; [rewrite app_nil_r; reflexivity|]. cbn. rewrite orb_false_r, andb_true_r. repeat split. right. exists (Some d). repeat split. destruct eo; [now destruct rd|reflexivity].
    + injection E as <- <-. eexists _, q0. split; [rewrite app_nil_r; reflexivity|]. cbn. rewrite orb_false_r, andb_true_r. repeat split. right. exists None. now repeat split.
  - injection E as <- <-. eexists _, q0. split; [reflexivity|]. cbn. rewrite orb_false_r, andb_true_r. repeat split. left. now repeat split.
  - destruct keep; injection E as <- <-; (eexists _, q0; split; [reflexivity|]); cbn; rewrite orb_false_r, ?andb_true_r, ?andb_false_r; repeat split; left; now repeat split.
  - cbn in E. injection E as <- <-. eexists _, q0. split; [rewrite app_nil_r; reflexivity|]. cbn. rewrite orb_false_r, andb_true_r. repeat split. left. now repeat split.
  - injection E as <- <-. eexists _, q0. split; [rewrite app_nil_r; reflexivity|]. cbn. rewrite orb_true_r, andb_true_r. repeat split. left. now repeat split.
  - injection E as <- <-. eexists _, q0. split; [rewrite app_nil_r; reflexivity|]. cbn. rewrite orb_false_r, andb_true_r. repeat split. left. now repeat split.
Qed.

(** What a step of the handler does to the books. *)
Lemma acc_handler tr b q1 r r' e bx : acc tr b q1 r -> step_ok tr b e -> of_handler e = true -> targets e 0 -> rok r' -> q_eof r' = false -> starts bx = [] -> ended bx = 0 -> written bx = [] -> ~ In (Got 0 None) bx ->
  q_upg r' = q_upg r || match e with HUpgrade _ => true | _ => false end ->
  q_live r' = (q_live r && match e with HEnd _ => false | _ => true end) ->
  q_keep r' = (q_keep r && match e with HClose _ false => false | _ => true end) -> acc (tr ++ [e]) (b ++ bx) (q1 ++ added e) r'.
Proof.
  intros [A1 A2 A3 A4 A5 A6 A7 A8 A9 A10 A11] Ok He Ht Rr Re Bs Be Bw Bg Hu Hl Hk. split; try assumption.
  - intros n Hn. rewrite ended_app, Be, Nat.add_0_r in *. rewrite written_app, Bw, app_nil_r, said_snoc, (A3 n Hn), <- app_assoc. f_equal.
    destruct e; try discriminate; cbn [added targets] in *; subst; try (destruct (_ <=? _); rewrite !app_nil_r; reflexivity).
    + rewrite before_put. f_equal. destruct (closes0 tr <=? n) eqn:X, (nnone q1 <=? n - ended b) eqn:Y; try reflexivity; clear -X Y A4 Hn; lia.
    + rewrite before_end. destruct (_ <=? _); now rewrite ?app_nil_r.
  - rewrite ended_app, Be, nnone_app, closes0_app. assert (nnone (added e) = closes0 [e]) as -> by (destruct e; try discriminate; cbn [targets] in Ht; subst; reflexivity). clear -A4. lia.
  - rewrite puts_app, written_app, Bw, A5, somes_app, app_nil_r, <- app_assoc. f_equal. f_equal. destruct e; try discriminate; cbn [targets] in Ht; subst; reflexivity.
  - rewrite Hu. intros X. apply in_app_or in X as [X|[->|[]]]; [now rewrite (A6 X)|apply orb_true_r].
  - rewrite closes0_app. intros X. apply in_or_app. destruct e; try discriminate; cbn [targets] in Ht; subst; try (left; apply A7; clear -X; cbn [closes0 filter List.length] in X; lia). left. exact Ok.
  - rewrite Hl, in_app_iff. destruct A8 as [A8|A8]; [now left; left|]. destruct e; try discriminate; try (right; now rewrite A8). left. right. cbn [targets] in Ht. subst. now left.
  - rewrite Hk, in_app_iff. destruct A9 as [A9|A9]; [now left; left|]. destruct e; try discriminate; try (right; rewrite A9; apply andb_true_r). destruct keep; [right; rewrite A9; apply andb_true_r|]. left. right. cbn [targets] in Ht. subst. now left.
  - now rewrite starts_app, Bs, app_nil_r.
  - intros X. now apply in_app_or in X as [X|X].
Qed.

Lemma acc_other tr b q1 r e bx q1' : acc tr b q1 r -> of_handler e = false ->
  (bx = [] /\ q1 = q1') \/ (exists d, bx = [Wrote d] /\ q1 = Some d :: q1') \/ (bx = [Ended] /\ q1 = None :: q1') -> acc (tr ++ [e]) (b ++ bx) q1' r.
Proof.
  intros [A1 A2 A3 A4 A5 A6 A7 A8 A9 A10 A11] He Hb.
  assert (forall n, said n (tr ++ [e]) = said n tr) as Es by (intros n; rewrite said_snoc; destruct e; try discriminate; destruct (_ <=? _); apply app_nil_r).
  assert (closes0 (tr ++ [e]) = closes0 tr) as Ec by (rewrite closes0_app; destruct e; try discriminate; apply Nat.add_0_r).
  assert (puts 0 (tr ++ [e]) = puts 0 tr) as Ep by (rewrite puts_app; destruct e; try discriminate; apply app_nil_r).
  assert (starts bx = [] /\ ~ In (Got 0 None) bx) as [Bs Bg] by (destruct Hb as [(-> & _)|[(d & -> & _)|(-> & _)]]; (split; [reflexivity|]); cbn; intros X; decompose [or] X; try discriminate; assumption).
  split; try assumption.
  - intros n Hn. rewrite Es. rewrite ended_app in Hn |- *. rewrite written_app. destruct Hb as [(-> & ->)|[(d & -> & ->)|(-> & ->)]]; cbn [ended filter List.length written map List.concat] in *; rewrite ?Nat.add_0_r, ?app_nil_r in *.
    + now apply A3.
    + rewrite (A3 n Hn). cbn [before]. now rewrite app_assoc.
    + rewrite (A3 n) by lia. f_equal. destruct (n - ended b) as [|k] eqn:K; [lia|]. cbn [before]. f_equal. lia.
  - rewrite Ec, <- A4, ended_app. destruct Hb as [(-> & ->)|[(d & -> & ->)|(-> & ->)]]; unfold nnone, ended; cbn [filter List.length]; lia.
  - rewrite Ep, A5, written_app, <- app_assoc. destruct Hb as [(-> & ->)|[(d & -> & ->)|(-> & ->)]]; cbn; rewrite ?app_nil_r; reflexivity.
  - intros X. apply A6. apply in_app_or in X as [X|[->|[]]]; [exact X|discriminate].
  - rewrite Ec. intros X. apply in_or_app. left. now apply A7.
  - destruct A8 as [A8|A8]; [left; apply in_or_app; now left|now right].
  - destruct A9 as [A9|A9]; [left; apply in_or_app; now left|now right].
  - now rewrite starts_app, Bs, app_nil_r.
  - intros X. now apply in_app_or in X as [X|X].
Qed.
Lemma nnone_in q : In None q -> nnone q <> 0.
Proof. intros X. unfold nnone. apply in_split in X as (a & c & ->). rewrite filter_app, app_length. cbn. lia. Qed.
Lemma acc_none tr b q1 r : acc tr b q1 r -> In None q1 -> q_upg r = true.
Proof. intros A X. apply (ac_upg _ _ _ _ A), (ac_closed _ _ _ _ A). pose proof (ac_count _ _ _ _ A). apply nnone_in in X. lia. Qed.
Lemma acc_closed tr b q1 r s r' ov l junk : acc tr b q1 r -> c_closing s = true -> c_reqs s = [r'] -> rok r' -> (q_upg r = true -> q_upg r' = true) -> c_hrs s = [HOver] -> c_hb s = None -> c_cur s = Some 0 -> c_q1 s = q1 ->
  c_rcv s = repeat ROver ov ++ l -> (l = [] \/ exists t, l = [t] /\ t <> ROver /\ junk = [] /\ q_upg r' = true) -> input tr = head ++ got 0 b ++ somes (c_q0 s) ++ pend l ++ junk -> closed tr s b.
Proof.
  intros A C1 C2 C3 C4 C5 C6 C7 C8 C9 C10 C11. split; [exact C1|rewrite (ac_puts _ _ _ _ A); apply prefix_app|exact (ac_closed _ _ _ _ A)|].
  right; right. exists r', ov, l, junk. split; [exact C2|]. split; [exact C3|]. split; [exact C5|]. split; [exact C6|]. split; [exact C7|]. split; [exact (ac_starts _ _ _ _ A)|]. split; [exact C9|]. split; [exact C10|]. split; [exact C11|].
  split; intros X; apply C4; [rewrite C8 in X; exact (acc_none _ _ _ _ A X)|exact (ac_upg _ _ _ _ A X)].
Qed.
Lemma acc_lost tr b q1 r s : acc tr b q1 r -> c_closing s = true -> c_lost s = true -> is_prefix (head ++ got 0 b) (input tr) -> closed tr s b.
Proof.
  intros A C L P. split; [exact C|rewrite (ac_puts _ _ _ _ A); apply prefix_app|exact (ac_closed _ _ _ _ A)|]. left. split; [now left|]. right. split; [exact (ac_starts _ _ _ _ A)|exact P].
Qed.

Lemma step2 tr s b e s' bx r ds q1 : s = st2 r ds q1 -> List.concat ds = [] -> input tr = head -> got 0 b = [] -> ended b = 0 -> acc tr b q1 r ->
  step_ok tr b e -> conn_step o s e = Some (s', bx) -> phase (tr ++ [e]) s' (b ++ bx) \/ (closed (tr ++ [e]) s' (b ++ bx) /\ why tr b e s' bx).
Proof.
  intros -> Hd Ib Gb Eb A Ok E. destruct (of_handler e) eqn:He.
  { destruct (handler_step (st2 r ds q1) _ _ _ r eq_refl (ac_rok _ _ _ _ A) He E) as (r' & q0' & -> & Rr & Ht & Lv & Hu & Hl & Hk & Hq). left. cbn [c_q1 st2] in *.
    assert (exists ds', q0' = map Some ds' /\ List.concat ds' = [] /\ q_eof r' = false /\ got 0 bx = [] /\ ended bx = 0 /\ starts bx = [] /\ written bx = [] /\ ~ In (Got 0 None) bx) as (ds' & -> & Hd' & Re & Gx & Ex & Sx & Wx & Nx).
    { destruct Hq as [(<- & -> & Hq)|(x & Hq & -> & Hq')].
      - exists ds. rewrite (ac_eof _ _ _ _ A) in Hq. repeat split; try assumption; try reflexivity. intros [].
      - destruct ds as [|d ds]; [discriminate|]. cbn [map] in Hq. injection Hq as <- <-. exists ds. cbn [List.concat] in Hd. apply app_eq_nil in Hd as [-> Hd]. repeat split; try assumption. intros [X|[]]; discriminate. }
    apply (Ph2 _ _ _ r' ds' (q1 ++ added e)); [reflexivity|exact Hd'| | | |].
    - rewrite input_snoc, Ib. destruct e; try discriminate; apply app_nil_r.
    - now rewrite got_app, Gb, Gx.
    - now rewrite ended_app, Eb, Ex.
    - now apply (acc_handler tr b q1 r). }
  unfold conn_step in E. unfold st2 in E. cbn [c_lost] in E.
  destruct e; try discriminate; cbn [st2 c_paused c_closing c_hrs c_rcv nth_error orb] in E; try discriminate.
  - (* Abort *) injection E as <- <-. right. split; [|unfold why; tauto]. eapply (acc_closed _ _ q1 r _ r 0 [] []); try reflexivity.
    + apply (acc_other _ _ q1); [exact A|reflexivity|now left].
    + exact (ac_rok _ _ _ _ A).
    + easy.
    + now left.
    + rewrite input_snoc, got_app, Gb, Ib. csimp. rewrite somes_map, Hd. reflexivity.
  - (* RunHR *) destruct j as [|[|j]]; discriminate.
  - (* RunRcv *) destruct j; discriminate.
  - (* RunSend *) unfold run_send in E. cbn [c_sending c_q1] in E. destruct q1 as [|[d|] q1]; [discriminate| |].
    + csimp_in E. injection E as <- <-. left. apply (Ph2 _ _ _ r ds q1); [reflexivity|exact Hd| | | |].
      * now rewrite input_snoc, app_nil_r.
      * now rewrite got_app, Gb.
      * now rewrite ended_app, Eb.
      * apply (acc_other _ _ (Some d :: q1)); [exact A|reflexivity|right; left; now exists d].
    + csimp_in E. cbn [nth_error] in E.
      assert (acc (tr ++ [RunSend kicked]) (b ++ [Ended]) q1 r) as A' by (apply (acc_other _ _ (None :: q1)); [exact A|reflexivity|right; right; now split]).
      pose proof (acc_none _ _ _ _ A (or_introl eq_refl)) as Hu. destruct (ac_rok _ _ _ _ A) as (Rh & Ri & Rc).
      destruct (q_keep r) eqn:K; cbn [andb] in E.
      * rewrite Rc in E. unfold keepalive in E. cbn [c_wreq] in E. rewrite andb_false_r, Rc, Hu in E. csimp_in E. injection E as <- <-. left.
        apply (Ph3 _ _ _ r ds q1 (WFut 0) [] false); [reflexivity| | | |exact Hu|exact A'].
        -- exists 0. left. repeat split. now left.
        -- rewrite input_snoc, got_app, Gb, Ib, Hd. reflexivity.
        -- now rewrite ended_app, Eb.
      * injection E as <- <-. right. split.
        -- eapply (acc_closed _ _ q1 r _ (clear_body r) 0 [] []); try reflexivity; [exact A'|now repeat split|easy|now left|]. rewrite input_snoc, got_app, Gb, Ib. unfold on_req. cbn [set_q1 c_reqs nth_error]. csimp. rewrite somes_map, Hd. reflexivity.
        -- unfold why. do 5 right. split; [now left|]. destruct (ac_keep _ _ _ _ A) as [X|X]; [tauto|]. rewrite K in X. right; right. now symmetry.
  - (* Lost *) injection E as <- <-. right. split; [|unfold why; tauto]. apply (acc_lost _ _ q1 r); [apply (acc_other _ _ q1); [exact A|reflexivity|now left]|reflexivity|reflexivity|].
    rewrite input_snoc, got_app, Gb, Ib. cbn. rewrite !app_nil_r. apply prefix_refl.
Qed.

Lemma tasks_split w rc pa : tasks w rc pa -> exists a l, rc = repeat ROver a ++ l /\ pend rc = pend l /\ (l = [] \/ exists t, l = [t] /\ t <> ROver).
Proof.
  intros (a & [(-> & _)|(t & -> & _ & _ & T)]).
  - exists a, []. rewrite app_nil_r, pend_over. repeat split. now left.
  - exists a, [t]. rewrite pend_app, pend_over. repeat split. right. exists t. split; [reflexivity|]. intros ->. exact T.
Qed.
Lemma nth_over a l j : nth_error (repeat ROver a ++ l) j = if j <? a then Some ROver else nth_error l (j - a).
Proof.
  revert j. induction a as [|a IH]; intros j; cbn [repeat app]; [now rewrite Nat.sub_0_r|]. destruct j as [|j]; [reflexivity|]. cbn [nth_error]. rewrite IH. reflexivity.
Qed.
Lemma put_over a t t' : put_at a t' (repeat ROver a ++ [t]) = repeat ROver a ++ [t'].
Proof. induction a as [|a IH]; cbn [repeat app put_at]; [reflexivity|]. now rewrite IH. Qed.
Lemma over_snoc a : repeat ROver a ++ [ROver] = repeat ROver (S a).
Proof. symmetry. apply repeat_cons. Qed.

Lemma step3 tr s b e s' bx r ds q1 w rc pa : s = st3 r ds q1 w rc pa -> tasks w rc pa -> input tr = head ++ got 0 b ++ List.concat ds ++ pend rc -> ended b = 1 -> q_upg r = true -> acc tr b q1 r ->
  step_ok tr b e -> conn_step o s e = Some (s', bx) -> phase (tr ++ [e]) s' (b ++ bx) \/ (closed (tr ++ [e]) s' (b ++ bx) /\ why tr b e s' bx).
Proof.
  intros -> T Ib Eb Hu A Ok E. destruct (of_handler e) eqn:He.
  { destruct (handler_step (st3 r ds q1 w rc pa) _ _ _ r eq_refl (ac_rok _ _ _ _ A) He E) as (r' & q0' & -> & Rr & Ht & Lv & Hu' & Hl & Hk & Hq). left. cbn [c_q1 st3] in *.
    assert (exists ds', q0' = map Some ds' /\ got 0 bx ++ List.concat ds' = List.concat ds /\ q_eof r' = false /\ ended bx = 0 /\ starts bx = [] /\ written bx = [] /\ ~ In (Got 0 None) bx) as (ds' & -> & Hd' & Re & Ex & Sx & Wx & Nx).
    { destruct Hq as [(<- & -> & Hq)|(x & Hq & -> & Hq')].
      - exists ds. rewrite (ac_eof _ _ _ _ A) in Hq. repeat split; try assumption; try reflexivity. intros [].
      - destruct ds as [|d ds]; [discriminate|]. cbn [map] in Hq. injection Hq as <- <-. exists ds. cbn. rewrite app_nil_r. repeat split; try assumption. intros [X|[]]; discriminate. }
    apply (Ph3 _ _ _ r' ds' (q1 ++ added e) w rc pa); [reflexivity|exact T| | | |].
    - rewrite input_snoc, Ib, got_app, <- Hd'. destruct e; try discriminate; rewrite app_nil_r, <- !app_assoc; reflexivity.
    - now rewrite ended_app, Eb, Ex.
    - now rewrite Hu', Hu.
    - now apply (acc_handler tr b q1 r). }
  assert (forall bx q1', (bx = [] /\ q1 = q1') \/ (exists d, bx = [Wrote d] /\ q1 = Some d :: q1') \/ (bx = [Ended] /\ q1 = None :: q1') -> acc (tr ++ [e]) (b ++ bx) q1' r) as A' by (intros; now apply (acc_other _ _ q1)).
  destruct (tasks_split w rc pa T) as (a0 & l0 & Erc & Epe & Hl0). pose proof (ac_rok _ _ _ _ A) as Rk.
  assert (forall s'' bx q1' r', bx = [] /\ q1 = q1' \/ bx = [Ended] /\ q1 = None :: q1' -> r' = r \/ r' = clear_body r -> (match e with Data _ => False | _ => True end) ->
    c_closing s'' = true -> c_reqs s'' = [r'] -> c_hrs s'' = [HOver] -> c_hb s'' = None -> c_cur s'' = Some 0 -> c_q1 s'' = q1' -> c_rcv s'' = rc -> somes (c_q0 s'') = List.concat ds -> closed (tr ++ [e]) s'' (b ++ bx)) as K.
  { intros s'' bx0 q1' r' Hb Hr Hnd C1 C2 C3 C4 C5 C6 C7 C8. assert (rok r' /\ q_upg r' = true) as [Rr Ur] by (destruct Hr as [->| ->]; [now split|]; destruct Rk as (? & ? & ?); repeat split; assumption).
    eapply (acc_closed _ _ q1' r s'' r' a0 l0 []); try assumption.
    - apply A'. destruct Hb as [Hb|Hb]; [now left|right; now right].
    - easy.
    - now rewrite C7.
    - destruct Hl0 as [->|(t & -> & N)]; [now left|]. right. now exists t.
    - rewrite input_snoc, got_app, Ib, C8, Epe, app_nil_r. assert (got 0 bx0 = []) as -> by (now destruct Hb as [[-> _]|[-> _]]). rewrite app_nil_r. destruct e; try now rewrite app_nil_r. destruct Hnd. }
  unfold conn_step in E. unfold st3 in E. cbn [c_lost] in E.
  destruct e; try discriminate; cbn [c_paused c_closing c_hrs c_rcv nth_error orb] in E.
  - (* Data *) destruct pa; [discriminate|]. cbn [orb] in E. destruct d as [|c d]; [discriminate|]. cbn in E. injection E as <- <-. left.
    destruct T as (a & [(-> & _ & W)|(t & _ & X & _)]); [|discriminate]. rewrite repeat_length.
    apply (Ph3 _ _ _ r ds q1 (WTask a) (repeat ROver a ++ [RWait w (c :: d)]) true); [reflexivity| | | |exact Hu|].
    + exists a. right. exists (RWait w (c :: d)). now repeat split.
    + rewrite input_snoc, Ib, got_app, pend_app, pend_over. cbn [got map List.concat pend pend1 app]. rewrite !app_nil_r, <- !app_assoc. reflexivity.
    + now rewrite ended_app, Eb.
    + apply A'. now left.
  - (* Eof *) destruct pa; [discriminate|]. cbn [orb] in E. injection E as <- <-. right. split; [|unfold why; tauto]. apply (K _ [] q1 r); try reflexivity; try (now left). csimp. rewrite somes_app, somes_map. apply app_nil_r.
  - (* Abort *) injection E as <- <-. right. split; [|unfold why; tauto]. apply (K _ [] q1 r); try reflexivity; try (now left). csimp. apply somes_map.
  - (* RunHR *) destruct j as [|[|j]]; discriminate.
  - (* RunRcv *)
    destruct T as (a & [(-> & -> & W)|(t & -> & -> & -> & W)]).
    { rewrite <- (app_nil_r (repeat ROver a)), nth_over in E. destruct (j <? a); [discriminate|]. now destruct (j - a). }
    rewrite nth_over in E. destruct (j <? a) eqn:Ja; [discriminate|]. destruct (j - a) as [|k] eqn:Jk; [|now destruct k]. cbn [nth_error] in E. assert (j = a) as -> by lia. clear Ja Jk.
    assert (forall rest len, pend [t] = rest -> Some (rcv_put o a rest len (st3 r ds q1 (WTask a) (repeat ROver a ++ [t]) true), @nil obs) = Some (s', bx) ->
      phase (tr ++ [RunRcv a]) s' (b ++ bx) \/ closed (tr ++ [RunRcv a]) s' (b ++ bx) /\ why tr b (RunRcv a) s' bx) as G.
    { intros rest len Hp G. injection G as <- <-. unfold rcv_put. rewrite pend_app, pend_over in Ib. cbn [app] in Ib. rewrite Hp in Ib. destruct rest as [|c rest].
      - left. unfold put_end, st3. csimp. cbn [nth_error]. rewrite Hu, put_over, over_snoc. apply (Ph3 _ _ _ r ds q1 (WTask a) (repeat ROver (S a)) false); [reflexivity| | | |exact Hu|].
        + exists (S a). left. repeat split. right. exists a. split; [reflexivity|lia].
        + rewrite input_snoc, Ib, got_app, pend_over. cbn. now rewrite !app_nil_r.
        + now rewrite ended_app, Eb.
        + apply A'. now left.
      - unfold put_round. unfold st3. csimp. destruct (_ <? _)%Z eqn:Ov.
        + right. split.
          * eapply (acc_closed _ _ q1 r _ r (S a) [] (skipn (o_buf o) (c :: rest))); csimp; try reflexivity; try assumption.
            -- apply A'. now left.
            -- easy.
            -- rewrite put_over, app_nil_r. apply over_snoc.
            -- now left.
            -- rewrite input_snoc, Ib, got_app, somes_app, somes_map. cbn [got map List.concat]. rewrite !app_nil_r. cbn [pend map List.concat app]. change (somes [Some (firstn (o_buf o) (c :: rest))]) with (firstn (o_buf o) (c :: rest) ++ []). rewrite app_nil_r, <- (app_assoc (List.concat ds)), firstn_skipn. reflexivity.
          * unfold why. csimp. do 4 right. left. lia.
        + left. apply (Ph3 _ _ _ r (ds ++ [firstn (o_buf o) (c :: rest)]) q1 (WTask a) (repeat ROver a ++ [RPut (skipn (o_buf o) (c :: rest)) len]) true).
          * unfold st3. csimp. rewrite put_over, map_app. reflexivity.
          * exists a. right. exists (RPut (skipn (o_buf o) (c :: rest)) len). split; [reflexivity|]. split; [reflexivity|]. split; [reflexivity|exact I].
          * rewrite input_snoc, Ib, got_app, pend_app, pend_over, concat_app. cbn [got map List.concat pend pend1 app]. rewrite !app_nil_r, <- !app_assoc, firstn_skipn. reflexivity.
          * now rewrite ended_app, Eb.
          * exact Hu.
          * apply A'. now left. }
    destruct t as [w' d|rest len|]; [|apply (G rest len); [apply app_nil_r|exact E]|discriminate].
    destruct (w_done _ _); [|discriminate]. apply (G d (blen d)); [apply app_nil_r|exact E].
  - (* RunSend *) unfold run_send in E. cbn [c_sending c_q1] in E. destruct q1 as [|[d|] q1]; [discriminate| |].
    + csimp_in E. injection E as <- <-. left. apply (Ph3 _ _ _ r ds q1 w rc pa); [reflexivity|exact T| | |exact Hu|].
      * rewrite input_snoc, got_app, Ib. cbn. now rewrite !app_nil_r.
      * now rewrite ended_app, Eb.
      * apply A'. right; left. now exists d.
    + csimp_in E. cbn [nth_error] in E. destruct Rk as (Rh & Ri & Rc). right. rewrite Rc in E.
      assert (forall s'', why tr b (RunSend kicked) s'' [Ended]) as Wy by (intros s''; unfold why; do 5 right; split; [now left|now left]).
      destruct (q_keep r); cbn [andb] in E.
      * unfold keepalive in E. csimp_in E. rewrite Rc, Hu, andb_true_r in E. destruct kicked; injection E as <- <-; (split; [|apply Wy]); apply (K _ [Ended] q1 r); try reflexivity; try (now left); try (now right); csimp; apply somes_map.
      * injection E as <- <-. split; [|apply Wy]. apply (K _ [Ended] q1 (clear_body r)); try reflexivity; try (now right). unfold on_req. cbn [set_q1 c_reqs nth_error]. csimp. apply somes_map.
  - (* Lost *) injection E as <- <-. right. split; [|unfold why; tauto]. apply (acc_lost _ _ q1 r); [apply A'; now left|reflexivity|reflexivity|].
    rewrite input_snoc, got_app, Ib. cbn. rewrite !app_nil_r, app_assoc. apply prefix_app.
Qed.

(** ** Steps of a connection that is closing *)
Lemma closed_other tr s b e bx : closed tr s b -> of_handler e = false -> (match e with Data _ => False | _ => True end) -> written bx = [] ->
  is_prefix (written (b ++ bx)) (puts 0 (tr ++ [e])) /\ (closes0 (tr ++ [e]) <> 0 -> In (HUpgrade 0) (tr ++ [e])) /\ (In (HUpgrade 0) (tr ++ [e]) -> In (HUpgrade 0) tr) /\ input (tr ++ [e]) = input tr /\ closes0 (tr ++ [e]) = closes0 tr.
Proof.
  intros C He Hd Hw.
  assert (closes0 (tr ++ [e]) = closes0 tr) as Ec by (rewrite closes0_app; destruct e; try discriminate; apply Nat.add_0_r).
  split; [|split; [|split; [|split]]].
  - rewrite written_app, Hw, app_nil_r, puts_app. apply (prefix_trans _ _ _ (cl_written _ _ _ C)), prefix_app.
  - rewrite Ec. intros X. apply in_or_app. left. exact (cl_upg _ _ _ C X).
  - intros X. apply in_app_or in X as [X|[->|[]]]; [exact X|discriminate].
  - rewrite input_snoc. destruct e; try now rewrite app_nil_r. destruct Hd.
  - exact Ec.
Qed.
Lemma lost_step s e s' bx : c_lost s = true -> conn_step o s e = Some (s', bx) -> False.
Proof. intros L E. unfold conn_step in E. rewrite L in E. discriminate. Qed.
Lemma closed_step tr s b e s' bx : closed tr s b -> step_ok tr b e -> conn_step o s e = Some (s', bx) -> closed (tr ++ [e]) s' (b ++ bx).
Proof.
  intros C Ok E. pose proof (cl_closing _ _ _ C) as Cg. pose proof (step_closing o s e s' bx E Cg) as Cg'.
  destruct (c_lost s) eqn:Lo; [destruct (lost_step _ _ _ _ Lo E)|].
  (* Abort and Lost *)
  assert (e = Abort \/ e = Lost \/ (e <> Abort /\ e <> Lost)) as [->|[->|[Na Nl]]] by (destruct e; try (right; right; split; discriminate); tauto).
  { unfold conn_step in E. rewrite Lo in E. injection E as <- <-. destruct (closed_other tr s b Abort [] C eq_refl I eq_refl) as (P1 & P2 & P3 & P4 & P5). rewrite app_nil_r in *.
    split; try assumption. rewrite P4, P5. destruct (cl_case _ _ _ C) as [(Hs & Hg)|[(H1 & H2 & H3 & H4 & H5 & H6 & H7 & H8 & H9 & H10 & H11)|(r & ov & l & junk & H1 & H2 & H3 & H4 & H5 & H6 & H7 & H8 & H9 & H10 & H11)]].
    - left. split; [exact Hs|exact Hg].
    - right; left. repeat (split; [assumption|]). split; [intros X; now apply H10, P3|assumption].
    - right; right. exists r, ov, l, junk. repeat (split; [assumption|]). intros X. now apply H11, P3. }
  { unfold conn_step in E. rewrite Lo in E. injection E as <- <-. destruct (closed_other tr s b Lost [] C eq_refl I eq_refl) as (P1 & P2 & P3 & P4 & P5). rewrite app_nil_r in *.
    split; try assumption. left. split; [now left|]. rewrite P4. destruct (cl_case _ _ _ C) as [(_ & Hg)|[(H1 & H2 & H3 & H4 & H5 & H6 & H7 & H8 & H9 & H10 & H11)|(r & ov & l & junk & H1 & H2 & H3 & H4 & H5 & H6 & H7 & H8 & H9 & H10 & H11)]].
    - exact Hg.
    - left. subst b. now split.
    - right. split; [assumption|]. rewrite H9, app_assoc. apply prefix_app. }
  destruct (cl_case _ _ _ C) as [([Hs|(H1 & H2 & H3)] & Hg)|[(H1 & H2 & H3 & H4 & H5 & H6 & H7 & H8 & H9 & H10 & H11)|(r & ov & l & junk & H1 & H2 & H3 & H4 & H5 & H6 & H7 & H8 & H9 & H10 & H11)]].
  - congruence.
  - (* nothing was started *)
    assert (forall i, live s i = None) as Lv by (intros i; unfold live; rewrite H1; now destruct i).
    unfold conn_step in E. rewrite Lo in E. destruct e; rewrite ?Cg, ?orb_true_r, ?H2, ?H3, ?Lv in E; try discriminate; try (now destruct j); try easy.
    unfold run_send in E. destruct (c_sending s); [|discriminate]. destruct (c_q1 s) as [|[d|] q1]; [discriminate| |].
    + rewrite Cg in E. injection E as <- <-. destruct (closed_other tr s b (RunSend kicked) [] C eq_refl I eq_refl) as (P1 & P2 & P3 & P4 & P5). rewrite app_nil_r in *. split; try assumption. left. rewrite P4. split; [right; now split|exact Hg].
    + csimp_in E. destruct (c_cur s) as [i|]; [rewrite H1 in E; now destruct i|]. injection E as <- <-.
      destruct (closed_other tr s b (RunSend kicked) [Ended] C eq_refl I eq_refl) as (P1 & P2 & P3 & P4 & P5). split; try assumption. left. rewrite P4. split; [right; now split|]. rewrite got_app, starts_app. cbn. rewrite !app_nil_r. exact Hg.
  - (* the head was not looked at *)
    assert (forall i, live s i = None) as Lv by (intros i; unfold live; rewrite H1; now destruct i).
    unfold conn_step in E. rewrite Lo in E. destruct e; rewrite ?Cg, ?orb_true_r, ?H2, ?H3, ?Lv in E; try discriminate; try (now destruct j); try easy.
    2:{ unfold run_send in E. rewrite H5 in E. now destruct (c_sending s). }
    destruct j as [|j]; [|now destruct j]. cbn [nth_error] in E.
    assert (upto head (Z.of_nat p + 2 + 2) = head) as Eu.
    { rewrite P_Parser2.upto_nonneg by lia. apply firstn_all2. unfold head. lia. }
    destruct (closed_other tr s b (RunHR 0) bx C eq_refl I) as (P1 & P2 & P3 & P4 & P5).
    { assert (Some (run_hr o 0 head (Z.of_nat p + 2) s) = Some (s', bx)) as E' by exact E. unfold run_hr in E'. unfold head at 1 in E'. rewrite Rm in E'. cbn zeta in E'. rewrite Bm, Eu in E'. replace (Z.of_nat p + 2 + 2 <? blen head)%Z with false in E' by (unfold blen, head; lia). cbn [orb] in E'. unfold start_handler in E'. injection E' as _ <-. now destruct (nth_error _ _). }
    split; try assumption. rewrite P4. clear P1 P2 P4 P5 C.
    destruct s as [hb pa cg lo q0 q1 fu wr wk wv rq cu hr rc se]. cbn [c_reqs c_hrs c_rcv c_q0 c_q1 c_hb c_wreq c_closing c_lost] in *. subst. 
    assert (exists fu', run_hr o 0 head (Z.of_nat p + 2) (mkC None pa true false [] [] fu (Some 0) wk wv [] cu [HStart head (Z.of_nat p + 2)] [] se) =
      (mkC None pa true false [Some []] [] fu' (Some 0) wk wv [mkRq head R (rq_keepalive R) (rq_continue R) false 0 0 false false true] (Some 0) [HOver] [] se, [Started 0 head])) as (fu' & Er).
    { eexists. unfold run_hr. unfold head at 1. rewrite Rm. cbn zeta. rewrite Bm, Eu. replace (Z.of_nat p + 2 + 2 <? blen head)%Z with false by (unfold blen, head; lia). destruct wk; reflexivity. }
    assert (Some (run_hr o 0 head (Z.of_nat p + 2) (mkC None pa true false [] [] fu (Some 0) wk wv [] cu [HStart head (Z.of_nat p + 2)] [] se)) = Some (s', bx)) as E' by exact E. rewrite Er in E'. clear E Er. injection E' as <- <-.
    right; right. exists (mkRq head R (rq_keepalive R) (rq_continue R) false 0 0 false false true), 0, [], []. cbn [c_reqs c_hrs c_rcv c_q0 c_q1 c_hb c_cur].
    split; [reflexivity|]. split; [split; [reflexivity|]; split; [reflexivity|]; exact (proj1 plain_request)|]. do 5 (split; [reflexivity|]). split; [now left|]. split; [exact (eq_trans H9 (eq_sym (app_nil_r _)))|]. split; [intros []|]. intros X. now destruct (H10 (P3 X)).
  - (* the handler was started *)
    destruct (of_handler e) eqn:He.
    { destruct (handler_step s _ _ _ r H1 H2 He E) as (r' & q0' & -> & Rr & Ht & Lv & Hu & Hl & Hk & Hq).
      assert (got 0 bx ++ somes q0' = somes (c_q0 s) /\ starts bx = [] /\ written bx = []) as (Gx & Sx & Wx).
      { destruct Hq as [(-> & -> & _)|(x & -> & -> & _)]; [now repeat split|]. repeat split. unfold somes at 2. cbn [map List.concat]. fold (somes q0'). f_equal. destruct x; cbn; [apply app_nil_r|reflexivity]. }
      split; [exact Cg| | |].
      - rewrite written_app, Wx, app_nil_r, puts_app. apply (prefix_trans _ _ _ (cl_written _ _ _ C)), prefix_app.
      - rewrite closes0_app. intros X. apply in_or_app. destruct e; try discriminate; cbn [targets] in Ht; subst; try (left; apply (cl_upg _ _ _ C); clear -X; cbn [closes0 filter List.length] in X; lia). left. exact Ok.
      - right; right. exists r', ov, l, junk. unfold upd. csimp. split; [reflexivity|]. split; [exact Rr|]. do 3 (split; [assumption|]). split; [now rewrite starts_app, Sx, app_nil_r|]. split; [assumption|].
        assert (q_upg r = true -> q_upg r' = true) as Hm1 by (intros X; now rewrite Hu, X).
        split; [destruct H8 as [H8|(t & T1 & T2 & T3 & T4)]; [now left|right; exists t; auto]|].
        split; [|split].
        + rewrite input_snoc, H9, got_app, <- Gx. destruct e; try discriminate; rewrite app_nil_r, <- !app_assoc; reflexivity.
        + intros X. apply in_app_or in X as [X|X]; [auto|]. destruct e; cbn [added] in X; try (now destruct X). cbn [targets] in Ht. subst i. cbn [step_ok] in Ok. auto.
        + intros X. rewrite Hu. apply in_app_or in X as [X|[->|[]]]; [now rewrite (H11 X)|apply orb_true_r]. }
    assert (forall s'' bx r', got 0 bx = [] -> starts bx = [] -> written bx = [] -> (match e with Data _ => False | _ => True end) -> r' = r \/ r' = clear_body r -> c_closing s'' = true -> c_reqs s'' = [r'] -> c_hrs s'' = [HOver] -> c_hb s'' = None -> c_cur s'' = Some 0 ->
      (In None (c_q1 s'') -> In None (c_q1 s)) -> c_rcv s'' = c_rcv s -> c_q0 s'' = c_q0 s -> closed (tr ++ [e]) s'' (b ++ bx)) as K.
    { intros s'' bx0 r' B1 B2 B3 Nd Hr C1 C2 C3 C4 C5 C6 C7 C8. destruct (closed_other tr s b e bx0 C He Nd B3) as (P1 & P2 & P3 & P4 & P5).
      assert (rok r' /\ q_upg r' = q_upg r) as [Rr Ur] by (destruct Hr as [->| ->]; [now split|]; destruct H2 as (? & ? & ?); repeat split; assumption).
      split; try assumption. right; right. exists r', ov, l, junk. rewrite C2, C3, C4, C5, C7, C8, Ur, P4, got_app, B1, app_nil_r, starts_app, B2, app_nil_r. repeat (split; [assumption||reflexivity|]). split; auto. }
    unfold conn_step in E. rewrite Lo in E. destruct e; try discriminate; rewrite ?Cg, ?orb_true_r, ?H3 in E; try discriminate; try easy.
    + destruct j as [|[|j]]; discriminate.
    + (* RunRcv *) rewrite H7, nth_over in E. destruct (j <? ov) eqn:Jo; [discriminate|]. destruct H8 as [->|(t & -> & Nt & -> & Hu)]; [now destruct (j - ov)|].
      destruct (j - ov) as [|k] eqn:Jk; [|now destruct k]. cbn [nth_error] in E. assert (j = ov) as -> by lia. clear Jo Jk.
      assert (forall rest len, pend [t] = rest -> Some (rcv_put o ov rest len s, @nil obs) = Some (s', bx) -> closed (tr ++ [RunRcv ov]) s' (b ++ bx)) as G.
      { intros rest len Hp G. destruct (closed_other tr s b (RunRcv ov) [] C eq_refl I eq_refl) as (P1 & P2 & P3 & P4 & P5).
        assert (s' = rcv_put o ov rest len s /\ bx = []) as [Es ->] by (split; congruence). clear G E. rewrite Hp in H9. split; try assumption. rewrite app_nil_r in *. clear P1 P2. rewrite P4. right; right.
        destruct s as [hb pa cg lo q0 q1 fu wr wk wv rq cu hr rc se]. cbn [c_reqs c_hrs c_rcv c_q0 c_q1 c_hb c_wreq c_closing c_lost c_cur] in *. subst hb cg lo rq cu hr rc. clear C K Cg'. subst s'. unfold rcv_put. destruct rest as [|c rest].
        - unfold put_end. csimp. cbn [nth_error]. rewrite Hu. csimp. exists r, (S ov), [], []. rewrite put_over, over_snoc, app_nil_r, H9. repeat (split; [assumption||reflexivity|]). split; [now left|]. split; [reflexivity|]. split; auto.
        - unfold put_round. csimp. destruct (_ <? _)%Z.
          + csimp. exists r, (S ov), [], (skipn (o_buf o) (c :: rest)). rewrite put_over, over_snoc, app_nil_r, somes_app. do 7 (split; [assumption||reflexivity|]). split; [now left|]. split; [|split; auto].
            rewrite H9. cbn [pend map List.concat app]. change (somes [Some (firstn (o_buf o) (c :: rest))]) with (firstn (o_buf o) (c :: rest) ++ []). rewrite !app_nil_r, <- (app_assoc (somes q0)), firstn_skipn. reflexivity.
          + csimp. exists r, ov, [RPut (skipn (o_buf o) (c :: rest)) len], []. rewrite put_over, somes_app. do 7 (split; [assumption||reflexivity|]). split; [right; exists (RPut (skipn (o_buf o) (c :: rest)) len); now repeat split|]. split; [|split; auto].
            rewrite H9. change (somes [Some (firstn (o_buf o) (c :: rest))]) with (firstn (o_buf o) (c :: rest) ++ []). change (pend [RPut (skipn (o_buf o) (c :: rest)) len]) with (skipn (o_buf o) (c :: rest) ++ []). rewrite !app_nil_r, <- (app_assoc (somes q0)), firstn_skipn. reflexivity. }
      destruct t as [w' d|rest len|]; [|apply (G rest len); [apply app_nil_r|exact E]|easy].
      destruct (w_done _ _); [|discriminate]. apply (G d (blen d)); [apply app_nil_r|exact E].
    + (* RunSend *) unfold run_send in E. destruct (c_sending s); [|discriminate]. destruct (c_q1 s) as [|[d|] q1] eqn:Q1; [discriminate| |].
      * rewrite Cg in E. injection E as <- <-. apply (K _ [] r); try reflexivity; try assumption; try (now left). csimp. intros X. now right.
      * csimp_in E. rewrite H5, H1 in E. cbn [nth_error] in E. rewrite H4, andb_true_r in E. destruct H2 as (Rh & Ri & Rc). rewrite Rc in E. pose proof (H10 (or_introl eq_refl)) as Hu. destruct (q_keep r).
        -- unfold keepalive in E. csimp_in E. rewrite Rc, Hu in E. destruct (kicked && _); [|destruct (c_wreq s)]; injection E as <- <-; apply (K _ [Ended] r); try reflexivity; try assumption; try (now left); csimp; intros X; now right.
        -- injection E as <- <-. unfold on_req. cbn [set_q1 c_reqs]. rewrite H1. cbn [nth_error]. csimp. apply (K _ [Ended] (clear_body r)); try reflexivity; try assumption; try (now right).
Qed.

(** ** All runs *)
Lemma session_step tr s b e s' bx : phase tr s b -> step_ok tr b e -> conn_step o s e = Some (s', bx) -> phase (tr ++ [e]) s' (b ++ bx) \/ (closed (tr ++ [e]) s' (b ++ bx) /\ why tr b e s' bx).
Proof.
  intros P Ok E. destruct P.
  - now apply (step0 _ s _ _ _ _ bb).
  - now apply (step1 _ s).
  - now apply (step2 _ s _ _ _ _ r ds q1).
  - now apply (step3 _ s _ _ _ _ r ds q1 w rc pa).
Qed.
Lemma run_snoc tr e s b : conn_run o conn_new (tr ++ [e]) = Some (s, b) -> exists s1 b1 bx, conn_run o conn_new tr = Some (s1, b1) /\ conn_step o s1 e = Some (s, bx) /\ b = b1 ++ bx.
Proof.
  rewrite conn_run_app. destruct (conn_run o conn_new tr) as [[s1 b1]|]; [|discriminate]. cbn [conn_run]. destruct (conn_step o s1 e) as [[s2 bx]|] eqn:Es; [|discriminate]. rewrite app_nil_r. intros X. injection X as <- <-. now exists s1, b1, bx.
Qed.
Definition step_cond (tr : list cev) : Prop := forall pre e post s b, tr = pre ++ e :: post -> conn_run o conn_new pre = Some (s, b) -> step_ok pre b e.
Lemma cond_pre a c : step_cond (a ++ c) -> step_cond a.
Proof. intros H pre e post s b -> E. apply (H pre e (post ++ c) s b); [now rewrite <- app_assoc|exact E]. Qed.
Lemma session_inv tr : forall s b, conn_run o conn_new tr = Some (s, b) -> step_cond tr -> phase tr s b \/ closed tr s b.
Proof.
  induction tr as [|e tr IH] using rev_ind; intros s b E Cd.
  - injection E as <- <-. left. apply (Ph0 _ _ _ []); try reflexivity; [|constructor]. now exists head.
  - apply run_snoc in E as (s1 & b1 & bx & E1 & Es & ->). assert (step_ok tr b1 e) as Ok by now apply (Cd tr e [] s1 b1).
    destruct (IH s1 b1 E1 (cond_pre _ _ Cd)) as [P|C].
    + destruct (session_step _ _ _ _ _ _ P Ok Es) as [P'|[C _]]; [now left|now right].
    + right. now apply (closed_step tr s1).
Qed.
Lemma session_open tr : forall s b, conn_run o conn_new tr = Some (s, b) -> step_cond tr -> (blen head <= o_head o)%Z -> roomy o tr -> ~ In Abort tr -> ~ In Eof tr -> ~ In Lost tr ->
  rq_keepalive R = true -> ~ In (HClose 0 false) tr -> ended b <= 1 -> phase tr s b.
Proof.
  induction tr as [|e tr IH] using rev_ind; intros s b E Cd Hh Rm0 Na Ne Nl Ka Nc Eb.
  - injection E as <- <-. apply (Ph0 _ _ _ []); try reflexivity; [|constructor]. now exists head.
  - pose proof E as E0. apply run_snoc in E as (s1 & b1 & bx & E1 & Es & ->). assert (step_ok tr b1 e) as Ok by now apply (Cd tr e [] s1 b1). rewrite ended_app in Eb. rewrite in_app_iff in Na, Ne, Nl, Nc.
    assert (phase tr s1 b1) as P.
    { apply IH; try tauto; [exact (cond_pre _ _ Cd)| |lia]. intros pre post s2 b2 -> E2. apply (Rm0 pre (post ++ [e]) s2 b2); [now rewrite app_assoc|exact E2]. }
    destruct (session_step _ _ _ _ _ _ P Ok Es) as [P'|[C W]]; [exact P'|]. exfalso. unfold why in W. cbn [In] in *.
    assert (ended b1 = 1 -> ~ In Ended bx) as X1.
    { intros X Y. rewrite X in Eb. apply in_split in Y as (u & v & ->). rewrite ended_app in Eb. cbn in Eb. lia. }
    pose proof (Rm0 (tr ++ [e]) [] s (b1 ++ bx) (eq_sym (app_nil_r _)) E0) as X2.
    destruct W as [->|[->|[->|[W|[W|(We & [W|[W|W]])]]]]]; try tauto; try lia; congruence.
Qed.
Lemma phase_open tr s b : phase tr s b -> c_closing s = false.
Proof. intros P. destruct P; subst; reflexivity. Qed.
End Session.

(** ** The theorems *)
Lemma msg_plain o m : msg_ok o m -> m_has m = false -> exists p R, find (CRLF ++ CRLF) (m_head m) = Some p /\ List.length (m_head m) = p + 4 /\ (Z.of_nat p + 2 <= o_head o)%Z /\
  frame_head (m_head m) (Z.of_nat p + 2) = Framed R /\ has_body R = false /\ parsed m = Some R.
Proof.
  intros (p & R & F & L & H & Fr & C) E. rewrite E in C. exists p, R. repeat (split; [assumption|]). split; [apply C|]. unfold parsed. now rewrite F, Fr.
Qed.
Lemma session_cond o m tr : client_session o m tr -> handler_accepts tr -> step_cond o m tr.
Proof.
  intros H1 H2 pre e post s b E R. destruct e; try exact I; cbn [step_ok].
  - exact (H1 pre d post s b E R).
  - destruct i; [|exact I]. exact (H2 pre keep post E).
Qed.
Lemma got_stream o m tr s b : msg_ok o m -> m_has m = false -> conn_run o conn_new tr = Some (s, b) -> client_session o m tr -> handler_accepts tr ->
  ((starts b = [] /\ got 0 b = []) \/ (starts b = [(0, m_head m)] /\ is_prefix (m_head m ++ got 0 b) (input tr))) /\ is_prefix (written b) (puts 0 tr).
Proof.
  intros Mo Mc E Cs Ha. destruct (msg_plain o m Mo Mc) as (p & R & F & L & H & Fr & Bo & _). pose proof (session_cond o m tr Cs Ha) as Cd.
  destruct (session_inv o m p R F L H Fr Bo tr s b E Cd) as [P|C].
  - destruct P as [bb S0 F0 P0 I0 D0 B0|S0 I0 D0 B0|r ds q1 S0 Hd I0 G0 E0 A|r ds q1 w rc pa S0 T0 I0 E0 U0 A].
    + subst b. split; [now left|]. now exists (puts 0 tr).
    + subst b. split; [now left|]. now exists (puts 0 tr).
    + split; [right; split; [exact (ac_starts _ _ _ _ _ _ A)|]|rewrite (ac_puts _ _ _ _ _ _ A); apply prefix_app]. rewrite G0, app_nil_r, I0. apply prefix_refl.
    + split; [right; split; [exact (ac_starts _ _ _ _ _ _ A)|]|rewrite (ac_puts _ _ _ _ _ _ A); apply prefix_app]. rewrite I0, app_assoc. apply prefix_app.
  - split; [|exact (cl_written _ _ _ _ _ _ C)]. destruct (cl_case _ _ _ _ _ _ C) as [(_ & Hg)|[(H1 & H2 & H3 & H4 & H5 & H6 & H7 & H8 & _)|(r & ov & l & junk & H1 & H2 & H3 & H4 & H5 & H6 & H7 & H8 & H9 & _)]].
    + tauto.
    + subst b. now left.
    + right. split; [exact H6|]. rewrite H9, app_assoc. apply prefix_app.
Qed.
Lemma stays_open o m tr s b R : msg_ok o m -> m_has m = false -> parsed m = Some R -> rq_keepalive R = true -> (blen (m_head m) <= o_head o)%Z -> conn_run o conn_new tr = Some (s, b) -> client_session o m tr -> handler_accepts tr ->
  roomy o tr -> ~ In Abort tr -> ~ In Eof tr -> ~ In Lost tr -> ~ In (HClose 0 false) tr -> ended b <= 1 -> c_closing s = false.
Proof.
  intros Mo Mc Pm Ka Hh E Cs Ha Ro Na Ne Nl Nc Eb. destruct (msg_plain o m Mo Mc) as (p & R' & F & L & H & Fr & Bo & Pm'). rewrite Pm in Pm'. injection Pm' as <-. pose proof (session_cond o m tr Cs Ha) as Cd.
  apply (phase_open m p R tr s b). apply (session_open o m p R F L H Fr Bo tr s b); assumption.
Qed.
Lemma in_ended b : In Ended b -> ended b <> 0.
Proof. intros X. apply in_split in X as (u & v & ->). rewrite ended_app. change (ended (Ended :: v)) with (S (ended v)). lia. Qed.
Lemma ended_in b : ended b <> 0 -> In Ended b.
Proof. induction b as [|x b IH]; [easy|]. intros H. destruct x; try (right; apply IH; exact H). now left. Qed.
Lemma take_all o s r ds : (-1 <= o_body o)%Z -> c_lost s = false -> c_reqs s = [r] -> c_q0 s = map Some ds -> q_live r = true -> q_eof r = false -> q_cont r = false -> rq_content_length (q_info r) = (-1)%Z ->
  exists s' b', conn_run o s (HRead 0 :: repeat (HTake 0) (List.length ds)) = Some (s', b') /\ got 0 b' = List.concat ds.
Proof.
  intros Ob Lo Er Eq Lv Ef Ct Cl. destruct s as [hb pa cg lo q0 q1 fu wr wk wv rq cu hr rc se]. cbn [c_reqs c_lost c_q0] in *. subst.
  destruct r as [h i k c u sz us eo rd lv]. cbn [q_live q_eof q_cont q_info] in *. subst.
  set (St := fun us q0 => mkC hb pa cg false q0 q1 fu wr wk wv [mkRq h i k false u sz us false true true] cu hr rc se).
  match goal with |- exists s' b', conn_run o ?s0 _ = _ /\ _ => assert (conn_step o s0 (HRead 0) = Some (St us (map Some ds), [])) as Hr end.
  { unfold conn_step, send_continue. cbn [c_lost live c_reqs nth_error q_live q_eof q_info q_cont]. rewrite Cl. replace (o_body o <? -1)%Z with false by lia. reflexivity. }
  assert (forall us d l, conn_step o (St us (Some d :: l)) (HTake 0) = Some (St (us + blen d)%Z l, [Got 0 (Some d)])) as Ht.
  { intros us0 d l. unfold conn_step, St, trimmed. cbn [c_lost live c_reqs nth_error q_live q_eof q_info q_reading negb andb c_q0]. rewrite Cl. reflexivity. }
  cbn [conn_run]. rewrite Hr. clear Hr. revert us. induction ds as [|d ds IH]; intros us; cbn [List.length repeat conn_run map].
  - eexists _, _. split; reflexivity.
  - rewrite Ht. destruct (IH (us + blen d)%Z) as (s' & b' & E & G). destruct (conn_run o _ (repeat (HTake 0) (List.length ds))) as [[s2 b2]|]; [|discriminate]. injection E as <- <-. eexists _, _. split; [reflexivity|].
    rewrite !got_app. cbn [app] in G. cbn [got map List.concat Nat.eqb app]. rewrite app_nil_r. f_equal. exact G.
Qed.
Lemma session_delivered o m tr s b : msg_ok o m -> m_has m = false -> (-1 <= o_body o)%Z -> conn_run o conn_new tr = Some (s, b) -> c_closing s = false -> client_session o m tr -> handler_accepts tr ->
  In Ended b -> idle o s ->
  c_paused s = false /\ written b = puts 0 tr /\ (~ In (HEnd 0) tr -> exists n s' b', conn_run o s (HRead 0 :: repeat (HTake 0) n) = Some (s', b') /\ m_head m ++ got 0 (b ++ b') = input tr).
Proof.
  intros Mo Mc Ob E Cg Cs Ha Ie (I1 & I2 & I3). destruct (msg_plain o m Mo Mc) as (p & R & F & L & H & Fr & Bo & _). pose proof (session_cond o m tr Cs Ha) as Cd. apply in_ended in Ie.
  destruct (session_inv o m p R F L H Fr Bo tr s b E Cd) as [P|C]; [|rewrite (cl_closing _ _ _ _ _ _ C) in Cg; discriminate].
  destruct P as [bb S0 F0 P0 I0 D0 B0|S0 I0 D0 B0|r ds q1 S0 Hd I0 G0 E0 A|r ds q1 w rc pa S0 T0 I0 E0 U0 A]; [subst b; now destruct Ie|subst b; now destruct Ie|now destruct Ie|].
  assert (q1 = []) as ->.
  { destruct q1 as [|[d|] q1]; [reflexivity| |]; specialize (I3 false); rewrite S0 in I3; [discriminate|]. exfalso. revert I3. unfold conn_step, run_send, st3. csimp. cbn [nth_error]. destruct (q_keep r); cbn [andb]; [destruct (q_cont r); discriminate|discriminate]. }
  assert (exists a, rc = repeat ROver a /\ pa = false) as (a & -> & ->).
  { destruct T0 as (a & [(-> & -> & _)|(t & -> & -> & -> & T)]); [now exists a|]. exfalso. specialize (I2 a). rewrite S0 in I2. unfold conn_step, st3 in I2. csimp_in I2. rewrite nth_over, Nat.ltb_irrefl, Nat.sub_diag in I2. cbn [nth_error] in I2.
    destruct t as [w' d|rest len|]; [|discriminate|exact T]. assert (w_done w' (st3 r ds [] (WTask a) (repeat ROver a ++ [RWait w' d]) true) = true) as Wd.
    { destruct T as [->|(j & -> & Hj)]; [reflexivity|]. unfold w_done, st3. csimp. rewrite nth_over. now apply Nat.ltb_lt in Hj as ->. }
    unfold st3 in Wd. rewrite Wd in I2. discriminate. }
  rewrite S0. split; [reflexivity|]. split; [rewrite (ac_puts _ _ _ _ _ _ A); symmetry; apply app_nil_r|]. intros Nh.
  destruct (ac_live _ _ _ _ _ _ A) as [X|Lv]; [easy|]. destruct (ac_rok _ _ _ _ _ _ A) as (Rh & Ri & Rc).
  destruct (take_all o (st3 r ds [] w (repeat ROver a) false) r ds Ob eq_refl eq_refl eq_refl Lv (ac_eof _ _ _ _ _ _ A) Rc) as (s' & b' & Er & G).
  { rewrite Ri. exact (proj2 (plain_request m p R Fr Bo)). }
  exists (List.length ds), s', b'. split; [exact Er|]. rewrite got_app, G, I0, pend_over, app_nil_r. reflexivity.
Qed.
Lemma session_close o m tr s b kicked s' bx : msg_ok o m -> m_has m = false -> conn_run o conn_new tr = Some (s, b) -> c_closing s = false -> client_session o m tr -> handler_accepts tr ->
  ended b = 1 -> conn_step o s (RunSend kicked) = Some (s', bx) -> In Ended bx -> c_closing s' = true /\ written b = said 1 tr.
Proof.
  intros Mo Mc E Cg Cs Ha Eb Es Ie. destruct (msg_plain o m Mo Mc) as (p & R & F & L & H & Fr & Bo & _). pose proof (session_cond o m tr Cs Ha) as Cd.
  destruct (session_inv o m p R F L H Fr Bo tr s b E Cd) as [P|C]; [|rewrite (cl_closing _ _ _ _ _ _ C) in Cg; discriminate].
  destruct P as [bb S0 F0 P0 I0 D0 B0|S0 I0 D0 B0|r ds q1 S0 Hd I0 G0 E0 A|r ds q1 w rc pa S0 T0 I0 E0 U0 A]; [subst b; discriminate|subst b; discriminate|congruence|].
  subst s. unfold conn_step, run_send, st3 in Es. csimp_in Es. destruct q1 as [|[d|] q1]; [discriminate|injection Es as <- <-; destruct Ie as [X|[]]; discriminate|]. split.
  - csimp_in Es. cbn [nth_error] in Es. destruct (ac_rok _ _ _ _ _ _ A) as (Rh & Ri & Rc). destruct (q_keep r); cbn [andb] in Es.
    + unfold keepalive in Es. csimp_in Es. rewrite Rc, U0, andb_true_r in Es. destruct kicked; injection Es as <- <-; reflexivity.
    + injection Es as <- <-. unfold on_req. cbn [set_q1 c_reqs nth_error]. reflexivity.
  - rewrite (ac_said _ _ _ _ _ _ A 1) by lia. rewrite Eb. cbn. now rewrite app_nil_r.
Qed.

(** ** Checkers, for the examples *)
Definition session_b (o : copts) (m : msg) (tr : list cev) : bool :=
  forallb id (at_each tr (fun pre e _ => match e, conn_run o conn_new pre with
    | Data d, Some (_, b) => prefix_b (input pre ++ d) (m_head m) || existsb (fun x => match x with Wrote _ => true | _ => false end) b | _, _ => true end)).
Lemma session_b_ok o m tr : session_b o m tr = true -> client_session o m tr.
Proof.
  intros H pre d post s b E R. apply (at_each_in tr (fun pre e _ => match e, conn_run o conn_new pre with
    | Data d, Some (_, b) => prefix_b (input pre ++ d) (m_head m) || existsb (fun x => match x with Wrote _ => true | _ => false end) b | _, _ => true end)) in E.
  apply (proj1 (forallb_forall _ _) H) in E. unfold id in E. rewrite R in E. apply orb_prop in E as [E|E]; [left; now apply prefix_b_ok|right]. apply existsb_exists in E as ([]  & Hx & E); try discriminate. now exists d0.
Qed.
Definition accepts_b (tr : list cev) : bool :=
  forallb id (at_each tr (fun pre e _ => match e with HClose 0 _ => existsb (fun x => match x with HUpgrade 0 => true | _ => false end) pre | _ => true end)).
Lemma accepts_b_ok tr : accepts_b tr = true -> handler_accepts tr.
Proof.
  intros H pre k post E. apply (at_each_in tr (fun pre e _ => match e with HClose 0 _ => existsb (fun x => match x with HUpgrade 0 => true | _ => false end) pre | _ => true end)) in E.
  apply (proj1 (forallb_forall _ _) H) in E. unfold id in E. apply existsb_exists in E as (x & Hx & E). destruct x; try discriminate. now destruct i.
Qed.
Definition roomy_b (o : copts) (tr : list cev) : bool :=
  forallb (fun n => match conn_run o conn_new (firstn n tr) with Some (s, _) => (Z.of_nat (List.length (c_q0 s)) <=? o_queue o)%Z | None => true end) (seq 0 (S (List.length tr))).
Lemma roomy_b_ok o tr : roomy_b o tr = true -> roomy o tr.
Proof.
  intros H pre post s b -> E. pose proof (proj1 (forallb_forall _ _) H (List.length pre)) as X. cbn beta in X. rewrite firstn_app, Nat.sub_diag, firstn_all, app_nil_r, E in X. apply Z.leb_le, X. apply in_seq. rewrite app_length. lia.
Qed.
