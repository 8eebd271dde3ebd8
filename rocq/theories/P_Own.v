(** Proofs about handlers that send their response themselves (C88). *)
From Verif Require Import PyBytes PyBytesFacts PyDictFacts PyInt PyExn M_Parser M_Framing M_Conn M_Response M_Server M_Sendfile S_Head S_Response S_Calls S_Range S_Sendfile S_Conn S_Site P_Response P_Response2 P_Response3 P_Response4 P_Response5 P_Response6 P_Said P_Response7 P_Response8 P_Site2 P_Conn P_Conn11 S_Own.

(** ** Calls that end with close() *)
Definition closes (m : M_Response.call unit) : Prop := forall s s', m s = (Ok tt, s') -> r_buf s' = [].
Lemma closes_close keep : closes (close keep).
Proof. intros s s' E. unfold close, update in E. injection E as <-. reflexivity. Qed.
Lemma closes_then {X} (m : M_Response.call X) k : (forall x, closes (k x)) -> closes (fun s => match m s with (Ok x, s') => k x s' | (Raise x, s') => (Raise x, s') end).
Proof. intros C s s' E. destruct (m s) as [[x|x] s1]; [exact (C x s1 s' E)|discriminate]. Qed.
Lemma closes_end e d keep min : closes (end_ e d keep min).
Proof. unfold end_. apply (closes_then _ (fun _ => close keep)). intros _. apply closes_close. Qed.
Lemma closes_file e q f size ctype boundary k : ~ not_modified e q f -> closes (sendfile e q f size ctype boundary k).
Proof.
  intros Nm. unfold sendfile, send_opened. cbv zeta.
  assert (forall (m : M_Response.call unit) k, (forall x : unit, closes (k x)) -> closes (M_Response.seq m k)) as B by (intros m0 k0 C; exact (closes_then m0 k0 C)).
  destruct (e_11 e) eqn:E1; [destruct (f_range q) as [|r rs] eqn:Er|].
  - destruct (match f_ims q with [d] => beqb d (fl_mdate f) | _ => false end) eqn:Ei.
    + exfalso. apply Nm. split; [now right|]. destruct (f_ims q) as [|d [|? ?]]; try discriminate. apply beqb_eq in Ei. now subst d.
    + repeat (apply B; intros _). apply closes_close.
  - destruct (match f_if_range q with [] => false | [d] => negb (beqb d (fl_mdate f)) | _ => true end); [repeat (apply B; intros _); apply closes_close|].
    destruct (range_header _ _) as [ranges|x]; [|intros s s' E; discriminate E]. apply B; intros _.
    destruct ranges as [|[[a b] n] [|? ?]]; repeat (apply B; intros _); apply closes_close.
  - assert (match f_range q with | _ => true end = true) as _ by now destruct (f_range q).
    destruct (match f_ims q with [d] => beqb d (fl_mdate f) | _ => false end) eqn:Ei.
    + exfalso. apply Nm. split; [now left|]. destruct (f_ims q) as [|d [|? ?]]; try discriminate. apply beqb_eq in Ei. now subst d.
    + repeat (apply B; intros _). apply closes_close.
Qed.

(** ** The request server around such a handler *)
Lemma hops_cat e a : forall b s, do_hops e (a ++ b) s = do_hops e b (do_hops e a s).
Proof. induction a as [|h a IH]; intros b s; [reflexivity|]. cbn [app do_hops]. apply IH. Qed.
Lemma dget_snoc (k k' : bytes) (v : oval) o : beqb k k' = false -> dget beqb k (o ++ [(k', v)]) = dget beqb k o.
Proof. intros N. induction o as [|[k0 v0] o IH]; cbn [app dget]; [now rewrite N|]. destruct (beqb k k0); [reflexivity|exact IH]. Qed.
Lemma route_run {A} (kw : opts) v1 v2 e keep (a : A) ctx log : route_ok kw -> let o := set_default "buffer_size" v2 (set_default "rate" v1 kw) in
  oget "sse" o = None /\ apply_options o (mkW a (new_rsp keep) ctx log) = (mkW a (start e (route_calls kw) keep) ctx log, inl tt).
Proof.
  intros (R1 & R2 & R3). cbv zeta. assert (forall k, beqb (bs k) (bs "rate") = false -> beqb (bs k) (bs "buffer_size") = false -> oget k (set_default "buffer_size" v2 (set_default "rate" v1 kw)) = oget k kw) as G.
  { intros k N1 N2. unfold oget, set_default. rewrite dget_snoc by exact N2. apply dget_snoc. exact N1. }
  split; [rewrite G by reflexivity; exact R1|]. unfold apply_options. rewrite (G "status"%string), (G "content_type"%string) by reflexivity. unfold route_calls, start.
  destruct (oget "status" kw) as [[z m| | | |]|]; try contradiction; (destruct (oget "content_type" kw) as [[|t| | |]|]; try contradiction); unfold andthen, ret, rsp_do; cbn [w_rsp w_app w_ctx w_log app do_hops do_hop]; try reflexivity.
  - unfold set_status. apply memb_notIn in R2, R3. rewrite R2. unfold M_Response.seq at 1, get_headers at 1. cbn [new_rsp r_headers]. unfold set_content_type. rewrite R3. reflexivity.
  - unfold set_status. apply memb_notIn in R2. rewrite R2. reflexivity.
  - unfold set_content_type. apply memb_notIn in R3. rewrite R3. reflexivity.
Qed.
Lemma base_any e s : one_line (e_date e) -> one_line (e_server e) -> set_base_header e s = (Ok tt, snd (set_base_header e s)).
Proof. apply base_run. Qed.
Lemma own_any {A} e sv hb kw (f : rsp -> res unit * rsp) (a : A) keep ctx log s' (quiet : bool) : one_line (e_date e) -> one_line (e_server e) -> route_ok kw ->
  f (start e (route_calls kw ++ [HBase]) keep) = (Ok tt, s') ->
  exists w', handle_response e sv hb (Coro (fun (a : A) s (_ : opts) => let '(r, s2) := f s in (a, s2, match r with Ok _ => if quiet then ONone else OOther | Raise x => OExc (of_exn x) end))) kw (mkW a (new_rsp keep) ctx log) = (w', inl tt) /\
    w_rsp w' = if quiet then snd (close false s') else s'.
Proof.
  intros D S K F. unfold handle_response. cbv zeta. destruct (route_run kw (s_rate sv) (s_bufsize sv) e keep a ctx log K) as [O1 O2]. set (o := set_default _ _ _) in *. rewrite O1. cbn iota.
  unfold andthen at 1, ret at 1. cbn iota beta. unfold andthen at 1. rewrite O2. cbn iota beta.
  unfold andthen, ret, rsp_do. cbn [w_rsp w_app w_ctx w_log]. rewrite (base_any e _ D S). cbn iota beta. unfold ctx_update, run_func, note. cbn [w_rsp w_app w_ctx w_log].
  assert (snd (set_base_header e (start e (route_calls kw) keep)) = start e (route_calls kw ++ [HBase]) keep) as -> by (unfold start; now rewrite hops_cat). rewrite F. cbn iota beta.
  destruct quiet; cbn iota beta; eexists; (split; [reflexivity|]); reflexivity.
Qed.
Lemma own_run {A} e sv hb kw (f : rsp -> res unit * rsp) (a : A) keep ctx log s' (quiet : bool) : one_line (e_date e) -> one_line (e_server e) -> route_ok kw ->
  f (start e (route_calls kw ++ [HBase]) keep) = (Ok tt, s') -> r_buf s' = [] ->
  exists w', handle_response e sv hb (Coro (fun (a : A) s (_ : opts) => let '(r, s2) := f s in (a, s2, match r with Ok _ => if quiet then ONone else OOther | Raise x => OExc (of_exn x) end))) kw (mkW a (new_rsp keep) ctx log) = (w', inl tt) /\
    r_out (w_rsp w') = r_out s' ++ (if quiet then [None] else []) /\ r_keep (w_rsp w') = (negb quiet && r_keep s')%bool.
Proof.
  intros D S K F Eb. destruct (own_any e sv hb kw f a keep ctx log s' quiet D S K F) as (w' & R & Ew). exists w'. split; [exact R|]. rewrite Ew. clear Ew R. destruct quiet.
  - unfold close, update. cbn [snd]. destruct s'. cbn in *. subst. split; reflexivity.
  - rewrite app_nil_r. split; reflexivity.
Qed.

(** ** The headers after the calls *)
Lemma route_clean kw : route_ok kw -> Forall appends_clean (route_calls kw) /\ Forall name_ok (route_calls kw) /\ Forall unreserved (route_calls kw) /\ Forall unframed_call (route_calls kw).
Proof.
  intros (_ & R2 & R3). unfold route_calls. destruct (oget "status" kw) as [[z m| | | |]|]; try contradiction; (destruct (oget "content_type" kw) as [[|t| | |]|]; try contradiction);
    cbn [app]; repeat split; repeat (first [apply Forall_nil | apply Forall_cons]); cbn; try exact Logic.I; try assumption; try (split; cbn; intuition discriminate).
Qed.
Lemma route_empty e kw keep : r_headers (start e (route_calls kw) keep) = Some [].
Proof.
  unfold route_calls, start. assert (forall h s, match h with HStatus _ _ | HCtype _ => True | _ => False end -> r_headers s = Some [] -> r_headers (snd (do_hop e h s)) = Some []) as X.
  { intros h s Hh H. destruct h; try contradiction; cbn [do_hop].
    - unfold set_status. destruct (memb LF message); [exact H|]. unfold M_Response.seq, get_headers. rewrite H. exact H.
    - unfold set_content_type. destruct (memb LF content_type); [exact H|]. unfold M_Response.seq, get_headers. rewrite H. exact H. }
  destruct (oget "status" kw) as [[z m| | | |]|]; destruct (oget "content_type" kw) as [[|t| | |]|]; cbn [app do_hops]; try reflexivity; repeat (apply X; [exact Logic.I|]); reflexivity.
Qed.
Lemma route_date e kw pre keep : one_line (e_date e) -> one_line (e_server e) -> lines_at (bs "date") (start e (route_calls kw ++ HBase :: pre) keep) <> None.
Proof.
  intros A B. unfold start. rewrite hops_cat. cbn [do_hops do_hop]. apply do_hops_present. pose proof (route_empty e kw keep) as H. unfold start in H. set (s := do_hops e (route_calls kw) (new_rsp keep)) in *.
  unfold set_base_header. rewrite H.
  rewrite (seq_ok _ _ _ _ _ (set_header_run (bs "Date") (e_date e) s [] H ltac:(ol) A)).
  rewrite (set_header_run _ _ _ (hset (lower (bs "Date")) [header_line (bs "Date") (e_date e)] [])); [discriminate|reflexivity|ol|exact B].
Qed.
Lemma hmem_some k s d : r_headers s = Some d -> lines_at k s <> None -> hmem k d = true.
Proof. intros H L. rewrite (hmem_lines _ _ _ H). now destruct (lines_at k s). Qed.
Lemma status_base a b : the_status (a ++ HBase :: b) = the_status (a ++ b).
Proof. unfold the_status. generalize (200%Z, bs "OK"). induction a as [|h a IH]; intros st; [reflexivity|]. destruct h; cbn [app final_status]; apply IH. Qed.
Lemma route_all {P : hop -> Prop} kw pre : Forall P (route_calls kw) -> P HBase -> Forall P pre -> Forall P (route_calls kw ++ HBase :: pre).
Proof. intros A B C. apply Forall_app. split; [exact A|now constructor]. Qed.
Lemma has_stored e kw pre keep : route_ok kw -> Forall appends_clean pre -> Forall unreserved pre -> exists stored, r_headers (start e (route_calls kw ++ HBase :: pre) keep) = Some stored.
Proof.
  intros K A U. destruct (route_clean kw K) as (K1 & _ & K3 & _). destruct (called_intro False e (route_calls kw ++ HBase :: pre) keep (route_all kw pre K1 Logic.I A) ltac:(easy) (route_all kw pre K3 Logic.I U)) as (d & Ca).
  exists d. exact (ca_h _ _ _ _ _ _ Ca).
Qed.
(** ** The lines of the calls, name by name *)
Lemma said_base k a b : said k (a ++ HBase :: b) [] = said k (a ++ b) [].
Proof. rewrite !said_app. reflexivity. Qed.
Lemma stored_said e ops keep stored : Forall appends_clean ops -> Forall name_ok ops -> Forall unreserved ops -> r_headers (start e ops keep) = Some stored ->
  forall sent, good (P1 True) sent -> hmem k_line sent = false -> (forall k, ~ In k added -> k <> k_line -> hget k sent = hget k stored) -> forall k, ~ In k added -> lines_named k (lines_of sent) = said k ops [].
Proof.
  intros A B C H sent G NL Sm k NA. rewrite (named_lines True k sent Logic.I G NL). destruct (beqb k k_line) eqn:EK.
  - apply beqb_eq in EK as ->. unfold hmem, dmem in NL. unfold hget. destruct (dget beqb k_line sent); [discriminate|]. symmetry. apply said_none. eapply Forall_impl; [|exact C]. intros h Uh. now apply unreserved_names.
  - apply beqb_neq in EK. rewrite (Sm k NA EK). rewrite <- (at_get k _ stored H). unfold start. rewrite (said_hops e k ops NA EK) by discriminate. reflexivity.
Qed.
Lemma dget_unframed (d : hdict) k : existsb (beqb k) framing = false -> dget beqb k (unframed d) = dget beqb k d.
Proof.
  intros N. unfold unframed. induction d as [|[k0 v] d IH]; [reflexivity|]. cbn [filter fst dget]. destruct (existsb (beqb k0) framing) eqn:E; cbn [negb dget]; destruct (beqb k k0) eqn:E0; try reflexivity; try exact IH.
  apply beqb_eq in E0 as ->. congruence.
Qed.
Lemma end_said e ops keep stored : Forall appends_clean ops -> Forall name_ok ops -> Forall unreserved ops -> r_headers (start e ops keep) = Some stored ->
  forall k, ~ In k added -> lines_named k (concat (map snd (unframed stored))) = said k ops [].
Proof.
  intros A B C H. destruct (called_intro True e ops keep A (fun _ => B) C) as (d & Ca). assert (d = stored) as -> by (pose proof (ca_h _ _ _ _ _ _ Ca) as Hd; unfold start in H; congruence).
  pose proof (proj1 (ca_g _ _ _ _ _ _ Ca) _ (ca_h _ _ _ _ _ _ Ca)) as [ND G]. apply (stored_said e ops keep stored A B C H (unframed stored)).
  - split; [|intros k l I; apply G; now apply filter_In in I]. unfold unframed. clear -ND. induction stored as [|[k l] d IH]; [constructor|]. cbn [map fst] in ND. inversion_clear ND as [|? ? Nk ND']. cbn [filter fst]. destruct (negb _); [|now apply IH].
    cbn [map fst]. constructor; [|now apply IH]. intros I. apply Nk. apply in_map_iff in I as (x & <- & I). apply filter_In in I as [I _]. now apply in_map.
  - unfold hmem, dmem. rewrite dget_unframed by reflexivity. exact (ca_l _ _ _ _ _ _ Ca).
  - intros k NA _. unfold hget. apply dget_unframed. destruct (existsb (beqb k) framing) eqn:E; [|reflexivity]. exfalso. apply NA. apply existsb_exists in E as (x & I & E). apply beqb_eq in E as ->. cbn in I |- *. tauto.
Qed.

(** ** The connection *)
Lemma put_at_same {A} i (x : A) : forall l y, nth_error l i = Some y -> nth_error (put_at i x l) i = Some x.
Proof. induction i as [|i IH]; intros [|z l] y H; cbn in *; try discriminate; [reflexivity|exact (IH l y H)]. Qed.
Lemma puts_run o i r items : forall s, c_lost s = false -> live s i = Some r -> conn_run o s (map (HPut i) items) = Some (set_q1 (c_q1 s ++ map Some items) s, []).
Proof.
  induction items as [|d items IH]; intros s Lo Li.
  - cbn [map conn_run]. rewrite app_nil_r. now destruct s.
  - cbn [map conn_run]. unfold conn_step at 1. rewrite Lo, Li. cbn iota. rewrite (IH (put1 (Some d) s)); [|now destruct s|now destruct s]. unfold put1. destruct s. cbn. rewrite <- app_assoc. reflexivity.
Qed.
Lemma sends_run o k l items : forall s, c_lost s = false -> c_closing s = false -> c_sending s = true -> c_q1 s = map Some items ++ l ->
  conn_run o s (repeat (RunSend k) (List.length items)) = Some (set_q1 l s, map Wrote items).
Proof.
  induction items as [|d items IH]; intros s Lo Cl Se Eq.
  - cbn in *. rewrite <- Eq. now destruct s.
  - cbn [List.length repeat conn_run]. unfold conn_step at 1. rewrite Lo. unfold run_send. rewrite Se, Eq. cbn [map app]. rewrite Cl. rewrite (IH (set_q1 (map Some items ++ l) s)); [|now destruct s|now destruct s|now destruct s|now destruct s]. now destruct s.
Qed.
Lemma own_conn o k i items nothing s r : c_lost s = false -> c_closing s = false -> c_sending s = true -> Forall (fun x => x = None \/ x = Some []) (c_q0 s) -> c_q1 s = [] -> c_cur s = Some i -> live s i = Some r ->
  q_keep r = true -> c_hb s = None -> q_cont r = false -> q_upg r = false -> k = false \/ c_wreq s <> None ->
  exists s', conn_run o s (own_events i items nothing ++ repeat (RunSend k) (S (List.length items))) = Some (s', map Wrote items ++ [Ended]) /\
    c_closing s' = nothing /\ c_sending s' = negb nothing.
Proof.
  intros Lo Cl Se E0 Eq Cu Li Kp Hb Qc Qu Kk. unfold own_events. rewrite <- app_assoc, conn_run_app, (puts_run o i r items s Lo Li). rewrite Eq. cbn [app]. set (s1 := set_q1 (map Some items) s).
  assert (nth_error (c_reqs s) i = Some r) as Nr by (unfold live in Li; destruct (nth_error (c_reqs s) i) as [r0|]; [|discriminate]; destruct (q_live r0); [congruence|discriminate]).
  assert (live s1 i = Some r) as Li1 by (unfold s1; now destruct s). cbn [conn_run]. unfold conn_step at 1. replace (c_lost s1) with false by (unfold s1; now destruct s). rewrite Li1. cbn iota.
  set (s2 := put1 None s1).
  assert (forall s3 l, c_lost s3 = false -> c_closing s3 = false -> c_sending s3 = true -> c_q1 s3 = map Some items ++ None :: l -> conn_run o s3 (repeat (RunSend k) (S (List.length items))) =
    match run_send o k (set_q1 (None :: l) s3) with Some (s4, b4) => Some (s4, map Wrote items ++ b4) | None => None end) as R.
  { intros s3 l A B C D. replace (S (List.length items)) with (List.length items + 1)%nat by lia. rewrite repeat_app, conn_run_app, (sends_run o k (None :: l) items s3 A B C D). cbn [repeat conn_run]. unfold conn_step. replace (c_lost (set_q1 (None :: l) s3)) with false by (destruct s3; now cbn in *).
    destruct (run_send o k (set_q1 (None :: l) s3)) as [[s4 b4]|]; [|reflexivity]. now rewrite app_nil_r. }
  destruct nothing; cbn [app].
  - cbn [conn_run]. unfold conn_step at 1. replace (c_lost s2) with false by (unfold s2, s1; now destruct s). assert (live s2 i = Some r) as Li2 by (unfold s2, s1; now destruct s). rewrite Li2. cbn iota.
    set (s3 := on_req i (set_keep false) s2). 
    assert (c_lost s3 = false /\ c_closing s3 = false /\ c_sending s3 = true /\ c_q1 s3 = map Some items ++ [None] /\ c_cur s3 = Some i) as M.
    { unfold s3, on_req. replace (nth_error (c_reqs s2) i) with (Some r) by (unfold s2, s1; destruct s; cbn in *; congruence). unfold s2, s1. destruct s. cbn in *. subst. tauto. }
    rewrite (R (put1 None s3) [None]).
    + unfold run_send. set (s4 := set_q1 [None; None] (put1 None s3)). replace (c_sending s4) with true by (destruct M as (_ & _ & M3 & _); unfold s4; destruct s3; now cbn in *). replace (c_q1 s4) with [@None bytes; None] by (unfold s4; now destruct (put1 None s3)). cbn iota zeta.
      replace (c_cur (set_q1 [None] s4)) with (Some i) by (destruct M as (_ & _ & _ & _ & M5); unfold s4; destruct s3; cbn in *; congruence).
      replace (nth_error (c_reqs (set_q1 [None] s4)) i) with (Some (set_keep false r)).
      * cbn [q_keep set_keep andb]. eexists. split; [reflexivity|]. split; reflexivity.
      * replace (c_reqs (set_q1 [None] s4)) with (c_reqs s3) by (unfold s4; now destruct s3). unfold s3, on_req. replace (c_reqs s2) with (c_reqs s) by (unfold s2, s1; now destruct s). rewrite Nr. cbn [c_reqs set_reqs]. symmetry. apply (put_at_same i _ _ r Nr).
    + destruct M as (M1 & M2 & M3 & _). destruct s3; now cbn in *.
    + destruct M as (M1 & M2 & M3 & _). destruct s3; now cbn in *.
    + destruct M as (M1 & M2 & M3 & _). destruct s3; now cbn in *.
    + destruct M as (_ & _ & _ & M4 & _). destruct s3; cbn in *. rewrite M4. now rewrite <- app_assoc.
  - rewrite (R s2 []); [|unfold s2, s1; destruct s; now cbn in *..].
    unfold run_send. set (s4 := set_q1 [None] s2). replace (c_sending s4) with true by (unfold s4, s2, s1; destruct s; now cbn in *). replace (c_q1 s4) with [@None bytes] by (unfold s4; now destruct s2). cbn iota zeta.
    replace (c_cur (set_q1 [] s4)) with (Some i) by (unfold s4, s2, s1; destruct s; cbn in *; congruence).
    replace (nth_error (c_reqs (set_q1 [] s4)) i) with (Some r) by (unfold s4, s2, s1; destruct s; cbn in *; congruence).
    rewrite Kp. replace (c_hb (set_q1 [] s4)) with (@None bytes) by (unfold s4, s2, s1; destruct s; cbn in *; congruence). cbn [andb]. rewrite Qc. eexists. split; [reflexivity|].
    unfold keepalive. replace (c_wreq (set_q1 [] s4)) with (c_wreq s) by (unfold s4, s2, s1; now destruct s).
    replace (k && match c_wreq s with Some _ => false | None => true end)%bool with false by (destruct Kk as [->|Kk]; [reflexivity|]; destruct (c_wreq s); [now rewrite andb_false_r|congruence]).
    rewrite Qc, Qu. cbv zeta.
    assert (forall x, c_closing x = false -> c_sending x = true -> Forall (fun x => x = None \/ x = Some []) (c_q0 x) -> forall z, c_closing (set_paused false (if has_body (q_info r) then set_waiters None z None (set_futs (c_futs x ++ [false]) x) else refeed o (c_q0 (set_waiters None z None (set_futs (c_futs x ++ [false]) x))) (set_q0 [] (set_waiters None z None (set_futs (c_futs x ++ [false]) x))))) = false /\
      c_sending (set_paused false (if has_body (q_info r) then set_waiters None z None (set_futs (c_futs x ++ [false]) x) else refeed o (c_q0 (set_waiters None z None (set_futs (c_futs x ++ [false]) x))) (set_q0 [] (set_waiters None z None (set_futs (c_futs x ++ [false]) x))))) = true) as Z.
    { intros x X1 X2 X3 z. destruct (has_body (q_info r)); [destruct x; cbn in *; now subst|]. rewrite refeed_empty by (destruct x; exact X3). destruct x; cbn in *; now subst. }
    apply Z; unfold on_req; replace (nth_error (c_reqs (set_q1 [] s4)) i) with (Some r) by (unfold s4, s2, s1; destruct s; cbn in *; congruence); unfold s4, s2, s1; destruct s; cbn in *; first [assumption|congruence].
Qed.
