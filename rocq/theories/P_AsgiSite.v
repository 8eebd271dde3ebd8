(** Proofs about exchanges with ASGI applications (C78). *)
From Verif Require Import PyBytes PyBytesFacts PyInt PyIntFacts PyExn PyUtf8 M_Parser M_Framing M_Conn M_Response M_Scope M_Asgi M_AsgiSite
  S_Head S_Num S_Scope S_Response S_Calls S_Chunked S_Asgi S_Conn S_Site S_AsgiSite S_Told P_Framing P_Scope P_Asgi2 P_Asgi3 P_Site P_Site3 P_Exchange.

(** ** The scope *)
Lemma frame_same r0 r : frame r0 = Ok r -> rq_headers r = rq_headers r0 /\ rq_is_valid r = rq_is_valid r0 /\ rq_method r = rq_method r0 /\ rq_path r = rq_path r0 /\
  rq_query_string r = rq_query_string r0 /\ rq_version r = rq_version r0.
Proof.
  unfold frame. destruct (keepalive_of r0); [|discriminate]. cbn [bind]. destruct (has_body r0).
  - destruct (transfer_encoding_of r0); [|discriminate]. cbn [bind]. destruct (content_length_of r0 _); [|discriminate]. cbn [bind]. destruct (continue_of r0); [|discriminate]. cbn [bind]. intros E. injection E as <-. repeat split.
  - intros E. injection E as <-. repeat split.
Qed.
Lemma called_same ws root h r0 r w m : rq_is_valid r = rq_is_valid r0 -> rq_method r = rq_method r0 -> rq_path r = rq_path r0 -> rq_query_string r = rq_query_string r0 -> rq_version r = rq_version r0 ->
  asgi_called ws root h r w m = asgi_called ws root h r0 w m.
Proof. intros E1 E2 E3 E4 E5. unfold asgi_called, asgi_scope. rewrite E1, E2, E3, E4, E5. reflexivity. Qed.
Lemma call_scope o c y sc r : good_call o c -> frame_head (m_head (msg_of c)) (blen (m_head (msg_of c)) - 2) = Framed r -> told y c sc ->
  scope_for y (m_head (msg_of c)) r = Some sc /\ sc_websocket sc = false.
Proof.
  intros (Ft & Hh & Fn & _) Fr (path & query & d & s & a & T & W & Sc & C & ->). split; [|reflexivity].
  unfold frame_head in Fr. cbn [m_head msg_of] in *. unfold scope_for.
  pose proof (scope_http (k_method c) (k_url c) (bs "1.1") (sent_fields c) []) as X. unfold heard in X. cbv zeta in X. rewrite app_nil_r in X.
  pose proof (offered_values (k_method c) (k_url c) (bs "1.1") (sent_fields c) []) as Y. unfold heard in Y. cbv zeta in Y. rewrite app_nil_r in Y.
  set (h := parse_header _ _ _ _ _ _) in *. destruct (is_request h); [|discriminate]. destruct (request_init h) as [r0|] eqn:R; [|discriminate]. destruct (frame r0) as [r'|] eqn:E; [|discriminate]. injection Fr as ->.
  destruct (frame_same r0 r E) as (E1 & E2 & E3 & E4 & E5 & E6). rewrite (called_same _ _ _ r0 r) by assumption. rewrite E1.
  assert (has_host (bs "1.1") (sent_fields c)) as Ho. { intros _. unfold sent_fields. rewrite values_app. destruct (values (bs "host") (k_fields c)); [easy|discriminate]. }
  destruct (X r0 path query d s (y_tls y) (y_peer y) a (y_root y) Ft Ho eq_refl T W Sc C (y_ws y)) as (m & Em).
  - rewrite (Y r0 Ft eq_refl). assert (values (bs "connection") (sent_fields c) = []) as ->.
    { apply values_none. intros f I Ef. unfold sent_fields in I. apply in_app_or in I as [I|I].
      - rewrite Forall_forall in Fn. apply (Fn f I). rewrite Ef. now left.
      - destruct (k_body c); [destruct I as [<-|[]]; discriminate Ef|destruct I]. }
    now rewrite andb_false_r.
  - rewrite Em. reflexivity.
Qed.

(** ** The mode of the connection: chunked is never forced *)
Lemma call_chunked m a : a_chunked (snd (a_call m a)) = a_chunked a.
Proof. unfold a_call. now destruct (m (a_rsp a)). Qed.
Ltac called := match goal with |- context [a_call ?m ?a] => let K := fresh "K" in pose proof (call_chunked m a) as K; destruct (a_call m a) as [[?|?] ?]; cbn [snd] in K end.
Lemma fail_chunked e text a : a_chunked (a_fail e text a) = a_chunked a.
Proof. unfold a_fail. now destruct (Verif.M_Server.handle_exception _ _ _ _). Qed.
Lemma headers_chunked e text hs : forall a, a_chunked a <> Some true -> a_chunked (start_headers e text hs a) <> Some true.
Proof.
  induction hs as [|[n v] hs IH]; intros a N; [exact N|]. cbn [start_headers]. destruct (_ || _)%bool; [now rewrite fail_chunked|]. cbn zeta. destruct (beqb _ _); [called; [apply IH; congruence|congruence]|]. destruct (_ || _)%bool; [now apply IH|].
  destruct (beqb _ _); [apply IH; now destruct (beqb _ _)|]. called; (destruct (beqb _ (bs "content-length")); cbn [a_chunked] in K); [apply IH| apply IH | |]; congruence.
Qed.
Lemma finish_chunked e more a : a_chunked a <> Some true -> a_chunked (body_finish e more a) <> Some true.
Proof. intros N. unfold body_finish. destruct more; [exact N|]. called; [rewrite call_chunked|]; congruence. Qed.
Lemma send_chunked e phrase text size a ev : a_chunked a <> Some true -> a_chunked (asgi_send e phrase text size a ev) <> Some true.
Proof.
  assert (forall hs a, a_chunked a <> Some true -> a_chunked (start_base e text hs a) <> Some true) as B.
  { intros hs a0 N0. unfold start_base. called; [apply headers_chunked|]; congruence. }
  intros N. destruct ev as [[st|] hs|[|c body] more]; cbn [asgi_send].
  - destruct (phrase st); [|exact N]. called; [apply B|]; congruence.
  - now apply B.
  - now apply finish_chunked.
  - called; [apply finish_chunked|]; congruence.
Qed.
Lemma sends_chunked e phrase text size evs : forall a, a_chunked a <> Some true -> a_chunked (asgi_sends e phrase text size evs a) <> Some true.
Proof. unfold asgi_sends. induction evs as [|ev evs IH]; intros a N; [exact N|]. cbn [fold_left]. now apply IH, send_chunked. Qed.
Lemma serve_chunked date y h r x ch : ch <> Some true -> a_chunked (asgi_serve date y h r x ch) <> Some true.
Proof. intros N. unfold asgi_serve. cbn zeta. destruct (scope_for y h r) as [sc|]; [|exact N]. destruct (sc_websocket sc); [exact N|now apply sends_chunked]. Qed.

(** ** The client *)
Definition fine (w : bytes) (x : answer) : Prop := forall rest, read_answer (w ++ rest) = Some (x, rest).
Lemma read_all l rest : forall ws, Forall2 fine ws l -> read_answers (List.length l) (List.concat ws ++ rest) = Some (l, rest).
Proof.
  induction l as [|x l IH]; intros ws F; inversion_clear F as [|w ? ws' ? Rw Fw]; [reflexivity|]. cbn [List.length read_answers List.concat]. rewrite <- app_assoc, (Rw _). now rewrite (IH ws' Fw).
Qed.
Lemma lstrip_all_not p (v : bytes) : Forall (fun c => p c = false) v -> lstrip_by p v = v.
Proof. intros F. destruct F as [|c v E F]; [reflexivity|]. cbn [lstrip_by]. now rewrite E. Qed.
Lemma digits_plain v : Forall dec_digit v -> trim_ows (" "%char :: v) = v.
Proof.
  intros F. assert (Forall (fun c => is_ows c = false) v) as G.
  { eapply Forall_impl; [|exact F]. intros c Hc. unfold is_ows. destruct (Ascii.eqb_spec c SP) as [->|_]; [unfold dec_digit in Hc; vm_compute in Hc; intuition congruence|]. destruct (Ascii.eqb_spec c TAB) as [->|_]; [unfold dec_digit in Hc; vm_compute in Hc; intuition congruence|reflexivity]. }
  unfold trim_ows, strip_by. cbn [lstrip_by]. change (is_ows " "%char) with true. cbn iota. rewrite (lstrip_all_not _ v G). unfold rstrip_by. rewrite lstrip_all_not by now apply Forall_rev. apply rev_involutive.
Qed.
Lemma find_colon n v : ~ In ":"%char n -> find (bs ":") (n ++ ":"%char :: v) = Some (List.length n).
Proof.
  intros N. induction n as [|c n IH]; [reflexivity|]. rewrite find_unfold. cbn [app List.length].
  replace (startswith (bs ":") (c :: n ++ ":"%char :: v)) with false; [now rewrite IH by (intros H; apply N; now right)|].
  cbn [bs list_ascii_of_string startswith]. destruct (Ascii.eqb_spec ":"%char c) as [<-|_]; [exfalso; apply N; now left|reflexivity].
Qed.
Lemma text_of n v : ~ In ":"%char n -> Forall dec_digit v -> field_text (n ++ bs ": " ++ v) = v.
Proof.
  intros N F. unfold field_text. change (bs ": " ++ v) with (":"%char :: " "%char :: v). rewrite find_colon by exact N.
  replace (skipn (S (List.length n)) (n ++ ":"%char :: " "%char :: v)) with (" "%char :: v); [now apply digits_plain|]. rewrite skipn_app, skipn_all2 by lia. now replace (S (List.length n) - List.length n) with 1 by lia.
Qed.
Lemma number_of n : number (fmt_d (Z.of_nat n)) = Some n.
Proof.
  rewrite fmt_d_nonneg by lia. destruct (fmt_nat_canonical (Z.to_N (Z.of_nat n))) as ((C0 & C1 & _) & C2). unfold number. destruct (fmt_nat 10 _) as [|c l]; [easy|].
  assert (forallb (fun c => (48 <=? N_of_ascii c)%N && (N_of_ascii c <=? 57)%N) (c :: l) = true) as ->.
  { apply forallb_forall. intros x Hx. rewrite Forall_forall in C1. specialize (C1 x Hx). unfold dec_digit in C1. apply andb_true_intro. rewrite !N.leb_le. lia. }
  rewrite C2. f_equal. lia.
Qed.

Lemma digits_line n : one_line (fmt_d (Z.of_nat n)).
Proof.
  rewrite fmt_d_nonneg by lia. destruct (fmt_nat_canonical (Z.to_N (Z.of_nat n))) as ((_ & C & _) & _). intros I. rewrite Forall_forall in C. specialize (C _ I). unfold dec_digit in C. vm_compute in C. intuition congruence.
Qed.
Lemma fine_chunked first lines cs : Forall one_line (first :: lines) -> first <> [] -> ~ In [] lines -> In (bs "Transfer-Encoding: chunked") lines -> Forall good_chunk cs ->
  fine (head_of (first :: lines) ++ chunked_body cs (bs "0") [] CRLF) (mkAnswer first lines (chunks_data cs)).
Proof.
  intros F N0 N T G rest. unfold read_answer. rewrite <- app_assoc. rewrite read_head_of; [|exact F|intros [X|X]; [now apply N0|contradiction]|].
  2:{ pose proof (head_of_length (first :: lines)). rewrite app_length. lia. }
  assert (existsb (fun l => beqb (field_name l) (bs "transfer-encoding") && beqb l (bs "Transfer-Encoding: chunked")) lines = true) as ->.
  { apply existsb_exists. eexists. split; [exact T|]. reflexivity. }
  rewrite read_chunks_of; [reflexivity|exact G|]. pose proof (chunked_body_length cs). rewrite app_length. lia.
Qed.
Lemma fine_length first lines d : Forall one_line (first :: lines) -> first <> [] -> ~ In [] lines -> (forall l, In l lines -> field_name l <> bs "transfer-encoding") ->
  (exists l, In l lines /\ field_name l = bs "content-length") -> (forall l, In l lines -> field_name l = bs "content-length" -> field_text l = fmt_d (blen d)) ->
  fine (head_of (first :: lines) ++ d) (mkAnswer first lines d).
Proof.
  intros F N0 N T (l0 & I0 & C0) C rest. unfold read_answer. rewrite <- app_assoc. rewrite read_head_of; [|exact F|intros [X|X]; [now apply N0|contradiction]|].
  2:{ pose proof (head_of_length (first :: lines)). rewrite app_length. lia. }
  assert (existsb (fun l => beqb (field_name l) (bs "transfer-encoding") && beqb l (bs "Transfer-Encoding: chunked")) lines = false) as ->.
  { destruct (existsb _ lines) eqn:E; [|reflexivity]. apply existsb_exists in E as (l & I & E). apply andb_prop in E as [E _]. apply beqb_eq in E. now destruct (T l I). }
  assert (Forall (fun t => t = fmt_d (blen d)) (map field_text (filter (fun l => beqb (field_name l) (bs "content-length")) lines))) as A.
  { apply Forall_map, Forall_forall. intros l I. apply filter_In in I as [I E]. apply beqb_eq in E. now apply C. }
  assert (In (field_text l0) (map field_text (filter (fun l => beqb (field_name l) (bs "content-length")) lines))) as I1.
  { apply in_map, filter_In. split; [exact I0|]. rewrite C0. reflexivity. }
  destruct (map field_text _) as [|t ts]; [contradiction|]. inversion_clear A as [|? ? -> At].
  assert (forallb (beqb (fmt_d (blen d))) ts = true) as ->. { apply forallb_forall. intros t2 I2. rewrite (proj1 (Forall_forall _ _) At t2 I2). apply beqb_refl. }
  unfold blen at 1. rewrite number_of. rewrite (proj2 (Nat.leb_le _ _)) by (rewrite app_length; lia).
  rewrite firstn_app, Nat.sub_diag, firstn_O, firstn_all, app_nil_r, skipn_app, Nat.sub_diag, skipn_all. reflexivity.
Qed.

(** ** The response to a request *)
Lemma not_in_own k : existsb (beqb k) servers_own = false -> ~ In k servers_own.
Proof. intros E I. assert (existsb (beqb k) servers_own = true); [|congruence]. apply existsb_exists. exists k. split; [exact I|apply beqb_refl]. Qed.
Lemma serve_reply o y c date ch r : app_ok y -> one_line date -> good_call o c -> (exists sc, told y c sc) -> ch <> Some true ->
  frame_head (m_head (msg_of c)) (blen (m_head (msg_of c)) - 2) = Framed r ->
  let a := asgi_serve date y (m_head (msg_of c)) r (body_of c) ch in
  exists items, r_out (a_rsp a) = map Some items ++ [None] /\ 
    (r_keep (a_rsp a) = true \/ (forall sc, told y c sc -> wants (bs "content-length") (y_headers (y_app y sc (body_of c))) = true) \/ ch = None -> exists x, fine (List.concat items) x /\ right_reply y c x /\ forall sc, told y c sc -> only_line (bs "connection") (if wants_close (y_headers (y_app y sc (body_of c))) then bs "Connection: close" else if (y_status (y_app y sc (body_of c)) =? 426)%Z then bs "Connection: upgrade" else bs "Connection: keep-alive") (r_lines x)) /\
    (r_keep (a_rsp a) = true -> forall sc, told y c sc -> wants_close (y_headers (y_app y sc (body_of c))) = false) /\
    (forall sc, told y c sc -> wants (bs "content-length") (y_headers (y_app y sc (body_of c))) = true \/ ch = None -> r_keep (a_rsp a) = negb (wants_close (y_headers (y_app y sc (body_of c))))).
Proof.
  intros (B1 & B2 & Ap) Od G (sc & Ts) Nc Fr a. destruct (call_scope o c y sc r G Fr Ts) as [Es Ew].
  assert (forall sc', told y c sc' -> sc' = sc) as Un. { intros sc' T'. destruct (call_scope o c y sc' r G Fr T') as [E' _]. congruence. }
  destruct (call_framed o c (good_sound _ _ G)) as (r' & Fr' & _ & Em & _ & Ev & Ka & _). rewrite Fr in Fr'. injection Fr' as <-. apply (good_keeps o c _ G) in Ka.
  subst a. unfold asgi_serve. rewrite Es, Ew. unfold events_of. set (x := y_app y sc (body_of c)). destruct (Ap sc (body_of c)) as ((p & Ep & Op) & Nb & F1 & F2 & Cl). fold x in Ep, Nb, F1, F2, Cl.
  set (e := mkEnv _ _ _ _). assert (status_line e (y_status x, p) = status_text (y_status x, p)) as Est.
  { unfold status_line, status_text, version, e. cbn [e_11]. rewrite Ev. reflexivity. }
  destruct (response_main e (y_phrase y) (y_text y) (y_buf y) Od B2 B1 (y_status x) p (y_headers x) (y_more x) (y_last x) (rq_keepalive r) ch true Ep Op F1 F2) as (lines & items & Eo & O1 & (Gl & _ & _ & Gt) & Sh & Ek & _ & Ln & Cn).
  { unfold bodyless in *. unfold e. cbn [e_method]. rewrite Em. destruct G as (_ & _ & _ & Nh & _). intros [H|H]; [contradiction|apply Nb; now right]. }
  { exact Nc. }
  rewrite Est in *. exists (head_of (status_text (y_status x, p) :: lines) :: items). split; [rewrite Eo; reflexivity|].
  assert (wants (bs "content-length") (y_headers x) = true \/ ch = None ->
    ((e_11 e && negb (wants (bs "content-length") (y_headers x)) && match ch with None => true | _ => false end) || wants (bs "content-length") (y_headers x) = true)%bool) as Hx.
  { unfold e. cbn [e_11]. rewrite Ev. change (beqb (bs "1.1") (bs "1.1")) with true. intros [->| ->]; [apply orb_true_r|]. now destruct (wants _ _). }
  split; [|split].
  2:{ intros Hk sc' T'. rewrite (Un sc' T'). fold x. rewrite Ek, Ka in Hk. apply andb_prop in Hk as [Hk _]. now destruct (wants_close _). }
  2:{ intros sc' T' H'. rewrite (Un sc' T') in *. fold x in H' |- *. rewrite Ek, Ka, (Hx H'). now rewrite andb_true_r. }
  intros Hk. assert (((e_11 e && negb (wants (bs "content-length") (y_headers x)) && match ch with None => true | _ => false end) || wants (bs "content-length") (y_headers x) = true)%bool) as Hk'.
  { destruct Hk as [Hk|[Hk|Hk]]; [|apply Hx; left; exact (Hk sc Ts)|apply Hx; now right]. rewrite Ek in Hk. now apply andb_prop in Hk as [_ Hk]. } clear Hk. rename Hk' into Hk.
  cbn [List.concat].
  assert (forall d, d = data_of x -> right_reply y c (mkAnswer (status_text (y_status x, p)) lines d) /\ forall sc, told y c sc ->
    only_line (bs "connection") (if wants_close (y_headers (y_app y sc (body_of c))) then bs "Connection: close" else if (y_status (y_app y sc (body_of c)) =? 426)%Z then bs "Connection: upgrade" else bs "Connection: keep-alive") lines) as Rt.
  { intros d ->. split; intros sc' T'; rewrite (Un sc' T'); fold x; cbv zeta; [split; [exists p; now split|]; split; [reflexivity|exact Ln]|]. rewrite Ka in Cn. cbn [andb] in Cn. destruct (wants_close (y_headers x)); exact Cn. }
  assert (Forall one_line (status_text (y_status x, p) :: lines)) as Fl by (constructor; assumption).
  assert (~ In [] lines) as Ne.
  { intros I. pose proof (proj1 (Ln [] [] (not_in_own [] eq_refl)) (conj I eq_refl)) as J. unfold app_lines in J. apply in_map_iff in J as ((n & v) & J & _). cbn [fst snd] in J. apply app_eq_nil in J as [_ J]. discriminate. }
  assert (status_text (y_status x, p) <> []) as N0 by discriminate.
  set (chunk := (e_11 e && negb (wants (bs "content-length") (y_headers x)) && match ch with None => true | _ => false end)%bool) in *. destruct chunk eqn:Ec.
  - destruct Sh as (T & cs & -> & Gc & Ed). eexists. split; [now apply fine_chunked|]. now apply Rt.
  - destruct Sh as (T & ->). cbn [orb] in Hk. eexists. split; [apply fine_length; try assumption|now apply Rt].
    + unfold wants in Hk. apply existsb_exists in Hk as (h & I & E). exists (fst h ++ bs ": " ++ snd h).
      apply (Ln (bs "content-length")); [now apply not_in_own|]. unfold app_lines. apply in_map_iff. exists h. split; [reflexivity|]. now apply filter_In.
    + intros l I E. pose proof (proj1 (Ln (bs "content-length") l (not_in_own (bs "content-length") eq_refl)) (conj I E)) as J. unfold app_lines in J. apply in_map_iff in J as (h & <- & J). apply filter_In in J as [J Ej]. apply beqb_eq in Ej.
      destruct h as [n v]. cbn [fst snd] in *. pose proof (Cl (n, v) J Ej) as Ev2. cbn [snd] in Ev2. subst v. apply text_of; [exact (proj1 (proj1 (Forall_forall _ _) F1 (n, _) J))|]. rewrite fmt_d_nonneg by (unfold blen; lia). apply fmt_nat_canonical.
Qed.

(** ** The exchange *)
Section Run.
Context (o : copts) (y : asite) (reqs : list call) (date : nat -> bytes) (ch : nat -> option bool) (tr : list cev) (s : conn) (b : list obs).
Let M := map msg_of reqs.
Hypothesis (Ook : opts_ok o) (Aok : app_ok y) (Rok : Forall (good_call o) reqs) (Tok : Forall (fun c => exists sc, told y c sc) reqs) (Dok : forall i, one_line (date i)).
Hypothesis (Hrun : conn_run o conn_new tr = Some (s, b)) (Hop : c_closing s = false).
Hypothesis (Hc : client_ok o M tr) (Hs : settled o tr \/ client_waits o M tr) (Hh : handlers_ok o M tr) (Hp : performs_asgi y date ch tr b).

Lemma ch_ok i : (forall j, j < i -> In j (closers tr)) -> ch i <> Some true.
Proof.
  induction i as [|i IH]; intros H; destruct Hp as (P0 & P); [now rewrite P0|].
  specialize (IH (fun j Hj => H j ltac:(lia))). pose proof (H i ltac:(lia)) as Hi.
  destruct (closed_call o reqs tr s b Ook (all_sound _ _ Rok) Hrun Hop Hc Hs Hh i Hi) as (c & Ei). destruct (closed_read o reqs tr s b Ook (all_sound _ _ Rok) Hrun Hop Hc Hs Hh i c Ei Hi) as (St & Gb & G).
  destruct (call_framed o c G) as (r & Fr & _). destruct (P i _ r St Hi Fr) as (_ & _ & ->). now apply serve_chunked.
Qed.
Lemma closed_reply i c : nth_error reqs i = Some c -> In i (closers tr) ->
  exists items, did i tr = map Some items ++ [None] /\ (i < ended b -> exists x, fine (List.concat items) x /\ right_reply y c x /\ says_open x).
Proof.
  intros Ei Hi. destruct (closed_read o reqs tr s b Ook (all_sound _ _ Rok) Hrun Hop Hc Hs Hh i c Ei Hi) as (St & Gb & Gs). pose proof (nth_good _ _ _ _ Rok Ei) as G. destruct (call_framed o c Gs) as (r & Fr & _).
  assert (ch i <> Some true) as Nc.
  { apply ch_ok. intros j L. apply (ended_closed o reqs tr s b Ook (all_sound _ _ Rok) Hrun Hop Hc Hs Hh). exact (closed_after o reqs tr s b Ook (all_sound _ _ Rok) Hrun Hop Hc Hs Hh i j Hi L). }
  destruct (serve_reply o y c (date i) (ch i) r Aok (Dok i) G (proj1 (Forall_forall _ _) Tok c (nth_error_In _ _ Ei)) Nc Fr) as (items & Oi & Rx & Rw & _).
  destruct Hp as (_ & P). destruct (P i _ r St Hi Fr) as (Ed & Ek & _). rewrite Gb in Ed, Ek. exists items. split; [now rewrite Ed|]. intros L.
  assert (r_keep (a_rsp (asgi_serve (date i) y (m_head (msg_of c)) r (body_of c) (ch i))) = true) as Kp; [|destruct (Rx (or_introl Kp)) as (x & Fx & Rr & Wx); exists x; split; [exact Fx|]; split; [exact Rr|];
    destruct (proj1 (Forall_forall _ _) Tok c (nth_error_In _ _ Ei)) as (sc & Ts); specialize (Wx sc Ts); rewrite (Rw Kp sc Ts) in Wx; destruct (_ =? 426)%Z; [now right|now left]].
  apply in_flat_map in Hi as (e & He & Hi). destruct e; try contradiction. destruct Hi as [->|[]]. rewrite <- (Ek keep He).
  exact (run_kept o M (all_ok o reqs (all_sound _ _ Rok)) Ook tr s b Hrun Hop Hc Hh (seemly o reqs tr (all_sound _ _ Rok) Hs) i keep L He).
Qed.
Lemma asgi_words : exists l rest, read_answers (ended b) (written b) = Some (l, rest) /\ Forall2 (fun c x => right_reply y c x /\ says_open x) (firstn (ended b) reqs) l /\
  (input tr = List.concat (map wire M) -> quiet o tr s b -> ended b = List.length reqs /\ rest = []).
Proof.
  destruct (answers_upto fine (fun c x => right_reply y c x /\ says_open x) o reqs tr s b Ook (all_sound _ _ Rok) Hrun Hop Hc Hs Hh closed_reply (ended b) (le_n _)) as (l & A & B). exists l, (out (ended b) b). split; [|split; [exact B|]].
  - rewrite written_out. assert (List.length l = ended b) as E.
    { pose proof (f2_length _ _ _ A) as X. rewrite map_length, seq_length in X. now symmetry. }
    rewrite <- E at 1. now apply read_all.
  - exact (all_done fine (fun c x => right_reply y c x /\ says_open x) o reqs tr s b Ook (all_sound _ _ Rok) Hrun Hop Hc Hs Hh closed_reply).
Qed.
Lemma asgi_exchange : exists l rest, read_answers (ended b) (written b) = Some (l, rest) /\ Forall2 (right_reply y) (firstn (ended b) reqs) l /\
  (input tr = List.concat (map wire M) -> quiet o tr s b -> ended b = List.length reqs /\ rest = []).
Proof. destruct asgi_words as (l & rest & R & F & D). exists l, rest. split; [exact R|]. split; [|exact D]. clear -F. induction F as [|c x cs l [H _] F IH]; now constructor. Qed.
End Run.
