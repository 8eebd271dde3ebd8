(** Proofs about handlers that write their response piece by piece (C89). *)
From Verif Require Import PyBytes PyBytesFacts PyDictFacts PyInt PyIntFacts PyExn M_Parser M_Framing M_Conn M_Response M_Server M_Sendfile S_Head S_Response S_Calls S_Chunked S_Range S_Sendfile S_Conn S_Site S_AsgiSite
  P_Response P_Response2 P_Response3 P_Response4 P_Response5 P_Response6 P_Said P_Response7 P_Response8 P_Sendfile P_Sendfile2 P_Site P_AsgiSite P_Cut S_Own P_Own S_Pieces.

Lemma each_wr e k ds : forall s, write_each e k ds s = wr e None k ds s.
Proof. induction ds as [|d ds IH]; intros s; [reflexivity|]. cbn [write_each wr]. unfold seq. destruct (write e (Some d) None k s) as [[u|] s1]; [apply IH|reflexivity]. Qed.

Lemma stored_base e kw pre keep stored : one_line (e_date e) -> one_line (e_server e) -> r_headers (start e (route_calls kw ++ HBase :: pre) keep) = Some stored -> stored <> [].
Proof. intros D S H ->. apply (route_date e kw pre keep D S). unfold lines_at. now rewrite H. Qed.

(** handle_response: the writes and close(). *)
Lemma pieces_run {A} e sv hb kw (a : A) pre ds k keep ctx log : one_line (e_date e) -> one_line (e_server e) -> route_ok kw ->
  Forall appends_clean pre -> Forall name_ok pre -> Forall unreserved pre -> ~ bodyless (e_method e) (fst (the_status (route_calls kw ++ pre))) -> (1 <= k_bufsize k)%Z -> ds <> [] ->
  exists w' stored sent items, handle_response e sv hb (Coro (writes_out e pre ds k)) kw (mkW a (new_rsp keep) ctx log) = (w', inl tt) /\
    r_out (w_rsp w') = Some (head_of (status_line e (the_status (route_calls kw ++ pre)) :: lines_of sent)) :: map Some items ++ [None] /\ r_keep (w_rsp w') = false /\
    r_headers (start e (route_calls kw ++ HBase :: pre) keep) = Some stored /\ sent_ok e (route_calls kw ++ HBase :: pre) keep (e_11 e) stored sent /\ concat items = concat (map (enc (e_11 e)) ds).
Proof.
  intros D S Kw A1 A2 A3 B Hb Ne. rewrite <- status_base in B. destruct (route_clean kw Kw) as (K1 & K2 & K3 & _). destruct (has_stored e kw pre keep Kw A1 A3) as [stored H]. pose proof (stored_base e kw pre keep stored D S H) as Ns.
  destruct (wr_close e (route_calls kw ++ HBase :: pre) keep stored None k ds (route_all kw pre K1 Logic.I A1) (route_all kw pre K2 Logic.I A2) (route_all kw pre K3 Logic.I A3) H Ns B Hb Ne) as (s' & sent & items & E & O & SO & C & K).
  unfold seq in E. destruct (wr e None k ds (start e (route_calls kw ++ HBase :: pre) keep)) as [[[]|x] s1] eqn:W; [|discriminate].
  unfold close, update in E. injection E as <-.
  assert (chunk_choice e None false = e_11 e) as Ch by (unfold chunk_choice; now rewrite andb_true_r). rewrite Ch in *.
  destruct (own_any e sv hb kw (fun s => write_each e k ds (do_hops e pre s)) a keep ctx log s1 true D S Kw) as (w' & R & Ew).
  { unfold start in *. rewrite hops_cat in W |- *. rewrite each_wr. exact W. }
  exists w', stored, sent, items. split; [exact R|]. rewrite Ew. rewrite <- status_base. split; [|split; [reflexivity|now split]].
  etransitivity; [|exact O]. unfold close, update, flush_close. destruct s1. reflexivity.
Qed.

Lemma pieces_said e kw pre keep ch stored sent : route_ok kw -> Forall appends_clean pre -> Forall name_ok pre -> Forall unreserved pre ->
  r_headers (start e (route_calls kw ++ HBase :: pre) keep) = Some stored -> sent_ok e (route_calls kw ++ HBase :: pre) keep ch stored sent -> forall name, ~ In name added -> lines_named name (lines_of sent) = said name (route_calls kw ++ pre) [].
Proof.
  intros Kw A1 A2 A3 H SO name NA. destruct (route_clean kw Kw) as (K1 & K2 & K3 & _). rewrite <- said_base.
  apply (stored_said e _ keep stored (route_all kw pre K1 Logic.I A1) (route_all kw pre K2 Logic.I A2) (route_all kw pre K3 Logic.I A3) H sent (so_good _ _ _ _ _ _ SO)); [|intros k Nk _|exact NA].
  - unfold hmem, dmem. pose proof (so_line _ _ _ _ _ _ SO) as X. unfold hget in X. now rewrite X.
  - destruct (so_from _ _ _ _ _ _ SO) as (_ & X & _). apply X. intros I. apply Nk. cbn in I |- *. tauto.
Qed.

Lemma enc_split ds1 ds2 : Forall (fun d => d <> []) ds1 -> concat (map (enc true) (ds1 ++ [] :: ds2)) = chunked_body (map chunk_of (filter nonempty ds1)) (bs "0") [] CRLF ++ concat (map (enc true) ds2).
Proof.
  intros F. assert (filter nonempty ds1 = ds1) as E by (induction F as [|d ds Hd F IH]; [reflexivity|]; cbn [filter]; destruct d; [easy|]; cbn [nonempty]; now rewrite IH).
  rewrite <- enc_chunks, E. rewrite map_app, concat_app. cbn [map concat]. rewrite map_app, concat_app. cbn [map concat]. rewrite app_nil_r. now rewrite <- app_assoc.
Qed.
Lemma enc_more ds : concat (map (enc true) ds) = [] <-> ds = [].
Proof.
  split; [|now intros ->]. destruct ds as [|d ds]; [reflexivity|]. intros H. apply (f_equal (@List.length ascii)) in H. cbn [map concat enc] in H. rewrite !app_length in H. cbn in H. lia.
Qed.
Lemma no_empty_line e ops keep ch stored sent : sent_ok e ops keep ch stored sent -> ~ In [] (lines_of sent).
Proof. intros S. pose proof (no_blank_lines True sent Logic.I (so_good _ _ _ _ _ _ S)) as X. now rewrite (hdel_absent _ _ (so_line _ _ _ _ _ _ S)) in X. Qed.
Lemma status_nonempty e st : status_line e st <> [].
Proof. unfold status_line. destruct st. discriminate. Qed.

Lemma pieces_main {A} e sv hb kw (a : A) pre ds1 ds2 k keep ctx log : e_11 e = true -> one_line (e_date e) -> one_line (e_server e) -> route_ok kw ->
  Forall appends_clean pre -> Forall name_ok pre -> Forall unreserved pre -> ~ bodyless (e_method e) (fst (the_status (route_calls kw ++ pre))) -> (1 <= k_bufsize k)%Z -> Forall (fun d => d <> []) ds1 ->
  exists w' lines items rest, handle_response e sv hb (Coro (writes_out e pre (ds1 ++ [] :: ds2) k)) kw (mkW a (new_rsp keep) ctx log) = (w', inl tt) /\
    r_out (w_rsp w') = map Some items ++ [None] /\ r_keep (w_rsp w') = false /\
    read_answer (concat items) = Some (mkAnswer (status_line e (the_status (route_calls kw ++ pre))) lines (concat ds1), rest) /\ (rest = [] <-> ds2 = []) /\
    forall name, ~ In name added -> lines_named name lines = said name (route_calls kw ++ pre) [].
Proof.
  intros V D S Kw A1 A2 A3 B Hb F. destruct (pieces_run e sv hb kw a pre (ds1 ++ [] :: ds2) k keep ctx log D S Kw A1 A2 A3 B Hb ltac:(now destruct ds1)) as (w' & stored & sent & items & R & O & K & H & SO & C).
  rewrite V in *. pose proof (so_lines _ _ _ _ _ _ SO) as SL. rewrite status_base in SL. set (head := head_of _) in *. exists w', (lines_of sent), (head :: items), (concat (map (enc true) ds2)). split; [exact R|]. split; [exact O|]. split; [exact K|]. split; [|split; [apply enc_more|exact (pieces_said e kw pre keep true stored sent Kw A1 A2 A3 H SO)]].
  cbn [concat]. rewrite C, (enc_split ds1 ds2 F), app_assoc.
  pose proof (sent_only _ _ _ _ _ _ (bs "transfer-encoding") _ SO ltac:(discriminate) (so_te _ _ _ _ _ _ SO eq_refl)) as [T _].
  rewrite (fine_chunked _ _ _ SL (status_nonempty _ _) (no_empty_line _ _ _ _ _ _ SO) T (enc_chunks_good ds1) _). now rewrite chunks_data_of.
Qed.
Lemma unended_main {A} e sv hb kw (a : A) pre ds k keep ctx log : e_11 e = true -> one_line (e_date e) -> one_line (e_server e) -> route_ok kw ->
  Forall appends_clean pre -> Forall name_ok pre -> Forall unreserved pre -> ~ bodyless (e_method e) (fst (the_status (route_calls kw ++ pre))) -> (1 <= k_bufsize k)%Z -> ds <> [] -> Forall (fun d => d <> []) ds ->
  exists w' items, handle_response e sv hb (Coro (writes_out e pre ds k)) kw (mkW a (new_rsp keep) ctx log) = (w', inl tt) /\
    r_out (w_rsp w') = map Some items ++ [None] /\ read_answer (concat items) = None.
Proof.
  intros V D S Kw A1 A2 A3 B Hb Ne F. destruct (pieces_run e sv hb kw a pre ds k keep ctx log D S Kw A1 A2 A3 B Hb Ne) as (w' & stored & sent & items & R & O & K & H & SO & C).
  rewrite V in *. pose proof (so_lines _ _ _ _ _ _ SO) as SL. rewrite status_base in SL. set (head := head_of _) in *. exists w', (head :: items). split; [exact R|]. split; [exact O|]. cbn [concat]. rewrite C.
  destruct (read_answer (head ++ concat (map (enc true) ds))) as [[x r]|] eqn:E; [exfalso|reflexivity]. apply (answer_more _ (enc true [])) in E.
  pose proof (enc_split ds [] F) as Es. rewrite map_app, concat_app in Es. cbn [map concat] in Es. rewrite !app_nil_r in Es. match type of E with read_answer ?w = _ => assert (w = head ++ chunked_body (map chunk_of (filter nonempty ds)) (bs "0") [] CRLF) as Ew by (rewrite <- app_assoc; f_equal; exact Es) end. rewrite Ew in E.
  pose proof (sent_only _ _ _ _ _ _ (bs "transfer-encoding") _ SO ltac:(discriminate) (so_te _ _ _ _ _ _ SO eq_refl)) as [T _].
  pose proof (fine_chunked _ _ _ SL (status_nonempty _ _) (no_empty_line _ _ _ _ _ _ SO) T (enc_chunks_good ds) []) as X. rewrite app_nil_r in X. fold head in X. rewrite X in E. injection E as _ E. symmetry in E. apply app_eq_nil in E as [_ E]. discriminate.
Qed.
Lemma plain_pieces {A} e sv hb kw (a : A) pre ds k keep ctx log : e_11 e = false -> one_line (e_date e) -> one_line (e_server e) -> route_ok kw ->
  Forall appends_clean pre -> Forall name_ok pre -> Forall unreserved pre -> Forall unframed_call pre -> ~ bodyless (e_method e) (fst (the_status (route_calls kw ++ pre))) -> (1 <= k_bufsize k)%Z -> ds <> [] ->
  exists w' lines items, handle_response e sv hb (Coro (writes_out e pre ds k)) kw (mkW a (new_rsp keep) ctx log) = (w', inl tt) /\
    r_out (w_rsp w') = Some (head_of (status_line e (the_status (route_calls kw ++ pre)) :: lines)) :: map Some items ++ [None] /\ r_keep (w_rsp w') = false /\
    client_body (head_of (status_line e (the_status (route_calls kw ++ pre)) :: lines) ++ concat items) = Some (concat ds).
Proof.
  intros V D S Kw A1 A2 A3 A4 B Hb Ne. destruct (pieces_run e sv hb kw a pre ds k keep ctx log D S Kw A1 A2 A3 B Hb Ne) as (w' & stored & sent & items & R & O & K & H & SO & C).
  rewrite V in *. pose proof (so_lines _ _ _ _ _ _ SO) as SL. rewrite status_base in SL. exists w', (lines_of sent), items. split; [exact R|]. split; [exact O|]. split; [exact K|].
  rewrite head_client; [|discriminate|].
  - f_equal. rewrite C. unfold enc. now rewrite map_id.
  - constructor; [split; [apply status_nonempty|exact (Forall_inv SL)]|]. pose proof (Forall_inv_tail SL) as L. apply Forall_forall. intros x I. rewrite Forall_forall in L. split; [|now apply L]. intros ->. exact (no_empty_line _ _ _ _ _ _ SO I).
Qed.
