(** Proofs about whole exchanges (C75): from a request to its response, and from the connection to the client. *)
From Verif Require Import PyBytes PyBytesFacts PyBytesFacts2 PyInt PyIntFacts PyExn PyUtf8 PyRe M_Parser M_Framing M_Route M_Conn M_Response M_Server M_Pages M_Site
  S_Head S_Scope S_Route S_Response S_Calls S_Chunked S_Conn S_Site P_Route P_Response8 P_Site P_Site2 P_Site3.

(** The bytes of a response that the client of S_Site reads as [x]. *)
Definition readable (w : bytes) (x : bytes * bytes) : Prop := forall rest, read_response (w ++ rest) = Some (fst x, snd x, rest).
Lemma shape_readable first lines items cs : Forall one_line (first :: lines) -> first <> [] -> ~ In [] lines ->
  only_line (bs "transfer-encoding") (bs "Transfer-Encoding: chunked") lines -> concat items = chunked_body cs (bs "0") [] CRLF -> Forall good_chunk cs ->
  readable (head_of (first :: lines) ++ concat items) (first, chunks_data cs).
Proof. intros A B C D E F rest. rewrite E, <- app_assoc. cbn [fst snd]. now apply read_response_of. Qed.

Lemma bodyless_other m z : m <> bs "HEAD" -> ~ bodyless [] z -> ~ bodyless m z.
Proof. intros N H [X|X]; [contradiction|]. apply H. now right. Qed.

Lemma chosen regs paths url p : Forall2 (fun r p => literal (fst r) p) regs paths -> has_path url p -> ~ In LF url ->
  match function_of regs paths p with
  | Some f => exists m, fst (choose search (add_routes regs) url) = Found f m None
  | None => fst (choose search (add_routes regs) url) = Missing
  end.
Proof.
  intros R HP NL. unfold function_of. destruct p as [|x p].
  - apply (root_last _ _ _ R HP NL).
  - pose proof (choose_literal _ _ _ _ R HP ltac:(discriminate) NL) as C. destruct (List.find _ _) as [[[w f] q]|]; [destruct C as [m C]; exists m|]; now rewrite C.
Qed.

Lemma serve_right o si paths c date : site_ok si paths -> good_call o c -> one_line date ->
  exists r w x, frame_head (m_head (msg_of c)) (blen (m_head (msg_of c)) - 2) = Framed r /\
    (exists items, r_out (snd (serve date si r (body_of c))) = map Some items ++ [None] /\ concat items = w) /\
    readable w x /\ right_answer si paths c x.
Proof.
  intros (SR & S0 & SB & SN & SL & SP) G OD. destruct (call_framed o c (good_sound _ _ G)) as (r & Fr & Va & Me & Ur & Ve & Ka & _ & Pa & St & _). apply (good_keeps o c _ G) in Ka.
  destruct G as (Ft & _ & _ & NH & (p & HP) & _). assert (~ In LF (k_url c)) as NL by (destruct Ft as (_ & X & _); rewrite !in_app_iff in X; tauto).
  pose proof (chosen (t_regs si) paths (k_url c) p SR HP NL) as Ch.
  exists r. unfold serve. rewrite Va, Ve, Me, Ka. change (beqb (bs "1.1") (bs "1.1")) with true. set (e := mkEnv true (upper (k_method c)) date (t_name si)).
  unfold serve_request, headers_received. cbn [s_req numbered map List.seq List.length combine middlewares]. unfold andthen at 1, ret at 1. fold (plain si).
  unfold route_for. rewrite Ur.
  assert (forall kw ops data, (kw = [] \/ exists z m, kw = [(bs "status", VStatus z m)] /\ one_line m) ->
    Forall appends_clean ops -> Forall name_ok ops -> Forall unreserved ops -> ~ bodyless [] (fst (the_status (pre_of kw ++ HBase :: ops))) ->
    exists w' items w, handle_response e (plain si) (has_body r) (coro e (ops, data)) (merge kw []) (mkW tt (new_rsp true) [] []) = (w', inl tt) /\
      r_out (w_rsp w') = map Some items ++ [None] /\ concat items = w /\ readable w (status_text (the_status (pre_of kw ++ HBase :: ops)), data)) as K.
  { intros kw ops data Hk A1 A2 A3 NB.
    assert (Forall appends_clean (pre_of kw ++ HBase :: ops) /\ Forall name_ok ((pre_of kw ++ HBase :: ops) ++ []) /\ Forall unreserved (pre_of kw ++ HBase :: ops)) as (B1 & B2 & B3).
    { rewrite app_nil_r. destruct Hk as [->|(z & m & -> & _)]; cbn [pre_of app]; repeat split; repeat (apply Forall_cons; [exact I|]); assumption. }
    destruct (c31_value_main e (mkHOpts None true (t_buf si)) (pre_of kw ++ HBase :: ops) [] data true SB B1 B2 B3 (Forall_nil _) (Forall_nil _)) as (s' & lines & items & Ev & Os & Ol & Nb & _ & _ & Te & cs & Ci & Gc & Cd).
    { apply bodyless_other; [exact NH|exact NB]. }
    destruct (coro_response e si (has_body r) ops data kw true s' Hk OD SN Ev) as (w' & Hr & <-). cbn [final_status] in Os, Ol.
    exists w', (head_of (status_line e (the_status (pre_of kw ++ HBase :: ops)) :: lines) :: items), (head_of (status_line e (the_status (pre_of kw ++ HBase :: ops)) :: lines) ++ concat items).
    split; [exact Hr|]. split; [exact Os|]. split; [reflexivity|]. rewrite <- Cd.
    change (status_text (the_status (pre_of kw ++ HBase :: ops))) with (status_line e (the_status (pre_of kw ++ HBase :: ops))).
    apply shape_readable; try assumption. discriminate. }
  destruct (function_of (t_regs si) paths p) as [f|] eqn:Ff.
  - destruct Ch as [m ->]. cbn [fst]. destruct f as [|f].
    + cbn [Nat.eqb index]. destruct (K [(bs "status", VStatus 503 (bs "Service Unavailable"))] [] (bs "Service Unavailable")) as (w' & items & w & Hr & Oi & Cw & Rd); [|constructor|constructor|constructor| |].
      { right. eexists _, _. split; [reflexivity|]. apply memb_notIn. reflexivity. }
      { intros X. vm_compute in X. intuition discriminate. }
      exists w, (bs "HTTP/1.1 503 Service Unavailable", bs "Service Unavailable"). split; [exact Fr|]. rewrite Hr. cbn [snd]. split; [now exists items|]. split; [exact Rd|].
      exists p. split; [exact HP|]. now rewrite Ff.
    + cbn [Nat.eqb index]. unfold page_for. rewrite Me, Ur.
      assert (map (fun n => strings (M_Parser.hget n (rq_headers r))) (t_looks si (S f)) = map (fun n => values n (sent_fields c)) (t_looks si (S f))) as ->.
      { apply map_ext_in. intros n I. apply St. pose proof (SL (S f)) as X. rewrite Forall_forall in X. now apply X. }
      specialize (SP (S f) (upper (k_method c)) (k_url c) (map (fun n => values n (sent_fields c)) (t_looks si (S f))) (body_of c)). cbv zeta in SP.
      set (page := t_page si (S f) _ _ _ _) in *. destruct page as [ops data] eqn:Ep. cbn [fst] in SP. destruct SP as (P1 & P2 & P3 & P4).
      destruct (K [] ops data (or_introl eq_refl) P1 P2 P3 P4) as (w' & items & w & Hr & Oi & Cw & Rd).
      exists w, (status_text (the_status ops), data). split; [exact Fr|]. rewrite Hr. cbn [snd]. split; [now exists items|]. split; [exact Rd|].
      exists p. split; [exact HP|]. rewrite Ff. fold page. rewrite Ep. reflexivity.
  - rewrite Ch. cbn [on_404 errors_of]. rewrite Pa. set (path := fst (fst (partition (bs "?") (k_url c)))).
    destruct (page_404 path (t_name si)) as [|y0 ys] eqn:P4; [discriminate|].
    destruct (c31_main e (mkHOpts None false (t_buf si)) hops_404 [] y0 ys true eq_refl ltac:(discriminate) SB) as (s' & lines & items & cs & Es & Os & Ol & Te & Nb & Ci & Gc & Cd & _).
    { repeat constructor. } { repeat constructor. } { repeat constructor. } { constructor. } { constructor. } { apply bodyless_other; [exact NH|]. intros X. vm_compute in X. intuition discriminate. }
    destruct (missing_response e si (has_body r) y0 ys true s' OD SN Es) as (w' & Hr & <-).
    exists (head_of (bs "HTTP/1.1 404 Not Found" :: lines) ++ concat items), (bs "HTTP/1.1 404 Not Found", concat (page_404 path (t_name si))). split; [exact Fr|]. rewrite Hr. cbn [snd].
    split; [eexists (_ :: items); split; [exact Os|reflexivity]|]. split; [rewrite P4, <- Cd; apply shape_readable; try assumption; discriminate|].
    exists p. split; [exact HP|]. rewrite Ff. exists path, (snd (partition (bs "?") (k_url c))). split; [|reflexivity].
    unfold path, partition. change (bs "?") with ["?"%char]. destruct (find ["?"%char] (k_url c)) as [i|] eqn:Fi.
    + apply find1_some in Fi as (F1 & F2 & _). cbn [fst snd]. split; [exact F2|]. left. cbn [List.length]. rewrite Nat.add_1_r. exact F1.
    + cbn [fst snd]. split; [now apply find1_none|]. right. now split.
Qed.
