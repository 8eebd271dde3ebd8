From Verif Require Import PyBytes PyBytesFacts PyDictFacts PyInt PyIntFacts PyExn PyUrl M_Response S_Response S_Calls S_Chunked
  P_Response P_Response2 P_Response3 P_Response4 P_Response5.

(** ** C29 *)
Lemma c29_step e name c s d : r_headers s = Some d -> one_line (fst (snd c)) -> one_line (snd (snd c)) ->
  now_at name (snd (do_hop e (hop_of c) s)) = lines_for name [c] (now_at name s) /\
  exists d', r_headers (snd (do_hop e (hop_of c) s)) = Some d'.
Proof.
  intros H A B. destruct c as [st [n v]]. cbn [fst snd] in A, B. cbn [hop_of lines_for].
  destruct st; cbn [do_hop].
  - rewrite (set_header_run n v s d H A B). cbn [snd]. split; [|eexists; reflexivity].
    unfold now_at, lines_at. cbn [with_headers r_headers]. rewrite H. unfold hget, hset. rewrite dget_dset, beqb_sym.
    now destruct (beqb (lower n) (lower name)).
  - unfold append_header, seq, get_headers. rewrite H. cbn [snd put_headers update]. split; [|eexists; reflexivity].
    unfold now_at, lines_at. cbn [with_headers r_headers]. rewrite H. unfold hget, hset.
    destruct (beqb (lower n) (lower name)) eqn:E.
    + apply beqb_eq in E as ->. destruct (dget beqb (lower name) d); now rewrite dget_dset_same.
    + apply beqb_neq in E. destruct (dget beqb (lower n) d); rewrite dget_dset_other by congruence; reflexivity.
Qed.
Lemma c29_main e name calls : forall s d, r_headers s = Some d ->
  Forall (fun c => one_line (fst (snd c)) /\ one_line (snd (snd c))) calls ->
  now_at name (do_hops e (map hop_of calls) s) = lines_for name calls (now_at name s).
Proof.
  induction calls as [|c calls IH]; intros s d H F; [reflexivity|]. inversion_clear F as [|? ? [A B] F'].
  destruct (c29_step e name c s d H A B) as [E (d' & H')]. cbn [map do_hops].
  rewrite (IH _ d' H' F'). rewrite E. destruct c as [st [n v]]. reflexivity.
Qed.
Lemma c29_sent_main e h s : r_headers s = None ->
  do_hop e h s = (match h with HBase => Ok tt | _ => Raise InternalServerError end, s).
Proof.
  intros H. destruct h; cbn [do_hop].
  - unfold set_header. destruct (_ || _); [reflexivity|]. unfold seq, get_headers. now rewrite H.
  - unfold append_header, seq, get_headers. now rewrite H.
  - unfold set_cookie. destruct (memb _ _); [reflexivity|]. unfold append_header, seq, get_headers. now rewrite H.
  - unfold set_status. destruct (memb _ _); [reflexivity|]. unfold seq, get_headers. now rewrite H.
  - unfold set_content_type. destruct (memb _ _); [reflexivity|]. unfold seq, get_headers. now rewrite H.
  - unfold set_base_header. now rewrite H.
Qed.

(** ** C30 *)
Lemma field_name_named k x : named k x -> field_name x = k.
Proof.
  intros (n & v & -> & L & N). unfold field_name.
  change (bs ": " ++ v) with (":"%char :: SP :: v). change (bs ":") with [":"%char].
  rewrite (find1_app ":"%char n (SP :: v) N).
  now rewrite firstn_app, Nat.sub_diag, firstn_all, firstn_O, app_nil_r.
Qed.

Definition unframed (d : hdict) : hdict := filter (fun kv => negb (existsb (beqb (fst kv)) framing)) d.
Lemma excluded_framing key : excluded key || beqb key k_ctype = existsb (beqb key) framing.
Proof.
  unfold excluded, framing, k_ctype. cbn [existsb].
  destruct (beqb key (bs "connection")), (beqb key (bs "content-length")), (beqb key (bs "transfer-encoding")), (beqb key (bs "content-type")); reflexivity.
Qed.
Lemma filter_del (d : hdict) : NoDup (map fst d) ->
  filter (fun kv => negb (excluded (fst kv))) (hdel k_ctype d) = unframed d.
Proof.
  unfold unframed, hdel. induction d as [|[k v] d IH]; intros ND; [reflexivity|]. cbn [map fst] in ND. inversion_clear ND as [|? ? Hk ND'].
  cbn [ddel]. destruct (beqb k_ctype k) eqn:E.
  - apply beqb_eq in E as <-. cbn [filter fst]. replace (existsb (beqb k_ctype) framing) with true by reflexivity. cbn [negb].
    apply filter_ext_in. intros [k2 v2] I. cbn [fst]. rewrite <- excluded_framing.
    assert (beqb k2 k_ctype = false) as ->; [|now rewrite orb_false_r]. apply beqb_neq. intros ->. apply Hk. apply in_map_iff. now exists (k_ctype, v2).
  - cbn [filter fst]. rewrite <- excluded_framing. rewrite beqb_sym in E. rewrite E, orb_false_r.
    destruct (excluded k); cbn [negb]; [now apply IH|]. f_equal. now apply IH.
Qed.

Lemma base_present e keep : one_line (e_date e) -> one_line (e_server e) ->
  lines_at (bs "date") (snd (set_base_header e (new_rsp keep))) <> None.
Proof.
  intros A B. unfold set_base_header. cbn [new_rsp r_headers].
  rewrite (seq_ok _ _ _ _ _ (set_header_run (bs "Date") (e_date e) (new_rsp keep) [] eq_refl ltac:(ol) A)).
  rewrite (set_header_run _ _ _ (hset (lower (bs "Date")) [header_line (bs "Date") (e_date e)] [])); [discriminate|reflexivity|ol|exact B].
Qed.

Lemma bodyless_iff e z : is_head e || no_content z = true <-> bodyless (e_method e) z.
Proof.
  unfold is_head, no_content, bodyless. rewrite !orb_true_iff, andb_true_iff, beqb_eq, !Z.eqb_eq, Z.leb_le, Z.ltb_lt. tauto.
Qed.

Lemma end_run_type (Nm : Prop) e data keepalive min s d k0 :
  r_headers s = Some d -> goodS (P1 Nm) s -> hmem k_line d = false -> r_buf s = [] ->
  hmem k0 d = true -> existsb (beqb k0) framing = false ->
  exists ct l, one_line ct /\ ct = ctype_of s /\
    end_ e data keepalive min s = (Ok tt, mkRsp None (r_chunked s) (tl (r_status s)) l []
      (r_out s ++ [Some (head_of (status_line e (status_of s) :: (bs "Content-Type: " ++ ct) :: (bs "Content-Length: " ++ fmt_d (blen data)) ::
                         (bs "Connection: " ++ (if keepalive && r_keep s then bs "keep-alive" else bs "close")) :: lines_of (unframed d))
                 ++ (if is_head e || no_content (fst (status_of s)) then [] else data)); None])
      (keepalive && r_keep s) (r_up s)).
Proof.
  intros H G NL B M0 F0.
  assert (good (P1 Nm) d) as GD by (apply (proj1 G), H).
  assert (d <> []) as Ne by (intros ->; discriminate).
  set (st := status_of s).
  set (s1 := with_status s (tl (r_status s))).
  assert (goodS (P1 Nm) s1) as G1.
  { destruct G as (A1 & A2 & A3). split; [exact A1|]. split; [|exact A3]. cbn. destruct (r_status s); [constructor|]. now inversion A2. }
  destruct (get_ct_run Nm s1 d H G1) as (ct & l & Oct & Ect & Fl & Ct).
  exists ct, l. split; [exact Oct|]. split; [exact Ct|]. unfold end_.
  assert (headers_sent s = false) as HS by (unfold headers_sent; now rewrite H). rewrite (seq_ok _ _ _ tt
    (with_sent (snd (send (Some (head_of (status_line e st :: (bs "Content-Type: " ++ ct) :: (bs "Content-Length: " ++ fmt_d (blen data)) ::
                         (bs "Connection: " ++ (if keepalive && r_keep s then bs "keep-alive" else bs "close")) :: lines_of (unframed d))
                 ++ (if is_head e || no_content (fst st) then [] else data))) (mkKw false 16384 min)
        (with_ctype (with_headers s1 (hdel k_ctype d)) l))))).
  - unfold send. set (X := head_of _ ++ _). assert (exists c X', X = c :: X') as (c & X' & EX).
    { unfold X, head_of, status_line. cbn [map concat bs list_ascii_of_string app]. eauto. }
    change (r_buf (with_ctype (with_headers s1 (hdel k_ctype d)) l)) with (r_buf s). rewrite B. cbn [k_throttle k_min].
    unfold close, update, flush_close. cbn [app].
    destruct (match min with Some m => _ | None => _ end); cbn [snd]; unfold with_sent, with_out, with_keep; cbn;
      destruct keepalive; cbn; rewrite ?EX, <- ?app_assoc; cbn; reflexivity || (now rewrite andb_false_r) || idtac.
  - rewrite HS. rewrite (seq_ok (set_base_header e) _ s tt s) by (unfold set_base_header; rewrite H; destruct d; [easy|reflexivity]).
    rewrite (seq_ok _ _ _ _ _ (get_status_run s d H NL)). fold st. fold s1.
    rewrite (seq_ok _ _ _ _ _ Ect). set (s2 := with_ctype (with_headers s1 (hdel k_ctype d)) l).
    rewrite (seq_ok get_headers _ s2 (hdel k_ctype d) s2 eq_refl).
    rewrite (seq_ok (fun s0 => (Ok (keepalive && r_keep s0), s0)) _ s2 (keepalive && r_keep s) s2 eq_refl).
    assert ((if (0 <? blen data)%Z && (is_head e || no_content (fst st)) then [] else data) = (if is_head e || no_content (fst st) then [] else data)) as ->.
    { destruct data as [|c data]; [now destruct (_ && _), (_ || _)|]. now replace (0 <? blen (c :: data))%Z with true by (symmetry; apply Z.ltb_lt; unfold blen; cbn [List.length]; lia). }
    rewrite filter_del by apply GD.
    set (body := if is_head e || no_content (fst st) then [] else data).
    assert (forall a b c f, a ++ CRLF ++ b ++ CRLF ++ c ++ CRLF ++ f ++ CRLF ++ join_lines (map snd (unframed d)) ++ CRLF ++ CRLF ++ body =
       head_of (a :: b :: c :: f :: lines_of (unframed d)) ++ body) as Shape.
    { intros a b c f. change (a :: b :: c :: f :: lines_of (unframed d)) with ([a; b; c] ++ (f :: lines_of (unframed d))).
      rewrite head_of_app. unfold lines_of. rewrite <- join_lines_head.
      - cbn [map concat]. now rewrite <- !app_assoc.
      - unfold hmem, dmem in M0. destruct (dget beqb k0 d) as [v0|] eqn:E0; [|discriminate]. apply dget_some_in in E0.
        assert (In (k0, v0) (unframed d)) as I by (apply filter_In; split; [exact E0|cbn [fst]; now rewrite F0]).
        now destruct (unframed d).
      - apply Forall_forall. intros v I. apply in_map_iff in I as ((k & l0) & <- & I). apply filter_In in I as [I _]. apply (proj2 GD k l0 I). }
    unfold status_line at 1. rewrite <- Shape.
    set (kv := if keepalive && r_keep s then bs "keep-alive" else bs "close").
    match goal with |- seq (send (Some ?X) _) _ _ = (_, with_sent (snd (send (Some ?Y) _ _))) => replace Y with X end.
    + unfold seq, send, update. destruct (match min with Some _ => _ | None => _ end); reflexivity.
    + now rewrite <- !app_assoc.
Qed.

Lemma end_run (Nm : Prop) e data keepalive min s d k0 :
  r_headers s = Some d -> goodS (P1 Nm) s -> hmem k_line d = false -> r_buf s = [] ->
  hmem k0 d = true -> existsb (beqb k0) framing = false ->
  exists ct l, one_line ct /\
    end_ e data keepalive min s = (Ok tt, mkRsp None (r_chunked s) (tl (r_status s)) l []
      (r_out s ++ [Some (head_of (status_line e (status_of s) :: (bs "Content-Type: " ++ ct) :: (bs "Content-Length: " ++ fmt_d (blen data)) ::
                         (bs "Connection: " ++ (if keepalive && r_keep s then bs "keep-alive" else bs "close")) :: lines_of (unframed d))
                 ++ (if is_head e || no_content (fst (status_of s)) then [] else data)); None])
      (keepalive && r_keep s) (r_up s)).
Proof. intros H G NL B M0 F0. destruct (end_run_type Nm e data keepalive min s d k0 H G NL B M0 F0) as (ct & l & Oct & _ & E). now exists ct, l. Qed.

(** C30 for any calls after which there is a Date line. *)
Lemma c30_calls e ops keep data keepalive min stored :
  Forall appends_clean ops -> Forall name_ok ops -> Forall unreserved ops ->
  lines_at (bs "date") (do_hops e ops (new_rsp keep)) <> None -> r_headers (do_hops e ops (new_rsp keep)) = Some stored ->
  exists s' ctype body,
    let st := final_status ops (200%Z, bs "OK") in
    let others := concat (map snd (filter (fun kv => negb (existsb (beqb (fst kv)) framing)) stored)) in
    let lines := status_line e st :: (bs "Content-Type: " ++ ctype) :: (bs "Content-Length: " ++ fmt_d (blen data)) ::
                 (bs "Connection: " ++ (if keepalive && keep then bs "keep-alive" else bs "close")) :: others in
    end_ e data keepalive min (do_hops e ops (new_rsp keep)) = (Ok tt, s') /\
    r_out s' = [Some (head_of lines ++ body); None] /\ r_keep s' = (keepalive && keep)%bool /\
    (bodyless (e_method e) (fst st) -> body = []) /\ (~ bodyless (e_method e) (fst st) -> body = data) /\
    Forall one_line lines /\ Forall (fun l => ~ In (field_name l) framing) others /\
    client_body (head_of lines ++ body) = Some body /\ ctype = ctype_of (do_hops e ops (new_rsp keep)).
Proof.
  intros A B C LD Hst.
  destruct (called_intro True e ops keep A (fun _ => B) C) as (d & Ca).
  pose proof (ca_h _ _ _ _ _ _ Ca) as H. rewrite Hst in H. injection H as <-.
  assert (hmem (bs "date") stored = true) as MD.
  { rewrite (hmem_lines _ _ _ Hst). now destruct (lines_at (bs "date") _). }
  set (s := do_hops e ops (new_rsp keep)) in *.
  destruct (end_run_type True e data keepalive min s stored (bs "date") Hst (ca_g _ _ _ _ _ _ Ca) (ca_l _ _ _ _ _ _ Ca) (ca_b _ _ _ _ _ _ Ca) MD eq_refl) as (ct & l & Oct & Ct & E).
  rewrite (ca_s _ _ _ _ _ _ Ca) in E.
  exists (snd (end_ e data keepalive min s)), ct, (if is_head e || no_content (fst (final_status ops (200%Z, bs "OK"))) then [] else data).
  intros st others lines.
  assert (good (P1 True) stored) as GD by (apply (proj1 (ca_g _ _ _ _ _ _ Ca)), Hst).
  assert (Forall one_line others) as Oo.
  { apply Forall_forall. intros x I. apply in_concat in I as (v & I & Ix). apply in_map_iff in I as ((k & l0) & <- & I). apply filter_In in I as [I _].
    destruct (proj2 GD k l0 I) as [_ F]. rewrite Forall_forall in F. apply F in Ix as [O _]. exact O. }
  assert (Forall (fun l => ~ In (field_name l) framing) others) as Fo.
  { apply Forall_forall. intros x I. apply in_concat in I as (v & I & Ix). apply in_map_iff in I as ((k & l0) & <- & I). apply filter_In in I as [I Fk].
    destruct (proj2 GD k l0 I) as [_ F]. rewrite Forall_forall in F. apply F in Ix as [_ N]. cbn [fst] in Fk.
    assert (k <> k_line) as NL.
    { intros ->. pose proof (ca_l _ _ _ _ _ _ Ca) as X. unfold hmem, dmem in X. rewrite (in_dget _ _ _ (proj1 GD) I) in X. discriminate. }
    rewrite (field_name_named k x (N Logic.I NL)). rewrite <- framing_k_In. unfold framing_k. intros X. now rewrite X in Fk. }
  assert (one_line (snd st)) as Ost.
  { unfold st. rewrite <- (ca_s _ _ _ _ _ _ Ca).
    eapply status_of_line, (ca_g _ _ _ _ _ _ Ca). }
  assert (Forall one_line lines) as Ol.
  { unfold lines. constructor; [now apply status_line_ok|]. constructor; [apply one_line_app; [ol|exact Oct]|].
    constructor; [apply one_line_app; ol|]. constructor; [|exact Oo]. apply one_line_app; [ol|]. destruct (keepalive && keep); ol. }
  split; [|split; [|split; [|split; [|split; [|split; [exact Ol|split; [exact Fo|split; [|exact Ct]]]]]]]].
  - rewrite E. reflexivity.
  - rewrite E. cbn [snd r_out]. rewrite (ca_o _ _ _ _ _ _ Ca), (ca_k _ _ _ _ _ _ Ca). reflexivity.
  - rewrite E. cbn [snd r_keep]. now rewrite (ca_k _ _ _ _ _ _ Ca).
  - intros Bl. apply bodyless_iff in Bl. fold st. now rewrite Bl.
  - intros Bl. fold st. destruct (is_head e || no_content (fst st)) eqn:X; [|reflexivity]. apply bodyless_iff in X. now apply Bl in X.
  - apply head_client; [easy|]. apply Forall_forall. intros x I. rewrite Forall_forall in Ol. split; [|now apply Ol].
    destruct I as [<-|[<-|[<-|[<-|I]]]]; try (now destruct (bs _)); try discriminate.
    unfold others in I. apply in_concat in I as (v & I & Ix). apply in_map_iff in I as ((k & l0) & <- & I). apply filter_In in I as [I _].
    destruct (proj2 GD k l0 I) as [_ F]. rewrite Forall_forall in F. apply F in Ix as [_ N].
    assert (k <> k_line) as NL.
    { intros ->. pose proof (ca_l _ _ _ _ _ _ Ca) as X. unfold hmem, dmem in X. rewrite (in_dget _ _ _ (proj1 GD) I) in X. discriminate. }
    destruct (N Logic.I NL) as (n & v & -> & _). now destruct n.
Qed.
Lemma c30_main e ops keep data keepalive min stored :
  one_line (e_date e) -> one_line (e_server e) -> Forall appends_clean ops -> Forall name_ok ops -> Forall unreserved ops ->
  r_headers (do_hops e (HBase :: ops) (new_rsp keep)) = Some stored ->
  exists s' ctype body,
    let st := final_status ops (200%Z, bs "OK") in
    let others := concat (map snd (filter (fun kv => negb (existsb (beqb (fst kv)) framing)) stored)) in
    let lines := status_line e st :: (bs "Content-Type: " ++ ctype) :: (bs "Content-Length: " ++ fmt_d (blen data)) ::
                 (bs "Connection: " ++ (if keepalive && keep then bs "keep-alive" else bs "close")) :: others in
    end_ e data keepalive min (do_hops e (HBase :: ops) (new_rsp keep)) = (Ok tt, s') /\
    r_out s' = [Some (head_of lines ++ body); None] /\ r_keep s' = (keepalive && keep)%bool /\
    (bodyless (e_method e) (fst st) -> body = []) /\ (~ bodyless (e_method e) (fst st) -> body = data) /\
    Forall one_line lines /\ Forall (fun l => ~ In (field_name l) framing) others /\
    client_body (head_of lines ++ body) = Some body.
Proof.
  intros OD OS A B C Hst. destruct (c30_calls e (HBase :: ops) keep data keepalive min stored ltac:(now constructor) ltac:(now constructor) ltac:(now constructor)) as (s' & ct & body & X); [|exact Hst|].
  - cbn [do_hops do_hop]. exact (do_hops_present e (bs "date") ops _ (base_present e keep OD OS)).
  - exists s', ct, body. cbv zeta in X |- *. cbn [final_status] in X. destruct X as (X1 & X2 & X3 & X4 & X5 & X6 & X7 & X8 & _). now repeat split.
Qed.
