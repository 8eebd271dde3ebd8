From Verif Require Import PyBytes PyBytesFacts PyDictFacts PyInt PyIntFacts PyExn PyUrl M_Response S_Response S_Calls S_Chunked
  P_Response P_Response2 P_Response3 P_Response4 P_Response5 P_Response6 P_Response7 M_Sendfile S_Range S_Sendfile P_Sendfile.
From Coq Require Import ZifyBool ZifyNat ZifyN.
Local Open Scope Z_scope.

(** ** Header calls before the head is sent *)
Lemma clean_ok0 e h s : clean e h -> headers_sent s = false -> lines_at k_line s = None -> fst (do_hop e h s) = Ok tt.
Proof.
  intros C S L. unfold lines_at in L. unfold headers_sent in S. destruct (r_headers s) as [d|] eqn:H; [|discriminate].
  destruct h; cbn [do_hop clean] in *.
  - destruct C as (A & B & _). now rewrite (set_header_run _ _ s d H A B).
  - unfold append_header, seq, get_headers. now rewrite H.
  - unfold set_cookie. unfold one_line in C. apply memb_notIn in C. rewrite C. unfold append_header, seq, get_headers. now rewrite H.
  - unfold set_status. unfold one_line in C. apply memb_notIn in C. rewrite C. unfold seq, get_headers. rewrite H, L. reflexivity.
  - unfold set_content_type. unfold one_line in C. apply memb_notIn in C. rewrite C. unfold seq, get_headers. rewrite H. now destruct (hmem _ _).
  - destruct C as [A B]. unfold set_base_header. rewrite H. destruct d; [|reflexivity]. unfold seq.
    rewrite (set_header_run _ _ s [] H); [|ol|exact A]. now erewrite set_header_run; [|reflexivity|ol|exact B].
Qed.
Lemma do_mid_hops0 e mid : forall s, Forall (clean e) mid -> headers_sent s = false -> lines_at k_line s = None ->
  do_mid e mid s = (Ok tt, do_hops e mid s).
Proof.
  induction mid as [|h mid IH]; intros s F S L; cbn [do_mid do_hops]; [reflexivity|]. inversion_clear F as [|? ? C F'].
  unfold seq. pose proof (clean_ok0 e h s C S L) as O. destruct (do_hop e h s) as [r s1] eqn:D. cbn [fst snd] in *. rewrite O.
  apply (IH s1 F').
  - pose proof (do_hop_io e h s) as (_ & _ & _ & _ & _ & X). rewrite D in X. cbn [snd] in X. congruence.
  - pose proof (do_hop_no_line e h s) as X. rewrite D in X. apply X; [|exact L]. apply unreserved_names. now apply clean_appends in C.
Qed.
Lemma do_hops_app e a b s : do_hops e (a ++ b) s = do_hops e b (do_hops e a s).
Proof. revert s. induction a as [|h a IH]; intros s; cbn [app do_hops]; [reflexivity|apply IH]. Qed.
Lemma start_mid e pre mid keep : Forall unreserved pre -> Forall (clean e) mid ->
  do_mid e mid (start e pre keep) = (Ok tt, start e (pre ++ mid) keep).
Proof.
  intros U C. unfold start. rewrite do_hops_app. apply do_mid_hops0; [exact C| |].
  - pose proof (do_hops_io e pre (new_rsp keep)) as (_ & _ & _ & _ & _ & X). now rewrite X.
  - apply do_hops_no_line; [|reflexivity]. eapply Forall_impl; [|exact U]. apply unreserved_names.
Qed.

(** ** The writes *)
Lemma wr_sent e c k l : forall s, r_headers s = None ->
  wr e c k l s = (Ok tt, sends (map (fun d => (enc (r_chunked s && negb (r_up s)) d, k)) l) s).
Proof.
  induction l as [|d l IH]; intros s H; [reflexivity|]. cbn [wr map sends].
  set (b := r_chunked s && negb (r_up s)).
  assert (write e (Some d) c k s = (Ok tt, snd (send (Some (enc b d)) k s))) as W.
  { unfold write, headers_sent. rewrite H. unfold write_body, enc. fold b. destruct b; apply send_ok. }
  rewrite (seq_ok _ _ _ _ _ W).
  assert (forall x, let s2 := snd (send (Some x) k s) in r_headers s2 = None /\ r_chunked s2 = r_chunked s /\ r_up s2 = r_up s) as K.
  { intros x. unfold send. destruct (match k_min k with Some _ => _ | None => _ end); cbn; auto. }
  destruct (K (enc b d)) as (K1 & K2 & K3). rewrite (IH _ K1), K2, K3. reflexivity.
Qed.

Lemma hdel_absent k (d : hdict) : hget k d = None -> hdel k d = d.
Proof.
  unfold hget, hdel. induction d as [|[k0 v] d IH]; [reflexivity|]. cbn [dget ddel]. intros E.
  destruct (beqb k k0); [discriminate|]. now rewrite IH.
Qed.

(** What a response is that was sent with writes. *)
Record sent_ok (e : renv) (ops : list hop) (keep ch : bool) (stored sent : hdict) : Prop := {
  so_from : sent_from stored sent;
  so_good : good (P1 True) sent;
  so_line : hget k_line sent = None;
  so_te : ch = true -> hget (bs "transfer-encoding") sent = Some [bs "Transfer-Encoding: chunked"];
  so_nte : ch = false -> hget (bs "transfer-encoding") sent = hget (bs "transfer-encoding") stored;
  so_ct : no_content (fst (the_status ops)) = false -> hget k_ctype sent = Some [bs "Content-Type: " ++ ctype_of (start e ops keep)];
  so_lines : Forall one_line (status_line e (the_status ops) :: lines_of sent)
}.
Lemma sent_only e ops keep ch stored sent key x : sent_ok e ops keep ch stored sent -> key <> k_line -> hget key sent = Some [x] ->
  only_line key x (lines_of sent).
Proof.
  intros S N E. pose proof (only_line_intro True sent key x I (so_good _ _ _ _ _ _ S) N E) as O.
  now rewrite (hdel_absent _ _ (so_line _ _ _ _ _ _ S)) in O.
Qed.
Lemma sent_none e ops keep ch stored sent key : sent_ok e ops keep ch stored sent -> hget key sent = None -> no_line key (lines_of sent).
Proof.
  intros S E y I F. unfold lines_of in I. apply in_concat in I as (v & I & Ix). apply in_map_iff in I as ((k & l0) & <- & I). cbn [snd] in Ix.
  destruct (so_good _ _ _ _ _ _ S) as [ND G]. destruct (G k l0 I) as [_ Fl]. rewrite Forall_forall in Fl. destruct (Fl y Ix) as [_ N].
  apply (in_dget _ _ _ ND) in I. assert (k <> k_line) as NL by (intros ->; pose proof (so_line _ _ _ _ _ _ S) as L; unfold hget in L; congruence).
  apply (N Logic.I) in NL. rewrite (field_name_named k y NL) in F. subst k. unfold hget in E. congruence.
Qed.

Lemma first_write e ops keep stored (data : option bytes) c k : Forall appends_clean ops -> Forall name_ok ops -> Forall unreserved ops ->
  r_headers (start e ops keep) = Some stored -> stored <> [] ->
  exists sent st' ct' kp up, let ch := chunk_choice e c (no_content (fst (the_status ops))) in
    let b := is_head e || no_content (fst (the_status ops)) in
    write e data c k (start e ops keep) =
      write_body (if b then None else data) k
        (mkRsp None ch st' ct' [] [Some (head_of (status_line e (the_status ops) :: lines_of sent))] kp up) /\
    sent_ok e ops keep ch stored sent /\
    (b = true -> special (fst (the_status ops)) = false -> kp = false) /\
    (b = false -> (fst (the_status ops) =? 101) = false -> kp = keep && (ch || hmem (bs "content-length") stored)) /\
    ((fst (the_status ops) =? 101) = false -> up = false).
Proof.
  intros A N U H Ne. destruct (called_intro True e ops keep A ltac:(now intros _) U) as (d & Ca).
  pose proof (ca_h _ _ _ _ _ _ Ca) as H'. fold (start e ops keep) in H'. rewrite H in H'. injection H' as <-.
  destruct (write_fresh True e data c k _ stored H Ne (ca_g _ _ _ _ _ _ Ca) (ca_l _ _ _ _ _ _ Ca) (ca_b _ _ _ _ _ _ Ca))
    as (sent & ch & st' & ct' & kp & up & E & SF & GS & NK & Ec & T & _ & K2 & Up & K3 & T2 & CT).
  pose proof (ca_s _ _ _ _ _ _ Ca) as S. fold (start e ops keep) in S. fold (the_status ops) in S.
  rewrite S in *. change (do_hops e ops (new_rsp keep)) with (start e ops keep) in *.
  pose proof (ca_o _ _ _ _ _ _ Ca) as O. change (do_hops e ops (new_rsp keep)) with (start e ops keep) in O. rewrite O in E. cbn [app] in E.
  pose proof (ca_u _ _ _ _ _ _ Ca) as Uu. change (do_hops e ops (new_rsp keep)) with (start e ops keep) in Uu. rewrite Uu in Up.
  pose proof (ca_k _ _ _ _ _ _ Ca) as Kk. change (do_hops e ops (new_rsp keep)) with (start e ops keep) in Kk. rewrite Kk in K3.
  exists sent, st', ct', kp, up. rewrite <- Ec. fold (lines_of sent) in E. split; [exact E|]. split; [|now split; [|split]].
  split; try assumption.
  - destruct (hget k_line sent) eqn:L; [|reflexivity]. exfalso. apply (NK k_line); [|reflexivity]. unfold hmem, dmem. unfold hget in L. now rewrite L.
  - constructor; [|now apply (lines_ok True)]. apply status_line_ok. rewrite <- S. eapply status_of_line, (ca_g _ _ _ _ _ _ Ca).
Qed.

Lemma wr_close e ops keep stored c k l : Forall appends_clean ops -> Forall name_ok ops -> Forall unreserved ops ->
  r_headers (start e ops keep) = Some stored -> stored <> [] -> ~ bodyless (e_method e) (fst (the_status ops)) ->
  1 <= k_bufsize k -> l <> [] ->
  let ch := chunk_choice e c false in
  exists s' sent items, (wr e c k l ;; close true) (start e ops keep) = (Ok tt, s') /\
    r_out s' = Some (head_of (status_line e (the_status ops) :: lines_of sent)) :: map Some items ++ [None] /\
    sent_ok e ops keep ch stored sent /\ concat items = concat (map (enc ch) l) /\
    r_keep s' = keep && (ch || hmem (bs "content-length") stored).
Proof.
  intros A N U H Ne NB Hb Nl ch. destruct l as [|d l]; [easy|].
  destruct (first_write e ops keep stored (Some d) c k A N U H Ne) as (sent & st' & ct' & kp & up & E & SO & _ & K & Up).
  assert (is_head e || no_content (fst (the_status ops)) = false) as NB'.
  { destruct (is_head e || _) eqn:X; [|reflexivity]. apply bodyless_iff in X. easy. }
  assert ((fst (the_status ops) =? 101) = false) as N1.
  { destruct (fst (the_status ops) =? 101) eqn:X; [|reflexivity]. exfalso. apply NB. unfold bodyless. lia. }
  rewrite NB' in *. pose proof NB' as NC. apply orb_false_iff in NC as [_ NC]. rewrite NC in *. fold ch in E, SO, K.
  rewrite (K eq_refl N1) in E. rewrite (Up N1) in E.
  set (s1 := mkRsp _ _ _ _ _ _ _ _) in E.
  assert (wr e c k (d :: l) (start e ops keep) = wr e c k (d :: l) s1) as W by (cbn [wr]; unfold seq; rewrite E; reflexivity).
  unfold seq. rewrite W, wr_sent by reflexivity. cbn [s1 r_chunked r_up negb]. rewrite andb_true_r.
  set (l2 := map (fun d0 => (enc ch d0, k)) (d :: l)).
  assert (Forall (fun x => 1 <= k_bufsize (snd x)) l2) as F2.
  { apply Forall_forall. intros x I. apply in_map_iff in I as (y & <- & _). exact Hb. }
  destruct (c33_main l2 s1 F2) as (items & O & _ & C). unfold close, update. exists (flush_close (sends l2 s1)), sent, items.
  split; [reflexivity|]. split; [exact O|]. split; [exact SO|]. split.
  - rewrite C. cbn [s1 r_buf app]. unfold l2. rewrite map_map. reflexivity.
  - destruct (sends_run l2 s1 F2) as (i & bf & -> & _). reflexivity.
Qed.

(** For a response without a body only the head reaches the client. *)
Lemma wr_close_bodyless e ops keep stored c k l : Forall appends_clean ops -> Forall name_ok ops -> Forall unreserved ops ->
  r_headers (start e ops keep) = Some stored -> stored <> [] -> bodyless (e_method e) (fst (the_status ops)) ->
  fst (the_status ops) <> 101 -> fst (the_status ops) <> 426 ->
  1 <= k_bufsize k -> l <> [] ->
  exists s' sent, (wr e c k l ;; close true) (start e ops keep) = (Ok tt, s') /\
    sent_ok e ops keep (chunk_choice e c (no_content (fst (the_status ops)))) stored sent /\
    on_wire (r_keep s') (r_out s') = head_of (status_line e (the_status ops) :: lines_of sent).
Proof.
  intros A N U H Ne NB N1 N2 Hb Nl. destruct l as [|d l]; [easy|].
  destruct (first_write e ops keep stored (Some d) c k A N U H Ne) as (sent & st' & ct' & kp & up & E & SO & K & _).
  apply bodyless_iff in NB. rewrite NB in *. assert (special (fst (the_status ops)) = false) as Sp by (unfold special; lia).
  rewrite (K eq_refl Sp) in E. set (ch := chunk_choice _ _ _) in *. set (s1 := mkRsp _ _ _ _ _ _ _ _) in E.
  cbn [wr]. unfold seq. rewrite E. unfold write_body, send. set (s2 := flush_close s1).
  rewrite (wr_sent e c k l s2 eq_refl). set (l2 := map _ l).
  assert (Forall (fun x => 1 <= k_bufsize (snd x)) l2) as F2.
  { apply Forall_forall. intros x I. apply in_map_iff in I as (y & <- & _). exact Hb. }
  destruct (c33_main l2 s2 F2) as (items & O & _). unfold close, update. exists (flush_close (sends l2 s2)), sent.
  split; [reflexivity|]. split; [exact SO|].
  assert (r_keep (flush_close (sends l2 s2)) = false) as -> by (destruct (sends_run l2 s2 F2) as (i & bf & -> & _); reflexivity).
  rewrite O. unfold s2, s1, flush_close. cbn. now rewrite app_nil_r.
Qed.

(** ** What the header calls of sendfile leave *)
Lemma start_snoc e ops h keep : start e (ops ++ [h]) keep = snd (do_hop e h (start e ops keep)).
Proof. unfold start. now rewrite do_hops_app. Qed.
Lemma start_some e ops keep : exists d, r_headers (start e ops keep) = Some d.
Proof.
  pose proof (do_hops_io e ops (new_rsp keep)) as (_ & _ & _ & _ & _ & X). unfold start. unfold headers_sent in X.
  destruct (r_headers (do_hops e ops (new_rsp keep))); [eauto|discriminate].
Qed.
Lemma set_at e n v s : headers_sent s = false -> one_line n -> one_line v -> lines_at (lower n) (snd (do_hop e (HSet n v) s)) = Some [header_line n v].
Proof.
  intros S A B. unfold headers_sent in S. destruct (r_headers s) as [d|] eqn:H; [|discriminate]. cbn [do_hop].
  rewrite (set_header_run _ _ s d H A B). cbn [snd]. unfold lines_at. cbn [with_headers r_headers]. apply dget_dset_same.
Qed.
Lemma hops_at e k ops : k <> k_line -> k <> k_ctype -> Forall (fun h => ~ In k (names h)) ops ->
  forall s, lines_at k (do_hops e ops s) = lines_at k s.
Proof.
  intros N1 N2 F. induction F as [|h ops Hh F IH]; intros s; cbn [do_hops]; [reflexivity|]. rewrite IH. now apply do_hop_at.
Qed.
Lemma start_sent e ops keep : headers_sent (start e ops keep) = false.
Proof. pose proof (do_hops_io e ops (new_rsp keep)) as (_ & _ & _ & _ & _ & X). exact X. Qed.
Lemma start_set e pre n v post keep : one_line n -> one_line v -> lower n <> k_line -> lower n <> k_ctype ->
  Forall (fun h => ~ In (lower n) (names h)) post ->
  lines_at (lower n) (start e (pre ++ HSet n v :: post) keep) = Some [header_line n v].
Proof.
  intros A B N1 N2 F. unfold start. rewrite do_hops_app. cbn [do_hops]. rewrite hops_at by assumption. apply set_at; [|exact A|exact B]. apply start_sent.
Qed.
(** The content type that set_content_type leaves, when no Content-Type header is touched after. *)
Lemma ctype_set e c s : headers_sent s = false -> one_line c -> lstrip_ws c = c -> ctype_of (snd (do_hop e (HCtype c) s)) = c.
Proof.
  intros S A L. unfold headers_sent in S. destruct (r_headers s) as [d|] eqn:H; [|discriminate]. cbn [do_hop]. unfold set_content_type.
  unfold one_line in A. apply memb_notIn in A. rewrite A. unfold seq, get_headers. rewrite H.
  destruct (hmem k_ctype d) eqn:M; unfold ctype_of, lines_at; cbn -[hget hset k_ctype].
  - unfold hget, hset. rewrite dget_dset_same. cbn. exact L.
  - rewrite H. unfold hmem, dmem in M. unfold hget. destruct (dget beqb k_ctype d); [discriminate|reflexivity].
Qed.
Lemma ctype_keep e n v s : lower n <> k_ctype -> ctype_of (snd (do_hop e (HSet n v) s)) = ctype_of s.
Proof.
  intros N. unfold ctype_of. cbn [do_hop]. rewrite set_header_at by congruence.
  assert (r_ctype (snd (set_header n v s)) = r_ctype s) as ->; [|reflexivity].
  unfold set_header. destruct (_ || _); [reflexivity|]. unfold seq, get_headers. now destruct (r_headers s).
Qed.
Lemma ctype_sets e l s : Forall (fun nv => lower (fst nv) <> k_ctype) l ->
  ctype_of (do_hops e (map (fun nv => HSet (fst nv) (snd nv)) l) s) = ctype_of s.
Proof.
  intros F. revert s. induction F as [|[n v] l Hn F IH]; intros s; cbn [map do_hops]; [reflexivity|]. rewrite IH. now apply ctype_keep.
Qed.
