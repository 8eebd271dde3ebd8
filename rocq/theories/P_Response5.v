From Verif Require Import PyBytes PyBytesFacts PyDictFacts PyInt PyIntFacts PyExn PyUrl M_Response S_Response S_Calls S_Chunked
  P_Response P_Response2 P_Response3 P_Response4.

Ltac ol := first [apply one_line_bs_dec; reflexivity | apply one_line_fmt_d | assumption].

Lemma unreserved_names h : unreserved h -> ~ In k_line (names h).
Proof. destruct h; cbn [unreserved names In]; intros U I; try (destruct I as [I|[]]); try easy; try (now apply U). all: destruct I as [I|[I|[]]]; discriminate. Qed.

Lemma header_named n v : ~ In ":"%char n -> named (lower n) (header_line n v).
Proof. intros H. exists n, v. auto. Qed.

Lemma hop_P1 (Nm : Prop) e h : appends_clean h -> (Nm -> name_ok h) -> hop_P (P1 Nm) e h.
Proof.
  intros A C. destruct h as [n v|n v|n v dt x p dm ss se ho|z m|c|]; cbn [hop_P appends_clean name_ok] in *.
  - intros O1 O2. split; [now apply one_line_header|]. intros HN _. now apply header_named, C.
  - destruct A as [O1 O2]. split; [now apply one_line_header|]. intros HN _. now apply header_named, C.
  - intros O. split; [apply one_line_header; [ol|exact O]|]. intros _ _. apply (header_named (bs "Set-Cookie")). now apply memb_notIn.
  - intros O. split; (split; [|easy]); [apply one_line_fmt_d|exact O].
  - intros O. split; [apply one_line_app; [ol|exact O]|]. intros _ _. apply (header_named (bs "Content-Type")). now apply memb_notIn.
  - split; intros O; (split; [apply one_line_header; [ol|exact O]|]); intros _ _.
    + apply (header_named (bs "Date")). now apply memb_notIn.
    + apply (header_named (bs "Server")). now apply memb_notIn.
Qed.
Lemma hops_P1 (Nm : Prop) e ops : Forall appends_clean ops -> (Nm -> Forall name_ok ops) -> Forall (hop_P (P1 Nm) e) ops.
Proof.
  intros F C. rewrite Forall_forall in F. apply Forall_forall. intros h I. apply hop_P1; [now apply F|]. intros HN. specialize (C HN).
  rewrite Forall_forall in C. now apply C.
Qed.

(** C28: stored lines *)
Lemma c28_stored_main e ops keep d k l : Forall appends_clean ops ->
  r_headers (do_hops e ops (new_rsp keep)) = Some d -> In (k, l) d -> Forall one_line l.
Proof.
  intros F H I. assert (goodS (P1 False) (do_hops e ops (new_rsp keep))) as G.
  { apply do_hops_good; [|apply goodS_new]. apply hops_P1; [exact F|easy]. }
  destruct (proj1 G _ H) as [_ G']. destruct (G' _ _ I) as [_ Fl]. eapply Forall_impl; [|exact Fl]. now intros x [O _].
Qed.

(** ** Status *)
Lemma set_header_status n v s : r_status (snd (set_header n v s)) = r_status s.
Proof. unfold set_header. destruct (_ || _); [reflexivity|]. unfold seq, get_headers. now destruct (r_headers s). Qed.
Lemma append_header_status n v s : r_status (snd (append_header n v s)) = r_status s.
Proof. unfold append_header, seq, get_headers. now destruct (r_headers s). Qed.
Lemma do_hop_status e h s : headers_sent s = false -> lines_at k_line s = None ->
  status_of (snd (do_hop e h s)) = final_status [h] (status_of s).
Proof.
  intros S L. unfold headers_sent in S. unfold lines_at in L. destruct (r_headers s) as [d|] eqn:H; [|easy]. clear S.
  destruct h; cbn [do_hop final_status]; unfold status_of.
  - now rewrite set_header_status.
  - now rewrite append_header_status.
  - unfold set_cookie. destruct (memb _ _); [reflexivity|]. now rewrite append_header_status.
  - unfold set_status. destruct (memb LF message); [reflexivity|]. unfold seq, get_headers. rewrite H, L. reflexivity.
  - unfold set_content_type. destruct (memb _ _); [reflexivity|]. unfold seq, get_headers. rewrite H. now destruct (hmem _ _).
  - unfold set_base_header. rewrite H. destruct d; [|reflexivity]. unfold seq.
    destruct (set_header (bs "Date") _ s) as [[u|x] s1] eqn:E.
    + rewrite set_header_status. pose proof (set_header_status (bs "Date") (e_date e) s) as X. rewrite E in X. cbn [snd] in X. now rewrite X.
    + pose proof (set_header_status (bs "Date") (e_date e) s) as X. rewrite E in X. cbn [snd] in X |- *. now rewrite X.
Qed.
Lemma do_hops_status e ops : forall s, Forall unreserved ops -> headers_sent s = false -> lines_at k_line s = None ->
  status_of (do_hops e ops s) = final_status ops (status_of s).
Proof.
  induction ops as [|h ops IH]; intros s F S L; cbn [do_hops]; [reflexivity|]. inversion_clear F as [|? ? Hh F'].
  rewrite IH.
  - rewrite do_hop_status by assumption. now destruct h.
  - exact F'.
  - pose proof (do_hop_io e h s) as (_ & _ & _ & _ & _ & X). now rewrite X.
  - apply do_hop_no_line; [now apply unreserved_names|exact L].
Qed.

(** The state after header calls on a new response. *)
Record called (Nm : Prop) (e : renv) (ops : list hop) (keep : bool) (s : rsp) (d : hdict) : Prop := {
  ca_h : r_headers s = Some d;
  ca_g : goodS (P1 Nm) s;
  ca_l : hmem k_line d = false;
  ca_s : status_of s = final_status ops (200%Z, bs "OK");
  ca_b : r_buf s = [];
  ca_o : r_out s = [];
  ca_k : r_keep s = keep;
  ca_u : r_up s = false
}.
Lemma hmem_lines k s d : r_headers s = Some d -> hmem k d = match lines_at k s with Some _ => true | None => false end.
Proof. intros H. unfold lines_at, hmem, dmem. now rewrite H. Qed.
Lemma called_intro (Nm : Prop) e ops keep : Forall appends_clean ops -> (Nm -> Forall name_ok ops) -> Forall unreserved ops ->
  exists d, called Nm e ops keep (do_hops e ops (new_rsp keep)) d.
Proof.
  intros A B C. set (s := do_hops e ops (new_rsp keep)).
  pose proof (do_hops_io e ops (new_rsp keep)) as (_ & B1 & O1 & K1 & U1 & S1). fold s in B1, O1, K1, U1, S1.
  destruct (r_headers s) as [d|] eqn:H; [|unfold headers_sent in S1; rewrite H in S1; discriminate].
  exists d. split; try assumption.
  - apply do_hops_good; [now apply hops_P1|apply goodS_new].
  - rewrite (hmem_lines k_line s d H). unfold s. rewrite do_hops_no_line; [reflexivity| |reflexivity].
    eapply Forall_impl; [|exact C]. apply unreserved_names.
  - unfold s. rewrite do_hops_status; [reflexivity|exact C|reflexivity|reflexivity].
Qed.

(** ** The head of write *)

Lemma status_line_join e st : join [SP] (the_line e st) = status_line e st.
Proof. unfold the_line, status_line. cbn [join]. now rewrite <- !app_assoc. Qed.

Lemma lines_ok (Nm : Prop) d : good (P1 Nm) d -> Forall one_line (lines_of d).
Proof. intros G. eapply good_lines; [exact G|]. now intros k x [O _]. Qed.
Lemma status_line_ok e st : one_line (snd st) -> one_line (status_line e st).
Proof.
  intros H. rewrite <- status_line_join. apply one_line_join; [ol|].
  eapply Forall_impl; [|apply (the_line_ok False), H]. now intros x [O _].
Qed.

Lemma write_fresh (Nm : Prop) e data chunked k s d : r_headers s = Some d -> d <> [] -> goodS (P1 Nm) s -> hmem k_line d = false -> r_buf s = [] ->
  exists sent ch st' ct' kp up,
    let s1 := mkRsp None ch st' ct' [] (r_out s ++ [Some (head_of (status_line e (status_of s) :: concat (map snd sent)))]) kp up in
    write e data chunked k s = write_body (if is_head e || no_content (fst (status_of s)) then None else data) k s1 /\
    sent_from d sent /\ good (P1 Nm) sent /\ (forall key, hmem key sent = true -> key <> k_line) /\
    ch = chunk_choice e chunked (no_content (fst (status_of s))) /\
    (ch = true -> hget (bs "transfer-encoding") sent = Some [bs "Transfer-Encoding: chunked"]) /\
    ((r_keep s = false -> kp = false) /\ hget (bs "connection") sent = Some [bs "Connection: " ++ word_of (r_keep s) (fst (status_of s))]) /\
    (is_head e || no_content (fst (status_of s)) = true -> special (fst (status_of s)) = false -> kp = false) /\
    ((fst (status_of s) =? 101)%Z = false -> up = r_up s) /\
    (is_head e || no_content (fst (status_of s)) = false -> (fst (status_of s) =? 101)%Z = false ->
       kp = r_keep s && (ch || hmem (bs "content-length") d)) /\
    (ch = false -> hget (bs "transfer-encoding") sent = hget (bs "transfer-encoding") d) /\
    (no_content (fst (status_of s)) = false -> hget k_ctype sent = Some [bs "Content-Type: " ++ ctype_of s]).
Proof.
  intros H Ne G NL B.
  destruct (prepare_run Nm e chunked s d H Ne G NL) as (d' & l & kp & up & E & G' & Fl & K & L & Mc & T & Kp & Kp2 & U & Kp3 & T2 & CT).
  assert (hmem (bs "connection") d' = true) as M by (unfold hmem, dmem; change (dget beqb (bs "connection") d') with (hget (bs "connection") d'); now rewrite Mc).
  set (st := status_of s) in *. set (nc := no_content (fst st)) in *.
  exists (hdel k_line d'), (chunk_choice e chunked nc), (tl (r_status s)), l, kp, up. intros s1.
  split; [|split; [|split; [|split; [|split; [|split; [|split; [|split; [|split; [|split; [|split]]]]]]]]]].
  - unfold write. unfold headers_sent. rewrite H. rewrite (seq_ok _ _ _ _ _ E).
    rewrite (seq_ok _ _ _ _ _ (send_head_run Nm (mkRsp (Some d') (chunk_choice e chunked nc) (tl (r_status s)) l (r_buf s) (r_out s) kp up)
      d' _ (bs "connection") eq_refl G' L M ltac:(discriminate) B)).
    unfold head_item. rewrite status_line_join. unfold s1. fold (lines_of (hdel k_line d')).
    now destruct (is_head e || nc).
  - now apply (keeps_sent Nm).
  - now apply good_del.
  - intros key Hk ->. unfold hmem, dmem, hdel in Hk. rewrite dget_ddel in Hk by apply G'. now rewrite beqb_refl in Hk.
  - reflexivity.
  - intros C. unfold hget, hdel. rewrite dget_ddel by apply G'. now apply T.
  - split; [exact Kp|]. unfold hget, hdel. rewrite dget_ddel by apply G'. exact Mc.
  - exact Kp2.
  - exact U.
  - exact Kp3.
  - intros C. unfold hget, hdel. rewrite dget_ddel by apply G'. now apply T2.
  - intros C. unfold hget, hdel. rewrite dget_ddel by apply G'. now apply CT.
Qed.

Lemma write_body_out data k s : exists tail kp, snd (write_body data k s) =
    mkRsp (r_headers s) (r_chunked s) (r_status s) (r_ctype s) (r_buf (snd (write_body data k s))) (r_out s ++ tail) kp (r_up s) /\ kp = r_keep s
  /\ (data = None -> r_buf s = [] -> tail = [None] /\ r_buf (snd (write_body data k s)) = []).
Proof.
  assert (forall d, exists tail, snd (send d k s) = with_out s (r_buf (snd (send d k s))) (r_out s ++ tail)) as S.
  { intros [d|]; unfold send.
    - destruct (match k_min k with Some _ => _ | None => _ end); cbn [snd].
      + exists []. cbn. now rewrite app_nil_r.
      + eexists. reflexivity.
    - eexists. reflexivity. }
  unfold write_body. destruct data as [d|].
  - destruct (r_chunked s && negb (r_up s)).
    + destruct (S (Some (fmt_X (blen d) ++ CRLF ++ d ++ CRLF))) as (tail & E). exists tail, (r_keep s). split; [exact E|]. easy.
    + destruct (S (Some d)) as (tail & E). exists tail, (r_keep s). split; [exact E|]. easy.
  - eexists _, (r_keep s). split; [reflexivity|]. split; [reflexivity|]. intros _ ->. split; reflexivity.
Qed.

Lemma c28_write_main e ops keep data chunked k : Forall appends_clean ops -> Forall unreserved ops ->
  forall stored, r_headers (do_hops e ops (new_rsp keep)) = Some stored -> stored <> [] ->
  exists s' sent rest, write e data chunked k (do_hops e ops (new_rsp keep)) = (Ok tt, s') /\
    r_out s' = Some (head_of (status_line e (final_status ops (200%Z, bs "OK")) :: concat (map snd sent))) :: rest /\
    sent_from stored sent /\
    one_line (status_line e (final_status ops (200%Z, bs "OK"))) /\ (forall name lines, In (name, lines) sent -> Forall one_line lines).
Proof.
  intros A U stored Hst Ne. destruct (called_intro False e ops keep A ltac:(easy) U) as (d & C).
  pose proof (ca_h _ _ _ _ _ _ C) as H. rewrite Hst in H. injection H as <-.
  destruct (write_fresh False e data chunked k _ stored Hst Ne (ca_g _ _ _ _ _ _ C) (ca_l _ _ _ _ _ _ C) (ca_b _ _ _ _ _ _ C))
    as (sent & ch & st' & ct' & kp & up & E & SF & GS & _).
  rewrite (ca_s _ _ _ _ _ _ C) in E. rewrite (ca_o _ _ _ _ _ _ C) in E. cbn [app] in E.
  set (s1 := mkRsp _ _ _ _ _ _ _ _) in E.
  destruct (write_body_out (if is_head e || no_content (fst (final_status ops (200%Z, bs "OK"))) then None else data) k s1) as (tail & kp' & W & _).
  set (dd := if is_head e || no_content (fst (final_status ops (200%Z, bs "OK"))) then None else data) in *.
  exists (snd (write_body dd k s1)), sent, tail. split; [|split; [|split; [exact SF|split]]].
  - rewrite E. unfold write_body. destruct dd; [destruct (_ && _)|]; unfold send; try reflexivity;
      destruct (match k_min k with Some _ => _ | None => _ end); reflexivity.
  - rewrite W. reflexivity.
  - apply status_line_ok. rewrite <- (ca_s _ _ _ _ _ _ C). eapply status_of_line, (ca_g _ _ _ _ _ _ C).
  - intros name lines I. destruct GS as [_ GS]. destruct (GS _ _ I) as [_ F]. eapply Forall_impl; [|exact F]. now intros x [O _].
Qed.
