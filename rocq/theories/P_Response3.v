From Verif Require Import PyBytes PyBytesFacts PyDictFacts PyInt PyIntFacts PyExn PyUrl M_Response S_Response S_Calls P_Response P_Response2.
Section WithN.
Context (Nm : Prop).

(** ** Sending *)
Lemma pieces_concat n : (0 < n)%nat -> forall fuel data, (List.length data < fuel)%nat -> concat (pieces fuel n data) = data.
Proof.
  intros Hn. induction fuel as [|f IH]; intros data L; [lia|]. cbn [pieces]. destruct data as [|c data]; [reflexivity|].
  cbn [concat]. rewrite IH; [apply firstn_skipn|]. rewrite skipn_length. cbn [List.length] in *. lia.
Qed.
Lemma put_pieces_concat z data : (1 <= z)%Z -> concat (put_pieces z data) = data.
Proof. intros H. apply pieces_concat; lia. Qed.

Lemma send_run d k s : (1 <= k_bufsize k)%Z -> exists items buf,
  send (Some d) k s = (Ok tt, with_out s buf (r_out s ++ map Some items)) /\ concat items ++ buf = r_buf s ++ d.
Proof.
  intros H. unfold send. destruct (match k_min k with Some m => _ | None => _ end).
  - exists [], (r_buf s ++ d). split; [|reflexivity]. cbn [map]. now rewrite app_nil_r.
  - destruct (k_throttle k).
    + exists (put_pieces (k_bufsize k) (r_buf s ++ d)), []. split; [reflexivity|]. now rewrite put_pieces_concat, app_nil_r.
    + exists [r_buf s ++ d], []. split; [reflexivity|]. cbn. now rewrite !app_nil_r.
Qed.

Lemma sends_run l : forall s, Forall (fun x => 1 <= k_bufsize (snd x))%Z l -> exists items buf,
  sends l s = with_out s buf (r_out s ++ map Some items) /\ concat items ++ buf = r_buf s ++ concat (map fst l).
Proof.
  induction l as [|[d k] l IH]; intros s F; cbn [sends].
  - exists [], (r_buf s). cbn. rewrite !app_nil_r. split; [now destruct s|reflexivity].
  - inversion_clear F as [|? ? H F']. destruct (send_run d k s H) as (i1 & b1 & E1 & C1).
    destruct (IH (snd (send (Some d) k s)) F') as (i2 & b2 & E2 & C2). rewrite E1 in E2, C2. cbn [snd with_out r_out r_buf] in E2, C2.
    exists (i1 ++ i2), b2. rewrite E1. cbn [snd]. rewrite E2. split.
    + unfold with_out. cbn. now rewrite map_app, app_assoc.
    + rewrite concat_app. cbn [map concat fst]. rewrite <- app_assoc, C2. now rewrite app_assoc, C1, app_assoc.
Qed.
Lemma c33_main l s : Forall (fun x => 1 <= k_bufsize (snd x))%Z l -> exists items,
  r_out (flush_close (sends l s)) = r_out s ++ map Some items ++ [None] /\ r_buf (flush_close (sends l s)) = [] /\
  concat items = r_buf s ++ concat (map fst l).
Proof.
  intros F. destruct (sends_run l s F) as (items & buf & -> & C). unfold flush_close. cbn.
  destruct buf as [|c buf].
  - exists items. rewrite app_nil_r in C. split; [|split; [reflexivity|exact C]]. now rewrite <- !app_assoc.
  - exists (items ++ [c :: buf]). split; [|split; [reflexivity|]].
    + rewrite map_app. cbn [map app]. now rewrite <- !app_assoc.
    + rewrite concat_app. cbn [concat]. now rewrite app_nil_r.
Qed.

(** ** write: status line and decided headers *)
Definition hdr1 (n v : bytes) (d : hdict) : hdict := hset (lower n) [header_line n v] d.
Definition framing_k (k : bytes) : bool := existsb (beqb k) framing.
Lemma framing_k_In k : framing_k k = true <-> In k framing.
Proof.
  unfold framing_k. rewrite existsb_exists. split.
  - intros (x & I & E). now apply beqb_eq in E as ->.
  - intros I. exists k. split; [exact I|apply beqb_refl].
Qed.

(** [d] may be turned into [d'] by setting decided headers and _line. *)
Definition keeps (d d' : hdict) : Prop :=
  (forall k, ~ In k decided -> k <> k_line -> hget k d' = hget k d) /\
  (forall k l, In k decided -> hget k d' = Some l -> hget k d = Some l \/ exists v, l = [v]).
Lemma keeps_refl d : keeps d d.
Proof. split; auto. Qed.
Lemma keeps_hdr1 d d' n v : In (lower n) decided -> keeps d d' -> keeps d (hdr1 n v d').
Proof.
  intros I [A B]. unfold hdr1. split.
  - intros k N1 N2. unfold hget, hset. rewrite dget_dset_other; [now apply A|]. intros ->. now apply N1.
  - intros k l Ik. unfold hget, hset. rewrite dget_dset. destruct (beqb k (lower n)); [|now apply B].
    intros [= <-]. right. eauto.
Qed.
Lemma keeps_line d d' l : keeps d d' -> keeps d (hset k_line l d').
Proof.
  intros [A B]. split.
  - intros k N1 N2. unfold hget, hset. rewrite dget_dset_other; [now apply A|exact N2].
  - intros k l' Ik. unfold hget, hset. rewrite dget_dset_other; [now apply B|].
    intros ->. revert Ik. cbn. intuition discriminate.
Qed.
Lemma keeps_del_ct P d d' : good P d' -> keeps d d' -> keeps d (hdel k_ctype d').
Proof.
  intros [ND _] [A B]. split.
  - intros k N1 N2. unfold hget, hdel. rewrite dget_ddel by exact ND. destruct (beqb k k_ctype) eqn:E; [|now apply A].
    apply beqb_eq in E as ->. destruct N1. now left.
  - intros k l Ik. unfold hget, hdel. rewrite dget_ddel by exact ND. destruct (beqb k k_ctype); [easy|]. now apply B.
Qed.
Lemma good_hdr1 n v d : one_line n -> one_line v -> memb ":" n = false -> good (P1 Nm) d -> good (P1 Nm) (hdr1 n v d).
Proof.
  intros A B C G. apply good_set; [exact G|easy|]. constructor; [|constructor]. split; [now apply one_line_header|].
  intros _ _. exists n, v. split; [reflexivity|]. split; [reflexivity|]. now apply memb_notIn.
Qed.
Lemma hget_hdr1_other k n v d : k <> lower n -> hget k (hdr1 n v d) = hget k d.
Proof. intros N. now apply dget_dset_other. Qed.
Lemma hget_hdr1_same n v d : hget (lower n) (hdr1 n v d) = Some [header_line n v].
Proof. apply dget_dset_same. Qed.

Ltac ol := first [apply one_line_bs_dec; reflexivity | apply one_line_fmt_d | assumption].

Definition the_line (e : renv) (st : Z * bytes) : list bytes := [bs "HTTP/" ++ version e; fmt_d (fst st); snd st].
Lemma the_line_ok e st : one_line (snd st) -> Forall ((P1 Nm) k_line) (the_line e st).
Proof.
  intros H. assert (forall x, one_line x -> P1 Nm k_line x) as A by (intros x O; split; [exact O|easy]).
  constructor; [|constructor; [apply A, one_line_fmt_d|constructor; [apply A, H|constructor]]].
  apply A, one_line_bs_dec. now destruct e as [[|] ? ? ?].
Qed.

(** The content type step shared by write and _handle_response. *)
Definition ct_step (nc : bool) : call unit :=
  if nc then done tt else run ct <- get_content_type in set_header (bs "Content-Type") ct.
Lemma ct_step_run nc s d : r_headers s = Some d -> goodS (P1 Nm) s -> exists d' l,
  ct_step nc s = (Ok tt, with_ctype (with_headers s d') l) /\ good (P1 Nm) d' /\ Forall one_line l /\
  (forall d0, keeps d0 d -> keeps d0 d') /\
  (forall k, k <> k_ctype -> hget k d' = hget k d) /\
  (nc = false -> hget k_ctype d' = Some [bs "Content-Type: " ++ ctype_of s]).
Proof.
  intros H G. unfold ct_step. destruct nc.
  - exists d, (r_ctype s). split; [|split; [apply (proj1 G), H|split; [apply G|split; [auto|split; [auto|easy]]]]].
    unfold done. rewrite (with_headers_id _ _ H). now destruct s.
  - destruct (get_ct_run Nm s d H G) as (ct & l & O & E & F & CT). rewrite (seq_ok _ _ _ _ _ E).
    set (d1 := hdel k_ctype d) in *.
    exists (hdr1 (bs "Content-Type") ct d1), l.
    assert (good (P1 Nm) d1) as G1 by (apply good_del, (proj1 G), H).
    split; [|split; [|split; [exact F|split; [|split]]]].
    + rewrite (set_header_run _ _ _ d1); [reflexivity|reflexivity|ol|ol].
    + apply good_hdr1; [ol|ol|reflexivity|exact G1].
    + intros d0 K. apply keeps_hdr1; [now left|]. apply (keeps_del_ct (P1 Nm)); [apply (proj1 G), H|exact K].
    + intros k N. rewrite hget_hdr1_other by exact N. unfold d1, hget, hdel. rewrite dget_ddel by (apply (proj1 G _ H)).
      apply beqb_neq in N. now rewrite N.
    + intros _. rewrite <- CT. apply (hget_hdr1_same (bs "Content-Type")).
Qed.

(** What prepare decides on. *)
Definition chunk_choice (e : renv) (chunked : option bool) (nc : bool) : bool :=
  match chunked with Some b => b | None => e_11 e && negb nc end.
Definition special (z : Z) : bool := ((z =? 101) || (z =? 426))%Z.
Definition word_of (keep : bool) (z : Z) : bytes := if keep then (if special z then bs "upgrade" else bs "keep-alive") else bs "close".

Lemma prepare_run e chunked s d : r_headers s = Some d -> d <> [] -> goodS (P1 Nm) s -> hmem k_line d = false ->
  let st := status_of s in
  let nc := no_content (fst st) in
  let ch := chunk_choice e chunked nc in
  exists d' l kp up,
    prepare e chunked s = (Ok (negb (is_head e || nc)), mkRsp (Some d') ch (tl (r_status s)) l (r_buf s) (r_out s) kp up) /\
    good (P1 Nm) d' /\ Forall one_line l /\ keeps d d' /\
    hget k_line d' = Some (the_line e st) /\ hget (bs "connection") d' = Some [bs "Connection: " ++ word_of (r_keep s) (fst st)] /\
    (ch = true -> hget (bs "transfer-encoding") d' = Some [bs "Transfer-Encoding: chunked"]) /\
    (r_keep s = false -> kp = false) /\
    (is_head e || nc = true -> special (fst st) = false -> kp = false) /\
    ((fst st =? 101)%Z = false -> up = r_up s) /\
    (is_head e || nc = false -> (fst st =? 101)%Z = false -> kp = r_keep s && (ch || hmem (bs "content-length") d)) /\
    (ch = false -> hget (bs "transfer-encoding") d' = hget (bs "transfer-encoding") d) /\
    (nc = false -> hget k_ctype d' = Some [bs "Content-Type: " ++ ctype_of s]).
Proof.
  intros H Ne G NL st nc ch.
  assert (good (P1 Nm) d) as GD by (apply (proj1 G), H).
  assert (one_line (snd st)) as OS by (eapply status_of_line, G).
  unfold prepare. rewrite (seq_ok _ _ _ _ _ (eq_refl : get_headers s = _)) || (unfold seq at 1; unfold get_headers at 1; rewrite H).
  rewrite NL.
  rewrite (seq_ok (set_base_header e) _ s tt s) by (unfold set_base_header; rewrite H; destruct d; [easy|reflexivity]).
  rewrite (seq_ok _ _ _ _ _ (get_status_run s d H NL)). fold st. fold nc. fold (chunk_choice e chunked nc). fold ch.
  rewrite (seq_ok (update _) _ _ tt _ eq_refl).
  set (s1 := with_chunked (with_status s (tl (r_status s))) ch).
  assert (r_headers s1 = Some d) as H1 by exact H.
  rewrite (seq_ok get_headers _ s1 d s1) by (unfold get_headers; now rewrite H1).
  rewrite (seq_ok (put_headers _) _ _ tt _ eq_refl). fold (the_line e st).
  set (s2 := with_headers s1 (hset k_line (the_line e st) d)).
  set (d2 := hset k_line (the_line e st) d) in *.
  assert (good (P1 Nm) d2) as G2 by (apply good_set; [exact GD|easy|now apply the_line_ok]).
  assert (goodS (P1 Nm) s2) as GS2.
  { split; [intros x E; injection E as <-; exact G2|]. split; [|apply G]. cbn. destruct G as (_ & F & _). destruct (r_status s); [constructor|]. now inversion F. }
  destruct (ct_step_run nc s2 d2 eq_refl GS2) as (d3 & l & E3 & G3 & Fl & K3 & O3 & C3).
  fold (ct_step nc). rewrite (seq_ok _ _ _ _ _ E3). clear E3.
  assert (keeps d d3) as KD3 by (apply K3, keeps_line, keeps_refl).
  assert (hget k_line d3 = Some (the_line e st)) as L3 by (rewrite O3; [apply dget_dset_same|discriminate]).
  set (s3 := with_ctype (with_headers s2 d3) l).
  rewrite (seq_ok (fun s => (Ok s, s)) _ s3 s3 s3 eq_refl).
  change (r_chunked s3) with ch.
  set (d4 := if ch then hdr1 (bs "Transfer-Encoding") (bs "chunked") d3 else d3).
  rewrite (seq_ok _ _ s3 tt (with_headers s3 d4)).
  2:{ unfold d4. destruct ch; [|reflexivity]. rewrite (set_header_run _ _ _ d3); [reflexivity|reflexivity|ol|ol]. }
  assert (good (P1 Nm) d4) as G4 by (unfold d4; destruct ch; [apply good_hdr1; [ol|ol|reflexivity|exact G3]|exact G3]).
  assert (keeps d d4) as K4 by (unfold d4; destruct ch; [apply keeps_hdr1; [cbn; tauto|exact KD3]|exact KD3]).
  assert (hget k_line d4 = Some (the_line e st)) as L4.
  { unfold d4. destruct ch; [|exact L3]. rewrite hget_hdr1_other; [exact L3|discriminate]. }
  assert (ch = true -> hget (bs "transfer-encoding") d4 = Some [bs "Transfer-Encoding: chunked"]) as T4.
  { unfold d4. intros ->. apply (hget_hdr1_same (bs "Transfer-Encoding")). }
  set (s4 := with_headers s3 d4).
  change (r_keep s3) with (r_keep s).
  set (up := if r_keep s && (fst st =? 101)%Z then true else r_up s).
  set (kp := if r_keep s then (if (fst st =? 101)%Z then true else ch || hmem (bs "content-length") d4) else false).
  set (cv := if r_keep s then (if special (fst st) then bs "upgrade" else bs "keep-alive") else bs "close").
  assert (one_line cv) as OC by (unfold cv; destruct (r_keep s); [destruct (special _)|]; ol).
  set (d5 := hdr1 (bs "Connection") cv d4).
  set (s5 := mkRsp (Some d5) ch (tl (r_status s)) l (r_buf s) (r_out s) kp up).
  rewrite (seq_ok _ _ s4 tt s5).
  2:{ unfold s5, kp, up, d5, cv. destruct (r_keep s) eqn:RK.
      - rewrite (seq_ok get_headers _ s4 d4 s4 eq_refl). rewrite (seq_ok (update _) _ _ tt _ eq_refl).
        cbn [andb]. fold (special (fst st)).
        destruct (fst st =? 101)%Z eqn:E1.
        + rewrite (set_header_run _ _ _ d4); [|reflexivity|ol|destruct (special (fst st)); ol].
          unfold s4, s3, s2, s1, with_up, with_headers, with_ctype, with_chunked, with_status; cbn. now rewrite RK.
        + destruct (ch || hmem (bs "content-length") d4).
          * rewrite (set_header_run _ _ _ d4); [|reflexivity|ol|destruct (special (fst st)); ol].
            unfold s4, s3, s2, s1, with_up, with_headers, with_ctype, with_chunked, with_status; cbn. now rewrite RK.
          * rewrite (set_header_run _ _ _ d4); [|reflexivity|ol|destruct (special (fst st)); ol].
            reflexivity.
      - rewrite (set_header_run _ _ _ d4); [|reflexivity|ol|ol].
        unfold s4, s3, s2, s1, with_headers, with_ctype, with_chunked, with_status; cbn. now rewrite RK. }
  fold (special (fst st)).
  exists d5, l, (if is_head e || nc then (if special (fst st) then kp else false) else kp), up.
  split; [|split; [|split; [exact Fl|split; [|split; [|split; [|split; [|split; [|split; [|split; [|split; [|split]]]]]]]]]]].
  - destruct (is_head e || nc) eqn:HN; [|reflexivity]. unfold seq, update, done, s5. now destruct (special (fst st)).
  - apply good_hdr1; [ol|exact OC|reflexivity|exact G4].
  - apply keeps_hdr1; [cbn; tauto|exact K4].
  - unfold d5. rewrite hget_hdr1_other; [exact L4|discriminate].
  - apply (hget_hdr1_same (bs "Connection")).
  - intros E. unfold d5. rewrite hget_hdr1_other; [now apply T4|discriminate].
  - intros E. unfold kp. rewrite E. now destruct (is_head e || nc), (special (fst st)).
  - intros -> ->. reflexivity.
  - intros E. unfold up. rewrite E. now rewrite andb_false_r.
  - intros -> E. unfold kp. rewrite E. assert (hmem (bs "content-length") d4 = hmem (bs "content-length") d) as ->.
    { unfold hmem, dmem. destruct K4 as [K4 _]. specialize (K4 (bs "content-length")). unfold hget in K4. rewrite K4; [reflexivity| |discriminate].
      cbn. intuition discriminate. }
    now destruct (r_keep s).
  - intros E. unfold d5, d4. rewrite E. rewrite hget_hdr1_other by discriminate. rewrite O3 by discriminate.
    apply dget_dset_other. discriminate.
  - intros E. unfold d5. rewrite hget_hdr1_other by discriminate.
    assert (hget k_ctype d3 = Some [bs "Content-Type: " ++ ctype_of s]) as X.
    { rewrite (C3 E). do 3 f_equal. unfold ctype_of, lines_at, s2, s1, d2. rewrite H. cbn -[hget hset k_ctype k_line bs].
      unfold hget, hset. now rewrite dget_dset_other by discriminate. }
    unfold d4. destruct ch; [|exact X]. rewrite hget_hdr1_other by discriminate. exact X.
Qed.
End WithN.
