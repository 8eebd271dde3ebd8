From Verif Require Import PyBytes PyBytesFacts PyDictFacts PyInt PyIntFacts PyExn PyUrl M_Response S_Response S_Calls S_Chunked
  P_Response P_Response2 P_Response3 P_Response4 P_Response5 P_Response6 P_Said P_Response7.

Lemma reject_lf e n v s : ~ one_line (n ++ v) -> do_hop e (HSet n v) s = (Raise InternalServerError, s).
Proof.
  intros H. cbn [do_hop]. unfold set_header. destruct (memb LF n || memb LF v) eqn:E; [reflexivity|]. exfalso. apply H.
  apply orb_false_iff in E as [A B]. apply memb_notIn in A, B. unfold one_line. rewrite in_app_iff. tauto.
Qed.

Lemma app_clean e pre mid : Forall appends_clean pre -> Forall (clean e) mid -> Forall appends_clean (pre ++ mid).
Proof. intros A B. apply Forall_app. split; [exact A|]. eapply Forall_impl; [|exact B]. intros h X. now apply clean_appends in X. Qed.

(** The header lines of all other names. *)
Lemma said_sent e pre mid keep d lines : called True e pre keep (start e pre keep) d -> Forall unreserved pre -> Forall (clean e) mid ->
  (forall k, True -> ~ In k added -> lines_named k lines = if beqb k k_line then [] else said k mid (match hget k d with Some l => l | None => [] end)) ->
  forall k, ~ In k added -> lines_named k lines = said k (pre ++ mid) [].
Proof.
  intros Ca U C Sd k NA. rewrite (Sd k Logic.I NA). destruct (beqb k k_line) eqn:EK.
  - apply beqb_eq in EK as ->. symmetry. apply said_none. apply Forall_app. split.
    + eapply Forall_impl; [|exact U]. intros h Uh. now apply unreserved_names.
    + eapply Forall_impl; [|exact C]. intros h Ch. apply unreserved_names. now apply clean_appends in Ch.
  - apply beqb_neq in EK. rewrite said_app. rewrite <- (at_get k _ d (ca_h _ _ _ _ _ _ Ca)). unfold start. rewrite (said_hops e k pre NA EK) by discriminate. reflexivity.
Qed.

Lemma c31_main e o pre mid y0 ys keep :
  e_11 e = true -> h_chunked o <> Some false -> (1 <= h_buf o)%Z ->
  Forall appends_clean pre -> Forall name_ok (pre ++ mid) -> Forall unreserved pre -> Forall (clean e) mid ->
  Forall (fun h => ~ In (bs "transfer-encoding") (names h)) mid ->
  ~ bodyless (e_method e) (fst (the_status pre)) ->
  exists s' lines items cs, respond_stream e o mid y0 ys (start e pre keep) = (Ok tt, s') /\
    r_out s' = Some (head_of (status_line e (final_status mid (the_status pre)) :: lines)) :: map Some items ++ [None] /\
    Forall one_line (status_line e (final_status mid (the_status pre)) :: lines) /\
    only_line (bs "transfer-encoding") (bs "Transfer-Encoding: chunked") lines /\ ~ In [] lines /\
    concat items = chunked_body cs (bs "0") [] CRLF /\ Forall good_chunk cs /\ chunks_data cs = concat (y0 :: ys) /\
    r_keep s' = keep /\ forall k, ~ In k added -> lines_named k lines = said k (pre ++ mid) [].
Proof.
  intros V Hc Hb A N U C T NB. apply Forall_app in N as [N1 N2].
  destruct (called_intro True e pre keep A ltac:(now intros _) U) as (d & Ca).
  destruct (respond_stream e o mid y0 ys (start e pre keep)) as [r s'] eqn:E.
  destruct (stream_main True e o mid y0 ys _ d r s' (ca_h _ _ _ _ _ _ Ca) (ca_g _ _ _ _ _ _ Ca) (ca_l _ _ _ _ _ _ Ca) (ca_b _ _ _ _ _ _ Ca) C (fun _ => N2) Hb E)
    as (-> & (first & lines & OL & Ann & -> & Sd & Nbl & Sh) & K).
  rewrite (ca_s _ _ _ _ _ _ Ca) in *. fold (the_status pre) in *. rewrite (ca_u _ _ _ _ _ _ Ca), (ca_k _ _ _ _ _ _ Ca), (ca_o _ _ _ _ _ _ Ca) in *.
  assert (is_head e || no_content (fst (the_status pre)) = false) as NC.
  { destruct (is_head e || _) eqn:X; [|reflexivity]. apply bodyless_iff in X. easy. }
  rewrite NC in Sh. apply orb_false_iff in NC as [_ NC].
  assert (chunk_choice e (h_chunked o) (no_content (fst (the_status pre))) = true) as CC.
  { unfold chunk_choice. rewrite V, NC. now destruct (h_chunked o) as [[]|]. }
  assert ((fst (the_status pre) =? 101)%Z = false) as N101.
  { apply Z.eqb_neq. intros X. rewrite X in NC. discriminate. }
  rewrite CC, N101, andb_false_r in *. cbn [andb negb orb] in *.
  destruct Sh as (items & O & Ci). rewrite enc_chunks in Ci.
  exists s', lines, items, (map chunk_of (filter nonempty (y0 :: ys))). split; [reflexivity|]. split; [exact O|]. split; [exact OL|].
  split; [now apply Ann|]. split; [now apply Ann|]. split; [exact Ci|]. split; [apply enc_chunks_good|]. split; [apply chunks_data_of|]. split; [rewrite K; now destruct keep|].
  exact (said_sent e pre mid keep d lines Ca U C Sd).
Qed.

Lemma c31_value_main e o pre mid data keep :
  (1 <= h_buf o)%Z -> Forall appends_clean pre -> Forall name_ok (pre ++ mid) -> Forall unreserved pre -> Forall (clean e) mid ->
  Forall (fun h => ~ In (bs "transfer-encoding") (names h) /\ ~ In (bs "content-length") (names h)) mid ->
  ~ bodyless (e_method e) (fst (the_status pre)) ->
  exists s' lines items, respond_value e o mid data (start e pre keep) = (Ok tt, s') /\
    r_out s' = Some (head_of (status_line e (final_status mid (the_status pre)) :: lines)) :: map Some items ++ [None] /\
    Forall one_line (status_line e (final_status mid (the_status pre)) :: lines) /\ ~ In [] lines /\ r_keep s' = keep /\ (forall k, ~ In k added -> lines_named k lines = said k (pre ++ mid) []) /\
    if (match h_chunked o with Some b => b | None => e_11 e end)
    then only_line (bs "transfer-encoding") (bs "Transfer-Encoding: chunked") lines /\
         exists cs, concat items = chunked_body cs (bs "0") [] CRLF /\ Forall good_chunk cs /\ chunks_data cs = data
    else only_line (bs "content-length") (bs "Content-Length: " ++ fmt_d (blen data)) lines /\ concat items = data.
Proof.
  intros Hb A N U C T NB. apply Forall_app in N as [N1 N2].
  destruct (called_intro True e pre keep A ltac:(now intros _) U) as (d & Ca).
  destruct (respond_value e o mid data (start e pre keep)) as [r s'] eqn:E.
  destruct (value_main True e o mid data _ d r s' (ca_h _ _ _ _ _ _ Ca) (ca_g _ _ _ _ _ _ Ca) (ca_l _ _ _ _ _ _ Ca) (ca_b _ _ _ _ _ _ Ca) C (fun _ => N2) Hb E)
    as (-> & (first & lines & OL & Ann & -> & Sd & Nbl & Sh) & K).
  rewrite (ca_s _ _ _ _ _ _ Ca) in *. fold (the_status pre) in *. rewrite (ca_u _ _ _ _ _ _ Ca), (ca_k _ _ _ _ _ _ Ca), (ca_o _ _ _ _ _ _ Ca) in *.
  assert (is_head e || no_content (fst (the_status pre)) = false) as NC.
  { destruct (is_head e || _) eqn:X; [|reflexivity]. apply bodyless_iff in X. easy. }
  rewrite NC in Sh. apply orb_false_iff in NC as [_ NC]. rewrite NC in *.
  assert (chunk_choice e (h_chunked o) false = match h_chunked o with Some b => b | None => e_11 e end) as CC.
  { unfold chunk_choice. destruct (h_chunked o); [reflexivity|]. now rewrite andb_true_r. }
  rewrite CC in *. cbn [negb] in Sh. rewrite andb_true_r in Sh.
  destruct Sh as (items & O & Ci).
  exists s', lines, items. split; [reflexivity|]. split; [exact O|]. split; [exact OL|].
  assert (forall k, (k = bs "transfer-encoding" \/ k = bs "content-length") -> Forall (fun h => ~ In k (names h)) mid) as T'.
  { intros k Hk. eapply Forall_impl; [|exact T]. intros h [X Y]. destruct Hk as [-> | ->]; assumption. }
  split; [|split; [exact K|split; [exact (said_sent e pre mid keep d lines Ca U C Sd)|]]].
  { destruct (match h_chunked o with Some b => b | None => e_11 e end); (apply Ann; split; [exact I|split; [reflexivity|apply T'; tauto]]). }
  destruct (match h_chunked o with Some b => b | None => e_11 e end).
  - split; [apply Ann; split; [exact I|split; [reflexivity|apply T'; now left]]|].
    exists (map chunk_of (filter nonempty [data])). rewrite enc_chunks in Ci. split; [exact Ci|]. split; [apply enc_chunks_good|].
    rewrite chunks_data_of. apply app_nil_r.
  - split; [apply Ann; split; [exact I|split; [reflexivity|apply T'; now right]]|].
    rewrite enc_plain in Ci. rewrite Ci. apply app_nil_r.
Qed.

(** Streams that are not chunked (HTTP/1.0, or chunked=False). *)
Lemma c31_plain_main e o pre mid y0 ys keep :
  match h_chunked o with Some b => b | None => e_11 e end = false -> (1 <= h_buf o)%Z ->
  Forall appends_clean pre -> Forall unreserved pre -> Forall (clean e) mid ->
  ~ bodyless (e_method e) (fst (the_status pre)) ->
  exists s' lines items, respond_stream e o mid y0 ys (start e pre keep) = (Ok tt, s') /\
    r_out s' = Some (head_of (status_line e (final_status mid (the_status pre)) :: lines)) :: map Some items ++ [None] /\
    concat items = concat (y0 :: ys) /\
    (r_keep s' = true -> exists l, lines_at (bs "content-length") (start e pre keep) = Some l).
Proof.
  intros V Hb A U C NB.
  destruct (called_intro False e pre keep A ltac:(easy) U) as (d & Ca).
  destruct (respond_stream e o mid y0 ys (start e pre keep)) as [r s'] eqn:E.
  destruct (stream_main False e o mid y0 ys _ d r s' (ca_h _ _ _ _ _ _ Ca) (ca_g _ _ _ _ _ _ Ca) (ca_l _ _ _ _ _ _ Ca) (ca_b _ _ _ _ _ _ Ca) C ltac:(easy) Hb E)
    as (-> & (first & lines & OL & Ann & -> & Sd & Nbl & Sh) & K).
  rewrite (ca_s _ _ _ _ _ _ Ca) in *. fold (the_status pre) in *. rewrite (ca_u _ _ _ _ _ _ Ca), (ca_k _ _ _ _ _ _ Ca), (ca_o _ _ _ _ _ _ Ca) in *.
  assert (is_head e || no_content (fst (the_status pre)) = false) as NC.
  { destruct (is_head e || _) eqn:X; [|reflexivity]. apply bodyless_iff in X. easy. }
  rewrite NC in Sh. apply orb_false_iff in NC as [_ NC].
  assert (chunk_choice e (h_chunked o) (no_content (fst (the_status pre))) = false) as CC.
  { unfold chunk_choice. destruct (h_chunked o) as [[]|]; try easy. now rewrite V. }
  assert ((fst (the_status pre) =? 101)%Z = false) as N101.
  { apply Z.eqb_neq. intros X. rewrite X in NC. discriminate. }
  rewrite CC, N101, andb_false_r in *. cbn [andb negb orb] in *.
  destruct Sh as (items & O & Ci). rewrite enc_plain in Ci.
  exists s', lines, items. split; [reflexivity|]. split; [exact O|]. split; [exact Ci|]. intros Hk. rewrite K in Hk. destruct keep; [|discriminate].
  rewrite (hmem_lines _ _ _ (ca_h _ _ _ _ _ _ Ca)) in Hk. fold (start e pre true) in Hk.
  destruct (lines_at (bs "content-length") (start e pre true)) as [l|]; [now exists l|discriminate].
Qed.

Lemma c32_stream_main e o pre mid y0 ys keep :
  (1 <= h_buf o)%Z -> Forall appends_clean pre -> Forall unreserved pre -> Forall (clean e) mid ->
  bodyless (e_method e) (fst (the_status pre)) ->
  exists s' lines, respond_stream e o mid y0 ys (start e pre keep) = (Ok tt, s') /\
    r_out s' = [Some (head_of (status_line e (final_status mid (the_status pre)) :: lines)); None] /\
    Forall one_line (status_line e (final_status mid (the_status pre)) :: lines).
Proof.
  intros Hb A U C NB. destruct (called_intro False e pre keep A ltac:(easy) U) as (d & Ca).
  destruct (respond_stream e o mid y0 ys (start e pre keep)) as [r s'] eqn:E.
  destruct (stream_main False e o mid y0 ys _ d r s' (ca_h _ _ _ _ _ _ Ca) (ca_g _ _ _ _ _ _ Ca) (ca_l _ _ _ _ _ _ Ca) (ca_b _ _ _ _ _ _ Ca) C ltac:(easy) Hb E)
    as (-> & (first & lines & OL & Ann & -> & Sd & Nbl & Sh) & K).
  rewrite (ca_s _ _ _ _ _ _ Ca) in *. fold (the_status pre) in *. rewrite (ca_o _ _ _ _ _ _ Ca) in *.
  apply bodyless_iff in NB. rewrite NB in Sh. exists s', lines. auto.
Qed.
Lemma c32_value_main e o pre mid data keep :
  (1 <= h_buf o)%Z -> Forall appends_clean pre -> Forall unreserved pre -> Forall (clean e) mid ->
  bodyless (e_method e) (fst (the_status pre)) ->
  exists s' lines, respond_value e o mid data (start e pre keep) = (Ok tt, s') /\
    r_out s' = [Some (head_of (status_line e (final_status mid (the_status pre)) :: lines)); None] /\
    Forall one_line (status_line e (final_status mid (the_status pre)) :: lines).
Proof.
  intros Hb A U C NB. destruct (called_intro False e pre keep A ltac:(easy) U) as (d & Ca).
  destruct (respond_value e o mid data (start e pre keep)) as [r s'] eqn:E.
  destruct (value_main False e o mid data _ d r s' (ca_h _ _ _ _ _ _ Ca) (ca_g _ _ _ _ _ _ Ca) (ca_l _ _ _ _ _ _ Ca) (ca_b _ _ _ _ _ _ Ca) C ltac:(easy) Hb E)
    as (-> & (first & lines & OL & Ann & -> & Sd & Nbl & Sh) & K).
  rewrite (ca_s _ _ _ _ _ _ Ca) in *. fold (the_status pre) in *. rewrite (ca_o _ _ _ _ _ _ Ca) in *.
  apply bodyless_iff in NB. rewrite NB in Sh. exists s', lines. auto.
Qed.
(** More about them, if header names have no colon. *)
Lemma bare_stream e o pre mid y0 ys keep :
  (1 <= h_buf o)%Z -> Forall appends_clean pre -> Forall name_ok (pre ++ mid) -> Forall unreserved pre -> Forall (clean e) mid ->
  bodyless (e_method e) (fst (the_status pre)) ->
  exists s' lines, respond_stream e o mid y0 ys (start e pre keep) = (Ok tt, s') /\
    r_out s' = [Some (head_of (status_line e (final_status mid (the_status pre)) :: lines)); None] /\
    Forall one_line (status_line e (final_status mid (the_status pre)) :: lines) /\ ~ In [] lines /\
    (h_chunked o = None -> e_11 e = true -> no_content (fst (the_status pre)) = false -> r_keep s' = keep) /\ forall k, ~ In k added -> lines_named k lines = said k (pre ++ mid) [].
Proof.
  intros Hb A N U C NB. apply Forall_app in N as [N1 N2]. destruct (called_intro True e pre keep A ltac:(now intros _) U) as (d & Ca).
  destruct (respond_stream e o mid y0 ys (start e pre keep)) as [r s'] eqn:E.
  destruct (stream_main True e o mid y0 ys _ d r s' (ca_h _ _ _ _ _ _ Ca) (ca_g _ _ _ _ _ _ Ca) (ca_l _ _ _ _ _ _ Ca) (ca_b _ _ _ _ _ _ Ca) C (fun _ => N2) Hb E)
    as (-> & (first & lines & OL & Ann & -> & Sd & Nbl & Sh) & K).
  rewrite (ca_s _ _ _ _ _ _ Ca) in *. fold (the_status pre) in *. rewrite (ca_k _ _ _ _ _ _ Ca), (ca_o _ _ _ _ _ _ Ca) in *.
  apply bodyless_iff in NB. rewrite NB in Sh. exists s', lines. split; [reflexivity|]. split; [exact Sh|]. split; [exact OL|]. split; [now apply Nbl|].
  split; [|exact (said_sent e pre mid keep d lines Ca U C Sd)]. intros Hc V Nc. rewrite K. unfold chunk_choice. rewrite Hc, V, Nc. cbn [andb negb]. rewrite orb_true_r. now destruct keep.
Qed.
Lemma bare_value e o pre mid data keep :
  (1 <= h_buf o)%Z -> Forall appends_clean pre -> Forall name_ok (pre ++ mid) -> Forall unreserved pre -> Forall (clean e) mid ->
  bodyless (e_method e) (fst (the_status pre)) ->
  exists s' lines, respond_value e o mid data (start e pre keep) = (Ok tt, s') /\
    r_out s' = [Some (head_of (status_line e (final_status mid (the_status pre)) :: lines)); None] /\
    Forall one_line (status_line e (final_status mid (the_status pre)) :: lines) /\ ~ In [] lines /\
    r_keep s' = keep /\ forall k, ~ In k added -> lines_named k lines = said k (pre ++ mid) [].
Proof.
  intros Hb A N U C NB. apply Forall_app in N as [N1 N2]. destruct (called_intro True e pre keep A ltac:(now intros _) U) as (d & Ca).
  destruct (respond_value e o mid data (start e pre keep)) as [r s'] eqn:E.
  destruct (value_main True e o mid data _ d r s' (ca_h _ _ _ _ _ _ Ca) (ca_g _ _ _ _ _ _ Ca) (ca_l _ _ _ _ _ _ Ca) (ca_b _ _ _ _ _ _ Ca) C (fun _ => N2) Hb E)
    as (-> & (first & lines & OL & Ann & -> & Sd & Nbl & Sh) & K).
  rewrite (ca_s _ _ _ _ _ _ Ca) in *. fold (the_status pre) in *. rewrite (ca_k _ _ _ _ _ _ Ca), (ca_o _ _ _ _ _ _ Ca) in *.
  apply bodyless_iff in NB. rewrite NB in Sh. exists s', lines. split; [reflexivity|]. split; [exact Sh|]. split; [exact OL|]. split; [now apply Nbl|].
  split; [exact K|exact (said_sent e pre mid keep d lines Ca U C Sd)].
Qed.
Lemma c32_direct_main e pre keep w ws stored : Forall appends_clean pre -> Forall unreserved pre ->
  r_headers (start e pre keep) = Some stored -> stored <> [] ->
  bodyless (e_method e) (fst (the_status pre)) -> fst (the_status pre) <> 101%Z -> fst (the_status pre) <> 426%Z ->
  let s' := run_writes e (w :: ws) (start e pre keep) in
  exists lines, Forall one_line (status_line e (the_status pre) :: lines) /\
    on_wire (r_keep s') (r_out s') = head_of (status_line e (the_status pre) :: lines).
Proof.
  intros A U H Ne NB N1 N2 s'. destruct (called_intro False e pre keep A ltac:(easy) U) as (d & Ca).
  pose proof (ca_h _ _ _ _ _ _ Ca) as H'. fold (start e pre keep) in H'. rewrite H in H'. injection H' as <-.
  destruct (direct_main False e _ stored w ws H Ne (ca_g _ _ _ _ _ _ Ca) (ca_l _ _ _ _ _ _ Ca) (ca_b _ _ _ _ _ _ Ca) (ca_o _ _ _ _ _ _ Ca)) as (sent & rest & O & K & _ & F).
  - unfold start in *. rewrite (ca_s _ _ _ _ _ _ Ca). now apply bodyless_iff.
  - unfold start in *. rewrite (ca_s _ _ _ _ _ _ Ca). fold (the_status pre). unfold special. apply Z.eqb_neq in N1, N2. now rewrite N1, N2.
  - subst s'. unfold start in *. pose proof (ca_s _ _ _ _ _ _ Ca) as S. fold (the_status pre) in S. rewrite S in *. rewrite O, K.
    exists (concat (map snd sent)). split; [exact F|]. cbn [on_wire]. now rewrite app_nil_r.
Qed.
Lemma write_sends e pre keep data chunked k stored : Forall appends_clean pre -> Forall unreserved pre ->
  r_headers (start e pre keep) = Some stored -> stored <> [] ->
  r_headers (snd (write e data chunked k (start e pre keep))) = None.
Proof.
  intros A U H Ne. destruct (called_intro False e pre keep A ltac:(easy) U) as (d & Ca).
  pose proof (ca_h _ _ _ _ _ _ Ca) as H'. fold (start e pre keep) in H'. rewrite H in H'. injection H' as <-.
  destruct (write_fresh False e data chunked k _ stored H Ne (ca_g _ _ _ _ _ _ Ca) (ca_l _ _ _ _ _ _ Ca) (ca_b _ _ _ _ _ _ Ca))
    as (sent & ch & st' & ct' & kp & up & E & _).
  unfold start in *. rewrite E. match goal with |- r_headers (snd (write_body ?a ?b ?c)) = _ => destruct (write_body_keep a b c) as (t & _ & _ & ->) end.
  reflexivity.
Qed.
Lemma c33_main' l s : r_buf s = [] -> Forall (fun x => 1 <= k_bufsize (snd x))%Z l -> exists items,
  r_out (flush_close (sends l s)) = r_out s ++ map Some items ++ [None] /\ r_buf (flush_close (sends l s)) = [] /\
  concat items = concat (map fst l).
Proof. intros B F. destruct (c33_main l s F) as (items & O & Bf & C). exists items. rewrite B in C. auto. Qed.
