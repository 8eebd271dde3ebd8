From Verif Require Import PyBytes PyBytesFacts PyDictFacts PyInt PyIntFacts PyExn PyUrl M_Response S_Response S_Calls S_Chunked
  P_Response P_Response2 P_Response3 P_Response4 P_Response5 P_Response6 P_Said.

Definition k_te := bs "transfer-encoding".
Definition te_line := bs "Transfer-Encoding: chunked".

(** A response whose head is complete but not sent. *)
Record ready (Nm : Prop) (s : rsp) (d : hdict) (l : list bytes) : Prop := {
  rd_h : r_headers s = Some d;
  rd_g : goodS (P1 Nm) s;
  rd_l : hget k_line d = Some l;
  rd_c : hmem (bs "connection") d = true;
  rd_b : r_buf s = []
}.
Definition sent_state (s : rsp) (head : bytes) : rsp :=
  mkRsp None (r_chunked s) (r_status s) (r_ctype s) [] (r_out s ++ [Some head]) (r_keep s) (r_up s).

Lemma write_ready (Nm : Prop) e data k s d l : ready Nm s d l ->
  write e data None k s = write_body data k (sent_state s (head_item l d)).
Proof.
  intros R. pose proof (rd_h _ _ _ _ R) as H. unfold write, headers_sent. rewrite H.
  rewrite (seq_ok (prepare e None) _ s true s).
  2:{ unfold prepare. rewrite (seq_ok get_headers _ s d s) by (unfold get_headers; now rewrite H).
      unfold hmem, dmem. pose proof (rd_l _ _ _ _ R) as L. unfold hget in L. now rewrite L. }
  rewrite (seq_ok _ _ _ _ _ (send_head_run Nm s d l (bs "connection") H (proj1 (rd_g _ _ _ _ R) _ H) (rd_l _ _ _ _ R) (rd_c _ _ _ _ R) ltac:(discriminate) (rd_b _ _ _ _ R))).
  reflexivity.
Qed.
Lemma write_sent e data k s : r_headers s = None -> write e data None k s = write_body data k s.
Proof. intros H. unfold write, headers_sent. now rewrite H. Qed.

Lemma do_hop_line e h s st : unreserved h -> lines_at k_line s = Some (the_line e st) ->
  lines_at k_line (snd (do_hop e h s)) = Some (the_line e (final_status [h] st)).
Proof.
  intros U L. pose proof (unreserved_names h U) as N. destruct h; cbn [do_hop final_status names] in *.
  - rewrite set_header_at; [exact L|]. intros X. apply N. left. now rewrite X.
  - rewrite append_header_at; [exact L|]. intros X. apply N. left. now rewrite X.
  - unfold set_cookie. destruct (memb _ _); [exact L|]. rewrite append_header_at; [exact L|discriminate].
  - unfold set_status. destruct (memb LF message); [exact L|]. unfold seq, get_headers, lines_at in *.
    destruct (r_headers s) as [d|]; [|discriminate]. rewrite L. cbn. apply dget_dset_same.
  - unfold set_content_type. destruct (memb _ _); [exact L|]. unfold seq, get_headers, lines_at in *.
    destruct (r_headers s) as [d|] eqn:H; [|discriminate]. destruct (hmem k_ctype d); cbn; [|now rewrite H].
    unfold hget, hset. rewrite dget_dset_other; [exact L|discriminate].
  - unfold set_base_header. destruct (r_headers s) as [[|]|] eqn:H; [|exact L|exact L].
    unfold lines_at in L. rewrite H in L. discriminate.
Qed.
Lemma do_hops_line e mid : forall s st, Forall unreserved mid -> lines_at k_line s = Some (the_line e st) ->
  lines_at k_line (do_hops e mid s) = Some (the_line e (final_status mid st)).
Proof.
  induction mid as [|h mid IH]; intros s st F L; [exact L|]. inversion_clear F as [|? ? U F']. cbn [do_hops].
  rewrite (IH _ (final_status [h] st) F'); [now destruct h|]. now apply do_hop_line.
Qed.

Lemma clean_appends e h : clean e h -> appends_clean h /\ unreserved h.
Proof. destruct h; cbn; tauto. Qed.
Lemma clean_ok e h s st : clean e h -> lines_at k_line s = Some (the_line e st) -> fst (do_hop e h s) = Ok tt.
Proof.
  intros C L. unfold lines_at in L. destruct (r_headers s) as [d|] eqn:H; [|discriminate].
  destruct h; cbn [do_hop clean] in *.
  - destruct C as (A & B & _). now rewrite (set_header_run _ _ s d H A B).
  - unfold append_header, seq, get_headers. now rewrite H.
  - unfold set_cookie. unfold one_line in C. apply memb_notIn in C. rewrite C. unfold append_header, seq, get_headers. now rewrite H.
  - unfold set_status. unfold one_line in C. apply memb_notIn in C. rewrite C. unfold seq, get_headers. rewrite H, L. reflexivity.
  - unfold set_content_type. unfold one_line in C. apply memb_notIn in C. rewrite C. unfold seq, get_headers. rewrite H. now destruct (hmem _ _).
  - unfold set_base_header. rewrite H. destruct d; [discriminate|reflexivity].
Qed.
Lemma do_mid_hops e mid : forall s st, Forall (clean e) mid -> lines_at k_line s = Some (the_line e st) ->
  do_mid e mid s = (Ok tt, do_hops e mid s).
Proof.
  induction mid as [|h mid IH]; intros s st F L; cbn [do_mid do_hops]; [reflexivity|]. inversion_clear F as [|? ? C F'].
  unfold seq. pose proof (clean_ok e h s st C L) as O. destruct (do_hop e h s) as [r s1] eqn:D. cbn [fst snd] in *. rewrite O.
  apply (IH s1 (final_status [h] st) F'). change s1 with (snd (r, s1)). rewrite <- D. apply do_hop_line; [now apply clean_appends in C|exact L].
Qed.

Lemma ready_hops (Nm : Prop) e mid s d l : ready Nm s d l -> Forall appends_clean mid -> (Nm -> Forall name_ok mid) ->
  exists d' l', ready Nm (do_hops e mid s) d' l' /\
    (forall key, key <> k_line -> key <> k_ctype -> Forall (fun h => ~ In key (names h)) mid -> hget key d' = hget key d) /\
    (forall st, l = the_line e st -> Forall unreserved mid -> l' = the_line e (final_status mid st)).
Proof.
  intros R A B. set (s' := do_hops e mid s).
  pose proof (do_hops_io e mid s) as (_ & B1 & _ & _ & _ & S1). fold s' in B1, S1.
  pose proof (rd_h _ _ _ _ R) as H.
  destruct (r_headers s') as [d'|] eqn:H'; [|unfold headers_sent in S1; rewrite H, H' in S1; discriminate].
  assert (lines_at k_line s' <> None) as PL.
  { apply do_hops_present. unfold lines_at. rewrite H, (rd_l _ _ _ _ R). discriminate. }
  assert (lines_at (bs "connection") s' <> None) as PC.
  { apply do_hops_present. unfold lines_at. rewrite H. pose proof (rd_c _ _ _ _ R) as M. unfold hmem, dmem in M. unfold hget.
    destruct (dget beqb _ d); congruence. }
  unfold lines_at in PL. rewrite H' in PL. destruct (hget k_line d') as [l'|] eqn:L'; [|easy].
  exists d', l'. split; [split|split].
  - exact H'.
  - apply do_hops_good; [now apply hops_P1|apply R].
  - exact L'.
  - rewrite (hmem_lines _ _ _ H'). now destruct (lines_at (bs "connection") s').
  - rewrite B1. apply R.
  - intros key N1 N2 F. assert (lines_at key s' = lines_at key s) as X.
    { unfold s'. clear -F N1 N2. revert s. induction F as [|h mid Hh F IH]; intros s; cbn [do_hops]; [reflexivity|].
      rewrite IH. now apply do_hop_at. }
    unfold lines_at in X. now rewrite H, H' in X.
  - intros st -> U. pose proof (do_hops_line e mid s st U) as X. unfold lines_at in X. fold s' in X. rewrite H, H', L' in X.
    specialize (X (rd_l _ _ _ _ R)). now injection X as ->.
Qed.

(** A run of writes: once the head is out they are sends. *)
Fixpoint writes (e : renv) (l : list (bytes * kw)) : call unit :=
  match l with [] => done tt | (d, k) :: l' => write e (Some d) None k ;; writes e l' end.
Definition enc (b : bool) (d : bytes) : bytes := if b then fmt_X (blen d) ++ CRLF ++ d ++ CRLF else d.
Lemma send_ok d k s : send d k s = (Ok tt, snd (send d k s)).
Proof. unfold send. destruct d; [|reflexivity]. now destruct (match k_min k with Some _ => _ | None => _ end). Qed.
Lemma writes_sent e l : forall s, r_headers s = None ->
  writes e l s = (Ok tt, sends (map (fun x => (enc (r_chunked s && negb (r_up s)) (fst x), snd x)) l) s).
Proof.
  induction l as [|[d k] l IH]; intros s H; [reflexivity|]. cbn [writes map sends fst snd].
  set (b := r_chunked s && negb (r_up s)).
  assert (write e (Some d) None k s = (Ok tt, snd (send (Some (enc b d)) k s))) as W.
  { rewrite write_sent by exact H. unfold write_body, enc. fold b. destruct b; apply send_ok. }
  rewrite (seq_ok _ _ _ _ _ W).
  assert (forall x, let s2 := snd (send (Some x) k s) in r_headers s2 = None /\ r_chunked s2 = r_chunked s /\ r_up s2 = r_up s) as K.
  { intros x. unfold send. destruct (match k_min k with Some _ => _ | None => _ end); cbn; auto. }
  destruct (K (enc b d)) as (K1 & K2 & K3). rewrite (IH _ K1), K2, K3. reflexivity.
Qed.
Lemma writes_ready (Nm : Prop) e l s d ln : ready Nm s d ln -> l <> [] -> writes e l s = writes e l (sent_state s (head_item ln d)).
Proof.
  intros R N. destruct l as [|[x k] l]; [easy|]. cbn [writes]. unfold seq.
  rewrite (write_ready Nm e _ k s d ln R). now rewrite write_sent.
Qed.

Definition nonempty (y : bytes) : bool := match y with [] => false | _ => true end.
Lemma write_yields_writes e k ys : forall s,
  write_yields e k ys s = writes e (map (fun y => (y, k)) (filter nonempty ys) ++ [([], mkKw false (k_bufsize k) (k_min k))]) s.
Proof.
  induction ys as [|y ys IH]; intros s; cbn [write_yields filter map app writes].
  - unfold seq, done. now destruct (write _ _ _ _ s) as [[[]|] ?].
  - destruct y as [|c y].
    + cbn [nonempty]. unfold seq at 1, done. apply IH.
    + cbn [nonempty map app writes]. unfold seq. destruct (write _ _ _ _ s) as [[u|] ?]; [apply IH|reflexivity].
Qed.
Lemma yields_writes e k y0 ys s :
  ((match y0 with [] => done tt | _ => write e (Some y0) None k end) ;; write_yields e k ys) s =
  writes e (map (fun y => (y, k)) (filter nonempty (y0 :: ys)) ++ [([], mkKw false (k_bufsize k) (k_min k))]) s.
Proof.
  destruct y0 as [|c y]; cbn [filter nonempty map app writes]; unfold seq at 1.
  - unfold done. apply write_yields_writes.
  - unfold seq. destruct (write _ _ _ _ s) as [[u|] ?]; [apply write_yields_writes|reflexivity].
Qed.

Lemma yields_close e k y0 ys s :
  ((match y0 with [] => done tt | _ => write e (Some y0) None k end) ;; write_yields e k ys ;; close true) s =
  (writes e (map (fun y => (y, k)) (filter nonempty (y0 :: ys)) ++ [([], mkKw false (k_bufsize k) (k_min k))]) ;; close true) s.
Proof.
  unfold seq at 3. rewrite <- yields_writes. unfold seq.
  destruct ((match y0 with [] => done tt | _ => write e (Some y0) None k end) s) as [[u|] ?]; reflexivity.
Qed.

(** Writes and close from a ready response. *)
Lemma writes_close (Nm : Prop) e l s d ln r s' : ready Nm s d ln -> l <> [] -> Forall (fun x => 1 <= k_bufsize (snd x))%Z l ->
  (writes e l ;; close true) s = (r, s') ->
  exists items, r = Ok tt /\ r_out s' = r_out s ++ Some (head_item ln d) :: map Some items ++ [None] /\
    concat items = concat (map (fun x => enc (r_chunked s && negb (r_up s)) (fst x)) l) /\ r_keep s' = r_keep s /\ r_buf s' = [].
Proof.
  intros R N F E. unfold seq in E. rewrite (writes_ready Nm e l s d ln R N) in E.
  rewrite writes_sent in E by reflexivity. cbn [sent_state r_chunked r_up] in E.
  set (b := r_chunked s && negb (r_up s)) in *.
  set (l2 := map (fun x => (enc b (fst x), snd x)) l) in *.
  destruct (c33_main l2 (sent_state s (head_item ln d))) as (items & O & Bf & C).
  { unfold l2. apply Forall_forall. intros x I. apply in_map_iff in I as (y & <- & I). rewrite Forall_forall in F. exact (F y I). }
  unfold close, update in E. injection E as <- <-. exists items. split; [reflexivity|]. split; [|split; [|split]].
  - rewrite O. cbn [sent_state r_out]. now rewrite <- app_assoc.
  - rewrite C. cbn [sent_state r_buf app]. unfold l2. now rewrite map_map.
  - destruct (sends_run l2 (sent_state s (head_item ln d))) as (i & bf & -> & _); [|reflexivity].
    unfold l2. apply Forall_forall. intros x I. apply in_map_iff in I as (y & <- & I). rewrite Forall_forall in F. exact (F y I).
  - exact Bf.
Qed.

(** ** _handle_response: the common start *)
Lemma start_run (Nm : Prop) e o s d : r_headers s = Some d -> goodS (P1 Nm) s -> hmem k_line d = false ->
  let st := status_of s in
  let nc := no_content (fst st) in
  let ch := chunk_choice e (h_chunked o) nc in
  exists d' l, start_response e o s = (Ok (fst st, nc), mkRsp (Some d') ch (tl (r_status s)) l (r_buf s) (r_out s) (r_keep s) (r_up s)) /\
    good (P1 Nm) d' /\ Forall one_line l /\ keeps d d' /\ hget k_line d' = Some (the_line e st) /\
    (ch = true -> hget k_te d' = Some [te_line]) /\ (hmem (bs "content-length") d' = hmem (bs "content-length") d).
Proof.
  intros H G NL st nc ch.
  assert (good (P1 Nm) d) as GD by (apply (proj1 G), H).
  assert (one_line (snd st)) as OS by (eapply status_of_line, G).
  unfold start_response. rewrite (seq_ok _ _ _ _ _ (get_status_run s d H NL)). fold st. fold nc. fold (chunk_choice e (h_chunked o) nc). fold ch.
  rewrite (seq_ok (update _) _ _ tt _ eq_refl).
  set (s1 := with_chunked (with_status s (tl (r_status s))) ch).
  assert (r_headers s1 = Some d) as H1 by exact H.
  rewrite (seq_ok get_headers _ s1 d s1) by (unfold get_headers; now rewrite H1).
  rewrite (seq_ok (put_headers _) _ _ tt _ eq_refl). fold (the_line e st).
  set (s2 := with_headers s1 (hset k_line (the_line e st) d)).
  set (d2 := hset k_line (the_line e st) d) in *.
  assert (good (P1 Nm) d2) as G2 by (apply good_set; [exact GD|easy|now apply the_line_ok]).
  assert (goodS (P1 Nm) s2) as GS2.
  { split; [intros x E; injection E as <-; exact G2|]. split; [|apply G]. cbn. destruct G as (_ & F & _). destruct (r_status s); [constructor|]. now inversion F. }
  destruct (ct_step_run Nm nc s2 d2 eq_refl GS2) as (d3 & l & E3 & G3 & Fl & K3 & O3 & _).
  fold (ct_step nc). rewrite (seq_ok _ _ _ _ _ E3). clear E3.
  assert (keeps d d3) as KD3 by (apply K3, keeps_line, keeps_refl).
  assert (hget k_line d3 = Some (the_line e st)) as L3 by (rewrite O3; [apply dget_dset_same|discriminate]).
  set (s3 := with_ctype (with_headers s2 d3) l).
  rewrite (seq_ok (fun s => (Ok s, s)) _ s3 s3 s3 eq_refl).
  change (r_chunked s3) with ch.
  set (d4 := if ch then hdr1 (bs "Transfer-Encoding") (bs "chunked") d3 else d3).
  rewrite (seq_ok _ _ s3 tt (with_headers s3 d4)).
  2:{ unfold d4. destruct ch; [|reflexivity]. rewrite (set_header_run _ _ _ d3); [reflexivity|reflexivity|ol|ol]. }
  exists d4, l. split; [reflexivity|]. split; [|split; [exact Fl|split; [|split; [|split]]]].
  - unfold d4; destruct ch; [apply good_hdr1; [ol|ol|reflexivity|exact G3]|exact G3].
  - unfold d4; destruct ch; [apply keeps_hdr1; [cbn; tauto|exact KD3]|exact KD3].
  - unfold d4. destruct ch; [|exact L3]. rewrite hget_hdr1_other; [exact L3|discriminate].
  - intros C. unfold d4. rewrite C. apply (hget_hdr1_same (bs "Transfer-Encoding")).
  - unfold hmem, dmem. assert (dget beqb (bs "content-length") d4 = dget beqb (bs "content-length") d) as ->; [|reflexivity].
    change (hget (bs "content-length") d4 = hget (bs "content-length") d). transitivity (hget (bs "content-length") d3).
    + unfold d4. destruct ch; [|reflexivity]. now rewrite hget_hdr1_other.
    + rewrite O3 by discriminate. unfold d2, hget, hset. now rewrite dget_dset_other.
Qed.

Lemma set_ready (Nm : Prop) n v s d : memb ":" n = false -> r_headers s = Some d -> goodS (P1 Nm) s -> one_line n -> one_line v ->
  goodS (P1 Nm) (with_headers s (hdr1 n v d)).
Proof. intros C H G A B. apply goodS_with_headers; [exact G|]. apply good_hdr1; [exact A|exact B|exact C|]. now apply (proj1 G). Qed.

Lemma only_line_intro (Nm : Prop) d key x : Nm -> good (P1 Nm) d -> key <> k_line -> hget key d = Some [x] -> only_line key x (lines_of (hdel k_line d)).
Proof.
  intros HN G NK T. assert (dget beqb key (hdel k_line d) = Some [x]) as T'.
  { unfold hdel. rewrite dget_ddel by apply G. apply beqb_neq in NK. rewrite NK. exact T. }
  split.
  - apply dget_some_in in T'. unfold lines_of. apply in_concat. exists [x]. split; [|now left]. apply in_map_iff. now exists (key, [x]).
  - intros y I F. unfold lines_of in I. apply in_concat in I as (v & I & Ix). apply in_map_iff in I as ((k & l0) & <- & I). cbn [snd] in Ix.
    destruct (good_del (P1 Nm) k_line d G) as [ND G']. destruct (G' k l0 I) as [_ Fl]. rewrite Forall_forall in Fl.
    destruct (Fl y Ix) as [_ N]. assert (k <> k_line) as NL.
    { intros ->. apply (in_dget _ _ _ ND) in I. unfold hdel in I. rewrite dget_ddel in I by apply G. now rewrite beqb_refl in I. }
    apply (N HN) in NL. rewrite (field_name_named k y NL) in F. subst k.
    apply (in_dget _ _ _ ND) in I. rewrite T' in I. injection I as <-.
    destruct Ix as [<-|[]]. reflexivity.
Qed.

(** No header line is empty: each has a name and a colon. *)
Lemma no_blank_lines (Nm : Prop) d : Nm -> good (P1 Nm) d -> ~ In [] (lines_of (hdel k_line d)).
Proof.
  intros HN G I. unfold lines_of in I. apply in_concat in I as (v & I & Ix). apply in_map_iff in I as ((k & l0) & <- & I). cbn [snd] in Ix.
  destruct (good_del (P1 Nm) k_line d G) as [ND G']. destruct (G' k l0 I) as [_ Fl]. rewrite Forall_forall in Fl. destruct (Fl [] Ix) as [_ N].
  assert (k <> k_line) as NL.
  { intros ->. apply (in_dget _ _ _ ND) in I. unfold hdel in I. rewrite dget_ddel in I by apply G. now rewrite beqb_refl in I. }
  apply (N HN) in NL as (n & v & X & _). now destruct n.
Qed.

Lemma respond_common (Nm : Prop) e mid s d st (k : call unit) r s' :
  ready Nm s d (the_line e st) -> Forall (clean e) mid -> (Nm -> Forall name_ok mid) ->
  (do_mid e mid ;; k) s = (r, s') ->
  exists s1 d1 l1, ready Nm s1 d1 l1 /\ k s1 = (r, s') /\ same_io s s1 /\
    Forall one_line (join [SP] l1 :: lines_of (hdel k_line d1)) /\
    (forall key x, Nm -> key <> k_line -> key <> k_ctype -> Forall (fun h => ~ In key (names h)) mid -> hget key d = Some [x] ->
       only_line key x (lines_of (hdel k_line d1)) /\ ~ In [] (lines_of (hdel k_line d1))) /\
    join [SP] l1 = status_line e (final_status mid st) /\
    (forall key, Nm -> ~ In key added -> lines_named key (lines_of (hdel k_line d1)) = if beqb key k_line then [] else said key mid (match hget key d with Some l => l | None => [] end)) /\
    (Nm -> ~ In [] (lines_of (hdel k_line d1))).
Proof.
  intros R CL B E.
  assert (Forall appends_clean mid) as A by (eapply Forall_impl; [|exact CL]; intros h X; now apply clean_appends in X).
  assert (Forall unreserved mid) as U by (eapply Forall_impl; [|exact CL]; intros h X; now apply clean_appends in X).
  assert (do_mid e mid s = (Ok tt, do_hops e mid s)) as M.
  { apply (do_mid_hops e mid s st CL). unfold lines_at. rewrite (rd_h _ _ _ _ R). apply R. }
  unfold seq in E. rewrite M in E.
  destruct (ready_hops Nm e mid s d (the_line e st) R A B) as (d1 & l1 & R1 & T1 & SL).
  assert (good (P1 Nm) d1) as G1 by (apply (proj1 (rd_g _ _ _ _ R1)), (rd_h _ _ _ _ R1)).
  exists (do_hops e mid s), d1, l1. split; [exact R1|]. split; [exact E|]. split; [apply do_hops_io|]. split; [|split].
  - constructor; [|apply (lines_ok Nm); now apply good_del].
    apply one_line_join; [ol|]. destruct (good_get (P1 Nm) _ _ _ G1 (rd_l _ _ _ _ R1)) as [_ F]. eapply Forall_impl; [|exact F]. now intros x [O _].
  - intros key x HN N1 N2 F T. split; [|now apply (no_blank_lines Nm)]. apply (only_line_intro Nm); [exact HN|exact G1|exact N1|]. now rewrite T1.
  - rewrite (SL st eq_refl U). split; [apply status_line_join|]. split; [|intros HN; now apply (no_blank_lines Nm)]. intros key HN NA. destruct (beqb key k_line) eqn:EK.
    + apply beqb_eq in EK as ->. rewrite (named_lines Nm); [|exact HN|now apply good_del|]; unfold hget, hmem, dmem, hdel; rewrite dget_ddel by apply G1; now rewrite beqb_refl.
    + apply beqb_neq in EK. rewrite (named_lines_del Nm key d1 HN G1 EK), <- (at_get key _ d1 (rd_h _ _ _ _ R1)), <- (at_get key s d (rd_h _ _ _ _ R)).
      apply said_hops; [exact NA|exact EK|]. rewrite (rd_h _ _ _ _ R). discriminate.
Qed.

Lemma write_none (Nm : Prop) e k s d ln : ready Nm s d ln ->
  write e None None k s = (Ok tt, with_out (sent_state s (head_item ln d)) [] (r_out s ++ [Some (head_item ln d); None])).
Proof.
  intros R. rewrite (write_ready Nm e None k s d ln R). unfold write_body, send, flush_close. cbn [sent_state r_buf r_out app].
  rewrite <- app_assoc. reflexivity.
Qed.

(** What a response of _handle_response consists of: [ch] whether it is chunked. *)
Definition response_shape (e : renv) (status : Z * bytes) (mid : list hop) (ch : bool) (out out' : list (option bytes)) (content : list bytes) (key x : bytes) (ann : Prop) (Nm : Prop) (d : hdict) (cv : bytes) : Prop :=
  exists first lines, Forall one_line (first :: lines) /\ (ann -> only_line key x lines /\ ~ In [] lines) /\
    first = status_line e (final_status mid status) /\
    (forall k, Nm -> ~ In k added -> lines_named k lines = if beqb k k_line then [] else said k mid (match hget k d with Some l => l | None => [] end)) /\
    ((Nm -> ~ In [] lines) /\ (Nm -> Forall (fun h => ~ In (bs "connection") (names h)) mid -> only_line (bs "connection") (bs "Connection: " ++ cv) lines)) /\
    if is_head e || no_content (fst status) then out' = out ++ [Some (head_of (first :: lines)); None]
    else exists items, out' = out ++ Some (head_of (first :: lines)) :: map Some items ++ [None] /\
           concat items = concat (map (enc ch) (filter nonempty content ++ [[]])).

Lemma stream_main (Nm : Prop) e o mid y0 ys s d r s' : r_headers s = Some d -> goodS (P1 Nm) s -> hmem k_line d = false -> r_buf s = [] ->
  Forall (clean e) mid -> (Nm -> Forall name_ok mid) -> (1 <= h_buf o)%Z ->
  respond_stream e o mid y0 ys s = (r, s') ->
  let st := fst (status_of s) in
  let ch := chunk_choice e (h_chunked o) (no_content st) in
  let up := if r_keep s && (st =? 101)%Z then true else r_up s in
  r = Ok tt /\ response_shape e (status_of s) mid (ch && negb up) (r_out s) (r_out s') (y0 :: ys) k_te te_line (Nm /\ ch = true /\ Forall (fun h => ~ In k_te (names h)) mid) Nm d
    (if r_keep s then (if special st then bs "upgrade" else bs "keep-alive") else bs "close") /\
  r_keep s' = (if r_keep s then (st =? 101)%Z || ch || hmem (bs "content-length") d else false).
Proof.
  intros H G NL B A C Hb E st ch up. unfold respond_stream in E.
  destruct (start_run Nm e o s d H G NL) as (d1 & l & S1 & G1 & Fl & K1 & L1 & T1 & CL1).
  fold st in S1, T1. fold ch in S1, T1.
  set (s1 := mkRsp _ _ _ _ _ _ _ _) in S1. rewrite (seq_ok _ _ _ _ _ S1) in E. cbv beta iota in E.
  rewrite (seq_ok (fun s => (Ok s, s)) _ s1 s1 s1 eq_refl) in E.
  set (kp := if r_keep s then (st =? 101)%Z || ch || hmem (bs "content-length") d else false).
  set (cv := if r_keep s then (if special st then bs "upgrade" else bs "keep-alive") else bs "close").
  assert (one_line cv) as OC by (unfold cv; destruct (r_keep s); [destruct (special _)|]; ol).
  set (s2 := mkRsp (Some (hdr1 (bs "Connection") cv d1)) ch (tl (r_status s)) l (r_buf s) (r_out s) kp up).
  assert (ready Nm s2 (hdr1 (bs "Connection") cv d1) (the_line e (status_of s))) as R2.
  { split; [reflexivity| | | |exact B].
    - split; [|split; [|exact Fl]].
      + intros x X. injection X as <-. apply good_hdr1; [ol|exact OC|reflexivity|exact G1].
      + cbn. destruct G as (_ & F & _). destruct (r_status s); [constructor|]. now inversion F.
    - rewrite hget_hdr1_other; [exact L1|discriminate].
    - unfold hmem, dmem. change (dget beqb (bs "connection") (hdr1 (bs "Connection") cv d1)) with (hget (lower (bs "Connection")) (hdr1 (bs "Connection") cv d1)).
      now rewrite hget_hdr1_same. }
  rewrite (seq_ok _ _ s1 tt s2) in E.
  2:{ unfold s2, kp, up, cv. change (r_keep s1) with (r_keep s). destruct (r_keep s) eqn:RK.
      - rewrite (seq_ok get_headers _ s1 d1 s1 eq_refl). rewrite (seq_ok (update _) _ _ tt _ eq_refl).
        change (r_chunked s1) with ch. rewrite CL1. cbn [andb]. fold (special st).
        destruct (st =? 101)%Z eqn:E1; cbn [orb].
        + rewrite (set_header_run _ _ _ d1); [|reflexivity|ol|destruct (special st); ol].
          unfold s1, with_up, with_headers; cbn. now rewrite ?RK.
        + destruct (ch || hmem (bs "content-length") d).
          * rewrite (set_header_run _ _ _ d1); [|reflexivity|ol|destruct (special st); ol]. unfold s1, with_headers; cbn. now rewrite ?RK.
          * rewrite (set_header_run _ _ _ d1); [|reflexivity|ol|destruct (special st); ol]. reflexivity.
      - rewrite (set_header_run _ _ _ d1); [|reflexivity|ol|ol]. unfold s1, with_headers; cbn. now rewrite ?RK. }
  destruct (respond_common Nm e mid s2 _ (status_of s) _ r s' R2 A C E) as (s3 & d3 & l3 & R3 & E3 & IO & OL & TE & SL & SD0 & NB0).
  destruct IO as (IO1 & IO2 & IO3 & IO4 & IO5 & IO6).
  assert ((Nm -> ~ In [] (lines_of (hdel k_line d3))) /\ (Nm -> Forall (fun h => ~ In (bs "connection") (names h)) mid -> only_line (bs "connection") (bs "Connection: " ++ cv) (lines_of (hdel k_line d3)))) as NB1.
  { split; [exact NB0|]. intros HN Fm. apply TE; [exact HN|discriminate|discriminate|exact Fm|]. apply (hget_hdr1_same (bs "Connection")). }
  assert (Nm /\ ch = true /\ Forall (fun h => ~ In k_te (names h)) mid -> only_line k_te te_line (lines_of (hdel k_line d3)) /\ ~ In [] (lines_of (hdel k_line d3))) as Ann.
  { intros (HN & Hch & Fm). apply TE; [exact HN|discriminate|discriminate|exact Fm|]. rewrite hget_hdr1_other; [now apply T1|discriminate]. }
  assert (forall k, Nm -> ~ In k added -> lines_named k (lines_of (hdel k_line d3)) = if beqb k k_line then [] else said k mid (match hget k d with Some l => l | None => [] end)) as SD.
  { intros k HN NA. rewrite (SD0 k HN NA). destruct (beqb k k_line) eqn:EK; [reflexivity|]. apply beqb_neq in EK.
    rewrite hget_hdr1_other by (intros ->; apply NA; cbn; tauto). rewrite (proj1 K1 k); [reflexivity| |exact EK]. intros J. apply NA. cbn in J |- *. tauto. }
  fold kp. change kp with (r_keep s2). rewrite <- IO4. unfold response_shape. fold st. destruct (is_head e || no_content st).
  - rewrite (write_none Nm e _ s3 d3 l3 R3) in E3. injection E3 as <- <-. split; [reflexivity|]. split; [|reflexivity].
    exists (join [SP] l3), (lines_of (hdel k_line d3)). split; [exact OL|]. split; [exact Ann|]. split; [exact SL|]. split; [exact SD|]. split; [exact NB1|].
    fold (head_item l3 d3). cbn. now rewrite IO3.
  - set (k := mkKw true (h_buf o) _) in E3.
    rewrite yields_close in E3.
    destruct (writes_close Nm e (map (fun y => (y, k)) (filter nonempty (y0 :: ys)) ++ [([], mkKw false (k_bufsize k) (k_min k))]) s3 d3 l3 r s' R3) as (items & Hr & O & Cc & Kk & _); [now destruct (map _ (filter _ _))| |exact E3|].
    { apply Forall_app. split; [|constructor; [exact Hb|constructor]]. apply Forall_forall. intros x I. apply in_map_iff in I as (y & <- & _). exact Hb. }
    split; [exact Hr|]. split; [|exact Kk].
    exists (join [SP] l3), (lines_of (hdel k_line d3)). split; [exact OL|]. split; [exact Ann|]. split; [exact SL|]. split; [exact SD|]. split; [exact NB1|].
    fold (head_item l3 d3).
    exists items. rewrite IO3 in O. split; [exact O|]. rewrite Cc, IO1, IO5. cbn [s2 r_chunked r_up].
    rewrite map_app, map_map. cbn [map fst]. now rewrite map_app.
Qed.

Lemma seq_assoc {A B C} (m : call A) (f : A -> call B) (g : B -> call C) s : seq (seq m f) g s = seq m (fun a => seq (f a) g) s.
Proof. unfold seq. now destruct (m s) as [[]]. Qed.
Lemma seq_ext {A B} (m : call A) (f g : A -> call B) s : (forall a s', f a s' = g a s') -> seq m f s = seq m g s.
Proof. intros H. unfold seq. destruct (m s) as [[a|]]; [apply H|reflexivity]. Qed.
Lemma value_main (Nm : Prop) e o mid data s d r s' : r_headers s = Some d -> goodS (P1 Nm) s -> hmem k_line d = false -> r_buf s = [] ->
  Forall (clean e) mid -> (Nm -> Forall name_ok mid) -> (1 <= h_buf o)%Z ->
  respond_value e o mid data s = (r, s') ->
  let st := fst (status_of s) in
  let nc := no_content st in
  let ch := chunk_choice e (h_chunked o) nc in
  let key := if ch then k_te else bs "content-length" in
  r = Ok tt /\ response_shape e (status_of s) mid (ch && negb (r_up s)) (r_out s) (r_out s') [data] key (if ch then te_line else bs "Content-Length: " ++ fmt_d (blen data))
    (Nm /\ nc = false /\ Forall (fun h => ~ In key (names h)) mid) Nm d (if r_keep s then bs "keep-alive" else bs "close") /\
  r_keep s' = r_keep s.
Proof.
  intros H G NL B A C Hb E st nc ch key. unfold respond_value in E.
  destruct (start_run Nm e o s d H G NL) as (d1 & l & S1 & G1 & Fl & K1 & L1 & T1 & CL1).
  fold st in S1, T1. fold nc in S1, T1. fold ch in S1, T1.
  set (s1 := mkRsp _ _ _ _ _ _ _ _) in S1. rewrite (seq_ok _ _ _ _ _ S1) in E. cbv beta iota in E.
  rewrite (seq_ok (fun s => (Ok s, s)) _ s1 s1 s1 eq_refl) in E. change (r_chunked s1) with ch in E. change (r_keep s1) with (r_keep s) in E.
  set (d2 := if nc || ch then d1 else hdr1 (bs "Content-Length") (fmt_d (blen data)) d1).
  rewrite (seq_ok _ _ s1 tt (with_headers s1 d2)) in E.
  2:{ unfold d2. destruct (nc || ch); [reflexivity|]. rewrite (set_header_run _ _ _ d1); [reflexivity|reflexivity|ol|ol]. }
  assert (good (P1 Nm) d2) as G2 by (unfold d2; destruct (nc || ch); [exact G1|apply good_hdr1; [ol|ol|reflexivity|exact G1]]).
  set (cv := if r_keep s then bs "keep-alive" else bs "close") in *.
  assert (one_line cv) as OC by (unfold cv; destruct (r_keep s); ol).
  set (s2 := with_headers s1 (hdr1 (bs "Connection") cv d2)).
  rewrite (seq_ok _ _ _ tt s2) in E.
  2:{ rewrite (set_header_run _ _ _ d2); [reflexivity|reflexivity|ol|exact OC]. }
  assert (ready Nm s2 (hdr1 (bs "Connection") cv d2) (the_line e (status_of s))) as R2.
  { split; [reflexivity| | | |exact B].
    - split; [|split; [|exact Fl]].
      + intros x X. injection X as <-. apply good_hdr1; [ol|exact OC|reflexivity|exact G2].
      + cbn. destruct G as (_ & F & _). destruct (r_status s); [constructor|]. now inversion F.
    - rewrite hget_hdr1_other by discriminate. unfold d2. destruct (nc || ch); [exact L1|]. rewrite hget_hdr1_other; [exact L1|discriminate].
    - unfold hmem, dmem. change (dget beqb (bs "connection") (hdr1 (bs "Connection") cv d2)) with (hget (lower (bs "Connection")) (hdr1 (bs "Connection") cv d2)).
      now rewrite hget_hdr1_same. }
  destruct (respond_common Nm e mid s2 _ (status_of s) _ r s' R2 A C E) as (s3 & d3 & l3 & R3 & E3 & IO & OL & TE & SL & SD0 & NB0).
  destruct IO as (IO1 & IO2 & IO3 & IO4 & IO5 & IO6).
  assert ((Nm -> ~ In [] (lines_of (hdel k_line d3))) /\ (Nm -> Forall (fun h => ~ In (bs "connection") (names h)) mid -> only_line (bs "connection") (bs "Connection: " ++ cv) (lines_of (hdel k_line d3)))) as NB1.
  { split; [exact NB0|]. intros HN Fm. apply TE; [exact HN|discriminate|discriminate|exact Fm|]. apply (hget_hdr1_same (bs "Connection")). }
  assert ((if is_head e || nc then write e None None (mkKw true 16384 None)
          else writes e (map (fun y => (y, mkKw true (h_buf o) None)) (filter nonempty [data]) ++ [([], kw_now)]) ;; close true) s3 = (r, s')) as W.
  { rewrite <- E3. destruct (is_head e || nc); [reflexivity|]. destruct data as [|c data]; cbn [filter nonempty map app writes]; rewrite ?seq_assoc; [reflexivity|].
    apply seq_ext. intros [] s4.
    rewrite seq_assoc. reflexivity. }
  assert (Nm /\ nc = false /\ Forall (fun h => ~ In key (names h)) mid -> only_line key (if ch then te_line else bs "Content-Length: " ++ fmt_d (blen data)) (lines_of (hdel k_line d3)) /\ ~ In [] (lines_of (hdel k_line d3))) as Ann.
  { intros (HN & Hnc & Fm). apply TE; [exact HN|unfold key; now destruct ch|unfold key; now destruct ch|exact Fm|].
    unfold key, d2. rewrite Hnc. cbn [orb]. destruct ch.
    - rewrite hget_hdr1_other by discriminate. now apply T1.
    - rewrite hget_hdr1_other by discriminate. apply (hget_hdr1_same (bs "Content-Length")). }
  assert (forall k, Nm -> ~ In k added -> lines_named k (lines_of (hdel k_line d3)) = if beqb k k_line then [] else said k mid (match hget k d with Some l => l | None => [] end)) as SD.
  { intros k HN NA. rewrite (SD0 k HN NA). destruct (beqb k k_line) eqn:EK; [reflexivity|]. apply beqb_neq in EK.
    rewrite hget_hdr1_other by (intros ->; apply NA; cbn; tauto). assert (hget k d2 = hget k d1) as ->.
    { unfold d2. destruct (nc || ch); [reflexivity|]. apply hget_hdr1_other. intros ->; apply NA; cbn; tauto. }
    rewrite (proj1 K1 k); [reflexivity| |exact EK]. intros J. apply NA. cbn in J |- *. tauto. }
  destruct (is_head e || nc) eqn:HN.
  - rewrite (write_none Nm e _ s3 d3 l3 R3) in W. injection W as <- <-. split; [reflexivity|]. split; [|cbn; exact IO4].
    exists (join [SP] l3), (lines_of (hdel k_line d3)). split; [exact OL|]. split; [exact Ann|]. split; [exact SL|]. split; [exact SD|]. split; [exact NB1|].
    fold (head_item l3 d3). fold st. fold nc. rewrite HN. cbn. now rewrite IO3.
  - destruct (writes_close Nm e (map (fun y => (y, mkKw true (h_buf o) None)) (filter nonempty [data]) ++ [([], kw_now)]) s3 d3 l3 r s' R3)
      as (items & Hr & O & Cc & Kk & _); [now destruct (map _ (filter _ _))| |exact W|].
    + apply Forall_app. split; [|constructor; [cbn; lia|constructor]]. apply Forall_forall. intros x I. apply in_map_iff in I as (y & <- & _). exact Hb.
    + split; [exact Hr|]. split; [|now rewrite Kk].
      exists (join [SP] l3), (lines_of (hdel k_line d3)). split; [exact OL|]. split; [exact Ann|]. split; [exact SL|]. split; [exact SD|]. split; [exact NB1|].
      fold (head_item l3 d3). fold st. fold nc. rewrite HN. exists items. rewrite IO3 in O. split; [exact O|]. rewrite Cc, IO1, IO5.
      change (r_chunked s2) with ch. change (r_up s2) with (r_up s). rewrite map_app, map_map. cbn [map fst]. now rewrite map_app.
Qed.

(** ** Chunks *)
Lemma hex_value_digits ds : forall acc, Forall (fun d => (d < 16)%N) ds ->
  hex_value acc (map digit_char ds) = Some (dval 16 acc ds).
Proof.
  induction ds as [|d ds IH]; intros acc F; [reflexivity|]. inversion_clear F as [|? ? Hd F']. cbn [map hex_value].
  assert (hex_digit (digit_char d) = Some d) as ->.
  { clear -Hd.
    assert (In d [0;1;2;3;4;5;6;7;8;9;10;11;12;13;14;15]%N) as I by (cbn; lia).
    cbn in I. repeat (destruct I as [<-|I]; [reflexivity|]). easy. }
  rewrite IH by exact F'. rewrite dval_cons. f_equal. f_equal. lia.
Qed.
Definition chunk_of (y : bytes) : chunk := mkChunk (fmt_X (blen y)) [] y.
Lemma chunk_of_good y : y <> [] -> good_chunk (chunk_of y).
Proof.
  intros N. split; [exact N|]. cbn [c_size c_ext c_data chunk_of]. assert (0 <= blen y)%Z as Z0 by (unfold blen; lia).
  rewrite fmt_X_nonneg by exact Z0. split; [|split; [|split; [now left|easy]]].
  - intros X. pose proof (fmt_nat_length_pos 16 (Z.to_N (blen y)) ltac:(lia)) as L. rewrite X in L. cbn in L. lia.
  - unfold fmt_nat. rewrite hex_value_digits by (apply digits_range; lia). rewrite digits_value by lia. f_equal. unfold blen. lia.
Qed.
Lemma enc_chunks ys : concat (map (enc true) (filter nonempty ys ++ [[]])) = chunked_body (map chunk_of (filter nonempty ys)) (bs "0") [] CRLF.
Proof.
  unfold chunked_body, chunks_bytes. rewrite map_app, concat_app. f_equal. rewrite map_map. f_equal. apply map_ext.
  intros y. unfold enc, chunk_bytes, size_line, chunk_of. cbn [c_size c_ext c_data]. now rewrite app_nil_r.
Qed.
Lemma enc_chunks_good ys : Forall good_chunk (map chunk_of (filter nonempty ys)).
Proof.
  apply Forall_forall. intros c I. apply in_map_iff in I as (y & <- & I). apply filter_In in I as [_ I]. apply chunk_of_good. now destruct y.
Qed.
Lemma chunks_data_of ys : chunks_data (map chunk_of (filter nonempty ys)) = concat ys.
Proof.
  unfold chunks_data. rewrite map_map. cbn [chunk_of c_data]. induction ys as [|[|c y] ys IH]; cbn [filter nonempty map concat]; [reflexivity|exact IH|].
  now rewrite IH.
Qed.
Lemma enc_plain ys : concat (map (enc false) (filter nonempty ys ++ [[]])) = concat ys.
Proof.
  rewrite map_app, concat_app. cbn. rewrite app_nil_r. induction ys as [|[|c y] ys IH]; cbn [filter nonempty map concat]; [reflexivity|exact IH|].
  now rewrite IH.
Qed.

(** ** C32: direct writes *)
Lemma write_body_keep data k s : exists tail, r_out (snd (write_body data k s)) = r_out s ++ tail /\ r_keep (snd (write_body data k s)) = r_keep s /\
  r_headers (snd (write_body data k s)) = r_headers s.
Proof. destruct (write_body_out data k s) as (tail & kp & W & -> & _). exists tail. rewrite W. cbn. auto. Qed.
Lemma run_writes_sent e ws : forall s, r_headers s = None ->
  exists tail, r_out (run_writes e ws s) = r_out s ++ tail /\ r_keep (run_writes e ws s) = r_keep s.
Proof.
  induction ws as [|[[data ch] k] ws IH]; intros s H; cbn [run_writes]; [exists []; now rewrite app_nil_r|].
  assert (write e data ch k s = write_body data k s) as -> by (unfold write, headers_sent; now rewrite H).
  destruct (write_body_keep data k s) as (t1 & O1 & K1 & H1). destruct (IH (snd (write_body data k s)) ltac:(congruence)) as (t2 & O2 & K2).
  exists (t1 ++ t2). rewrite O2, O1, K2, K1. now rewrite app_assoc.
Qed.
Lemma direct_main (Nm : Prop) e s d w ws : r_headers s = Some d -> d <> [] -> goodS (P1 Nm) s -> hmem k_line d = false -> r_buf s = [] -> r_out s = [] ->
  is_head e || no_content (fst (status_of s)) = true -> special (fst (status_of s)) = false ->
  exists sent rest, r_out (run_writes e (w :: ws) s) = Some (head_of (status_line e (status_of s) :: concat (map snd sent))) :: None :: rest /\
    r_keep (run_writes e (w :: ws) s) = false /\ sent_from d sent /\ Forall one_line (status_line e (status_of s) :: concat (map snd sent)).
Proof.
  intros H Ne G NL B O HN Sp. destruct w as [[data ch] k]. cbn [run_writes].
  destruct (write_fresh Nm e data ch k s d H Ne G NL B) as (sent & c & st' & ct' & kp & up & E & SF & GS & _ & _ & _ & _ & Kp & _).
  rewrite HN in E. rewrite O in E. cbn [app] in E. rewrite (Kp HN Sp) in E.
  rewrite E. unfold write_body, send, flush_close. cbn [snd r_out r_buf app].
  set (s2 := with_out _ _ _). destruct (run_writes_sent e ws s2 eq_refl) as (tail & O2 & K2).
  exists sent, tail. rewrite O2, K2. split; [reflexivity|]. split; [reflexivity|]. split; [exact SF|].
  constructor; [apply status_line_ok; eapply status_of_line, G|]. apply (lines_ok Nm). exact GS.
Qed.
