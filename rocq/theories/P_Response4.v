From Verif Require Import PyBytes PyBytesFacts PyDictFacts PyInt PyIntFacts PyExn PyUrl M_Response S_Response S_Calls P_Response P_Response2 P_Response3.
Section WithN.
Context (Nm : Prop).

Lemma one_line_join sep l : one_line sep -> Forall one_line l -> one_line (join sep l).
Proof.
  intros S F. induction F as [|x l Hx F IH]; [easy|]. destruct l as [|y l]; [exact Hx|].
  rewrite join_cons by easy. apply one_line_app; [exact Hx|]. now apply one_line_app.
Qed.

(** What send_head puts on the queue. *)
Definition lines_of (d : hdict) : list bytes := concat (map snd d).
Definition head_item (l : list bytes) (d : hdict) : bytes := head_of (join [SP] l :: lines_of (hdel k_line d)).

Lemma good_values P d : good P d -> Forall (fun v => v <> []) (map snd d).
Proof. intros [_ G]. apply Forall_forall. intros v I. apply in_map_iff in I as ((k & l) & <- & I). apply (G k l I). Qed.
Lemma good_lines P d : good P d -> (forall k x, P k x -> one_line x) -> Forall one_line (lines_of d).
Proof.
  intros [_ G] HP. unfold lines_of. apply Forall_forall. intros x I. apply in_concat in I as (v & I & Ix).
  apply in_map_iff in I as ((k & l) & <- & I). destruct (G k l I) as [_ F]. rewrite Forall_forall in F. eapply HP, F, Ix.
Qed.

Lemma send_head_run s d l k : r_headers s = Some d -> good (P1 Nm) d -> hget k_line d = Some l ->
  hmem k d = true -> k <> k_line -> r_buf s = [] ->
  send_head s = (Ok tt, mkRsp None (r_chunked s) (r_status s) (r_ctype s) [] (r_out s ++ [Some (head_item l d)]) (r_keep s) (r_up s)).
Proof.
  intros H G L M N B. unfold send_head.
  rewrite (seq_ok get_headers _ s d s) by (unfold get_headers; now rewrite H).
  unfold head_bytes. rewrite L.
  rewrite (seq_ok (put_headers _) _ _ tt _ eq_refl). unfold head_item, lines_of.
  rewrite join_lines_head.
  - unfold seq, send, kw_now, update, with_sent, with_out, with_headers. cbn. now rewrite B.
  - unfold hmem, dmem in M. destruct (dget beqb k d) as [v|] eqn:E; [|discriminate].
    assert (dget beqb k (ddel beqb k_line d) = Some v) as E2.
    { rewrite dget_ddel by apply G. apply beqb_neq in N. now rewrite N. }
    apply dget_some_in in E2. unfold hdel. now destruct (ddel beqb k_line d).
  - apply (good_values (P1 Nm)). now apply good_del.
Qed.

Lemma keeps_sent d d' : good (P1 Nm) d' -> hmem k_line d = false -> keeps d d' -> sent_from d (hdel k_line d').
Proof.
  intros G M [A B]. split; [apply ddel_nodup, G|]. unfold hget in A, B. split.
  - intros k N. unfold hdel. rewrite dget_ddel by apply G. destruct (beqb k k_line) eqn:E; [|apply A; [exact N|now apply beqb_neq]].
    apply beqb_eq in E as ->. unfold hmem, dmem in M. now destruct (dget beqb k_line d).
  - intros k l I. unfold hdel. rewrite dget_ddel by apply G. destruct (beqb k k_line); [easy|]. now apply B.
Qed.

Lemma write_body_shape d k s : exists d', write_body (Some d) k s = send (Some d') k s /\
  d' = (if r_chunked s && negb (r_up s) then fmt_X (blen d) ++ CRLF ++ d ++ CRLF else d).
Proof. unfold write_body. destruct (r_chunked s && negb (r_up s)); eauto. Qed.

(** ** Header calls leave the rest alone *)
Definition same_io (s s' : rsp) : Prop :=
  r_chunked s' = r_chunked s /\ r_buf s' = r_buf s /\ r_out s' = r_out s /\ r_keep s' = r_keep s /\ r_up s' = r_up s /\
  headers_sent s' = headers_sent s.
Lemma same_io_refl s : same_io s s.
Proof. repeat split. Qed.
Lemma same_io_trans a b c : same_io a b -> same_io b c -> same_io a c.
Proof. unfold same_io. intuition congruence. Qed.
Lemma same_io_seq {A B} (m : call A) (f : A -> call B) s :
  same_io s (snd (m s)) -> (forall a s', same_io s' (snd (f a s'))) -> same_io s (snd (seq m f s)).
Proof. intros H F. unfold seq. destruct (m s) as [[a|x] s']; [|exact H]. eapply same_io_trans; [exact H|apply F]. Qed.
Lemma same_io_headers s d d' : r_headers s = Some d -> same_io s (with_headers s d').
Proof. intros H. unfold same_io, headers_sent. cbn. rewrite H. repeat split. Qed.
Lemma do_hop_io e h s : same_io s (snd (do_hop e h s)).
Proof.
  assert (forall n v s, same_io s (snd (set_header n v s))) as HS.
  { intros n v s0. unfold set_header. destruct (_ || _); [apply same_io_refl|]. unfold seq, get_headers.
    destruct (r_headers s0) eqn:H; [|apply same_io_refl]. eapply same_io_headers, H. }
  assert (forall n v s, same_io s (snd (append_header n v s))) as HA.
  { intros n v s0. unfold append_header, seq, get_headers.
    destruct (r_headers s0) eqn:H; [|apply same_io_refl]. eapply same_io_headers, H. }
  destruct h; cbn [do_hop].
  - apply HS.
  - apply HA.
  - unfold set_cookie. destruct (memb _ _); [apply same_io_refl|apply HA].
  - unfold set_status. destruct (memb _ _); [apply same_io_refl|]. unfold seq at 1. unfold get_headers.
    destruct (r_headers s) as [d|] eqn:H; [|apply same_io_refl].
    destruct (hget k_line d); [|repeat split].
    destruct (list_set l 1 _); [|apply same_io_refl]. destruct (list_set l0 2 _); eapply same_io_headers, H.
  - unfold set_content_type. destruct (memb _ _); [apply same_io_refl|]. unfold seq at 1. unfold get_headers.
    destruct (r_headers s) as [d|] eqn:H; [|apply same_io_refl].
    destruct (hmem _ _); [|repeat split]. eapply same_io_headers, H.
  - unfold set_base_header. destruct (r_headers s) as [[|]|] eqn:H; [|apply same_io_refl|apply same_io_refl].
    apply same_io_seq; [apply HS|intros; apply HS].
Qed.
Lemma do_hops_io e ops : forall s, same_io s (do_hops e ops s).
Proof.
  induction ops as [|h ops IH]; intros s; cbn [do_hops]; [apply same_io_refl|].
  eapply same_io_trans; [apply do_hop_io|apply IH].
Qed.

(** ** Names that header calls may bring in *)
Lemma set_header_at k n v s : k <> lower n -> lines_at k (snd (set_header n v s)) = lines_at k s.
Proof.
  intros N. unfold set_header, lines_at. destruct (_ || _); [reflexivity|]. unfold seq, get_headers.
  destruct (r_headers s) eqn:H; cbn; rewrite ?H; [|reflexivity]. now apply dget_dset_other.
Qed.
Lemma append_header_at k n v s : k <> lower n -> lines_at k (snd (append_header n v s)) = lines_at k s.
Proof.
  intros N. unfold append_header, lines_at, seq, get_headers.
  destruct (r_headers s) eqn:H; cbn -[hget]; rewrite ?H; [|reflexivity]. destruct (hget (lower n) _); now apply dget_dset_other.
Qed.
(** A call that does not name [k] leaves its lines as they were ([_line] and [content-type]
    may be changed, not brought in, by set_status and set_content_type). *)
Lemma do_hop_at e k h s : ~ In k (names h) -> k <> k_line -> k <> k_ctype -> lines_at k (snd (do_hop e h s)) = lines_at k s.
Proof.
  intros N NL NC. destruct h; cbn [do_hop names In] in *.
  - apply set_header_at. intuition congruence.
  - apply append_header_at. intuition congruence.
  - unfold set_cookie. destruct (memb _ _); [reflexivity|]. apply append_header_at. intros ->. apply N. left. reflexivity.
  - unfold set_status. destruct (memb _ _); [reflexivity|]. unfold seq at 1. unfold get_headers, lines_at.
    destruct (r_headers s) as [d|] eqn:H; [|cbn; now rewrite ?H].
    destruct (hget k_line d); [|cbn; now rewrite H].
    destruct (list_set l 1 _); [|cbn; now rewrite H].
    destruct (list_set l0 2 _); cbn; now apply dget_dset_other.
  - unfold set_content_type. destruct (memb _ _); [reflexivity|]. unfold seq at 1. unfold get_headers, lines_at.
    destruct (r_headers s) as [d|] eqn:H; [|cbn; now rewrite ?H].
    destruct (hmem _ _); cbn; [now apply dget_dset_other|now rewrite H].
  - unfold set_base_header. destruct (r_headers s) as [[|]|] eqn:H; [|reflexivity|reflexivity].
    unfold seq. destruct (set_header (bs "Date") _ s) as [[u|x] s1] eqn:E.
    + rewrite set_header_at by (intros ->; apply N; right; left; reflexivity).
      change s1 with (snd (Ok u : res unit, s1)). rewrite <- E. apply set_header_at. intros ->. apply N. left. reflexivity.
    + rewrite <- E. apply set_header_at. intros ->. apply N. left. reflexivity.
Qed.
Lemma do_hop_no_line e h s : ~ In k_line (names h) -> lines_at k_line s = None -> lines_at k_line (snd (do_hop e h s)) = None.
Proof.
  intros N L. destruct h; cbn [do_hop names In] in *.
  - rewrite set_header_at; [exact L|]. intuition congruence.
  - rewrite append_header_at; [exact L|]. intuition congruence.
  - unfold set_cookie. destruct (memb _ _); [exact L|]. rewrite append_header_at; [exact L|]. discriminate.
  - unfold set_status. destruct (memb _ _); [exact L|]. unfold seq at 1. unfold get_headers, lines_at in *.
    destruct (r_headers s) as [d|] eqn:H; [|cbn; now rewrite H].
    rewrite L. cbn. now rewrite H.
  - unfold set_content_type. destruct (memb _ _); [exact L|]. unfold seq at 1. unfold get_headers, lines_at in *.
    destruct (r_headers s) as [d|] eqn:H; [|cbn; now rewrite H].
    destruct (hmem _ _); cbn; [|now rewrite H]. unfold hget, hset. rewrite dget_dset_other; [exact L|discriminate].
  - unfold set_base_header. destruct (r_headers s) as [[|]|] eqn:H; [|cbn; exact L|cbn; exact L].
    unfold seq. destruct (set_header (bs "Date") _ s) as [[u|x] s1] eqn:E.
    + rewrite set_header_at by discriminate.
      change s1 with (snd (Ok u : res unit, s1)). rewrite <- E. now rewrite set_header_at by discriminate.
    + rewrite <- E. now rewrite set_header_at by discriminate.
Qed.
Lemma do_hops_no_line e ops : forall s, Forall (fun h => ~ In k_line (names h)) ops -> lines_at k_line s = None ->
  lines_at k_line (do_hops e ops s) = None.
Proof.
  induction ops as [|h ops IH]; intros s F L; cbn [do_hops]; [exact L|]. inversion_clear F.
  apply IH; [assumption|]. now apply do_hop_no_line.
Qed.
(** No call removes a header. *)
Lemma do_hop_present e k h s : lines_at k s <> None -> lines_at k (snd (do_hop e h s)) <> None.
Proof.
  assert (forall k n v s, lines_at k s <> None -> lines_at k (snd (set_header n v s)) <> None) as HS.
  { clear. intros k n v s L. unfold set_header. destruct (_ || _); [exact L|]. unfold lines_at, seq, get_headers in *.
    destruct (r_headers s) eqn:H; [|easy]. cbn. unfold hget, hset in *. rewrite dget_dset. now destruct (beqb _ _). }
  assert (forall k n v s, lines_at k s <> None -> lines_at k (snd (append_header n v s)) <> None) as HA.
  { clear. intros k n v s L. unfold append_header, lines_at, seq, get_headers in *.
    destruct (r_headers s) eqn:H; [|easy]. cbn -[hget hset].
    destruct (hget (lower n) _); unfold hget, hset in *; rewrite dget_dset; now destruct (beqb _ _). }
  intros L. destruct h; cbn [do_hop].
  - now apply HS.
  - now apply HA.
  - unfold set_cookie. destruct (memb _ _); [exact L|now apply HA].
  - unfold set_status. destruct (memb _ _); [exact L|]. unfold seq at 1. unfold get_headers, lines_at in *.
    destruct (r_headers s) as [d|] eqn:H; [|easy]. 
    destruct (hget k_line d); [|cbn; now rewrite H].
    destruct (list_set l 1 _); [|cbn; now rewrite H].
    destruct (list_set l0 2 _); cbn; unfold hget, hset in *; rewrite dget_dset; now destruct (beqb _ _).
  - unfold set_content_type. destruct (memb _ _); [exact L|]. unfold seq at 1. unfold get_headers, lines_at in *.
    destruct (r_headers s) as [d|] eqn:H; [|easy].
    destruct (hmem _ _); cbn; [|now rewrite H]. unfold hget, hset in *; rewrite dget_dset; now destruct (beqb _ _).
  - unfold set_base_header. destruct (r_headers s) as [[|]|] eqn:H; [|exact L|exact L].
    unfold seq. destruct (set_header (bs "Date") _ s) as [[u|x] s1] eqn:E.
    + apply HS. change s1 with (snd (Ok u : res unit, s1)). rewrite <- E. now apply HS.
    + rewrite <- E. now apply HS.
Qed.
Lemma do_hops_present e k ops : forall s, lines_at k s <> None -> lines_at k (do_hops e ops s) <> None.
Proof. induction ops as [|h ops IH]; intros s L; cbn [do_hops]; [exact L|]. apply IH. now apply do_hop_present. Qed.
End WithN.
