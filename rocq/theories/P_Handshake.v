From Verif Require Import PyBytes PyBytesFacts PyDictFacts PyInt PyExn PyUrl PySha1 M_Response S_Response S_Calls S_Head S_Handshake M_Handshake
  P_Response P_Response2 P_Response3 P_Response4 P_Response5 P_Response6 P_Response7.
From Verif Require M_Parser.

(** write(None) with status 101. *)
Definition conn_value (keep : bool) : bytes := if keep then bs "upgrade" else bs "close".
Lemma write_101 e k s d m : r_headers s = Some d -> d <> [] -> goodS (P1 True) s -> hmem k_line d = false -> r_buf s = [] ->
  status_of s = (101%Z, m) ->
  let d' := hdr1 (bs "Connection") (conn_value (r_keep s)) (hset k_line (the_line e (101%Z, m)) d) in
  good (P1 True) d' /\ hget k_line d' = Some (the_line e (101%Z, m)) /\
  write e None None k s = (Ok tt, mkRsp None false (tl (r_status s)) (r_ctype s) [] (r_out s ++ [Some (head_item (the_line e (101%Z, m)) d'); None])
    (r_keep s) (r_keep s || r_up s)).
Proof.
  intros H Ne G NL B St d'.
  assert (good (P1 True) d) as GD by (apply (proj1 G), H).
  assert (one_line m) as OS by (pose proof (status_of_line _ s G) as X; now rewrite St in X).
  assert (good (P1 True) (hset k_line (the_line e (101%Z, m)) d)) as G2 by (apply good_set; [exact GD|easy|now apply the_line_ok]).
  assert (one_line (conn_value (r_keep s))) as OC by (unfold conn_value; destruct (r_keep s); ol).
  assert (good (P1 True) d') as G' by (unfold d'; apply good_hdr1; [ol|exact OC|reflexivity|exact G2]).
  assert (hget k_line d' = Some (the_line e (101%Z, m))) as L.
  { unfold d'. rewrite hget_hdr1_other by discriminate. apply dget_dset_same. }
  split; [exact G'|]. split; [exact L|].
  unfold write, headers_sent. rewrite H. unfold prepare.
  rewrite (seq_ok (seq get_headers _) _ s false
    (mkRsp (Some d') false (tl (r_status s)) (r_ctype s) (r_buf s) (r_out s) (r_keep s) (r_keep s || r_up s))).
  - rewrite (seq_ok _ _ _ _ _ (send_head_run True (mkRsp (Some d') false (tl (r_status s)) (r_ctype s) (r_buf s) (r_out s) (r_keep s) (r_keep s || r_up s))
      d' _ (bs "connection") eq_refl G' L ltac:(unfold d', hmem, dmem; change (bs "connection") with (lower (bs "Connection")); fold (hget (lower (bs "Connection")) (hdr1 (bs "Connection") (conn_value (r_keep s)) (hset k_line (the_line e (101%Z, m)) d))); now rewrite hget_hdr1_same) ltac:(discriminate) B)).
    unfold write_body, send, flush_close. cbn [r_buf r_out app r_headers r_chunked r_status r_ctype r_keep r_up with_out]. rewrite <- app_assoc. reflexivity.
  - rewrite (seq_ok get_headers _ s d s) by (unfold get_headers; now rewrite H). rewrite NL.
    rewrite (seq_ok (set_base_header e) _ s tt s) by (unfold set_base_header; rewrite H; destruct d; [easy|reflexivity]).
    rewrite (seq_ok _ _ _ _ _ (get_status_run s d H NL)). rewrite St. cbn [fst snd].
    change (no_content 101) with true. cbn [negb andb]. rewrite andb_false_r.
    rewrite (seq_ok (update _) _ _ tt _ eq_refl).
    set (s1 := with_chunked (with_status s (tl (r_status s))) false).
    rewrite (seq_ok get_headers _ s1 d s1) by (unfold get_headers, s1; cbn [r_headers with_chunked with_status]; now rewrite H).
    rewrite (seq_ok (put_headers _) _ _ tt _ eq_refl).
    rewrite (seq_ok (done tt) _ _ tt _ eq_refl).
    set (s2 := with_headers s1 _).
    rewrite (seq_ok (fun s => (Ok s, s)) _ s2 s2 s2 eq_refl). change (r_chunked s2) with false. cbn [orb].
    rewrite (seq_ok (done tt) _ _ tt _ eq_refl).
    change (r_keep s2) with (r_keep s). change (101 =? 101)%Z with true. cbn [orb].
    rewrite orb_true_r. unfold d', conn_value. destruct (r_keep s) eqn:K.
    + rewrite (seq_ok (seq get_headers _) _ s2 tt (with_up (with_headers s2 d') true)).
      * unfold seq, update, done, s2, s1, d', conn_value. destruct s; cbn in *. subst. reflexivity.
      * unfold seq, get_headers, s2, s1. cbn [r_headers with_headers update with_up]. unfold set_header. cbn [memb]. reflexivity.
    + rewrite (seq_ok _ _ s2 tt (with_headers s2 d')).
      * unfold seq, update, done, s2, s1, d', conn_value. destruct s; cbn in *. subst. reflexivity.
      * reflexivity.
Qed.

Lemma b64_one_line l : one_line (b64encode l).
Proof.
  intros I. apply b64encode_chars in I as [I|I]; [|discriminate].
  assert (memb LF b64_alphabet = false) as M by reflexivity. apply memb_notIn in M. contradiction.
Qed.
Definition ops101 (key : bytes) : list hop :=
  [HStatus 101 (bs "Switching Protocols"); HSet (bs "Upgrade") (bs "websocket"); HSet (bs "Sec-WebSocket-Accept") (accept_value key)].
Lemma hops_app e a : forall b s, do_hops e (a ++ b) s = do_hops e b (do_hops e a s).
Proof. induction a as [|h a IH]; intros b s; cbn [app do_hops]; [reflexivity|]. apply IH. Qed.

Lemma accept_main e h key pre keep stored : M_Parser.hget (bs "sec-websocket-key") h = Some (M_Parser.One (M_Parser.AB key)) ->
  Forall appends_clean pre -> Forall name_ok pre -> Forall unreserved pre ->
  r_headers (start e pre keep) = Some stored ->
  exists s' first sent, accept e h (start e pre keep) = (Ok tt, s') /\
    r_out s' = [Some (head_of (first :: concat (map snd sent))); None] /\
    first = status_line e (101%Z, bs "Switching Protocols") /\
    Forall one_line (first :: concat (map snd sent)) /\
    only_line (bs "upgrade") (bs "Upgrade: websocket") (concat (map snd sent)) /\
    only_line (bs "connection") (bs "Connection: " ++ conn_value keep) (concat (map snd sent)) /\
    only_line (bs "sec-websocket-accept") (bs "Sec-WebSocket-Accept: " ++ accept_value key) (concat (map snd sent)) /\
    NoDup (map fst sent) /\ (forall k, ~ In k handshake_names -> dget beqb k sent = dget beqb k stored) /\
    r_headers s' = None /\ r_buf s' = [] /\ r_keep s' = keep /\ r_up s' = keep /\ r_chunked s' = false.
Proof.
  intros HK A N U Hd.
  destruct (called_intro True e pre keep A (fun _ => N) U) as (d & Ca).
  assert (d = stored) as -> by (pose proof (ca_h _ _ _ _ _ _ Ca); unfold start in Hd; congruence).
  assert (one_line (accept_value key)) as OA by apply b64_one_line.
  assert (Forall appends_clean (pre ++ ops101 key)) as A2 by (apply Forall_app; split; [exact A|repeat constructor]).
  assert (Forall name_ok (pre ++ ops101 key)) as N2.
  { apply Forall_app; split; [exact N|]. repeat constructor; cbn [name_ok]; apply memb_notIn; reflexivity. }
  assert (Forall unreserved (pre ++ ops101 key)) as U2.
  { apply Forall_app; split; [exact U|]. repeat constructor; cbn [unreserved]; discriminate. }
  destruct (called_intro True e (pre ++ ops101 key) keep A2 (fun _ => N2) U2) as (d2 & Ca2).
  set (s := start e pre keep) in *.
  set (st := (101%Z, bs "Switching Protocols")).
  set (s1 := with_status s (st :: r_status s)).
  assert (do_hop e (HStatus 101 (bs "Switching Protocols")) s = (Ok tt, s1)) as E1.
  { cbn [do_hop]. unfold set_status. change (memb LF (bs "Switching Protocols")) with false. cbn iota.
    rewrite (seq_ok get_headers _ s stored s) by (unfold get_headers; now rewrite Hd).
    pose proof (ca_l _ _ _ _ _ _ Ca) as L. unfold hmem, dmem in L. unfold hget. now destruct (dget beqb k_line stored). }
  assert (r_headers s1 = Some stored) as H1 by exact Hd.
  pose proof (set_header_run (bs "Upgrade") (bs "websocket") s1 stored H1 ltac:(ol) ltac:(ol)) as E2. fold (hdr1 (bs "Upgrade") (bs "websocket") stored) in E2.
  set (s2 := with_headers s1 _) in E2.
  pose proof (set_header_run (bs "Sec-WebSocket-Accept") (accept_value key) s2 _ eq_refl ltac:(ol) OA) as E3.
  set (s3 := with_headers s2 _) in E3.
  assert (do_hops e (pre ++ ops101 key) (new_rsp keep) = s3) as ES.
  { rewrite hops_app. fold (start e pre keep). fold s. unfold ops101. cbn [do_hops]. rewrite E1. cbn [snd].
    change (do_hop e (HSet (bs "Upgrade") (bs "websocket"))) with (set_header (bs "Upgrade") (bs "websocket")). rewrite E2. cbn [snd].
    cbn [do_hop]. rewrite E3. reflexivity. }
  rewrite ES in Ca2.
  assert (accept e h s = write e None None kw_default s3) as EA.
  { unfold accept, h_key. rewrite HK. change magic_string with guid. fold (accept_value key).
    change (set_status 101 (bs "Switching Protocols")) with (do_hop e (HStatus 101 (bs "Switching Protocols"))).
    rewrite (seq_ok _ _ _ _ _ E1), (seq_ok _ _ _ _ _ E2), (seq_ok _ _ _ _ _ E3). reflexivity. }
  set (d0 := hdr1 (bs "Upgrade") (bs "websocket") stored) in *.
  assert (d2 = hdr1 (bs "Sec-WebSocket-Accept") (accept_value key) d0) as D2.
  { pose proof (ca_h _ _ _ _ _ _ Ca2) as X. unfold s3 in X. cbn [r_headers with_headers] in X. injection X as <-. reflexivity. }
  assert (d2 <> []) as Ne.
  { intros X. rewrite X in D2. assert (hget (lower (bs "Sec-WebSocket-Accept")) (hdr1 (bs "Sec-WebSocket-Accept") (accept_value key) d0) = None) as Y by now rewrite <- D2.
    rewrite hget_hdr1_same in Y. discriminate. }
  assert (status_of s3 = st) as St by reflexivity.
  destruct (write_101 e kw_default s3 d2 (bs "Switching Protocols") (ca_h _ _ _ _ _ _ Ca2) Ne (ca_g _ _ _ _ _ _ Ca2) (ca_l _ _ _ _ _ _ Ca2) (ca_b _ _ _ _ _ _ Ca2) St)
    as (G' & L & W).
  rewrite (ca_k _ _ _ _ _ _ Ca2) in G', L, W.
  set (d' := hdr1 (bs "Connection") (conn_value keep) (hset k_line (the_line e (101%Z, bs "Switching Protocols")) d2)) in *.
  rewrite (ca_u _ _ _ _ _ _ Ca2), (ca_o _ _ _ _ _ _ Ca2) in W. cbn [app] in W. rewrite orb_false_r in W.
  rewrite EA, W. eexists _, (status_line e st), (hdel k_line d'). split; [reflexivity|]. cbn [r_out r_headers r_buf r_keep r_up r_chunked].
  fold (lines_of (hdel k_line d')).
  assert (forall k, k <> k_line -> k <> bs "connection" -> hget k d' = hget k d2) as O1.
  { intros k X Y. unfold d'. rewrite hget_hdr1_other by exact Y. unfold hget, hset. now apply dget_dset_other. }
  split; [unfold head_item; rewrite status_line_join; reflexivity|]. split; [reflexivity|].
  split; [constructor; [apply status_line_ok; ol|apply (lines_ok True), good_del, G']|].
  split; [apply (only_line_intro True); [exact I|exact G'|discriminate|]|].
  { rewrite O1 by discriminate. rewrite D2, hget_hdr1_other by discriminate. apply (hget_hdr1_same (bs "Upgrade")). }
  split; [apply (only_line_intro True); [exact I|exact G'|discriminate|apply (hget_hdr1_same (bs "Connection"))]|].
  split; [apply (only_line_intro True); [exact I|exact G'|discriminate|]|].
  { rewrite O1 by discriminate. rewrite D2. apply (hget_hdr1_same (bs "Sec-WebSocket-Accept")). }
  split; [apply ddel_nodup, G'|].
  split; [|auto 10].
  intros k Hk. unfold hdel. rewrite dget_ddel by apply G'. destruct (beqb k k_line) eqn:E.
  - apply beqb_eq in E as ->. pose proof (ca_l _ _ _ _ _ _ Ca) as X. unfold hmem, dmem in X. now destruct (dget beqb k_line stored).
  - apply beqb_neq in E. fold (hget k d'). rewrite O1; [|exact E|intros ->; apply Hk; cbn; tauto].
    rewrite D2, hget_hdr1_other by (intros ->; apply Hk; cbn; tauto). unfold d0. rewrite hget_hdr1_other by (intros ->; apply Hk; cbn; tauto). reflexivity.
Qed.

From Verif Require Import M_Framing P_Framing P_Parser2.
Import M_Parser.
Lemma head_values method url version fields body hmax excludes ml mls r0 r :
  good_head method url version fields hmax ml mls ->
  request_init (parse_header (S_Head.head_bytes method url version fields ++ body) (-1) hmax excludes ml mls) = Ok r0 -> frame r0 = Ok r ->
  (rq_version r = bs "1.0" \/ rq_version r = bs "1.1") /\
  forall name, ~ In name reserved -> name <> bs "host" ->
    M_Parser.hget name (rq_headers r) = match values name fields with [] => None | [v] => Some (One (AB v)) | vs => Some (Many (map AB vs)) end.
Proof.
  intros (A & B & C & D & E & F & G & H) I Fr.
  pose proof (c01_main method url version fields body (-1) hmax excludes ml mls A B C D E F G (or_introl (conj eq_refl H))) as X.
  cbn zeta in X. set (h := parse_header _ _ _ _ _ _) in *. destruct X as (_ & _ & _ & _ & _ & _ & X & _).
  destruct (frame_inv r0 r Fr) as (ka & _ & _ & Eh & Ev & _). unfold request_init in I.
  destruct (as_bytes (getmethod h)); [|discriminate]. cbn [bind] in I. destruct (as_bytes (geturl h)); [|discriminate]. cbn [bind] in I.
  destruct (partition _ _) as [[? ?] ?]. match type of I with Ok ?x = Ok _ => assert (r0 = x) as -> by congruence end. clear I. cbn [rq_headers rq_version] in *. rewrite Eh, Ev. split.
  - destruct (getversion h) as [[[v|]|]|]; auto. destruct (beqb v (bs "1.0")) eqn:V; auto. left. now apply beqb_eq.
  - intros name N1 N2. apply X; auto.
Qed.
Lemma offered_main fields key h :
  (forall name, ~ In name reserved -> name <> bs "host" ->
    M_Parser.hget name h = match values name fields with [] => None | [v] => Some (One (AB v)) | vs => Some (Many (map AB vs)) end) ->
  asks fields key -> ws_offered true h = Ok true /\ M_Parser.hget (bs "sec-websocket-key") h = Some (One (AB key)).
Proof.
  intros V ((u & Hu & Lu) & Hc & Hk).
  pose proof (V (bs "upgrade") ltac:(vm_compute; intuition discriminate) ltac:(discriminate)) as Vu.
  pose proof (V (bs "connection") ltac:(vm_compute; intuition discriminate) ltac:(discriminate)) as Vc.
  pose proof (V (bs "sec-websocket-key") ltac:(vm_compute; intuition discriminate) ltac:(discriminate)) as Vk.
  rewrite Hu in Vu. rewrite Hk in Vk. split; [|exact Vk].
  unfold ws_offered, M_Parser.hmem, dmem, h_upgrade, h_connection, h_key. unfold M_Parser.hget in *. rewrite Vu, Vk.
  destruct (values (bs "connection") fields) as [|c [|c2 l]]; [contradiction| |]; rewrite Vc; cbn [andb]; rewrite Lu; reflexivity.
Qed.
Lemma not_offered_main fields ws h :
  (forall name, ~ In name reserved -> name <> bs "host" ->
    M_Parser.hget name h = match values name fields with [] => None | [v] => Some (One (AB v)) | vs => Some (Many (map AB vs)) end) ->
  (ws = false \/ values (bs "upgrade") fields = [] \/ values (bs "connection") fields = [] \/ values (bs "sec-websocket-key") fields = [] \/
   exists u, values (bs "upgrade") fields = [u] /\ lower u <> bs "websocket") -> ws_offered ws h = Ok false.
Proof.
  intros V H.
  pose proof (V (bs "upgrade") ltac:(vm_compute; intuition discriminate) ltac:(discriminate)) as Vu.
  pose proof (V (bs "connection") ltac:(vm_compute; intuition discriminate) ltac:(discriminate)) as Vc.
  pose proof (V (bs "sec-websocket-key") ltac:(vm_compute; intuition discriminate) ltac:(discriminate)) as Vk.
  unfold ws_offered, M_Parser.hmem, dmem, h_upgrade, h_connection, h_key. unfold M_Parser.hget in *. rewrite Vu, Vk, Vc.
  destruct H as [-> |[->|[->|[->|(u & -> & N)]]]]; cbn [andb]; rewrite ?andb_false_r; cbn [andb]; try reflexivity.
  apply beqb_neq in N. rewrite N. now destruct (_ && _).
Qed.

Lemma c60_main e method url version fields body hmax excludes ml mls r0 r key pre stored :
  good_head method url version fields hmax ml mls ->
  request_init (parse_header (S_Head.head_bytes method url version fields ++ body) (-1) hmax excludes ml mls) = Ok r0 -> frame r0 = Ok r ->
  e_11 e = beqb (rq_version r) (bs "1.1") -> asks fields key -> rq_keepalive r = true ->
  Forall appends_clean pre -> Forall name_ok pre -> Forall unreserved pre ->
  r_headers (start e pre (rq_keepalive r)) = Some stored ->
  ws_offered true (rq_headers r) = Ok true /\
  exists s' first sent, accept e (rq_headers r) (start e pre (rq_keepalive r)) = (Ok tt, s') /\
    r_out s' = [Some (head_of (first :: concat (map snd sent))); None] /\
    is_accepted (rq_version r) key first (concat (map snd sent)) /\
    Forall one_line (first :: concat (map snd sent)) /\
    NoDup (map fst sent) /\ (forall k, ~ In k handshake_names -> dget beqb k sent = dget beqb k stored) /\
    r_up s' = true /\ r_keep s' = true.
Proof.
  intros GH I F E Ak K A N U S. destruct (head_values _ _ _ _ _ _ _ _ _ _ _ GH I F) as [V HV].
  destruct (offered_main fields key _ HV Ak) as [O HK]. split; [exact O|]. rewrite K in *.
  destruct (accept_main e (rq_headers r) key pre true stored HK A N U S) as (s' & first & sent & EA & O1 & E1 & OL & L1 & L2 & L3 & ND & Ot & _ & _ & Kp & Up & _).
  exists s', first, sent. split; [exact EA|]. split; [exact O1|]. split; [|auto].
  split; [|auto]. rewrite E1. unfold status_line, M_Response.version. rewrite E. cbn [fst snd].
  destruct V as [-> | ->]; reflexivity.
Qed.
