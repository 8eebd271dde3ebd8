From Verif Require Import PyBytes PyBytesFacts PyDictFacts PyInt PyExn PyUtf8 M_Stream M_WebSocket S_WebSocket P_WebSocket M_Response M_Server M_Asgi M_Handshake M_AsgiWs
  S_Response S_Calls S_Asgi S_Handshake S_AsgiWs P_Response P_Response2 P_Response3 P_Asgi2 P_Asgi3 P_Handshake.
From Verif Require M_Parser.

(** Pings and pongs before whatever follows. *)
Lemma skip_loop o max X tl : (0 <= o_max_body o)%Z -> forall cs fuel r, Forall (skippable max) cs -> holds r (frames_wire cs ++ X) tl -> List.length cs < fuel ->
  exists r' fuel', holds r' X tl /\ fuel = List.length cs + fuel' /\
    receive_loop fuel o max r = (let '(x, r2, out) := receive_loop fuel' o max r' in (x, r2, pongs cs ++ out)).
Proof.
  intros M. induction cs as [|[cf c] cs IH]; intros fuel r Fa H L.
  - exists r, fuel. split; [exact H|]. split; [reflexivity|]. cbn [pongs filter map app]. now destruct (receive_loop fuel o max r) as [[? ?] ?].
  - destruct fuel as [|fuel]; [easy|]. cbn [receive_loop]. inversion Fa as [|? ? (K1 & X1 & O1 & L1) Fa']; subst. unfold frames_wire in H. cbn [map concat fst snd List.length] in *. rewrite <- app_assoc in H.
    assert (whole o max cf c r (frames_wire cs ++ X) tl) as W by (repeat split; try assumption; apply K1).
    destruct O1 as [O1|O1].
    + destruct (c25_ping_l _ _ _ _ _ _ _ W O1 L1) as (r1 & H1 & ->). destruct (IH fuel r1 Fa' H1 ltac:(lia)) as (r' & fuel' & H' & E & ->).
      exists r', fuel'. split; [exact H'|]. split; [lia|]. unfold pongs. cbn [filter snd]. rewrite O1. cbn [N.eqb Pos.eqb map app snd]. now destruct (receive_loop fuel' o max r') as [[? ?] ?].
    + destruct (c25_pong_l _ _ _ _ _ _ _ W O1 L1) as (r1 & H1 & ->). destruct (IH fuel r1 Fa' H1 ltac:(lia)) as (r' & fuel' & H' & E & ->).
      exists r', fuel'. split; [exact H'|]. split; [lia|]. unfold pongs. cbn [filter snd]. rewrite O1. cbn [N.eqb Pos.eqb]. now destruct (receive_loop fuel' o max r') as [[? ?] ?].
Qed.
Lemma skip_receive o max cs X r tl : (0 <= o_max_body o)%Z -> Forall (skippable max) cs -> holds r (frames_wire cs ++ X) tl ->
  exists r' fuel', holds r' X tl /\ M_WebSocket.receive o max r = (let '(x, r2, out) := receive_loop (S fuel') o max r' in (x, r2, pongs cs ++ out)).
Proof.
  intros M Fa H. destruct H as (segs & U & E). pose proof (pending_ge _ _ _ U) as P. rewrite E, app_length in P. pose proof (frames_long cs) as FL. fold (frames_wire cs) in FL.
  destruct (skip_loop o max X tl M cs (S (List.length (pending r))) r Fa) as (r' & fuel' & H' & L & R); [exists segs; now split|lia|].
  destruct fuel' as [|f]; [lia|]. exists r', f. now split.
Qed.

(** Queueing. *)
Lemma send_now f s : r_buf s = [] -> M_Response.send (Some f) kw_now s = (Ok tt, with_out s [] (r_out s ++ [Some f])).
Proof. intros B. unfold M_Response.send, kw_now. cbn [k_min k_throttle]. now rewrite B. Qed.
Lemma put_all_run fs : forall a, r_buf (a_rsp a) = [] ->
  put_all fs a = mkA (with_out (a_rsp a) [] (r_out (a_rsp a) ++ map Some fs)) (a_chunked a) (a_open a).
Proof.
  induction fs as [|f fs IH]; intros a B; cbn [put_all].
  - rewrite app_nil_r. destruct a as [s c o]. cbn in *. destruct s; cbn in *. now subst.
  - unfold a_call. rewrite send_now by exact B. cbn [snd]. rewrite IH by reflexivity. cbn [a_rsp a_chunked a_open map]. unfold with_out. cbn [r_headers r_chunked r_status r_ctype r_buf r_out r_keep r_up]. now rewrite <- app_assoc.
Qed.
Definition say (z : session) (fs : list bytes) (w t : bool) (r : reader) : session :=
  mkZ (mkA (with_out (a_rsp (z_a z)) [] (queued z ++ map Some fs)) (a_chunked (z_a z)) (a_open (z_a z))) w t r.
Lemma say_open z fs t r : is_open z -> is_open (say z fs true t r).
Proof. intros (A & B & C & D). repeat split; assumption. Qed.
Lemma say_queued z fs w t r : queued (say z fs w t r) = queued z ++ map Some fs.
Proof. reflexivity. Qed.

Lemma hear o max z u B tl : (0 <= o_max_body o)%Z -> is_open z -> utterance_ok max u -> unread z (utterance_wire u ++ B) tl ->
  exists r, ws_receive o max z = (event_of (u_says u), say z (pongs (u_before u)) true (z_timer z) r) /\ unread (say z (pongs (u_before u)) true (z_timer z) r) B tl.
Proof.
  intros M (W & Up & H & Bf) (S1 & S2 & S3 & S4 & S5) (segs & U & E). unfold utterance_wire, frames_wire in E. rewrite <- app_assoc in E.
  destruct (c27_main o max (u_before u) (u_form u) (u_frame u) (u_says u) B (z_in z) segs tl M S1 S2 S3 S4 S5 U E) as (r' & segs' & R & U' & E').
  exists r'. split; [|exists segs'; now split]. unfold ws_receive. rewrite Up, W. cbn [negb]. rewrite R. unfold say. rewrite (put_all_run _ _ Bf).
  destruct (u_says u); reflexivity.
Qed.
Lemma says_run e phrase text size h c f z : says c f -> is_open z ->
  exists ev, c = Send ev /\ ws_send e phrase text size h z ev = say z [f] true (z_timer z) (z_in z).
Proof.
  intros Sy (W & Up & H & Bf). destruct Sy as [b Ne L|s p Ne P L]; eexists; (split; [reflexivity|]); unfold ws_send; rewrite W; cbn [negb].
  - destruct b as [|x b]; [easy|]. unfold with_a, a_call, ws_put.
    rewrite (create_frame_wire (VBytes (x :: b)) true None false [] (x :: b) ltac:(discriminate) eq_refl eq_refl L ltac:(discriminate)).
    rewrite send_now by exact Bf. cbn [snd]. rewrite W. reflexivity.
  - destruct s as [|x s]; [easy|]. unfold with_a, a_call, ws_put.
    rewrite (create_frame_wire (VStr (x :: s)) true (Some 1%N) false [] p eq_refl eq_refl P L ltac:(discriminate)).
    rewrite send_now by exact Bf. cbn [snd]. rewrite W. reflexivity.
Qed.
Lemma app_eq {A} (a b c : list A) : a ++ b ++ c = (a ++ b) ++ c. Proof. apply app_assoc. Qed.
Lemma talk_run e phrase text size h o max calls us fs : (0 <= o_max_body o)%Z -> talk max calls us fs -> forall z B tl, is_open z -> unread z (concat (map utterance_wire us) ++ B) tl ->
  exists z', ws_app e phrase text size h o max calls z = (map (fun u => event_of (u_says u)) us, z') /\ is_open z' /\ unread z' B tl /\
    queued z' = queued z ++ map Some fs /\ z_timer z' = z_timer z.
Proof.
  intros M T. induction T as [|c f calls us fs Sy T IH|u calls us fs Ok T IH]; intros z B tl Op Un.
  - exists z. cbn [ws_app map]. rewrite app_nil_r. auto.
  - destruct (says_run e phrase text size h c f z Sy Op) as (ev & -> & E). cbn [ws_app]. rewrite E.
    destruct (IH (say z [f] true (z_timer z) (z_in z)) B tl (say_open _ _ _ _ Op) Un) as (z' & R & Op' & Un' & Q & Ti). exists z'. split; [exact R|]. split; [exact Op'|]. split; [exact Un'|].
    split; [|exact Ti]. rewrite Q, say_queued, <- app_assoc. reflexivity.
  - cbn [map concat] in Un. rewrite <- app_assoc in Un. destruct (hear o max z u _ tl M Op Ok Un) as (r & E & Un1). cbn [ws_app map]. rewrite E.
    destruct (IH (say z (pongs (u_before u)) true (z_timer z) r) B tl (say_open _ _ _ _ Op) Un1) as (z' & R & Op' & Un' & Q & Ti). rewrite R. exists z'.
    split; [now destruct (u_says u)|]. split; [exact Op'|]. split; [exact Un'|]. split; [|exact Ti]. rewrite Q, say_queued, <- app_assoc, map_app. reflexivity.
Qed.

(** Before it is accepted. *)
Lemma connects e phrase text size h o max n z : r_up (a_rsp (z_a z)) = false -> ws_app e phrase text size h o max (repeat Receive n) z = (repeat Connect n, z).
Proof. intros Up. induction n as [|n IH]; [reflexivity|]. cbn [repeat ws_app]. unfold ws_receive. rewrite Up. cbn [negb]. now rewrite IH. Qed.

(** The client closes. *)
Lemma client_closes o max z cs form f B tl : (0 <= o_max_body o)%Z -> is_open z -> Forall (skippable max) cs -> frame_ok form f -> (form = L64 -> Z.of_nat (List.length (f_payload f)) <= max)%Z ->
  f_op f = 8%N -> unread z (frames_wire cs ++ wire form f ++ B) tl ->
  exists r, ws_receive o max z = (Disconnected (match f_payload f with [] => 1005 | [a] => Z.of_N (N_of_ascii a) | a :: b :: _ => 256 * Z.of_N (N_of_ascii a) + Z.of_N (N_of_ascii b) end)%Z,
    say z (pongs cs) true true r) /\ unread (say z (pongs cs) true true r) B tl.
Proof.
  intros M (W & Up & H & Bf) Fa K X O8 Un. destruct (skip_receive o max cs (wire form f ++ B) (z_in z) tl M Fa Un) as (r1 & fuel & H1 & R).
  destruct (c25_close_l o max form f r1 B tl) as (r2 & H2 & E2); [split; [exact M|split; [exact K|split; [exact X|exact H1]]]|exact O8|].
  exists r2. split; [|exact H2]. unfold ws_receive. rewrite Up, W. cbn [negb]. rewrite R. cbn [receive_loop]. rewrite E2, app_nil_r. unfold say. rewrite (put_all_run _ _ Bf). reflexivity.
Qed.
(** The connection ends between two frames. *)
Lemma client_gone o max z cs tl : (0 <= o_max_body o)%Z -> is_open z -> Forall (skippable max) cs -> unread z (frames_wire cs) (End :: tl) ->
  exists r, ws_receive o max z = (Disconnected 1005, say z (pongs cs) true true r).
Proof.
  intros M (W & Up & H & Bf) Fa Un. rewrite <- (app_nil_r (frames_wire cs)) in Un. destruct (skip_receive o max cs [] (z_in z) (End :: tl) M Fa Un) as (r1 & fuel & H1 & R).
  destruct (rd_short o r1 [] tl 2%N M H1 ltac:(cbn; lia)) as (r2 & Ed & E2).
  exists r2. unfold ws_receive. rewrite Up, W. cbn [negb]. rewrite R. cbn [receive_loop]. unfold ws_recv. rewrite (bindio_ret _ _ _ _ _ Ed). cbn [fail]. rewrite app_nil_r. unfold say. rewrite (put_all_run _ _ Bf). reflexivity.
Qed.

(** The application closes. *)
Lemma closes e phrase text size h z code : is_open z -> (0 <= code < 65536)%Z ->
  let z' := ws_send e phrase text size h z (WsClose code) in
  queued z' = queued z ++ [Some (server_frame 8 (network 2 (Z.to_N code))); None] /\ z_ws z' = false /\ r_up (a_rsp (z_a z')) = true /\ r_headers (a_rsp (z_a z')) = None.
Proof.
  intros (W & Up & H & Bf) C. unfold ws_send. rewrite W. cbn [negb]. unfold a_call, ws_close, close_frame. replace (code <? 0)%Z with false by lia.
  rewrite to_big_network by (cbn; lia). cbn [bind]. rewrite (create_frame_wire (VBytes (network 2 (Z.to_N code))) true (Some 8%N) false [] (network 2 (Z.to_N code)) ltac:(discriminate) eq_refl eq_refl ltac:(rewrite network_length; reflexivity) ltac:(discriminate)).
  unfold seq. rewrite send_now by exact Bf. unfold close, update, flush_close, queued. cbn [z_a a_rsp with_out r_buf r_out z_ws r_up r_headers]. rewrite <- app_assoc. split; [reflexivity|]. now split.
Qed.
(** Nothing after that. *)
Definition only_ws (c : app_call) : Prop := match c with Receive => True | Send (Http _) => False | Send (WsAccept _ _) => False | Send _ => True end.
Lemma closed_run e phrase text size h o max calls : Forall only_ws calls -> forall z, z_ws z = false -> r_up (a_rsp (z_a z)) = true ->
  exists t, ws_app e phrase text size h o max calls z = (repeat (Disconnected 1005) (List.length (filter (fun c => match c with Receive => true | _ => false end) calls)), mkZ (z_a z) false t (z_in z)).
Proof.
  induction 1 as [|c calls Oc F IH]; intros z W Up.
  - exists (z_timer z). cbn. destruct z; cbn in *; now subst.
  - destruct c as [|[ev|hs sub|b t|code]]; cbn [only_ws] in Oc; try easy; cbn [ws_app filter].
    + unfold ws_receive. rewrite Up, W. cbn [negb]. destruct (IH (mkZ (z_a z) (z_ws z) true (z_in z)) W Up) as (t & R). rewrite W in R. rewrite R. exists t. reflexivity.
    + unfold ws_send. rewrite W. cbn [negb]. exact (IH z W Up).
    + unfold ws_send. rewrite W. cbn [negb]. exact (IH z W Up).
Qed.
(** The application fails. *)
Lemma fails e text x z : is_open z -> let z' := ws_end e text (Some x) z in queued z' = queued z ++ [Some (server_frame 8 (network 2 1011)); None] /\ a_open (z_a z') = a_open (z_a z).
Proof.
  intros (W & Up & H & Bf). unfold ws_end. rewrite W, Up. cbn [andb]. unfold handle_exception, headers_sent. rewrite H, Up. cbn [negb andb].
  unfold close_frame. change (1011 <? 0)%Z with false. rewrite to_big_network by reflexivity. cbn [bind].
  rewrite (create_frame_wire (VBytes (network 2 (Z.to_N 1011))) true (Some 8%N) false [] (network 2 (Z.to_N 1011)) ltac:(discriminate) eq_refl eq_refl ltac:(rewrite network_length; reflexivity) ltac:(discriminate)).
  unfold finish_call, seq, M_Response.send. cbn [k_min k_throttle k_bufsize]. rewrite Bf. unfold close, update, flush_close, queued. cbn [fst snd with_a z_a a_rsp with_out r_buf r_out a_open].
  split; [|now destruct (a_open (z_a z))]. rewrite <- app_assoc. f_equal.
Qed.

(** Accepting. *)
Lemma accept_headers_start e text hs : forall a, fst (accept_headers e text hs a) = start_headers e text hs a.
Proof.
  induction hs as [|[n v] hs IH]; intros a; [reflexivity|]. cbn [accept_headers start_headers]. destruct (memb LF n || memb LF v); [reflexivity|].
  destruct (beqb (lower n) (bs "content-type")); [destruct (a_call (set_content_type v) a) as [[|] ?]; [apply IH|reflexivity]|].
  destruct (beqb (lower n) (bs "date") || _ || _); [apply IH|]. destruct (beqb (lower n) (bs "connection")); [apply IH|].
  destruct (a_call (append_header n v) _) as [[|] ?]; [apply IH|reflexivity].
Qed.
Definition hops_for (h : bytes * bytes) : list hop :=
  let name := lower (fst h) in
  if beqb name (bs "content-type") then [HCtype (snd h)]
  else if beqb name (bs "date") || beqb name (bs "server") || beqb name (bs "transfer-encoding") then []
  else if beqb name (bs "connection") then []
  else [HAppend (fst h) (snd h)].
Lemma accept_headers_hops e text hs : one_line (e_date e) -> one_line (e_server e) -> forall a d, waiting e (a_rsp a) d -> based e d -> Forall (fun h => plain_name (fst h)) hs -> Forall lf_free hs -> wants_close hs = false ->
  exists c, accept_headers e text hs a = (mkA (do_hops e (flat_map hops_for hs) (a_rsp a)) c (a_open a), true).
Proof.
  intros Hd Hs. induction hs as [|[n v] hs IH]; intros a d W Bd F1 F2 Cl.
  - exists (a_chunked a). cbn. now destruct a.
  - inversion_clear F1 as [|? ? Pn F1']. inversion_clear F2 as [|? ? [On Ov] F2']. cbn [fst snd] in *. unfold wants_close in Cl. cbn [existsb fst snd] in Cl. fold (wants_close hs) in Cl. apply orb_false_iff in Cl as [Cl1 Cl].
    cbn [accept_headers flat_map]. unfold hops_for at 1. cbn [fst snd].
    assert (memb LF n || memb LF v = false) as -> by (apply orb_false_iff; split; now apply memb_notIn).
    destruct (beqb (lower n) (bs "content-type")) eqn:N1; [|destruct (beqb (lower n) (bs "date") || _ || _) eqn:N2; [|destruct (beqb (lower n) (bs "connection")) eqn:N3]].
    + cbn [app do_hops do_hop]. unfold a_call. destruct (ctype_waiting e v (a_rsp a) d W Ov) as [E W']. rewrite E. cbn [snd]. exact (IH (mkA (with_ctype (a_rsp a) (v :: r_ctype (a_rsp a))) (a_chunked a) (a_open a)) d W' Bd F1' F2' Cl).
    + exact (IH a d W Bd F1' F2' Cl).
    + cbn [andb] in Cl1. rewrite Cl1. exact (IH a d W Bd F1' F2' Cl).
    + cbn [app do_hops do_hop]. unfold a_call. set (a1 := if beqb (lower n) (bs "content-length") then mkA (a_rsp a) (Some false) (a_open a) else a).
      assert (a_rsp a1 = a_rsp a /\ a_open a1 = a_open a) as [E1 E2] by (unfold a1; destruct (beqb (lower n) (bs "content-length")); now split). rewrite E1, E2.
      destruct (append_waiting e n v (a_rsp a) d W Bd On Ov Pn N1 N2) as (d2 & E & W' & Bd' & _). rewrite E. cbn [snd].
      exact (IH (mkA (with_headers (a_rsp a) d2) (a_chunked a1) (a_open a)) d2 W' Bd' F1' F2' Cl).
Qed.
Definition sub_hops (sub : bytes) : list hop := match sub with [] => [] | _ => [HSet (bs "Sec-WebSocket-Protocol") sub] end.
Lemma hset_none k x (d : hdict) k' : k' <> k -> hget k' (hset k x d) = hget k' d.
Proof. intros N. unfold hget, hset. now apply dget_dset_other. Qed.
Lemma accepts e phrase text size h key hs sub ch r : one_line (e_date e) -> one_line (e_server e) ->
  M_Parser.hget (bs "sec-websocket-key") h = Some (M_Parser.One (M_Parser.AB key)) ->
  Forall (fun h => plain_name (fst h)) hs -> Forall lf_free hs -> wants_close hs = false -> one_line sub ->
  exists z' sent, ws_send e phrase text size h (ws_scope true ch r) (WsAccept hs sub) = z' /\ is_open z' /\ z_in z' = r /\ a_open (z_a z') = true /\ r_keep (a_rsp (z_a z')) = true /\
    queued z' = [Some (head_of (status_line e (101%Z, bs "Switching Protocols") :: concat (map snd sent))); None] /\
    Forall one_line (concat (map snd sent)) /\
    only_line (bs "upgrade") (bs "Upgrade: websocket") (concat (map snd sent)) /\
    only_line (bs "connection") (bs "Connection: upgrade") (concat (map snd sent)) /\
    only_line (bs "sec-websocket-accept") (bs "Sec-WebSocket-Accept: " ++ accept_value key) (concat (map snd sent)) /\
    NoDup (map fst sent) /\
    dget beqb (bs "date") sent = Some [bs "Date: " ++ e_date e] /\ dget beqb (bs "server") sent = Some [bs "Server: " ++ e_server e] /\
    (sub <> [] -> dget beqb (bs "sec-websocket-protocol") sent = Some [bs "Sec-WebSocket-Protocol: " ++ sub]) /\
    (forall k, ~ In k servers_own -> ~ In k handshake_names -> (sub <> [] -> k <> bs "sec-websocket-protocol") ->
       match dget beqb k sent with Some l => l | None => [] end = app_lines k hs).
Proof.
  intros Hd Hs HK F1 F2 Cl Os.
  assert (waiting e (new_rsp true) []) as W0. { split; [reflexivity|]. split; [apply goodS_new|]. repeat (split; [reflexivity|]). now left. }
  destruct (base_waiting e Hd Hs _ _ W0) as (d1 & E1 & W1 & Bd1).
  assert (d1 = [(bs "date", [header_line (bs "Date") (e_date e)]); (bs "server", [header_line (bs "Server") (e_server e)])]) as Ed1.
  { unfold set_base_header in E1. cbn [new_rsp r_headers] in E1. unfold set_header in E1. assert (memb LF (e_date e) = false) as X by now apply memb_notIn. rewrite X in E1. assert (memb LF (e_server e) = false) as Y by now apply memb_notIn. rewrite Y in E1.
    change (memb LF (bs "Date")) with false in E1. change (memb LF (bs "Server")) with false in E1. cbn [orb] in E1. unfold seq, get_headers in E1. cbn [new_rsp r_headers] in E1. unfold put_headers, update in E1. cbn [with_headers r_headers] in E1.
    apply (f_equal (fun x => r_headers (snd x))) in E1. cbn [snd with_headers r_headers] in E1. assert (forall x y : hdict, Some x = Some y -> y = x) as K2 by congruence. apply K2 in E1. rewrite E1. reflexivity. }
  set (a1 := mkA (with_headers (new_rsp true) d1) ch true).
  destruct (accept_headers_hops e text hs Hd Hs a1 d1 W1 Bd1 F1 F2 Cl) as (c & E2).
  destruct (headers_run e phrase text size hs a1 d1 W1 Bd1 F1 F2) as (s2 & d2 & E2' & W2 & Bd2 & _ & K2 & _ & Lk).
  pose proof (accept_headers_start e text hs a1) as E3. rewrite E2, E2' in E3. cbn [fst] in E3. injection E3 as Es Ec. cbn [a_rsp] in Es.
  set (pre := HBase :: flat_map hops_for hs ++ sub_hops sub).
  assert (do_hops e (HBase :: flat_map hops_for hs) (new_rsp true) = s2) as Ep. { cbn [do_hops do_hop]. rewrite E1. exact Es. }
  destruct W2 as (H2 & G2 & L2 & B2 & O2 & U2 & T2 & C2 & _).
  set (d3 := match sub with [] => d2 | _ => hset (bs "sec-websocket-protocol") [bs "Sec-WebSocket-Protocol: " ++ sub] d2 end).
  assert (start e pre true = with_headers s2 d3) as Est.
  { unfold start, pre. rewrite app_comm_cons, hops_app, Ep. unfold sub_hops, d3. destruct sub as [|x sub']; [cbn [do_hops]; clear -H2; destruct s2; cbn in *; now subst|]. cbn [do_hops do_hop]. unfold set_header.
    replace (memb LF (x :: sub')) with false by (symmetry; now apply memb_notIn). change (memb LF (bs "Sec-WebSocket-Protocol")) with false. cbn [orb]. unfold seq, get_headers. rewrite H2. reflexivity. }
  assert (r_headers (start e pre true) = Some d3) as Est' by now rewrite Est.
  assert (forall x, In x (flat_map hops_for hs ++ sub_hops sub) -> (exists h0, In h0 hs /\ (x = HCtype (snd h0) \/ x = HAppend (fst h0) (snd h0))) \/ x = HSet (bs "Sec-WebSocket-Protocol") sub) as Kx.
  { intros x I. apply in_app_or in I as [I|I].
    - apply in_flat_map in I as (h0 & I0 & I). left. exists h0. split; [exact I0|]. unfold hops_for in I. destruct (beqb _ (bs "content-type")); [destruct I as [<-|[]]; now left|]. destruct (_ || _ || _); [destruct I|]. destruct (beqb _ (bs "connection")); [destruct I|]. destruct I as [<-|[]]. now right.
    - right. unfold sub_hops in I. destruct sub; [destruct I|]. now destruct I as [<-|[]]. }
  rewrite Forall_forall in F1, F2.
  assert (Forall appends_clean pre /\ Forall name_ok pre /\ Forall unreserved pre) as (PA & PN & PU).
  { unfold pre. split; [|split]; constructor; try exact I; apply Forall_forall; intros x I0; apply Kx in I0 as [(h0 & I0 & [->| ->])| ->]; try exact I; cbn [appends_clean name_ok unreserved].
    - exact (F2 h0 I0).
    - exact (proj1 (F1 h0 I0)).
    - apply memb_notIn. reflexivity.
    - exact (proj2 (F1 h0 I0)).
    - discriminate. }
  destruct (accept_main e h key pre true d3 HK PA PN PU Est') as (s' & first & sent & EA & O1 & Ef & OL & L3 & L4 & L5 & ND & Ot & Hn & Bn & Kn & Un & _).
  assert (ws_send e phrase text size h (ws_scope true ch r) (WsAccept hs sub) = mkZ (mkA s' c true) true false r) as Er.
  { cbn [ws_send]. unfold ws_scope, with_a, ws_accept. cbn [z_a z_ws z_timer z_in]. unfold a_call at 1. cbn [a_rsp]. rewrite E1. cbn [a_chunked a_open]. fold a1. rewrite E2. cbn [negb].
    assert (do_hops e (flat_map hops_for hs) (a_rsp a1) = s2) as -> by exact Es. change (a_open a1) with true.
    assert (start e pre true = match sub with [] => s2 | _ => snd (set_header (bs "Sec-WebSocket-Protocol") sub s2) end) as Est2.
    { unfold start, pre. rewrite app_comm_cons, hops_app, Ep. unfold sub_hops. destruct sub; reflexivity. }
    destruct sub as [|x sub'].
    - rewrite <- Est2. unfold a_call. cbn [a_rsp a_chunked a_open]. rewrite EA. reflexivity.
    - replace (memb LF (x :: sub')) with false by (symmetry; now apply memb_notIn).
      unfold a_call at 1. cbn [a_rsp a_chunked a_open].
      assert (fst (set_header (bs "Sec-WebSocket-Protocol") (x :: sub') s2) = Ok tt) as Eo. { unfold set_header. replace (memb LF (x :: sub')) with false by (symmetry; now apply memb_notIn). change (memb LF (bs "Sec-WebSocket-Protocol")) with false. cbn [orb]. unfold seq, get_headers. rewrite H2. reflexivity. }
      destruct (set_header (bs "Sec-WebSocket-Protocol") (x :: sub') s2) as [q s3] eqn:Eq. cbn [fst snd] in Eo, Est2. subst q. rewrite <- Est2. unfold a_call. cbn [a_rsp a_chunked a_open]. rewrite EA. reflexivity. }
  exists (mkZ (mkA s' c true) true false r), sent. split; [exact Er|]. split; [repeat split; assumption|]. split; [reflexivity|]. split; [reflexivity|]. split; [exact Kn|].
  split; [unfold queued; cbn [z_a a_rsp]; rewrite O1, Ef; reflexivity|]. split; [now inversion OL|]. split; [exact L3|]. split; [exact L4|]. split; [exact L5|]. split; [exact ND|].
  assert (forall k, (sub <> [] -> k <> bs "sec-websocket-protocol") -> dget beqb k d3 = dget beqb k d2) as K3.
  { intros k N. unfold d3. destruct sub; [reflexivity|]. apply hset_none. apply N. discriminate. }
  destruct Bd2 as [Bda Bdb].
  split; [rewrite Ot by (cbn; intuition discriminate); rewrite K3 by discriminate; exact Bda|].
  split; [rewrite Ot by (cbn; intuition discriminate); rewrite K3 by discriminate; exact Bdb|].
  split.
  - intros Ns. rewrite Ot by (cbn; intuition discriminate). unfold d3. destruct sub; [easy|]. apply dget_dset_same.
  - intros k N1 N2 N3. rewrite Ot by exact N2. rewrite K3 by exact N3. change (now_of k d2 = app_lines k hs). rewrite (Lk k N1). subst d1.
    assert (now_of k [(bs "date", [header_line (bs "Date") (e_date e)]); (bs "server", [header_line (bs "Server") (e_server e)])] = []) as ->; [|reflexivity].
    unfold now_of, hget. cbn [dget]. assert (k <> bs "date" /\ k <> bs "server") as [X Y] by (split; intros ->; apply N1; cbn; tauto). apply beqb_neq in X, Y. now rewrite X, Y.
Qed.
