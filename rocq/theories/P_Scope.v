(** Proofs about requests and ASGI scopes (C63). *)
From Verif Require Import PyBytes PyBytesFacts PyBytesFacts2 PyExn PyUtf8 PyQs M_Parser M_Framing M_Scope S_Head S_Form S_Scope P_Parser P_Parser2 P_Parser3 P_Parser4 P_Head5 P_Framing P_Chunked2 P_Form.
From Verif Require M_Handshake.

Definition dict_value (l : list bytes) : option hval :=
  match l with [] => None | [v] => Some (One (AB v)) | vs => Some (Many (map AB vs)) end.

Lemma heard_facts method url version fields body : head_fits method url version fields ->
  let h := heard method url version fields body in
  getmethod h = Some (One (AB method)) /\ geturl h = Some (One (AB url)) /\ getversion h = Some (One (AB version)) /\
  hlist h = filter (fun nv => negb (beqb (fst nv) (bs "proxy"))) (map (fun f => (lower (fst f), snd f)) fields) /\
  (forall name, ~ In name reserved -> name <> bs "host" \/ S_Head.values name fields <> [] -> hget name (headers h) = dict_value (S_Head.values name fields)) /\
  (is_valid_request h = false <-> version = bs "1.1" /\ S_Head.values (bs "host") fields = []).
Proof.
  intros (A & B & C & D & E & F & G).
  destruct (c01_main method url version fields body (blen (head_bytes method url version fields) - 2) 65536 [bs "proxy"] 100 8190 A B C D E F G (or_intror eq_refl))
    as (_ & _ & M & U & V & L & H & _ & Y).
  cbv zeta. unfold heard. split; [exact M|]. split; [exact U|]. split; [exact V|]. split.
  { rewrite L. apply filter_ext. intros [n v]. cbn [fst mem_bytes existsb]. now rewrite orb_false_r. }
  split; [|exact Y]. intros name N O. rewrite (H name N O). now destruct (S_Head.values name fields) as [|? [|? ?]].
Qed.

(** ** The request object *)
Lemma init_facts method url version fields body : head_fits method url version fields ->
  let h := heard method url version fields body in
  exists r, request_init h = Ok r /\ rq_headers r = headers h /\ rq_is_valid r = is_valid_request h /\ rq_host r = init_host h /\
    rq_method r = upper method /\ rq_url r = url /\ (rq_path r, rq_query_string r) = (let '(p, _, q) := partition (bs "?") url in (p, q)) /\
    rq_version r = if beqb version (bs "1.0") then bs "1.0" else bs "1.1".
Proof.
  intros F. destruct (heard_facts method url version fields body F) as (M & U & V & _). cbv zeta. set (h := heard _ _ _ _ _) in *.
  unfold request_init. rewrite M, U, V. cbn [as_bytes bind]. destruct (partition (bs "?") url) as [[p s] q]. eexists. split; [reflexivity|].
  cbn [rq_headers rq_is_valid rq_host rq_method rq_url rq_path rq_query_string rq_version]. repeat (split; [reflexivity|]).
  destruct (beqb version (bs "1.0")) eqn:E; [|reflexivity]. now apply beqb_eq in E.
Qed.
Lemma partition_target url path query : target url path query -> exists s, partition (bs "?") url = (path, s, query).
Proof.
  intros (N & [->|(-> & ->)]); unfold partition.
  - change (bs "?") with ["?"%char]. change (path ++ ["?"%char] ++ query) with (path ++ "?"%char :: query). rewrite find1_app by exact N. eexists.
    rewrite firstn_app, firstn_all, Nat.sub_diag, firstn_O, app_nil_r. cbn [List.length]. rewrite skipn_add, skipn_app, skipn_all, Nat.sub_diag. reflexivity.
  - change (bs "?") with ["?"%char]. apply find1_none in N. rewrite N. now eexists.
Qed.
Lemma dict_first l : match dict_value l with Some (Many (a :: _)) => Some (One a) | v => v end = match l with [] => None | v :: _ => Some (One (AB v)) end.
Proof. destruct l as [|v [|w l]]; reflexivity. Qed.
Lemma host_facts method url version fields body : head_fits method url version fields ->
  forall v vs, S_Head.values (bs "x-forwarded-host") fields ++ S_Head.values (bs "host") fields = v :: vs ->
  init_host (heard method url version fields body) = Some (One (AB v)).
Proof.
  intros F v vs E. destruct (heard_facts method url version fields body F) as (_ & _ & _ & _ & D & _). cbv zeta in D. set (h := heard _ _ _ _ _) in *.
  unfold init_host, gethost. rewrite D by ((cbn; intuition discriminate) || (now left)). 
  destruct (S_Head.values (bs "x-forwarded-host") fields) as [|w ws] eqn:X.
  - cbn [app] in E. cbn [dict_value]. change k_host with (bs "host"). rewrite D by ((cbn; intuition discriminate) || (right; congruence)). rewrite dict_first, E. reflexivity.
  - cbn [app] in E. injection E as -> _. destruct ws; reflexivity.
Qed.

(** ** Stripping *)
Lemma lstrip_all pre l : all_space pre -> lstrip_by is_space (pre ++ l) = lstrip_by is_space l.
Proof. induction 1 as [|c pre C A IH]; [reflexivity|]. cbn [app lstrip_by]. now rewrite C. Qed.
Lemma lstrip_keep c l : is_space c = false -> lstrip_by is_space (c :: l) = c :: l.
Proof. intros E. cbn [lstrip_by]. now rewrite E. Qed.
Lemma rstrip_all l : all_space l -> rstrip_by is_space l = [].
Proof. intros A. unfold rstrip_by. replace (rev l) with (rev l ++ []) by apply app_nil_r. rewrite lstrip_all; [reflexivity|]. now apply Forall_rev. Qed.
Lemma strip_all l : all_space l -> strip_ws l = [].
Proof. intros A. unfold strip_ws, strip_by. replace l with (l ++ []) by apply app_nil_r. rewrite lstrip_all by exact A. reflexivity. Qed.
Lemma strip_mid pre a post : all_space pre -> a <> [] -> is_space (hd SP a) = false -> is_space (last a SP) = false ->
  strip_ws (pre ++ a ++ post) = a ++ rstrip_by is_space post.
Proof.
  intros A N H L. unfold strip_ws, strip_by. rewrite lstrip_all by exact A. destruct a as [|c a]; [easy|]. cbn [hd] in H. cbn [app]. rewrite lstrip_keep by exact H.
  rewrite app_comm_cons. rewrite (app_removelast_last SP N) at 1. rewrite <- app_assoc. cbn [app]. rewrite rstrip_keep by exact L.
  change (last (c :: a) SP :: ?x) with ([last (c :: a) SP] ++ x). rewrite app_assoc. now rewrite <- (app_removelast_last SP N).
Qed.

(** ** ip and scheme *)
Lemma upto_comma a l : ~ In ","%char a -> upto (a ++ ","%char :: l) (pos (find (bs ",") ((a ++ ","%char :: l) ++ bs ","))) = a.
Proof.
  intros N. rewrite <- app_assoc. cbn [app]. change (bs ",") with [","%char]. rewrite find1_app by exact N. cbn [pos].
  rewrite upto_nonneg by lia. rewrite Nat2Z.id, firstn_app, firstn_all, Nat.sub_diag, firstn_O. apply app_nil_r.
Qed.
Lemma upto_comma_end a : ~ In ","%char a -> upto a (pos (find (bs ",") (a ++ bs ","))) = a.
Proof.
  intros N. change (bs ",") with [","%char]. rewrite find1_app by exact N. cbn [pos]. rewrite upto_nonneg by lia. rewrite Nat2Z.id. apply firstn_all.
Qed.
Lemma first_ip v a : first_element v a -> exists c l, strip_ws v = c :: l /\ upto (strip_ws v) (pos (find (bs ",") (strip_ws v ++ bs ","))) = a.
Proof.
  intros (pre & post & -> & P & N & H & L & C & Q). rewrite strip_mid by assumption. destruct Q as [Q|(rest & ->)].
  - rewrite rstrip_all by exact Q. rewrite app_nil_r. destruct a as [|c a]; [easy|]. exists c, a. split; [reflexivity|]. now apply upto_comma_end.
  - pose proof (rstrip_keep is_space [] ","%char rest eq_refl) as R. cbn [app] in R. rewrite R.
    rewrite upto_comma by exact C. destruct a as [|c a]; [easy|]. cbn [app]. do 2 eexists. split; reflexivity.
Qed.

Lemma forwarded_for_values method url version fields body r : head_fits method url version fields -> request_init (heard method url version fields body) = Ok r ->
  forwarded_for (rq_headers r) = Ok (hd [] (S_Head.values (bs "x-forwarded-for") fields)).
Proof.
  intros F R. destruct (init_facts method url version fields body F) as (r' & R' & H & _). rewrite R in R'. injection R' as <-.
  destruct (heard_facts method url version fields body F) as (_ & _ & _ & _ & D & _).
  unfold forwarded_for. rewrite H, D by ((cbn; intuition discriminate) || (now left)). destruct (S_Head.values (bs "x-forwarded-for") fields) as [|v [|w l]]; reflexivity.
Qed.
Lemma proto_values method url version fields body r : head_fits method url version fields -> request_init (heard method url version fields body) = Ok r ->
  forall name, ~ In name reserved -> name <> bs "host" -> hget name (rq_headers r) = dict_value (S_Head.values name fields).
Proof.
  intros F R name N O. destruct (init_facts method url version fields body F) as (r' & R' & H & _). rewrite R in R'. injection R' as <-.
  destruct (heard_facts method url version fields body F) as (_ & _ & _ & _ & D & _). rewrite H. apply D; [exact N|now left].
Qed.

Lemma ip_forwarded w m v a : m_ip m = None -> forwarded_for (w_headers w) = Ok v -> first_element v a ->
  fst (read_ip w m) = Ok a.
Proof.
  intros M V E. destruct (first_ip v a E) as (c & l & S & U). unfold read_ip. rewrite M, V. rewrite U. rewrite S. reflexivity.
Qed.
Lemma ip_direct w v host port b : forwarded_for (w_headers w) = Ok v -> all_space v -> w_peer w = PeerTuple host port -> utf8_encode host = Some b ->
  fst (read_ip w memo0) = Ok b.
Proof.
  intros V A P U. unfold read_ip. cbn [m_ip memo0]. rewrite V, strip_all by exact A. unfold read_client. cbn [m_client memo0]. rewrite P. cbn [address_first]. now rewrite U.
Qed.
Lemma scheme_ok w fields s m : hget (bs "x-forwarded-proto") (w_headers w) = dict_value (S_Head.values (bs "x-forwarded-proto") fields) ->
  scheme_is (w_tls w) fields s -> m_scheme m = None -> m_secure m = None -> exists m', read_scheme w m = (Ok s, m').
Proof.
  intros D S M1 M2. unfold read_scheme, read_secure. rewrite M1, M2, D. destruct S as [(v & E & St)|(Q & ->)].
  - rewrite E. cbn [dict_value]. destruct St as (pre & post & -> & P & Q & N & H & L). rewrite strip_mid by assumption. rewrite rstrip_all by exact Q. rewrite app_nil_r.
    destruct s as [|c s]; [easy|]. now eexists.
  - assert (match dict_value (S_Head.values (bs "x-forwarded-proto") fields) with
      | Some (Many _) | Some (One (AI _)) => False | o => strip_ws match o with Some (One (AB v)) => v | _ => [] end = [] end) as K.
    { destruct Q as [E|(v & E & A)]; rewrite E; cbn [dict_value]; [reflexivity|]. now apply strip_all. }
    destruct (dict_value _) as [[[v|n]|l]|]; try easy; rewrite K; destruct (w_tls w); now eexists.
Qed.

(** ** Lists *)
Lemma replace_free a rest : ~ In ","%char a -> replace (bs ", ") (bs ",") (a ++ rest) = a ++ replace (bs ", ") (bs ",") rest.
Proof.
  induction a as [|c a IH]; intros N; [reflexivity|]. cbn [app]. rewrite replace_miss; [|discriminate|].
  - f_equal. apply IH. intros I. apply N. now right.
  - cbn [bs list_ascii_of_string startswith]. destruct (Ascii.eqb_spec "," c) as [<-|]; [|reflexivity]. exfalso. apply N. now left.
Qed.
Lemma listed_hd els : forall v, listed els v -> Forall element els -> hd ","%char v <> SP.
Proof.
  intros v L F. destruct els as [|a els]; [easy|]. inversion_clear F as [|? ? E _]. destruct E as (N & H). destruct els as [|b els].
  - cbn [listed] in L. now subst.
  - destruct L as (v' & _ & [->| ->]); destruct a; cbn [hd app bs list_ascii_of_string] in *; try exact H; discriminate.
Qed.
Lemma replace_listed els : forall v, listed els v -> Forall element els -> replace (bs ", ") (bs ",") v = join [","%char] els.
Proof.
  induction els as [|a els IH]; intros v L F; [easy|]. inversion_clear F as [|? ? E F']. destruct els as [|b els].
  - cbn [listed] in L. subst v. cbn [join]. rewrite <- (app_nil_r a) at 1. rewrite replace_free by apply E. rewrite replace_nil by discriminate. apply app_nil_r.
  - destruct L as (v' & L & Q). change (join [","%char] (a :: b :: els)) with (a ++ ","%char :: join [","%char] (b :: els)). rewrite <- (IH v' L F').
    destruct Q as [->| ->]; rewrite replace_free by apply E; f_equal.
    + cbn [bs list_ascii_of_string app]. rewrite replace_miss; [reflexivity|discriminate|].
      pose proof (listed_hd _ _ L F') as H. destruct v' as [|c v']; [reflexivity|]. cbn [hd] in H. cbn [startswith]. rewrite Ascii.eqb_refl. cbn [andb].
      destruct (Ascii.eqb_spec " " c) as [<-|]; [|reflexivity]. now exfalso.
    + rewrite replace_hit; [|discriminate|reflexivity]. reflexivity.
Qed.
Lemma element_free els : Forall element els -> Forall (fun p => ~ In ","%char p) els.
Proof. apply Forall_impl. now intros a (N & _). Qed.
Lemma split_listed els v : listed els v -> Forall element els -> List.length els <= 101 -> split_commas v = els.
Proof.
  intros L F N. unfold split_commas. rewrite (replace_listed els v L F). apply split_max_join; [now apply element_free|destruct els; easy|exact N].
Qed.
Lemma getlist_atoms_listed elss vs : Forall2 (fun els v => listed els v /\ Forall element els /\ List.length els <= 101) elss vs ->
  getlist_atoms (map AB vs) = Ok (concat elss).
Proof.
  induction 1 as [|els v elss vs (L & F & N) _ IH]; [reflexivity|]. cbn [map getlist_atoms]. rewrite IH. cbn [bind concat]. now rewrite (split_listed els v L F N).
Qed.
Lemma getlist_listed d name elss vs : hget name d = dict_value vs -> Forall2 (fun els v => listed els v /\ Forall element els /\ List.length els <= 101) elss vs ->
  getlist d name = Ok (concat elss).
Proof.
  intros D F. apply getlist_atoms_listed in F. unfold getlist. rewrite D. destruct vs as [|v [|w vs]]; cbn [dict_value]; [now destruct elss|exact F|exact F].
Qed.

(** ** Paths *)
Lemma unq_written b e : path_written b e -> unquote_to_bytes e = b.
Proof.
  intros (parts & F & ->). induction F as [|c e b parts P F IH]; [reflexivity|]. cbn [concat]. destruct P as [(-> & N)|(a & d & x & y & -> & A & D & V)]; cbn [app].
  - rewrite unq_lit by exact N. now rewrite IH.
  - rewrite (unq_hex a d x y) by (now apply hexval_hex). rewrite IH, <- V. now rewrite ascii_N_embedding.
Qed.

(** ** Scopes *)
Lemma client_read w a : client_of (w_peer w) = Some a -> exists m, read_client w memo0 = (Ok a, m) /\ m_scheme m = None /\ m_secure m = None.
Proof.
  unfold read_client. cbn [m_client memo0]. destruct (w_peer w) as [h p|[|c q]| |]; cbn [client_of]; intros E; try easy; injection E as <-; now eexists.
Qed.
Section Scopes.
Variables (method url version : bytes) (fields : list field) (body : bytes) (r : hreq) (path query b s : bytes) (tls : bool) (peer : peername) (a : option address) (root : pystr).
Hypothesis F : head_fits method url version fields.
Hypothesis Ho : has_host version fields.
Hypothesis R : request_init (heard method url version fields body) = Ok r.
Hypothesis T : target url path query.
Hypothesis W : path_written b path.
Hypothesis S : scheme_is tls fields s.
Hypothesis C : client_of peer = Some a.
Let w := mkWorld peer tls true (rq_headers r).
Lemma r_facts : rq_is_valid r = true /\ rq_method r = upper method /\ rq_path r = path /\ rq_query_string r = query /\
  rq_version r = (if beqb version (bs "1.0") then bs "1.0" else bs "1.1").
Proof.
  destruct (init_facts method url version fields body F) as (r' & R' & _ & V & _ & M & _ & PQ & Ve). rewrite R in R'. injection R' as <-.
  destruct (partition_target url path query T) as (q & E). rewrite E in PQ. injection PQ as P Q.
  split; [|now repeat split].
  destruct (heard_facts method url version fields body F) as (_ & _ & _ & _ & _ & Y). rewrite V. destruct (is_valid_request _); [reflexivity|].
  destruct Y as (Y & _). destruct (Y eq_refl) as (Y1 & Y2). now destruct (Ho Y1).
Qed.
Lemma scope_http ws : M_Handshake.ws_offered ws (rq_headers r) = Ok false ->
  exists m, asgi_called ws root (heard method url version fields body) r w memo0 =
    (Ok (Some (mkScope false (latin (if beqb version (bs "1.0") then bs "1.0" else bs "1.1")) (Some (latin (upper method))) (latin s) (latin b) path query root
       (filter (fun nv => negb (beqb (fst nv) (bs "proxy"))) (map (fun f => (lower (fst f), snd f)) fields)) a None)), m).
Proof.
  intros O. destruct r_facts as (V & M & P & Q & Ve). unfold asgi_called, asgi_scope. rewrite V.
  destruct (client_read w a C) as (m1 & E1 & M1 & M2). rewrite E1. cbn [w_sock w negb]. change (w_headers w) with (rq_headers r). rewrite O.
  destruct (scheme_ok w fields s m1) as (m2 & E2); [|exact S|exact M1|exact M2|].
  { apply (proto_values method url version fields body r F R); [cbn; intuition discriminate|discriminate]. }
  rewrite E2, M, P, Q, Ve, (unq_written b path W). destruct (heard_facts method url version fields body F) as (_ & _ & _ & L & _). rewrite L. now eexists.
Qed.
Lemma scope_ws elss : M_Handshake.ws_offered true (rq_headers r) = Ok true ->
  Forall2 (fun els v => listed els v /\ Forall element els /\ List.length els <= 101) elss (S_Head.values (bs "sec-websocket-protocol") fields) ->
  exists m, asgi_called true root (heard method url version fields body) r w memo0 =
    (Ok (Some (mkScope true (latin (if beqb version (bs "1.0") then bs "1.0" else bs "1.1")) None (latin (if beqb s (bs "https") then bs "wss" else bs "ws")) (latin b) path query root
       (filter (fun nv => negb (beqb (fst nv) (bs "proxy"))) (map (fun f => (lower (fst f), snd f)) fields)) a (Some (map latin (concat elss))))), m).
Proof.
  intros O G. destruct r_facts as (V & M & P & Q & Ve). unfold asgi_called, asgi_scope. rewrite V.
  destruct (client_read w a C) as (m1 & E1 & M1 & M2). rewrite E1. cbn [w_sock w negb]. change (w_headers w) with (rq_headers r). rewrite O.
  destruct (scheme_ok w fields s m1) as (m2 & E2); [|exact S|exact M1|exact M2|].
  { apply (proto_values method url version fields body r F R); [cbn; intuition discriminate|discriminate]. }
  rewrite E2. rewrite (getlist_listed _ _ elss (S_Head.values (bs "sec-websocket-protocol") fields)); [|apply (proto_values method url version fields body r F R); [cbn; intuition discriminate|discriminate]|exact G].
  rewrite P, Q, Ve, (unq_written b path W). destruct (heard_facts method url version fields body F) as (_ & _ & _ & L & _). rewrite L. now eexists.
Qed.
(** Whether the application is offered a WebSocket, from the fields. *)
Lemma offered_values ws : M_Handshake.ws_offered ws (rq_headers r) =
  if ws && negb (match S_Head.values (bs "upgrade") fields with [] => true | _ => false end) && negb (match S_Head.values (bs "connection") fields with [] => true | _ => false end)
     && negb (match S_Head.values (bs "sec-websocket-key") fields with [] => true | _ => false end)
  then match S_Head.values (bs "upgrade") fields with [v] => Ok (beqb (lower v) (bs "websocket")) | _ => Raise AttributeError end
  else Ok false.
Proof.
  pose proof (proto_values method url version fields body r F R) as D. unfold M_Handshake.ws_offered, M_Handshake.h_upgrade, M_Handshake.h_connection, M_Handshake.h_key.
  rewrite !hmem_hget, !D by ((cbn; intuition discriminate) || discriminate).
  destruct (S_Head.values (bs "upgrade") fields) as [|u [|u' us]]; destruct (S_Head.values (bs "connection") fields) as [|c [|c' cs]];
    destruct (S_Head.values (bs "sec-websocket-key") fields) as [|k [|k' ks]]; destruct ws; reflexivity.
Qed.
End Scopes.

(** ** Reads are stable *)
(** What is remembered. *)
Definition kept (m m' : memo) : Prop :=
  (forall a, m_client m = Some a -> m_client m' = Some a) /\ (forall c v, m_ip m = Some (c :: v) -> m_ip m' = Some (c :: v)) /\
  (forall x, m_secure m = Some x -> m_secure m' = Some x) /\ (forall c v, m_scheme m = Some (c :: v) -> m_scheme m' = Some (c :: v)).
Lemma kept_refl m : kept m m.
Proof. now repeat split. Qed.
Lemma kept_client w m : kept m (snd (read_client w m)).
Proof.
  unfold read_client. destruct (m_client m) as [a|] eqn:E; [apply kept_refl|].
  destruct (w_peer w) as [h p|[|c q]| |]; cbn [snd]; unfold kept; cbn [m_client m_ip m_secure m_scheme]; rewrite ?E; now repeat split.
Qed.
Lemma kept_trans a b c : kept a b -> kept b c -> kept a c.
Proof. intros (A1 & A2 & A3 & A4) (B1 & B2 & B3 & B4). repeat split; auto. Qed.
Lemma kept_read w x m : kept m (do_read w x m).
Proof.
  destruct x; cbn [do_read]; [apply kept_client| | |].
  - unfold read_ip. destruct (m_ip m) as [[|c v]|] eqn:E; [| |].
    2: apply kept_refl.
    all: destruct (forwarded_for (w_headers w)) as [v|y]; [|apply kept_refl]; cbv zeta.
    all: assert (forall z, kept m (mkMemo (m_client m) (Some z) (m_secure m) (m_scheme m))) as K by (intros z; unfold kept; cbn [m_client m_ip m_secure m_scheme]; rewrite E; now repeat split).
    all: destruct (strip_ws v) as [|c' v']; [|apply K].
    all: pose proof (kept_client w m) as KC; assert (m_ip (snd (read_client w m)) = m_ip m) as EI
      by (unfold read_client; destruct (m_client m); [reflexivity|]; destruct (w_peer w) as [h p|[|? ?]| |]; reflexivity).
    all: destruct (read_client w m) as [[[a|]|y] m1]; cbn [snd] in *; try exact KC.
    all: assert (forall z, kept m (mkMemo (m_client m1) (Some z) (m_secure m1) (m_scheme m1))) as K1
      by (intros z; eapply kept_trans; [exact KC|]; unfold kept; cbn [m_client m_ip m_secure m_scheme]; rewrite EI, E; now repeat split).
    all: first [apply K1 | destruct (utf8_encode (address_first a)); [apply K1|exact KC]].
  - unfold read_secure. destruct (m_secure m) eqn:E; [apply kept_refl|]. unfold kept; cbn [snd m_client m_ip m_secure m_scheme]. rewrite E. now repeat split.
  - unfold read_scheme. destruct (m_scheme m) as [[|c v]|] eqn:E.
    2: apply kept_refl.
    all: destruct (hget _ (w_headers w)) as [[[v|n]|l]|]; try apply kept_refl; cbv zeta.
    all: destruct (strip_ws _) as [|c' v']; [|unfold kept; cbn [snd m_client m_ip m_secure m_scheme]; rewrite E; now repeat split].
    all: unfold read_secure; destruct (m_secure m) eqn:E2; unfold kept; cbn [snd m_client m_ip m_secure m_scheme]; rewrite ?E, ?E2; now repeat split.
Qed.
Lemma kept_reads l : forall m, kept m (do_reads l m).
Proof.
  induction l as [|[w x] l IH]; intros m; [apply kept_refl|]. eapply kept_trans; [apply (kept_read w x m)|apply IH].
Qed.
Lemma ip_kept w m v m1 : read_ip w m = (Ok v, m1) -> v <> [] -> exists c l, v = c :: l /\ m_ip m1 = Some (c :: l).
Proof.
  intros R N. destruct v as [|c l]; [easy|]. exists c, l. split; [reflexivity|]. clear N. unfold read_ip in R. destruct (m_ip m) as [[|c0 v0]|] eqn:E.
  2: { injection R as <- <- <-. exact E. }
  all: destruct (forwarded_for (w_headers w)) as [v|y]; [|discriminate]; cbv zeta in R; destruct (strip_ws v) as [|c' v'];
    [destruct (read_client w m) as [[[a|]|y] m2]; [destruct (utf8_encode (address_first a)); [|discriminate]| |discriminate]|];
    apply pair_equal_spec in R; destruct R as (R1 & R2); subst m1; cbn [m_ip]; clear - R1; apply (f_equal (fun x => match x with Ok y => Some y | Raise _ => None end)) in R1; exact R1.
Qed.
Lemma ip_stable w m v m1 : read_ip w m = (Ok v, m1) -> v <> [] -> forall l w', fst (read_ip w' (do_reads l m1)) = Ok v.
Proof.
  intros R N l w'. destruct (ip_kept _ _ _ _ R N) as (c & t & -> & E). destruct (kept_reads l m1) as (_ & K & _). unfold read_ip. now rewrite (K c t E).
Qed.
Lemma scheme_kept w m v m1 : read_scheme w m = (Ok v, m1) -> exists c l, v = c :: l /\ m_scheme m1 = Some (c :: l).
Proof.
  intros R. unfold read_scheme in R. destruct (m_scheme m) as [[|c0 v0]|] eqn:E.
  2: { injection R as <- <-. now exists c0, v0. }
  all: destruct (hget _ (w_headers w)) as [[[v0|n]|l]|]; try discriminate; cbv zeta in R; (destruct (strip_ws _) as [|c' v'];
    [destruct (read_secure w m) as [[] m2]|]); apply pair_equal_spec in R; destruct R as (R1 & R2); injection R1 as <-; subst m1; cbn [m_scheme]; do 2 eexists; split; reflexivity.
Qed.
Lemma scheme_stable w m v m1 : read_scheme w m = (Ok v, m1) -> forall l w', fst (read_scheme w' (do_reads l m1)) = Ok v.
Proof.
  intros R l w'. destruct (scheme_kept _ _ _ _ R) as (c & t & -> & E). destruct (kept_reads l m1) as (_ & _ & _ & K). unfold read_scheme. now rewrite (K c t E).
Qed.
Lemma client_stable w m a m1 : read_client w m = (Ok (Some a), m1) -> forall l w', fst (read_client w' (do_reads l m1)) = Ok (Some a).
Proof.
  intros R l w'. assert (m_client m1 = Some a) as E.
  { unfold read_client in R. destruct (m_client m) eqn:E; [congruence|]. destruct (w_peer w) as [h p|[|c q]| |]; try discriminate; injection R as <- <-; reflexivity. }
  destruct (kept_reads l m1) as (K & _). unfold read_client. now rewrite (K a E).
Qed.
