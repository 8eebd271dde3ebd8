(** Lemmas that put the C01-C09 results in the form used by T_Head.v. *)
From Verif Require Import PyBytes PyBytesFacts PyInt PyExn M_Parser M_Framing S_Head S_Num
  P_Parser P_Parser2 P_Parser3 P_Parser4 P_Framing.

Lemma lines_bytes_inj l1 : forall l2, Forall (fun l => ~ In LF l) l1 -> Forall (fun l => ~ In LF l) l2 ->
  lines_bytes l1 = lines_bytes l2 -> l1 = l2.
Proof.
  induction l1 as [|a l1 IH]; intros [|b l2] F1 F2 E; [reflexivity| | |].
  - rewrite lines_bytes_cons in E. destruct b; discriminate E.
  - rewrite lines_bytes_cons in E. destruct a; discriminate E.
  - inversion F1 as [|? ? A1 A2]; subst. inversion F2 as [|? ? B1 B2]; subst.
    rewrite !lines_bytes_cons in E.
    pose proof (find_line a (lines_bytes l1) (line_ok_nolf _ A1)) as Fa.
    pose proof (find_line b (lines_bytes l2) (line_ok_nolf _ B1)) as Fb.
    rewrite E, Fb in Fa. injection Fa as L.
    assert (a = b) as <-.
    { rewrite <- (firstn_app_len a (CRLF ++ lines_bytes l1)), E, <- L. apply firstn_app_len. }
    f_equal. apply IH; [assumption|assumption|]. now apply app_inv_head in E; apply app_inv_head in E.
Qed.

Definition c03_data := bs "GET / HTTP/1.1" ++ CRLF ++ bs "_version: x" ++ CRLF ++ CRLF.

Lemma c03_refuted_l :
  is_valid_request (parse_header c03_data (-1) 100 [] 10 100) = true /\
  ~ well_formed_request 10 100 c03_data.
Proof.
  split; [reflexivity|]. intros (first & rest & version & (E & (m & t & R) & _ & Fl & Ff) & Hh).
  assert (c03_data = lines_bytes [bs "GET / HTTP/1.1"; bs "_version: x"] ++ CRLF) as E0 by reflexivity.
  rewrite E0 in E. apply app_inv_tail, lines_bytes_inj in E.
  - assert (first = bs "GET / HTTP/1.1" /\ rest = [bs "_version: x"]) as [E1 E2] by (split; congruence).
    rewrite E1 in R. rewrite E2 in Hh.
    assert (version = bs "1.1") as V.
    { pose proof (first_line_request _ _ _ _ header0 R) as Q.
      assert (hget k_version (headers (first_line (bs "GET / HTTP/1.1") header0)) = Some (One (AB version))) as Q2 by now rewrite Q.
      vm_compute in Q2. injection Q2 as <-. reflexivity. }
    destruct (Hh V) as (l & n & Hi & (r & E' & Hn & Hc & Hs) & Hl). destruct Hi as [<-|[]].
    assert (exists nv, field_split (bs "_version: x") = Some nv /\ fst nv = bs "_version") as (nv & Q & Q').
    { eexists. split; reflexivity. }
    assert (fst nv = n) as Q3.
    { eapply field_line_name; [exact Q|]. exists r. repeat split; assumption. }
    rewrite Q' in Q3. subst n. discriminate Hl.
  - repeat constructor; vm_compute; intuition discriminate.
  - eapply Forall_impl; [|exact Fl]. now intros l [_ H].
Qed.

Lemma request_init_version h r : request_init h = Ok r -> rq_version r = bs "1.0" \/ rq_version r = bs "1.1".
Proof.
  unfold request_init. intros I. apply bind_ok in I as (m & _ & I). apply bind_ok in I as (u & _ & I).
  destruct (partition _ u) as [[a b] c]. injection I as <-. cbn [rq_version].
  destruct (getversion h) as [[[v|]|]|]; auto. destruct (beqb v _) eqn:B; [|auto]. left. now apply beqb_eq in B.
Qed.

Lemma request_init_headers h r : request_init h = Ok r -> rq_headers r = headers h.
Proof.
  unfold request_init. intros I. apply bind_ok in I as (m & _ & I). apply bind_ok in I as (u & _ & I).
  destruct (partition _ u) as [[a b] c]. now injection I as <-.
Qed.

Lemma c09_main h r r' : request_init h = Ok r -> frame r = Ok r' ->
  match hget (bs "connection") (headers h) with
  | None => rq_keepalive r' = true <-> rq_version r <> bs "1.0"
  | Some v => exists s, v = One (AB s) /\ forall parts, comma_parts s parts ->
      (rq_keepalive r' = true <-> Forall (fun t => lower (delete_spaces t) <> bs "close") parts)
  end.
Proof.
  intros I F. rewrite <- (request_init_headers _ _ I).
  destruct (hget (bs "connection") (rq_headers r)) as [v|] eqn:H.
  - destruct v as [[s|n]|l].
    + exists s. split; [reflexivity|]. intros parts (P1 & P2 & P3).
      pose proof (c09_header r r' s parts F H P1 P2 P3) as C. rewrite Forall_forall. split.
      * intros K t Ht E. assert (rq_keepalive r' = false) as K2 by (apply C; exists t; now split). congruence.
      * intros A. destruct (rq_keepalive r'); [reflexivity|]. destruct (proj1 C eq_refl) as (t & Ht & E).
        now destruct (A t Ht).
    + rewrite (c09_repeated r _ H) in F by discriminate. discriminate F.
    + rewrite (c09_repeated r _ H) in F by discriminate. discriminate F.
  - rewrite (c09_noheader r r' F H). destruct (request_init_version _ _ I) as [-> | ->].
    + split; [discriminate|]. intros N. now destruct N.
    + split; [discriminate|reflexivity].
Qed.

(** The value "<tab>close" does not close the connection. *)
Definition c09_header_bytes :=
  bs "GET / HTTP/1.1" ++ CRLF ++ bs "Host: a" ++ CRLF ++ bs "Connection:" ++ [TAB] ++ bs "close" ++ CRLF ++ CRLF.
Lemma c09_ows_refuted_l : exists h r r' s parts,
  h = parse_header c09_header_bytes (-1) 8192 [] 100 8190 /\ is_valid_request h = true /\
  request_init h = Ok r /\ frame r = Ok r' /\
  hget (bs "connection") (headers h) = Some (One (AB s)) /\ comma_parts s parts /\
  In (bs "close") (map (fun t => lower (trim_ows t)) parts) /\ rq_keepalive r' = true.
Proof.
  do 4 eexists. exists [TAB :: bs "close"]. split; [reflexivity|]. split; [reflexivity|]. split; [vm_compute; reflexivity|].
  split; [vm_compute; reflexivity|]. split; [vm_compute; reflexivity|]. split.
  - split; [|split]; [| |reflexivity]; [discriminate|]. constructor; [|constructor]. vm_compute. intuition discriminate.
  - split; [left; reflexivity|reflexivity].
Qed.

Lemma c06_frame h args args2 : 
  let flags h := (is_request h, is_response h, is_valid_request h, is_valid_response h) in
  flags (remove h args) = flags h /\ flags (append h args2) = flags h.
Proof.
  cbn zeta. split; [destruct args; reflexivity|]. revert h. induction args2 as [|[v|] l IH]; intros h; cbn [append]; [reflexivity| |apply IH].
  rewrite IH. reflexivity.
Qed.

Lemma c06_remove_p h names :
  hlist (remove h names) = filter (fun nv => negb (existsb (beqb (fst nv)) names)) (hlist h) /\
  headers (remove h names) = headers h /\ hbody (remove h names) = hbody h.
Proof. exact (c06_remove h names). Qed.

Lemma c02_main head body1 body2 p hs hmax ex ml mls :
  find (CRLF ++ CRLF) head = Some p -> List.length head = p + 4 -> size_args hs hmax p ->
  let h1 := parse_header (head ++ body1) hs hmax ex ml mls in
  let h2 := parse_header (head ++ body2) hs hmax ex ml mls in
  is_request h1 = is_request h2 /\ is_response h1 = is_response h2 /\
  is_valid_request h1 = is_valid_request h2 /\ is_valid_response h1 = is_valid_response h2 /\
  headers h1 = headers h2 /\ hlist h1 = hlist h2 /\ hbody h1 = body1 /\ hbody h2 = body2.
Proof.
  intros F L S1. cbn zeta. rewrite !(parse_head_body head _ hs hmax ex ml mls p F L S1). repeat split.
Qed.

Lemma c03_refuted_main : exists data hmax ml mls p,
  find (CRLF ++ CRLF) data = Some p /\ size_args (-1) hmax p /\
  is_valid_request (parse_header data (-1) hmax [] ml mls) = true /\
  ~ well_formed_request ml mls (firstn (p + 4) data).
Proof.
  exists c03_data, 100%Z, 10, 100%Z, 27. split; [reflexivity|]. split; [left; lia|]. split; [reflexivity|].
  change (firstn (27 + 4) c03_data) with c03_data. apply c03_refuted_l.
Qed.

Lemma c03_exact' data p hs hmax ex ml mls :
  find (CRLF ++ CRLF) data = Some p -> size_args hs hmax p ->
  (is_valid_request (parse_header data hs hmax ex ml mls) = true <->
   exists first rest version, request_head ml mls (firstn (p + 4) data) first rest version /\
     (version = bs "1.1" -> has_field (bs "host") rest \/ has_field (bs "_version") rest)).
Proof. exact (c03_exact data p hs hmax ex ml mls). Qed.

Lemma c03_main' data p hs hmax ex ml mls :
  find (CRLF ++ CRLF) data = Some p -> size_args hs hmax p ->
  (forall first rest version, request_head ml mls (firstn (p + 4) data) first rest version ->
     ~ has_field (bs "_version") rest) ->
  (is_valid_request (parse_header data hs hmax ex ml mls) = true <->
   well_formed_request ml mls (firstn (p + 4) data)).
Proof. exact (c03_main data p hs hmax ex ml mls). Qed.

Lemma c04_main' data p hs hmax ex ml mls first rest method target version r :
  find (CRLF ++ CRLF) data = Some p -> size_args hs hmax p ->
  firstn (p + 4) data = lines_bytes (first :: rest) ++ CRLF -> Forall crlf_line (first :: rest) ->
  is_request_line first method target version ->
  request_init (parse_header data hs hmax ex ml mls) = Ok r ->
  rq_method r = upper method /\ rq_url r = target /\
  (~ has_field (bs "_version") rest -> rq_version r = if beqb version (bs "1.0") then bs "1.0" else bs "1.1").
Proof. exact (c04_main data p hs hmax ex ml mls first rest method target version r). Qed.

Lemma c04_refuted_main :
  (exists fields r, request_init (parse_header (head_bytes (bs "GET") (bs "/") (bs "1.0") fields) (-1) 8192 [] 100 8190) = Ok r
     /\ rq_version r = bs "1.1") /\
  (exists fields, is_valid_request (parse_header (head_bytes (bs "GET") (bs "/") (bs "1.0") fields) (-1) 8192 [] 100 8190) = true
     /\ request_init (parse_header (head_bytes (bs "GET") (bs "/") (bs "1.0") fields) (-1) 8192 [] 100 8190) = Raise AttributeError).
Proof.
  split.
  - exists [(bs "_version", bs "x")]. eexists. split; vm_compute; reflexivity.
  - exists [(bs "_method", bs "x")]. split; vm_compute; reflexivity.
Qed.

Lemma c05_main' data p hs hmax ex ml mls first rest :
  find (CRLF ++ CRLF) data = Some p -> size_args hs hmax p ->
  firstn (p + 4) data = lines_bytes (first :: rest) ++ CRLF -> Forall (fun l => ~ In LF l) (first :: rest) ->
  ~ has_field (bs "_line") rest ->
  let h := parse_header data hs hmax ex ml mls in
  is_valid_request h = true \/ is_valid_response h = true ->
  let out := lines_bytes (first :: map field_bytes (hlist h)) ++ CRLF ++ skipn (p + 4) data in
  save h = Ok out /\
  forall hmax' mls', (mls + 1 <= mls')%Z -> (blen out <= hmax')%Z ->
    let h' := parse_header out (-1) hmax' ex ml mls' in
    hlist h' = hlist h /\ hbody h' = hbody h /\ hbody h = skipn (p + 4) data.
Proof. exact (c05_main data p hs hmax ex ml mls first rest). Qed.

Lemma c05_refuted_main :
  (exists data, is_valid_request (parse_header data (-1) 8192 [] 100 8190) = true /\
                save (parse_header data (-1) 8192 [] 100 8190) = Raise TypeError) /\
  (exists data out mls, is_valid_request (parse_header data (-1) 8192 [] 100 mls) = true /\
                save (parse_header data (-1) 8192 [] 100 mls) = Ok out /\
                is_valid_request (parse_header out (-1) 8192 [] 100 mls) = false /\
                hlist (parse_header out (-1) 8192 [] 100 mls) <> hlist (parse_header data (-1) 8192 [] 100 mls)).
Proof.
  split.
  - exists (head_bytes (bs "GET") (bs "/") (bs "1.0") [(bs "_line", bs "x")]). split; vm_compute; reflexivity.
  - exists (bs "GET / HTTP/1.0" ++ CRLF ++ bs "abcdefgh:ijklmn" ++ CRLF ++ CRLF). eexists. exists 15%Z.
    split; [vm_compute; reflexivity|]. split; [vm_compute; reflexivity|]. split; vm_compute; [reflexivity|discriminate].
Qed.

Lemma c09_refuted_main : exists data h r r' s parts,
  h = parse_header data (-1) 8192 [] 100 8190 /\ is_valid_request h = true /\
  request_init h = Ok r /\ frame r = Ok r' /\
  hget (bs "connection") (headers h) = Some (One (AB s)) /\ comma_parts s parts /\
  In (bs "close") (map (fun t => lower (trim_ows t)) parts) /\ rq_keepalive r' = true.
Proof. exists c09_header_bytes. exact c09_ows_refuted_l. Qed.
