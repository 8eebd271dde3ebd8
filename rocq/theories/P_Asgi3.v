From Verif Require Import PyBytes PyBytesFacts PyDictFacts PyInt PyExn M_Response M_Server M_Asgi S_Response S_Chunked S_Calls S_Asgi P_Response P_Response2 P_Response3 P_Response5 P_Response6 P_Response7 P_Asgi2.

Section Bodies.
Context (e : renv) (phrase : Z -> option bytes) (text : bytes) (size : Z).
Context (Hd : one_line (e_date e)) (Hs : one_line (e_server e)) (Hsz : (1 <= size)%Z).

Definition now_of (key : bytes) (d : hdict) : list bytes := match hget key d with Some l => l | None => [] end.
Lemma skip_lines key n v hs : ~ In key servers_own -> In (lower n) servers_own -> app_lines key ((n, v) :: hs) = app_lines key hs.
Proof. intros Nk I. unfold app_lines. cbn [filter fst]. assert (beqb (lower n) key = false) as -> by (apply beqb_neq; congruence). reflexivity. Qed.
Lemma headers_run hs : forall a d, waiting e (a_rsp a) d -> based e d -> Forall (fun h => plain_name (fst h)) hs -> Forall lf_free hs ->
  exists s' d', start_headers e text hs a = mkA s' (if wants (bs "content-length") hs then Some false else a_chunked a) (a_open a) /\
    waiting e s' d' /\ based e d' /\ r_status s' = r_status (a_rsp a) /\ r_keep s' = r_keep (a_rsp a) && negb (wants_close hs) /\
    hmem (bs "content-length") d' = hmem (bs "content-length") d || wants (bs "content-length") hs /\
    (forall key, ~ In key servers_own -> now_of key d' = now_of key d ++ app_lines key hs).
Proof.
  induction hs as [|[n v] hs IH]; intros a d W Bd F1 F2.
  - exists (a_rsp a), d. cbn [start_headers wants existsb wants_close negb]. rewrite andb_true_r, orb_false_r. split; [now destruct a|]. repeat (split; [assumption || reflexivity|]). intros key _. unfold app_lines. cbn. now rewrite app_nil_r.
  - inversion_clear F1 as [|? ? Pn F1']. inversion_clear F2 as [|? ? [On Ov] F2']. cbn [fst snd] in *. unfold wants, wants_close. cbn [start_headers existsb fst snd]. fold (wants (bs "content-length") hs). fold (wants_close hs).
    assert (memb LF n || memb LF v = false) as -> by (apply orb_false_iff; split; now apply memb_notIn).
    destruct (beqb (lower n) (bs "content-type")) eqn:N1; [|destruct (beqb (lower n) (bs "date") || _ || _) eqn:N2; [|destruct (beqb (lower n) (bs "connection")) eqn:N3]].
    + unfold a_call. destruct (ctype_waiting e v (a_rsp a) d W Ov) as [E W']. rewrite E.
      destruct (IH (mkA (with_ctype (a_rsp a) (v :: r_ctype (a_rsp a))) (a_chunked a) (a_open a)) d W' Bd F1' F2') as (s' & d' & E' & R1 & R2 & R3 & R4 & R5 & R6). apply beqb_eq in N1. assert (In (lower n) servers_own) as Io by (rewrite N1; cbn; tauto). rewrite N1. exists s', d'.
      split; [exact E'|]. repeat (split; [assumption|]). intros key Nk. rewrite skip_lines by assumption. now apply R6.
    + assert (In (lower n) servers_own) as Io by (apply orb_true_iff in N2 as [N2|N2]; [apply orb_true_iff in N2 as [N2|N2]|]; apply beqb_eq in N2; rewrite N2; cbn; tauto).
      assert (beqb (lower n) (bs "content-length") = false /\ beqb (lower n) (bs "connection") = false) as [-> ->].
      { apply orb_true_iff in N2 as [N2|N2]; [apply orb_true_iff in N2 as [N2|N2]|]; apply beqb_eq in N2; rewrite N2; now split. }
      destruct (IH a d W Bd F1' F2') as (s' & d' & E' & R1 & R2 & R3 & R4 & R5 & R6). exists s', d'. split; [exact E'|]. repeat (split; [assumption|]). intros key Nk. rewrite skip_lines by assumption. now apply R6.
    + apply beqb_eq in N3. assert (In (lower n) servers_own) as Io by (rewrite N3; cbn; tauto). rewrite N3. change (beqb (bs "connection") (bs "content-length")) with false. cbn [orb andb].
      destruct (beqb (lower v) (bs "close")) eqn:N4.
      * destruct (IH (mkA (with_keep (a_rsp a) false) (a_chunked a) (a_open a)) d (keep_waiting e false _ _ W) Bd F1' F2') as (s' & d' & E' & W' & Bd' & St & K & M & Lk). exists s', d'. split; [exact E'|]. split; [exact W'|]. split; [exact Bd'|]. split; [exact St|]. split; [|split; [exact M|]]. { rewrite K. cbn. now rewrite andb_false_r. }
        intros key Nk. rewrite skip_lines by assumption. now apply Lk.
      * destruct (IH a d W Bd F1' F2') as (s' & d' & E' & R1 & R2 & R3 & R4 & R5 & R6). exists s', d'. split; [exact E'|]. repeat (split; [assumption|]). intros key Nk. rewrite skip_lines by assumption. now apply R6.
    + cbn [andb orb]. set (a1 := if beqb (lower n) (bs "content-length") then mkA (a_rsp a) (Some false) (a_open a) else a). assert (a_rsp a1 = a_rsp a /\ a_open a1 = a_open a) as [E1 E2] by (unfold a1; destruct (beqb (lower n) (bs "content-length")); now split).
      unfold a_call. rewrite E1. destruct (append_waiting e n v (a_rsp a) d W Bd On Ov Pn N1 N2) as (d2 & E & W' & Bd' & Ko & Kn). assert (hmem (lower n) d2 = true) as Km by (unfold hmem, dmem; unfold now_of in Kn; change (dget beqb (lower n) d2) with (hget (lower n) d2); destruct (hget (lower n) d2); [reflexivity|exfalso; destruct (hget (lower n) d) as [[|]|]; discriminate]). rewrite E.
      destruct (IH (mkA (with_headers (a_rsp a) d2) (a_chunked a1) (a_open a1)) d2 W' Bd' F1' F2') as (s' & d' & E' & W2 & Bd2 & St & K & M & Lk). rewrite E'. cbn [a_chunked a_open a_rsp] in *. rewrite E2. exists s', d'. split; [|split; [exact W2|split; [exact Bd2|split; [exact St|split; [exact K|split]]]]].
      * f_equal. unfold a1. destruct (beqb (lower n) (bs "content-length")); [now destruct (wants _ hs)|reflexivity].
      * rewrite M. destruct (beqb (lower n) (bs "content-length")) eqn:N5.
        -- apply beqb_eq in N5. rewrite N5 in Km. rewrite Km. cbn. now rewrite orb_true_r.
        -- cbn [orb]. f_equal. apply beqb_neq in N5. unfold hmem, dmem. change (dget beqb (bs "content-length") d2) with (hget (bs "content-length") d2). rewrite Ko by congruence. reflexivity.
      * intros key Nk. rewrite (Lk key Nk). unfold app_lines. cbn [filter fst]. destruct (beqb (lower n) key) eqn:Eq.
        -- apply beqb_eq in Eq. subst key. unfold now_of at 1. rewrite Kn. cbn [map fst snd]. rewrite <- app_assoc. reflexivity.
        -- apply beqb_neq in Eq. unfold now_of. rewrite Ko by congruence. reflexivity.
Qed.
Lemma start_run z p hs a d : waiting e (a_rsp a) d -> phrase z = Some p -> one_line p -> Forall (fun h => plain_name (fst h)) hs -> Forall lf_free hs ->
  exists s' d', asgi_send e phrase text size a (Start (Some z) hs) = mkA s' (if wants (bs "content-length") hs then Some false else a_chunked a) (a_open a) /\
    waiting e s' d' /\ based e d' /\ status_of s' = (z, p) /\ r_keep s' = r_keep (a_rsp a) && negb (wants_close hs) /\
    (d = [] -> hmem (bs "content-length") d' = wants (bs "content-length") hs /\ forall key, ~ In key servers_own -> now_of key d' = app_lines key hs).
Proof.
  intros W Ep Op F1 F2. cbn [asgi_send]. rewrite Ep. unfold a_call. destruct (status_waiting e z p (a_rsp a) d W Op) as [E W1]. rewrite E. unfold start_base, a_call. cbn [a_rsp a_chunked a_open].
  destruct (base_waiting e Hd Hs _ _ W1) as (d1 & E1 & W2 & Bd). rewrite E1.
  destruct (headers_run hs (mkA (with_headers (with_status (a_rsp a) ((z, p) :: r_status (a_rsp a))) d1) (a_chunked a) (a_open a)) d1 W2 Bd F1 F2) as (s' & d' & E' & W' & Bd' & St & K & M & Lk). exists s', d'. split; [exact E'|]. split; [exact W'|]. split; [exact Bd'|].
  split; [unfold status_of; rewrite St; reflexivity|]. split; [exact K|]. intros ->. assert (d1 = [(bs "date", [header_line (bs "Date") (e_date e)]); (bs "server", [header_line (bs "Server") (e_server e)])]) as Ed1.
  2:{ subst d1. split; [now rewrite M|]. intros key Nk. rewrite (Lk key Nk). assert (forall key0 : bytes, key0 <> bs "date" -> key0 <> bs "server" -> forall x y, now_of key0 [(bs "date", x); (bs "server", y)] = []) as Kn by (intros key0 A B x y; unfold now_of, hget; cbn [dget]; apply beqb_neq in A, B; now rewrite A, B).
      rewrite Kn; [reflexivity|intros ->; apply Nk; cbn; tauto..]. }
  destruct W1 as (H0 & _). unfold set_base_header in E1. rewrite H0 in E1. unfold set_header in E1. assert (memb LF (e_date e) = false) as X by now apply memb_notIn. rewrite X in E1. assert (memb LF (e_server e) = false) as Y by now apply memb_notIn. rewrite Y in E1.
  change (memb LF (bs "Date")) with false in E1. change (memb LF (bs "Server")) with false in E1. cbn [orb] in E1. unfold seq, get_headers in E1. rewrite H0 in E1. unfold put_headers, update in E1. cbn [with_headers r_headers] in E1.
  apply (f_equal (fun x => r_headers (snd x))) in E1. cbn [snd with_headers r_headers] in E1. assert (forall x y : hdict, Some x = Some y -> y = x) as K2 by congruence. apply K2 in E1. rewrite E1. reflexivity.
Qed.

(** Bodies. *)
Definition finished (s0 : rsp) (d : hdict) (ch : option bool) (lines : list bytes) (c kp : bool) : Prop :=
  guarded e lines /\ one_line (status_line e (status_of s0)) /\ c = chunk_choice e ch (no_content (fst (status_of s0))) /\
  (c = true -> In (bs "Transfer-Encoding: chunked") lines) /\ (c = false -> forall y, In y lines -> field_name y <> bs "transfer-encoding") /\
  (kp = r_keep s0 && (c || hmem (bs "content-length") d) /\ only_line (bs "connection") (bs "Connection: " ++ word_of (r_keep s0) (fst (status_of s0))) lines) /\
  (forall key l, ~ In key (bs "date" :: bs "server" :: decided) -> hget key d = Some l -> forall y, In y l -> In y lines) /\
  (forall key y, ~ In key (bs "date" :: bs "server" :: decided) -> key <> k_line -> In y lines -> field_name y = key -> exists l, hget key d = Some l /\ In y l).
Definition phase (s0 : rsp) (d : hdict) (ch : option bool) (op : bool) (a : aserver) (acc : list bytes) : Prop :=
  a_chunked a = ch /\ a_open a = op /\
  ((a_rsp a = s0 /\ filter nonempty acc = []) \/
   exists lines c st' ct' kp items, a_rsp a = mkRsp None c st' ct' [] (Some (head_of (status_line e (status_of s0) :: lines)) :: map Some items) kp false /\
     finished s0 d ch lines c kp /\ concat items = concat (map (enc c) (filter nonempty acc))).
Lemma sent_write x ch (k : kw) c st' ct' out kp : k_min k = None -> (1 <= k_bufsize k)%Z -> exists items,
  write e (Some x) ch k (mkRsp None c st' ct' [] out kp false) = (Ok tt, mkRsp None c st' ct' [] (out ++ map Some items) kp false) /\ concat items = enc c x.
Proof.
  intros Km Kb. unfold write, headers_sent. cbn [r_headers]. unfold write_body, send. cbn [r_chunked r_up negb]. rewrite Km, andb_true_r. unfold enc.
  destruct c; cbn [with_out r_buf app r_headers r_chunked r_status r_ctype r_out r_keep r_up];
    (destruct (k_throttle k); [eexists (put_pieces (k_bufsize k) _); split; [reflexivity|now apply put_pieces_concat]|eexists [_]; split; [reflexivity|now cbn [concat]; rewrite app_nil_r]]).
Qed.
Lemma any_write s0 d ch op a acc x k : waiting e s0 d -> bodiless e s0 = false -> phase s0 d ch op a acc -> k_min k = None -> (1 <= k_bufsize k)%Z ->
  exists lines c st' ct' kp items, write e (Some x) (a_chunked a) k (a_rsp a) = (Ok tt, mkRsp None c st' ct' [] (Some (head_of (status_line e (status_of s0) :: lines)) :: map Some items) kp false) /\
     finished s0 d ch lines c kp /\ concat items = concat (map (enc c) (filter nonempty acc)) ++ enc c x.
Proof.
  intros W Nb (Ec & _ & [[E F]|(lines & c & st' & ct' & kp & items & E & Fi & C)]) Km Kb; rewrite E, Ec.
  - destruct (write_waiting e Hd Hs (Some x) ch k s0 d W) as (lines & c & st' & ct' & kp & up & E1 & G & O1 & C1 & T1 & T2 & [_ Cn] & U & K & L1 & L2). cbv zeta in E1. rewrite Nb in E1, K.
    assert ((fst (status_of s0) =? 101)%Z = false) as N101. { apply orb_false_iff in Nb as [_ Nb]. unfold no_content in Nb. destruct (Z.eqb_spec (fst (status_of s0)) 101) as [X|]; [|reflexivity]. rewrite X in Nb. discriminate. }
    rewrite (U N101) in E1. set (out := [Some (head_of (status_line e (status_of s0) :: lines))]) in *. destruct (sent_write x ch k c st' ct' out kp Km Kb) as (items & E2 & C2).
    exists lines, c, st', ct', kp, items. split; [|split; [repeat (split; [assumption|]); split; [split; [now apply K|exact Cn]|now split]|rewrite C2; now rewrite F]].
    rewrite E1, <- (write_sent e _ k) by reflexivity. transitivity (write e (Some x) ch k (mkRsp None c st' ct' [] out kp false)); [reflexivity|exact E2].
  - destruct (sent_write x ch k c st' ct' (Some (head_of (status_line e (status_of s0) :: lines)) :: map Some items) kp Km Kb) as (items2 & E2 & C2).
    exists lines, c, st', ct', kp, (items ++ items2). split; [rewrite E2; now rewrite map_app|]. split; [exact Fi|]. now rewrite concat_app, C, C2.
Qed.
Lemma body_phase s0 d ch op a acc x : waiting e s0 d -> bodiless e s0 = false -> phase s0 d ch op a acc -> phase s0 d ch op (asgi_send e phrase text size a (Body x true)) (acc ++ [x]).
Proof.
  intros W Nb P. destruct x as [|b x]; cbn [asgi_send].
  - cbn [body_finish]. destruct P as (A & B & [[C D]|(lines & c & st' & ct' & kp & items & E & Fi & C)]); (split; [exact A|split; [exact B|]]).
    + left. split; [exact C|]. now rewrite filter_app, D.
    + right. exists lines, c, st', ct', kp, items. split; [exact E|]. split; [exact Fi|]. rewrite filter_app. cbn [filter nonempty]. now rewrite app_nil_r.
  - destruct (any_write s0 d ch op a acc (b :: x) (mkKw (headers_sent (a_rsp a)) size None) W Nb P eq_refl Hsz) as (lines & c & st' & ct' & kp & items & E & Fi & C). unfold a_call. rewrite E. cbn [body_finish].
    destruct P as (A & B & _). split; [exact A|]. split; [exact B|]. right. exists lines, c, st', ct', kp, items. split; [reflexivity|]. split; [exact Fi|]. rewrite C, filter_app. cbn [filter nonempty]. rewrite map_app, concat_app. cbn [map concat]. now rewrite app_nil_r.
Qed.
Lemma bodies_phase s0 d ch op l : waiting e s0 d -> bodiless e s0 = false -> forall a acc, phase s0 d ch op a acc -> phase s0 d ch op (asgi_sends e phrase text size (map (fun x => Body x true) l) a) (acc ++ l).
Proof.
  intros W Nb. induction l as [|x l IH]; intros a acc P; cbn [map]; [now rewrite app_nil_r|]. cbn [asgi_sends fold_left]. apply (body_phase _ _ _ _ _ _ x W Nb) in P. apply IH in P. now rewrite <- app_assoc in P.
Qed.
Lemma finish_phase s0 d ch op a acc : waiting e s0 d -> bodiless e s0 = false -> phase s0 d ch op a acc ->
  exists lines c kp items, finished s0 d ch lines c kp /\ let a' := body_finish e false a in
    r_out (a_rsp a') = Some (head_of (status_line e (status_of s0) :: lines)) :: map Some items ++ [None] /\ r_keep (a_rsp a') = kp /\ a_open a' = op /\
    concat items = concat (map (enc c) (filter nonempty acc ++ [[]])).
Proof.
  intros W Nb P. destruct (any_write s0 d ch op a acc [] kw_now W Nb P eq_refl ltac:(cbn; lia)) as (lines & c & st' & ct' & kp & items & E & Fi & C). exists lines, c, kp, items. split; [exact Fi|]. cbv zeta. unfold body_finish, a_call. change (@Some (list ascii) []) with (@Some bytes []). rewrite E.
  cbn. destruct P as (_ & B & _). rewrite <- B. split; [reflexivity|]. split; [reflexivity|]. split; [reflexivity|]. rewrite C, map_app, concat_app. cbn [map concat]. now rewrite app_nil_r.
Qed.
Lemma last_body s0 d ch op a acc x : waiting e s0 d -> bodiless e s0 = false -> phase s0 d ch op a acc ->
  exists a2, phase s0 d ch op a2 (acc ++ [x]) /\ asgi_send e phrase text size a (Body x false) = body_finish e false a2.
Proof.
  intros W Nb P. exists (asgi_send e phrase text size a (Body x true)). split; [now apply body_phase|]. destruct x as [|b x]; cbn [asgi_send]; [reflexivity|].
  destruct (any_write s0 d ch op a acc (b :: x) (mkKw (headers_sent (a_rsp a)) size None) W Nb P eq_refl Hsz) as (lines & c & st' & ct' & kp & items & E & Fi & C). unfold a_call. rewrite E. reflexivity.
Qed.
Lemma response_main z p hs l x keep ch op : phrase z = Some p -> one_line p -> Forall (fun h => plain_name (fst h)) hs -> Forall lf_free hs -> ~ bodyless (e_method e) z -> ch <> Some true ->
  let a' := asgi_sends e phrase text size (Start (Some z) hs :: map (fun x => Body x true) l ++ [Body x false]) (mkA (new_rsp keep) ch op) in
  let length := wants (bs "content-length") hs in
  let chunked := e_11 e && negb length && match ch with None => true | _ => false end in
  exists lines items, r_out (a_rsp a') = Some (head_of (status_line e (z, p) :: lines)) :: map Some items ++ [None] /\ one_line (status_line e (z, p)) /\ guarded e lines /\
    (if chunked then In (bs "Transfer-Encoding: chunked") lines /\ exists cs, concat items = chunked_body cs (bs "0") [] CRLF /\ Forall good_chunk cs /\ chunks_data cs = concat (l ++ [x])
     else (forall y, In y lines -> field_name y <> bs "transfer-encoding") /\ concat items = concat (l ++ [x])) /\
    r_keep (a_rsp a') = keep && negb (wants_close hs) && (chunked || length) /\ a_open a' = op /\
    (forall key y, ~ In key servers_own -> (In y lines /\ field_name y = key <-> In y (app_lines key hs))) /\
    only_line (bs "connection") (if keep && negb (wants_close hs) then (if (z =? 426)%Z then bs "Connection: upgrade" else bs "Connection: keep-alive") else bs "Connection: close") lines.
Proof.
  intros Ep Op F1 F2 Nb Nc a' length chunked. unfold a', asgi_sends. cbn [fold_left].
  assert (waiting e (new_rsp keep) []) as W0. { split; [reflexivity|]. split; [apply goodS_new|]. repeat (split; [reflexivity|]). now left. }
  destruct (start_run z p hs (mkA (new_rsp keep) ch op) [] W0 Ep Op F1 F2) as (s0 & d & E & W & Bd & St & K & M). destruct (M eq_refl) as [M1 Lk]. clear M. rename M1 into M. rewrite E. cbn [a_chunked a_open a_rsp r_keep] in *. fold length in M |- *.
  set (ch' := if length then Some false else ch). assert (bodiless e s0 = false) as Nb'. { unfold bodiless. rewrite St. cbn [fst]. destruct (is_head e || no_content z) eqn:X; [|reflexivity]. now apply bodyless_iff in X. }
  assert (phase s0 d ch' op (mkA s0 ch' op) []) as P0 by (split; [reflexivity|split; [reflexivity|left; now split]]).
  rewrite fold_left_app. pose proof (bodies_phase s0 d ch' op l W Nb' _ _ P0) as P1. cbn [fold_left app] in P1 |- *. fold (asgi_sends e phrase text size (map (fun x => Body x true) l) (mkA s0 ch' op)).
  destruct (last_body s0 d ch' op _ _ x W Nb' P1) as (a2 & P2 & ->). destruct (finish_phase s0 d ch' op a2 _ W Nb' P2) as (lines & c & kp & items & (G & O1 & C1 & T1 & T2 & [K1 Cn] & L1 & L2) & R). cbv zeta in R. destruct R as (Eo & Ek & Eop & C).
  rewrite St in *. exists lines, items. split; [exact Eo|]. split; [exact O1|]. split; [exact G|].
  assert (c = chunked) as Ec. { rewrite C1. unfold chunk_choice, chunked, ch'. assert (no_content (fst (z, p)) = false) as -> by (unfold bodiless in Nb'; rewrite St in Nb'; now apply orb_false_iff in Nb'). destruct length; [now rewrite andb_false_r|]. cbn [negb]. rewrite andb_true_r. destruct ch as [[|]|]; [easy|now rewrite andb_false_r|now rewrite andb_true_r]. }
  split; [|split; [|split; [exact Eop|split]]].
  4:{ rewrite K in Cn. cbn [fst] in Cn. unfold word_of in Cn. assert (special z = (z =? 426)%Z) as Sz.
      { unfold special. destruct (Z.eqb_spec z 101) as [->|_]; [|reflexivity]. exfalso. apply Nb. right. lia. }
      rewrite Sz in Cn. cbn [r_keep new_rsp] in Cn. destruct (keep && negb (wants_close hs)); [|exact Cn]. destruct (z =? 426)%Z; exact Cn. }
  - rewrite <- Ec. destruct c.
    + split; [now apply T1|]. exists (map chunk_of (filter nonempty (l ++ [x]))). split; [rewrite C; apply enc_chunks|]. split; [apply enc_chunks_good|apply chunks_data_of].
    + split; [now apply T2|]. rewrite C. apply enc_plain.
  - rewrite Ek, K1, K, M, Ec. reflexivity.
  - intros key y Nk. assert (~ In key (bs "date" :: bs "server" :: decided)) as N1 by (intros I; apply Nk; cbn in I |- *; tauto). assert (key <> k_line) as N2 by (intros ->; apply Nk; cbn; tauto).
    assert (forall h, In h (filter (fun h : bytes * bytes => beqb (lower (fst h)) key) hs) -> lower (fst h) = key /\ ~ In ":"%char (fst h)) as Kf.
    { intros h I. apply filter_In in I as [I X]. apply beqb_eq in X. split; [exact X|]. rewrite Forall_forall in F1. apply (F1 h I). }
    rewrite <- (Lk key Nk). unfold now_of. split.
    + intros [I F]. destruct (L2 key y N1 N2 I F) as (l0 & -> & Il). exact Il.
    + destruct (hget key d) as [l0|] eqn:Eh; [|intros []]. intros I. split; [exact (L1 key l0 N1 Eh y I)|]. pose proof (Lk key Nk) as X. unfold now_of in X. rewrite Eh in X. rewrite X in I.
      unfold app_lines in I. apply in_map_iff in I as (h & <- & I). destruct (Kf h I) as [<- Nc2]. now apply field_name_app.
Qed.
End Bodies.
