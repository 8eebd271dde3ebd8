From Verif Require Import PyBytes PyBytesFacts PyDictFacts PyInt PyExn M_Response M_Server M_Asgi S_Response S_Calls S_Asgi P_Response P_Response2 P_Response3 P_Response5 P_Response6 P_Response7 P_Server2.

Section Send.
Context (e : renv) (phrase : Z -> option bytes) (text : bytes) (size : Z).
Context (Hd : one_line (e_date e)) (Hs : one_line (e_server e)) (Hp : forall z p, phrase z = Some p -> one_line p).

Definition based (d : hdict) : Prop :=
  hget (bs "date") d = Some [bs "Date: " ++ e_date e] /\ hget (bs "server") d = Some [bs "Server: " ++ e_server e].
Definition waiting (s : rsp) (d : hdict) : Prop :=
  r_headers s = Some d /\ goodS (P1 True) s /\ hmem k_line d = false /\ r_buf s = [] /\ r_out s = [] /\ r_up s = false /\
  hget (bs "transfer-encoding") d = None /\ hmem k_ctype d = false /\ (d = [] \/ based d).
Definition gone (s : rsp) : Prop := headers_sent s = true /\ r_out s <> [] /\ sent_guarded e (r_out s).
Definition inv (s : rsp) : Prop := (exists d, waiting s d) \/ gone s.

Lemma based_ne d : based d -> d <> [].
Proof. intros [H _] ->. discriminate. Qed.
Lemma gone_more s s' t : gone s -> r_headers s' = None -> r_out s' = r_out s ++ t -> gone s'.
Proof.
  intros (A & N & [X|(f & l & b & r & E & O & G)]) H' E'; [now apply N in X|]. unfold gone. rewrite E', E. unfold headers_sent. rewrite H'. split; [reflexivity|]. split; [discriminate|].
  right. exists f, l, b, (r ++ t). now split.
Qed.
Lemma gone_none s : gone s -> r_headers s = None.
Proof. intros (A & _). unfold headers_sent in A. now destruct (r_headers s). Qed.

(** Calls of the header API. *)
Lemma base_waiting s d : waiting s d -> exists d', set_base_header e s = (Ok tt, with_headers s d') /\ waiting (with_headers s d') d' /\ based d'.
Proof.
  intros (H & G & L & B & O & U & T & C & [->|X]).
  - set (dd := [(bs "date", [header_line (bs "Date") (e_date e)]); (bs "server", [header_line (bs "Server") (e_server e)])]). exists dd.
    assert (good (P1 True) dd) as Gd.
    { split; [constructor; [intros [X|[]]; discriminate|constructor; [intros []|constructor]]|]. intros k l [X|[X|[]]]; injection X as <- <-; (split; [discriminate|]; constructor; [|constructor]; split; [apply one_line_header; [now apply one_line_bs_dec|assumption]|]; intros _ _; eexists _, _; split; [reflexivity|split; [reflexivity|]]; apply memb_notIn; reflexivity). }
    assert (based dd) as Bd by now split. split; [|split; [|exact Bd]].
    + unfold set_base_header. rewrite H. unfold set_header. assert (memb LF (e_date e) = false) as -> by now apply memb_notIn. assert (memb LF (e_server e) = false) as -> by now apply memb_notIn.
      unfold seq, get_headers. cbn [memb existsb]. change (memb LF (bs "Date")) with false. change (memb LF (bs "Server")) with false. cbn [orb]. rewrite H. reflexivity.
    + split; [reflexivity|]. split; [now apply goodS_with_headers|]. repeat (split; [assumption || reflexivity|]). now right.
  - exists d. rewrite (with_headers_id s d H). pose proof (based_ne _ X). split; [unfold set_base_header; rewrite H; now destruct d|]. split; [|exact X].
    split; [exact H|]. repeat (split; [assumption|]). now right.
Qed.
Lemma append_waiting n v s d : waiting s d -> based d -> one_line n -> one_line v -> plain_name n ->
  beqb (lower n) (bs "content-type") = false -> beqb (lower n) (bs "date") || beqb (lower n) (bs "server") || beqb (lower n) (bs "transfer-encoding") = false ->
  exists d', append_header n v s = (Ok tt, with_headers s d') /\ waiting (with_headers s d') d' /\ based d' /\ (forall k, k <> lower n -> hget k d' = hget k d) /\
    hget (lower n) d' = Some (match hget (lower n) d with Some l => l | None => [] end ++ [header_line n v]).
Proof.
  intros (H & G & L & B & O & U & T & C & _) (D1 & D2) On Ov [Nc Nl] N1 N2. apply orb_false_iff in N2 as [N2 N5]. apply orb_false_iff in N2 as [N3 N4]. apply beqb_neq in N1, N3, N4, N5.
  unfold append_header, seq, get_headers. rewrite H. set (d' := match hget (lower n) d with Some l => _ | None => _ end). exists d'.
  assert (forall k, k <> lower n -> hget k d' = hget k d) as K by (intros k Nk; unfold d'; destruct (hget (lower n) d); unfold hget, hset; now rewrite dget_dset_other).
  assert (hget (lower n) d' = Some (match hget (lower n) d with Some l => l | None => [] end ++ [header_line n v])) as K2 by (unfold d'; destruct (hget (lower n) d); unfold hget, hset; now rewrite dget_dset_same).
  assert (based d') as Bd by (split; rewrite K; auto). split; [reflexivity|]. split; [|now split].
  assert (P1 True (lower n) (header_line n v)) as Pl by (split; [now apply one_line_header|intros _ _; exists n, v; now split]).
  split; [reflexivity|]. split; [|split; [|split; [exact B|split; [exact O|split; [exact U|split; [|split; [|now right]]]]]]].
  - apply goodS_with_headers; [exact G|]. pose proof (proj1 G d H) as Gd. unfold d'. destruct (hget (lower n) d) as [l|] eqn:E; apply good_set; try exact Gd.
    + now destruct l.
    + apply Forall_app. split; [exact (proj2 (good_get _ _ _ _ Gd E))|now constructor].
    + discriminate.
    + now constructor.
  - unfold hmem, dmem in *. change (dget beqb k_line d') with (hget k_line d'). rewrite K; [exact L|]. intros X. now apply Nl.
  - rewrite K; [exact T|congruence].
  - unfold hmem, dmem in *. change (dget beqb k_ctype d') with (hget k_ctype d'). rewrite K; [exact C|]. intros X. now apply N1.
Qed.
Lemma status_waiting z p s d : waiting s d -> one_line p -> set_status z p s = (Ok tt, with_status s ((z, p) :: r_status s)) /\ waiting (with_status s ((z, p) :: r_status s)) d.
Proof.
  intros (H & G & L & R) O. unfold set_status. assert (memb LF p = false) as -> by now apply memb_notIn. unfold seq, get_headers. rewrite H. unfold hmem, dmem in L. unfold hget.
  destruct (dget beqb k_line d) eqn:E; [discriminate|]. split; [reflexivity|]. split; [exact H|]. split; [|split; [unfold hmem, dmem; now rewrite E|exact R]].
  destruct G as (A & B & C). split; [exact A|]. split; [now constructor|exact C].
Qed.
Lemma ctype_waiting v s d : waiting s d -> one_line v -> set_content_type v s = (Ok tt, with_ctype s (v :: r_ctype s)) /\ waiting (with_ctype s (v :: r_ctype s)) d.
Proof.
  intros (H & G & L & B & O & U & T & C & R) Ov. unfold set_content_type. assert (memb LF v = false) as -> by now apply memb_notIn. unfold seq, get_headers. rewrite H, C. split; [reflexivity|].
  split; [exact H|]. split; [|now repeat (split; [assumption|])]. destruct G as (G1 & G2 & G3). split; [exact G1|]. split; [exact G2|now constructor].
Qed.
Lemma keep_waiting b s d : waiting s d -> waiting (with_keep s b) d.
Proof. intros (H & (A & B & C) & R). split; [exact H|]. split; [|exact R]. now split. Qed.

(** When the head is sent, they change nothing. *)
Lemma gone_base s : gone s -> set_base_header e s = (Ok tt, s).
Proof. intros G. unfold set_base_header. now rewrite (gone_none s G). Qed.
Lemma gone_status z p s : gone s -> exists r, set_status z p s = (r, s).
Proof. intros G. unfold set_status. destruct (memb _ _); [now eexists|]. unfold seq, get_headers. rewrite (gone_none s G). now eexists. Qed.
Lemma gone_ctype v s : gone s -> exists r, set_content_type v s = (r, s).
Proof. intros G. unfold set_content_type. destruct (memb _ _); [now eexists|]. unfold seq, get_headers. rewrite (gone_none s G). now eexists. Qed.
Lemma gone_append n v s : gone s -> exists r, append_header n v s = (r, s).
Proof. intros G. unfold append_header, seq, get_headers. rewrite (gone_none s G). now eexists. Qed.

(** The error page. *)
Lemma field_name_app n v : ~ In ":"%char n -> field_name (n ++ bs ": " ++ v) = lower n.
Proof. intros H. apply field_name_named. now exists n, v. Qed.
Lemma error_guarded c m t n : one_line m -> one_line t -> guarded e (List.tl (error_lines e c m t n)).
Proof.
  intros Om Ot. pose proof (P_Server2.lines_ok e c m t n Hd Hs Om Ot) as F. unfold error_lines in F |- *. cbn [List.tl].
  assert (forall n0 v k, field_name (bs n0 ++ v) = k -> ~ In ":"%char (bs n0) -> forall u, v = bs ": " ++ u -> lower (bs n0) = k) as K by (intros n0 v k E Nc u ->; now rewrite field_name_app in E).
  assert (forall v, field_name (bs "Content-Type: " ++ v) = bs "content-type") as K1 by (intros v; apply (field_name_app (bs "Content-Type")), memb_notIn; reflexivity).
  assert (forall v, field_name (bs "Content-Length: " ++ v) = bs "content-length") as K2 by (intros v; apply (field_name_app (bs "Content-Length")), memb_notIn; reflexivity).
  assert (forall v, field_name (bs "Date: " ++ v) = bs "date") as K3 by (intros v; apply (field_name_app (bs "Date")), memb_notIn; reflexivity).
  assert (forall v, field_name (bs "Server: " ++ v) = bs "server") as K4 by (intros v; apply (field_name_app (bs "Server")), memb_notIn; reflexivity).
  assert (field_name (bs "Connection: close") = bs "connection") as K5 by reflexivity.
  unfold guarded, only_line. split; [|split; [|split]].
  - inversion_clear F. eapply Forall_impl; [|exact H0]. now intros a [_ X].
  - split; [cbn [In]; tauto|]. intros y [<-|[<-|[<-|[<-|[<-|[]]]]]] E; rewrite ?K1, ?K2, ?K3, ?K4, ?K5 in E; try discriminate. reflexivity.
  - split; [cbn [In]; tauto|]. intros y [<-|[<-|[<-|[<-|[<-|[]]]]]] E; rewrite ?K1, ?K2, ?K3, ?K4, ?K5 in E; try discriminate. reflexivity.
  - intros y [<-|[<-|[<-|[<-|[<-|[]]]]]] E; rewrite ?K1, ?K2, ?K3, ?K4, ?K5 in E; discriminate.
Qed.
Lemma fail_inv a : inv (a_rsp a) -> gone (a_rsp (a_fail e text a)).
Proof.
  intros I. unfold a_fail. destruct (handle_exception _ _ _ _) as [p s'] eqn:E. cbn [a_rsp]. destruct I as [(d & W)|G].
  - pose proof W as (H & Gs & L & B & O & U & R). assert (headers_sent (a_rsp a) = false) as Hn by (unfold headers_sent; now rewrite H).
    assert (one_line (bs "Internal Server Error")) as O1 by now apply one_line_bs_dec. assert (one_line default_ctype) as O2 by now apply one_line_bs_dec.
    pose proof (error_main e (fun _ s => (EData text, s)) (XHttp 500 (bs "Internal Server Error") default_ctype) (a_rsp a) _ _ _ (EData text) _ Hd Hs Hn B eq_refl O1 O2 eq_refl ltac:(discriminate) eq_refl eq_refl eq_refl eq_refl) as X.
    cbv zeta in X. rewrite E in X. destruct X as (_ & Eo & _ & Hsent & _). cbn [r_out] in Eo. rewrite O in Eo.
    split; [exact Hsent|]. rewrite Eo. split; [discriminate|]. right. eexists _, (List.tl (error_lines e 500 (bs "Internal Server Error") default_ctype (blen text))), _, [None]. split; [reflexivity|]. split; [|now apply error_guarded].
    pose proof (P_Server2.lines_ok e 500 (bs "Internal Server Error") default_ctype (blen text) Hd Hs O1 O2) as F. unfold error_lines in F. now inversion_clear F.
  - pose proof (gone_none _ G) as Hn. unfold handle_exception, headers_sent in E. rewrite Hn in E. cbn [andb] in E. destruct (negb (r_up (a_rsp a))).
    + injection E as _ <-. exact G.
    + unfold finish_call, close, update in E. injection E as _ <-. exact (gone_more _ (flush_close (with_keep (a_rsp a) false)) _ G Hn eq_refl).
Qed.

(** write *)
Lemma hdel_absent k (d : hdict) : hmem k d = false -> hdel k d = d.
Proof.
  unfold hmem, dmem, hdel. induction d as [|[k' v] d IH]; [reflexivity|]. cbn [dget ddel]. destruct (beqb k k'); [discriminate|]. intros H. now rewrite IH.
Qed.
Lemma write_based data ch k s d : waiting s d -> write e data ch k s = write e data ch k (snd (set_base_header e s)).
Proof.
  intros W. destruct (base_waiting s d W) as (d' & E & W' & Bd). rewrite E. cbn [snd]. destruct W as (H & _ & L & _). destruct W' as (H' & _ & L' & _).
  unfold write, headers_sent. rewrite H, H'. assert (prepare e ch s = prepare e ch (with_headers s d')) as Ep.
  { unfold prepare at 1. rewrite (seq_ok get_headers _ s d s) by (unfold get_headers; now rewrite H). rewrite L. rewrite (seq_ok _ _ _ _ _ E).
    unfold prepare. rewrite (seq_ok get_headers _ (with_headers s d') d' (with_headers s d')) by (unfold get_headers; now rewrite H'). rewrite L'.
    rewrite (seq_ok (set_base_header e) _ (with_headers s d') tt (with_headers s d')); [reflexivity|]. unfold set_base_header. rewrite H'. pose proof (based_ne _ Bd). now destruct d'. }
  unfold seq at 1 3. now rewrite Ep.
Qed.
Definition bodiless (s : rsp) : bool := is_head e || no_content (fst (status_of s)).
Lemma write_waiting data ch k s d : waiting s d ->
  exists lines c st' ct' kp up,
    let s1 := mkRsp None c st' ct' [] [Some (head_of (status_line e (status_of s) :: lines))] kp up in
    write e data ch k s = write_body (if bodiless s then None else data) k s1 /\ guarded e lines /\ one_line (status_line e (status_of s)) /\
    c = chunk_choice e ch (no_content (fst (status_of s))) /\ (c = true -> In (bs "Transfer-Encoding: chunked") lines) /\
    (c = false -> forall y, In y lines -> field_name y <> bs "transfer-encoding") /\
    ((bodiless s = true -> special (fst (status_of s)) = false -> kp = false) /\ only_line (bs "connection") (bs "Connection: " ++ word_of (r_keep s) (fst (status_of s))) lines) /\ ((fst (status_of s) =? 101)%Z = false -> up = false) /\
    (bodiless s = false -> (fst (status_of s) =? 101)%Z = false -> kp = r_keep s && (c || hmem (bs "content-length") d)) /\
    (forall key l, ~ In key (bs "date" :: bs "server" :: decided) -> hget key d = Some l -> forall y, In y l -> In y lines) /\
    (forall key y, ~ In key (bs "date" :: bs "server" :: decided) -> key <> k_line -> In y lines -> field_name y = key -> exists l, hget key d = Some l /\ In y l).
Proof.
  intros W. rewrite (write_based data ch k s d W). destruct (base_waiting s d W) as (d' & E & W' & Bd). rewrite E. cbn [snd]. destruct W' as (H & G & L & B & O & U & T & C & R).
  assert (forall key, ~ In key [bs "date"; bs "server"] -> hget key d' = hget key d) as Kd.
  { pose proof W as (H0 & _ & _ & _ & _ & _ & _ & _ & [->|X]).
    - unfold set_base_header in E. rewrite H0 in E. unfold set_header in E. assert (memb LF (e_date e) = false) as X by now apply memb_notIn. rewrite X in E. assert (memb LF (e_server e) = false) as Y by now apply memb_notIn. rewrite Y in E.
      change (memb LF (bs "Date")) with false in E. change (memb LF (bs "Server")) with false in E. cbn [orb] in E. unfold seq, get_headers in E. rewrite H0 in E. unfold put_headers, update in E. cbn [with_headers r_headers] in E.
      assert (d' = hset (lower (bs "Server")) [header_line (bs "Server") (e_server e)] (hset (lower (bs "Date")) [header_line (bs "Date") (e_date e)] [])) as -> by (apply (f_equal (fun x => r_headers (snd x))) in E; cbn [snd with_headers r_headers] in E; congruence).
      intros key N. unfold hget, hset. rewrite !dget_dset_other; [reflexivity| |]; intros ->; apply N; cbn; tauto.
    - unfold set_base_header in E. rewrite H0 in E. pose proof (based_ne _ X) as Nd. intros key _. assert (d' = d) as ->; [|reflexivity]. destruct d as [|p d0]; [easy|]. apply (f_equal (fun x => r_headers (snd x))) in E. cbn [snd with_headers r_headers] in E. congruence. }
  assert (status_of (with_headers s d') = status_of s) as Es by reflexivity.
  destruct (write_fresh True e data ch k (with_headers s d') d' H (based_ne _ Bd) G L B) as (sent & c & st' & ct' & kp & up & E1 & Sf & Gs & Nl & Ec & T1 & [K1 Cn] & K2 & U1 & K3 & T2 & C1).
  rewrite Es in *. exists (concat (map snd sent)), c, st', ct', kp, up. cbv zeta. assert (r_out (with_headers s d') = []) as Eo by exact O. cbv zeta in E1. rewrite Eo in E1.
  split; [exact E1|]. assert (hdel k_line sent = sent) as Ed. { apply hdel_absent. destruct (hmem k_line sent) eqn:X; [now apply Nl in X|reflexivity]. }
  assert (forall key x, key <> k_line -> hget key sent = Some [x] -> only_line key x (concat (map snd sent))) as Ol.
  { intros key x N X. pose proof (only_line_intro True sent key x I Gs N X) as Y. now rewrite Ed in Y. }
  assert (forall key y, key <> k_line -> In y (concat (map snd sent)) -> field_name y = key -> exists l, hget key sent = Some l /\ In y l) as Fn.
  { intros key y N Iy F. apply in_concat in Iy as (v & Iv & Iy). apply in_map_iff in Iv as ((k0 & l0) & <- & Iv). cbn [snd] in Iy. destruct Gs as [ND G']. destruct (G' k0 l0 Iv) as [_ Fl]. rewrite Forall_forall in Fl.
    destruct (Fl y Iy) as [_ Nn]. assert (k0 <> k_line) as NL by (apply Nl; unfold hmem, dmem; now rewrite (in_dget _ _ _ ND Iv)). apply (Nn I) in NL. rewrite (field_name_named k0 y NL) in F. subst k0. exists l0. split; [|exact Iy]. now apply (in_dget _ _ _ ND). }
  destruct Sf as (_ & Sf & _). assert (~ In (bs "date") decided) as Nd1 by (cbn; intros X; repeat destruct X as [X|X]; try discriminate; tauto). assert (~ In (bs "server") decided) as Nd2 by (cbn; intros X; repeat destruct X as [X|X]; try discriminate; tauto).
  assert (forall y, In y (concat (map snd sent)) -> field_name y = bs "transfer-encoding" -> c = true /\ y = bs "Transfer-Encoding: chunked") as Te.
  { intros y Iy F. destruct (Fn (bs "transfer-encoding") y ltac:(discriminate) Iy F) as (l & X & Il). destruct c; [|rewrite (T2 eq_refl), T in X; discriminate]. rewrite (T1 eq_refl) in X. injection X as <-. destruct Il as [<-|[]]. now split. }
  split; [|split; [|split; [exact Ec|split; [|split; [|split; [split; [exact K2|now apply Ol]|split; [|split; [|split]]]]]]]].
  - split; [apply (P_Response5.lines_ok True); exact Gs|]. split; [|split].
    + apply Ol; [discriminate|]. unfold hget. rewrite Sf by exact Nd1. apply Bd.
    + apply Ol; [discriminate|]. unfold hget. rewrite Sf by exact Nd2. apply Bd.
    + intros y Iy F. now apply Te.
  - apply status_line_ok. apply (status_of_line _ _ G).
  - intros X. apply T1 in X. apply dget_some_in in X. apply in_concat. exists [bs "Transfer-Encoding: chunked"]. split; [|now left]. apply in_map_iff. now exists (bs "transfer-encoding", [bs "Transfer-Encoding: chunked"]).
  - intros -> y Iy F. destruct (Te y Iy F). discriminate.
  - intros X. rewrite (U1 X). exact U.
  - intros X Y. rewrite (K3 X Y). cbn [with_headers r_keep]. f_equal. f_equal. unfold hmem, dmem. change (dget beqb (bs "content-length") d') with (hget (bs "content-length") d'). rewrite Kd; [reflexivity|]. intros [Z|[Z|[]]]; discriminate.
  - intros key l N X y Iy. assert (~ In key decided) as N1 by (intros Z; apply N; now right; right). rewrite <- Kd in X by (intros [Z|[Z|[]]]; apply N; [now left|right; now left]).
    unfold hget in X. rewrite <- Sf in X by exact N1. apply dget_some_in in X. apply in_concat. exists l. split; [|exact Iy]. apply in_map_iff. now exists (key, l).
  - intros key y N N2 Iy F. assert (~ In key decided) as N1 by (intros Z; apply N; now right; right). destruct (Fn key y N2 Iy F) as (l & X & Il). exists l. split; [|exact Il]. unfold hget in X. rewrite Sf in X by exact N1.
    rewrite <- Kd; [exact X|]. intros [Z|[Z|[]]]; apply N; [now left|right; now left].
Qed.

Lemma write_inv data ch k s : inv s -> gone (snd (write e data ch k s)).
Proof.
  intros [(d & W)|G].
  - destruct (write_waiting data ch k s d W) as (lines & c & st' & ct' & kp & up & E & Gd & O1 & _). cbv zeta in E. rewrite E. set (s1 := mkRsp _ _ _ _ _ _ _ _) in *.
    destruct (write_body_out (if bodiless s then None else data) k s1) as (tail & kp2 & E2 & _). assert (gone s1) as G1.
    { split; [reflexivity|]. split; [discriminate|]. right. exists (status_line e (status_of s)), lines, [], []. rewrite app_nil_r. now split. }
    apply (gone_more s1 _ tail G1); rewrite E2; reflexivity.
  - pose proof (gone_none s G) as H. unfold write, headers_sent. rewrite H. destruct (write_body_out data k s) as (tail & kp2 & E2 & _). apply (gone_more s _ tail G); rewrite E2; [exact H|reflexivity].
Qed.
Lemma close_gone b s : gone s -> gone (snd (close b s)).
Proof. intros G. unfold close, update. cbn [snd]. destruct b; (eapply gone_more; [exact G|exact (gone_none s G)|reflexivity]). Qed.
Lemma headers_inv hs : forall a, Forall (fun h => plain_name (fst h)) hs -> (exists d, waiting (a_rsp a) d /\ based d) \/ gone (a_rsp a) -> inv (a_rsp (start_headers e text hs a)).
Proof.
  induction hs as [|[n v] hs IH]; intros a F I; [cbn [start_headers]; destruct I as [(d & W & _)|G]; [left; now exists d|now right]|].
  inversion_clear F as [|? ? Pn F']. cbn [start_headers fst] in *. assert (inv (a_rsp a)) as Iv by (destruct I as [(d & W & _)|G]; [left; now exists d|now right]).
  destruct (memb LF n || memb LF v) eqn:Elf; [right; now apply fail_inv|]. apply orb_false_iff in Elf as [On Ov]. apply memb_notIn in On, Ov.
  destruct (beqb (lower n) (bs "content-type")) eqn:N1; [|destruct (_ || _) eqn:N2; [now apply IH|destruct (beqb (lower n) (bs "connection")) eqn:N3]].
  - unfold a_call. destruct I as [(d & W & Bd)|G].
    + destruct (ctype_waiting v (a_rsp a) d W Ov) as [E W']. rewrite E. apply IH; [exact F'|]. left. exists d. now split.
    + destruct (gone_ctype v (a_rsp a) G) as [r E]. rewrite E. destruct r; [apply IH; [exact F'|right; exact G]|right; exact G].
  - apply IH; [exact F'|]. destruct (beqb (lower v) (bs "close")); [|exact I]. destruct I as [(d & W & Bd)|G].
    + left. exists d. split; [now apply keep_waiting|exact Bd].
    + right. exact G.
  - set (a1 := if beqb (lower n) (bs "content-length") then _ else _). assert (a_rsp a1 = a_rsp a) as E1 by (unfold a1; destruct (beqb (lower n) (bs "content-length")); reflexivity). unfold a_call. rewrite E1. destruct I as [(d & W & Bd)|G].
    + destruct (append_waiting n v (a_rsp a) d W Bd On Ov Pn N1 N2) as (d' & E & W' & Bd' & _). rewrite E. apply IH; [exact F'|]. left. exists d'. split; [exact W'|assumption].
    + destruct (gone_append n v (a_rsp a) G) as [r E]. rewrite E. destruct r; [apply IH; [exact F'|right; exact G]|right; exact G].
Qed.
Lemma send_inv a ev : inv (a_rsp a) -> plain_event ev -> inv (a_rsp (asgi_send e phrase text size a ev)).
Proof.
  intros I P. destruct ev as [st hs|body more]; cbn [plain_event] in *; cbn [asgi_send].
  - assert (forall a1, inv (a_rsp a1) -> inv (a_rsp (start_base e text hs a1))) as Kb.
    { intros a1 I1. unfold start_base, a_call. destruct I1 as [(d & W)|G].
      - destruct (base_waiting _ d W) as (d' & E & W' & Bd). rewrite E. apply headers_inv; [exact P|]. left. exists d'. split; [exact W'|assumption].
      - rewrite (gone_base _ G). apply headers_inv; [exact P|]. now right. }
    destruct st as [z|]; [|now apply Kb]. destruct (phrase z) as [p|] eqn:Ep; [|exact I]. unfold a_call. destruct I as [(d & W)|G].
    + destruct (status_waiting z p _ d W (Hp z p Ep)) as [E W']. rewrite E. apply Kb. left. now exists d.
    + destruct (gone_status z p _ G) as [r E]. rewrite E. destruct r; [apply Kb|]; now right.
  - assert (forall a1, inv (a_rsp a1) -> inv (a_rsp (body_finish e more a1))) as Kf.
    { intros a1 I1. unfold body_finish. destruct more; [exact I1|]. unfold a_call. pose proof (write_inv (Some []) (a_chunked a1) kw_now _ I1) as G. destruct (write _ _ _ _ _) as [r s']. cbn [snd] in G.
      destruct r; [|right; exact G]. cbn [a_rsp]. right. pose proof (close_gone true s' G) as G'. now destruct (close true s'). }
    destruct body as [|c body]; [now apply Kf|]. unfold a_call. pose proof (write_inv (Some (c :: body)) (a_chunked a) (mkKw (headers_sent (a_rsp a)) size None) _ I) as G. destruct (write _ _ _ _ _) as [r s']. cbn [snd] in G.
    destruct r; [apply Kf|]; now right.
Qed.
Lemma sends_inv evs : forall a, inv (a_rsp a) -> Forall plain_event evs -> inv (a_rsp (asgi_sends e phrase text size evs a)).
Proof. induction evs as [|ev evs IH]; intros a I F; [exact I|]. inversion_clear F. cbn [asgi_sends fold_left]. apply IH; [now apply send_inv|assumption]. Qed.
Lemma new_inv keep : inv (new_rsp keep).
Proof. left. exists []. split; [reflexivity|]. split; [apply goodS_new|]. repeat (split; [reflexivity|]). now left. Qed.
Lemma inv_guarded s : inv s -> sent_guarded e (r_out s).
Proof. intros [(d & W)|G]; [left; apply W|apply G]. Qed.

End Send.
