(** Proofs about applications with middlewares and streaming handlers (C79): from a request to its response. *)
From Verif Require Import PyBytes PyBytesFacts PyBytesFacts2 PyDictFacts PyInt PyIntFacts PyExn PyUtf8 PyRe M_Parser M_Framing M_Route M_Conn M_Response M_Server M_Pages M_Site M_Stack
  S_Head S_Scope S_Route S_Response S_Calls S_Chunked S_Conn S_Site S_AsgiSite S_Stack P_Route P_Response P_Response2 P_Response3 P_Response4 P_Response5 P_Response6 P_Said P_Response7 P_Response8
  P_Framing P_Site P_Site2 P_Site3 P_Site4 P_Exchange P_AsgiSite P_Stack.

(** ** Calls *)
Definition nb (h : hop) : bool := match h with HBase => false | _ => true end.
Lemma final_nb l : forall st, final_status (filter nb l) st = final_status l st.
Proof. induction l as [|h l IH]; intros st; [reflexivity|]. destruct h; cbn [filter nb final_status]; apply IH. Qed.
Lemma said_nb k l : forall now, said k (filter nb l) now = said k l now.
Proof. induction l as [|h l IH]; intros now; [reflexivity|]. destruct h; cbn [filter nb said]; apply IH. Qed.
Lemma final_app a b : forall st, final_status (a ++ b) st = final_status b (final_status a st).
Proof. induction a as [|h a IH]; intros st; [reflexivity|]. destruct h; cbn [app final_status]; apply IH. Qed.
Lemma nb_user ops : Forall user_call ops -> filter nb ops = ops.
Proof. induction 1 as [|h l U F IH]; [reflexivity|]. destruct h; cbn [filter nb]; now rewrite ?IH. Qed.
Lemma nb_walked xs : Forall (fun x => Forall user_call (fst x)) xs -> filter nb (walked xs) = fst (turned xs).
Proof.
  induction 1 as [|[ops [d|]] xs U F IH]; [reflexivity| |]; cbn [walked turned filter nb fst] in *; [now apply nb_user|]. now rewrite filter_app, (nb_user _ U), IH.
Qed.
Lemma nb_based xs : Forall (Forall user_call) xs -> filter nb (based xs) = List.concat xs.
Proof. induction 1 as [|ops xs U F IH]; [reflexivity|]. unfold based in *. cbn [flat_map List.concat filter app nb]. now rewrite filter_app, (nb_user _ U), IH. Qed.
(** Calls that the server and the application make before the handler ends. *)
Definition usual (h : hop) : Prop := appends_clean h /\ name_ok h /\ unreserved h /\ match h with HStatus z _ => ~ bodyless [] z | _ => True end.
Lemma user_usual h : user_call h -> usual h.
Proof. destruct h; cbn; unfold usual; cbn; tauto. Qed.
Lemma users_usual l : Forall user_call l -> Forall usual l.
Proof. apply Forall_impl. exact user_usual. Qed.
Lemma base_usual : usual HBase.
Proof. unfold usual; cbn; tauto. Qed.
Lemma usual_all l : Forall usual l -> Forall appends_clean l /\ Forall name_ok l /\ Forall unreserved l.
Proof. intros U. split; [|split]; (eapply Forall_impl; [|exact U]); unfold usual; tauto. Qed.
Lemma walked_usual xs : Forall (fun x => Forall user_call (fst x)) xs -> Forall usual (walked xs).
Proof.
  induction 1 as [|[ops [d|]] xs U F IH]; cbn [walked fst] in *; [constructor| |]; (apply Forall_cons; [exact base_usual|]); [now apply users_usual|]. apply Forall_app. split; [now apply users_usual|exact IH].
Qed.
Lemma based_usual xs : Forall (Forall user_call) xs -> Forall usual (based xs).
Proof. induction 1 as [|ops xs U F IH]; [constructor|]. unfold based in *. cbn [flat_map app]. apply Forall_cons; [exact base_usual|]. apply Forall_app. split; [now apply users_usual|exact IH]. Qed.
Lemma usual_status l st : Forall usual l -> ~ bodyless [] (fst st) -> ~ bodyless [] (fst (final_status l st)).
Proof.
  intros F. revert st. induction F as [|h l (_ & _ & _ & U) F IH]; intros st N; [exact N|]. destruct h; cbn [final_status]; try (now apply IH). apply IH. destruct (memb LF message); [exact N|exact U].
Qed.
Lemma ok_status : ~ bodyless [] (fst (200%Z, bs "OK")).
Proof. intros X. vm_compute in X. intuition discriminate. Qed.
Lemma sure_clean e h : user_call h -> sure_call h -> clean e h.
Proof. destruct h; cbn; tauto. Qed.
Lemma based_clean e xs : one_line (e_date e) -> one_line (e_server e) -> Forall (Forall user_call) xs -> Forall (Forall sure_call) xs -> Forall (clean e) (based xs).
Proof.
  intros A B U S. induction U as [|ops xs Uo F IH]; [constructor|]. inversion_clear S as [|? ? So S']. unfold based in *. cbn [flat_map app]. apply Forall_cons; [now split|]. apply Forall_app. split; [|now apply IH].
  apply Forall_forall. intros h I. rewrite Forall_forall in Uo, So. now apply sure_clean; [apply Uo|apply So].
Qed.
Lemma based_framing xs : Forall (Forall sure_call) xs -> Forall (fun h => ~ In (bs "transfer-encoding") (names h) /\ ~ In (bs "content-length") (names h)) (based xs).
Proof.
  induction 1 as [|ops xs So F IH]; [constructor|]. unfold based in *. cbn [flat_map app]. apply Forall_cons; [cbn; intuition discriminate|]. apply Forall_app. split; [|exact IH].
  eapply Forall_impl; [|exact So]. intros [n v|n v|n v d x p dm ss se ho|z m|c|]; cbn [sure_call names In]; try solve [intuition discriminate];
    (intros (_ & _ & N); split; intros [X|[]]; apply N; rewrite X; [now left|right; now left]).
Qed.

(** ** Answers *)
Lemma answer_body kp e n str pre mid x : e_11 e = true -> (1 <= n)%Z -> Forall appends_clean pre -> Forall name_ok pre -> Forall unreserved pre -> Forall name_ok mid -> Forall (clean e) mid ->
  Forall (fun h => ~ In (bs "transfer-encoding") (names h) /\ ~ In (bs "content-length") (names h)) mid -> ~ bodyless (e_method e) (fst (the_status pre)) ->
  exists s' items lines, answer_of e (mkHOpts None str n) mid x (start e pre kp) = (Ok tt, s') /\ r_out s' = map Some items ++ [None] /\
    fine (List.concat items) (mkAnswer (status_line e (the_status (pre ++ mid))) lines (data_in x)) /\ r_keep s' = kp /\ forall k, ~ In k added -> lines_named k lines = said k (pre ++ mid) [].
Proof.
  intros V Hn A1 A2' A3 A2'' C T NB. assert (Forall name_ok (pre ++ mid)) as A2 by (apply Forall_app; now split).
  assert (final_status mid (the_status pre) = the_status (pre ++ mid)) as Es by (unfold the_status; now rewrite final_app).
  destruct x as [d|y0 ys]; cbn [answer_of h_buf].
  - destruct (c31_value_main e (mkHOpts None true n) pre mid d kp Hn A1 A2 A3 C T NB) as (s' & lines & items & E & O & Ol & Nb & Ke & Sd & X). cbn [h_chunked] in X. rewrite V in X. destruct X as (Te & cs & Ci & Gc & Cd).
    rewrite Es in *. exists s', (head_of (status_line e (the_status (pre ++ mid)) :: lines) :: items), lines. split; [exact E|]. split; [exact O|]. split; [|split; [exact Ke|exact Sd]].
    cbn [List.concat]. rewrite Ci, <- Cd. apply fine_chunked; [exact Ol|discriminate|exact Nb|apply Te|exact Gc].
  - destruct (c31_main e (mkHOpts None str n) pre mid y0 ys kp V ltac:(discriminate) Hn A1 A2 A3 C) as (s' & lines & items & cs & E & O & Ol & Te & Nb & Ci & Gc & Cd & Ke & Sd); [|exact NB|].
    { eapply Forall_impl; [|exact T]. now intros h [X _]. }
    rewrite Es in *. exists s', (head_of (status_line e (the_status (pre ++ mid)) :: lines) :: items), lines. split; [exact E|]. split; [exact O|]. split; [|split; [exact Ke|exact Sd]].
    cbn [List.concat data_in]. rewrite Ci. change (y0 ++ List.concat ys) with (List.concat (y0 :: ys)). rewrite <- Cd. apply fine_chunked; [exact Ol|discriminate|exact Nb|apply Te|exact Gc].
Qed.
Lemma answer_right e n str pre mid x : e_11 e = true -> (1 <= n)%Z -> Forall usual pre -> Forall usual mid -> Forall (clean e) mid ->
  Forall (fun h => ~ In (bs "transfer-encoding") (names h) /\ ~ In (bs "content-length") (names h)) mid -> e_method e <> bs "HEAD" ->
  exists s' items lines, answer_of e (mkHOpts None str n) mid x (start e pre true) = (Ok tt, s') /\ r_out s' = map Some items ++ [None] /\
    fine (List.concat items) (mkAnswer (status_line e (the_status (pre ++ mid))) lines (data_in x)) /\ r_keep s' = true /\ forall k, ~ In k added -> lines_named k lines = said k (pre ++ mid) [].
Proof.
  intros V Hn U Um C T NH. destruct (usual_all _ U) as (A1 & A2' & A3). destruct (usual_all _ Um) as (_ & A2'' & _).
  apply answer_body; try assumption. apply bodyless_other; [exact NH|]. apply usual_status; [exact U|exact ok_status].
Qed.
Lemma unframed_get key d : NoDup (map fst d) -> existsb (beqb key) framing = false -> hget key (unframed d) = hget key d.
Proof.
  intros ND F. unfold hget, unframed. induction d as [|[k v] d IH]; [reflexivity|]. cbn [map fst] in ND. inversion_clear ND as [|? ? Nk ND']. cbn [filter fst dget].
  destruct (beqb key k) eqn:E.
  - apply beqb_eq in E as <-. rewrite F. cbn [negb dget]. now rewrite beqb_refl.
  - destruct (negb (existsb (beqb k) framing)); cbn [dget]; rewrite ?E; now apply IH.
Qed.
Lemma unframed_good P d : good P d -> good P (unframed d).
Proof.
  intros [ND G]. split; [|intros k l I; apply filter_In in I as [I _]; now apply G].
  unfold unframed. induction d as [|[k v] d IH]; [constructor|]. cbn [map fst] in ND. inversion_clear ND as [|? ? Nk ND']. cbn [filter fst].
  assert (NoDup (map fst (filter (fun kv => negb (existsb (beqb (fst kv)) framing)) d))) as X by (apply IH; [exact ND'|intros k0 l0 I0; apply G; now right]).
  destruct (negb (existsb (beqb k) framing)); [|exact X]. cbn [map fst]. constructor; [|exact X]. intros I. apply Nk. apply in_map_iff in I as (x & Ex & I). apply filter_In in I as [I _]. apply in_map_iff. now exists x.
Qed.
Lemma end_lines kp e ops d : one_line (e_date e) -> one_line (e_server e) -> Forall appends_clean ops -> Forall name_ok ops -> Forall unreserved ops ->
  exists s' lines body, let first := status_line e (the_status (HBase :: ops)) in
    end_ e d true None (start e (HBase :: ops) kp) = (Ok tt, s') /\ r_out s' = [Some (head_of (first :: lines) ++ body); None] /\
    (bodyless (e_method e) (fst (the_status (HBase :: ops))) -> body = []) /\ (~ bodyless (e_method e) (fst (the_status (HBase :: ops))) -> body = d /\ fine (head_of (first :: lines) ++ d) (mkAnswer first lines d)) /\
    Forall one_line (first :: lines) /\ ~ In [] lines /\ only_line (bs "connection") (bs "Connection: " ++ (if kp then bs "keep-alive" else bs "close")) lines /\ r_keep s' = kp /\ forall k, ~ In k added -> lines_named k lines = said k (HBase :: ops) [].
Proof.
  intros OD OS A1 A2 A3.
  destruct (called_intro True e (HBase :: ops) kp ltac:(now constructor) ltac:(intros _; now constructor) ltac:(now constructor)) as (st & Ca).
  destruct (c30_main e ops kp d true None st OD OS A1 A2 A3 (ca_h _ _ _ _ _ _ Ca)) as (s' & ct & body & E & O & Ke & Bn & Bd & Ol & Fo & _).
  change (final_status ops (200%Z, bs "OK")) with (the_status (HBase :: ops)) in *. cbn [andb] in *.
  assert (good (P1 True) st) as GD by (apply (proj1 (ca_g _ _ _ _ _ _ Ca)), (ca_h _ _ _ _ _ _ Ca)).
  set (others := List.concat (map snd (filter (fun kv => negb (existsb (beqb (fst kv)) framing)) st))) in *. change others with (lines_of (unframed st)) in *.
  set (lines := (bs "Content-Type: " ++ ct) :: (bs "Content-Length: " ++ fmt_d (blen d)) :: (bs "Connection: " ++ (if kp then bs "keep-alive" else bs "close")) :: lines_of (unframed st)) in *.
  exists s', lines, body. cbv zeta. split; [exact E|]. split; [exact O|]. split; [exact Bn|].
  assert (hmem k_line (unframed st) = false) as ML.
  { unfold hmem, dmem. pose proof (unframed_get k_line st (proj1 GD) eq_refl) as X. unfold hget in X. rewrite X. pose proof (ca_l _ _ _ _ _ _ Ca) as Y. unfold hmem, dmem in Y. exact Y. }
  assert (~ In [] lines) as NBl.
  { intros [X|[X|[X|I]]]; [discriminate|discriminate|discriminate|]. unfold lines_of in I. apply in_concat in I as (v & I & Ix). apply in_map_iff in I as ((k & l0) & <- & I). cbn [snd] in Ix.
    destruct (unframed_good _ _ GD) as [_ G']. destruct (G' k l0 I) as [_ Fl]. rewrite Forall_forall in Fl. destruct (Fl [] Ix) as [_ N].
    assert (k <> k_line) as NL. { intros ->. unfold hmem, dmem in ML. rewrite (in_dget _ _ _ (proj1 (unframed_good _ _ GD)) I) in ML. discriminate. }
    apply (N Logic.I) in NL as (n & v & X & _). now destruct n. }
  assert (forall n v : bytes, ~ In ":"%char n -> field_name (n ++ bs ": " ++ v) = lower n) as FN.
  { intros n v Nc. apply field_name_named. now exists n, v. }
  assert (only_line (bs "connection") (bs "Connection: " ++ (if kp then bs "keep-alive" else bs "close")) lines) as Cn.
  { split; [right; right; now left|]. intros l [<-|[<-|[<-|I]]]; [change (bs "Content-Type: " ++ ct) with (bs "Content-Type" ++ bs ": " ++ ct) | change (bs "Content-Length: " ++ fmt_d (blen d)) with (bs "Content-Length" ++ bs ": " ++ fmt_d (blen d)) | reflexivity |].
    - rewrite FN by (apply memb_notIn; reflexivity). vm_compute. discriminate.
    - rewrite FN by (apply memb_notIn; reflexivity). vm_compute. discriminate.
    - rewrite Forall_forall in Fo. specialize (Fo l I). intros X. exfalso. apply Fo. rewrite X. cbn. tauto. }
  split; [|split; [exact Ol|split; [exact NBl|split; [exact Cn|split; [exact Ke|]]]]].
  - intros NB. split; [now apply Bd|]. apply fine_length; [exact Ol|discriminate|exact NBl| | |].
    + intros l [<-|[<-|[<-|I]]]; [change (bs "Content-Type: " ++ ct) with (bs "Content-Type" ++ bs ": " ++ ct) | change (bs "Content-Length: " ++ fmt_d (blen d)) with (bs "Content-Length" ++ bs ": " ++ fmt_d (blen d)) | vm_compute; discriminate |].
      * rewrite FN by (apply memb_notIn; reflexivity). vm_compute. discriminate.
      * rewrite FN by (apply memb_notIn; reflexivity). vm_compute. discriminate.
      * rewrite Forall_forall in Fo. specialize (Fo l I). intros X. apply Fo. rewrite X. cbn. tauto.
    + exists (bs "Content-Length: " ++ fmt_d (blen d)). split; [right; now left|]. change (bs "Content-Length: " ++ fmt_d (blen d)) with (bs "Content-Length" ++ bs ": " ++ fmt_d (blen d)). rewrite FN by (apply memb_notIn; reflexivity). reflexivity.
    + intros l [<-|[<-|[<-|I]]].
      * change (bs "Content-Type: " ++ ct) with (bs "Content-Type" ++ bs ": " ++ ct). rewrite FN by (apply memb_notIn; reflexivity). vm_compute. discriminate.
      * intros _. change (bs "Content-Length: " ++ fmt_d (blen d)) with (bs "Content-Length" ++ bs ": " ++ fmt_d (blen d)). apply text_of; [apply memb_notIn; reflexivity|].
        unfold blen. rewrite fmt_d_nonneg by lia. destruct (fmt_nat_canonical (Z.to_N (Z.of_nat (List.length d)))) as ((_ & X & _) & _). exact X.
      * vm_compute. discriminate.
      * rewrite Forall_forall in Fo. specialize (Fo l I). intros X. exfalso. apply Fo. rewrite X. cbn. tauto.
  - intros k NA. unfold lines, lines_named. cbn [filter].
    assert (forall n v : bytes, In (lower n) added -> ~ In ":"%char n -> beqb (field_name (n ++ bs ": " ++ v)) k = false) as Kf.
    { intros n v I Nc. rewrite FN by exact Nc. apply beqb_neq. intros <-. now apply NA. }
    rewrite (Kf (bs "Content-Type") ct ltac:(cbn; tauto) ltac:(apply memb_notIn; reflexivity) : beqb (field_name (bs "Content-Type: " ++ ct)) k = false).
    rewrite (Kf (bs "Content-Length") (fmt_d (blen d)) ltac:(cbn; tauto) ltac:(apply memb_notIn; reflexivity) : beqb (field_name (bs "Content-Length: " ++ fmt_d (blen d))) k = false).
    rewrite (Kf (bs "Connection") (if kp then bs "keep-alive" else bs "close") ltac:(cbn; tauto) ltac:(apply memb_notIn; reflexivity) : beqb (field_name (bs "Connection: " ++ (if kp then bs "keep-alive" else bs "close"))) k = false).
    change (filter _ (lines_of (unframed st))) with (lines_named k (lines_of (unframed st))). rewrite (named_lines True k _ Logic.I (unframed_good _ _ GD) ML).
    assert (existsb (beqb k) framing = false) as Fk.
    { destruct (existsb (beqb k) framing) eqn:X; [|reflexivity]. apply existsb_exists in X as (y & Iy & Ey). apply beqb_eq in Ey as ->. exfalso. apply NA. cbn in Iy |- *. tauto. }
    rewrite (unframed_get k st (proj1 GD) Fk). destruct (beqb k k_line) eqn:EK.
    + apply beqb_eq in EK as ->. pose proof (ca_l _ _ _ _ _ _ Ca) as Y. unfold hmem, dmem in Y. unfold hget. destruct (dget beqb k_line st); [discriminate|]. symmetry. apply (said_none k_line (HBase :: ops)).
      apply Forall_cons; [cbn; intuition discriminate|]. eapply Forall_impl; [|exact A3]. apply unreserved_names.
    + apply beqb_neq in EK. rewrite <- (at_get k _ st (ca_h _ _ _ _ _ _ Ca)). rewrite (said_hops e k (HBase :: ops) NA EK) by discriminate. reflexivity.
Qed.

Lemma end_right e ops d : one_line (e_date e) -> one_line (e_server e) -> Forall usual ops -> e_method e <> bs "HEAD" ->
  exists s' items lines, end_ e d true None (start e (HBase :: ops) true) = (Ok tt, s') /\ r_out s' = map Some items ++ [None] /\
    fine (List.concat items) (mkAnswer (status_line e (the_status (HBase :: ops))) lines d) /\ r_keep s' = true /\ forall k, ~ In k added -> lines_named k lines = said k (HBase :: ops) [].
Proof.
  intros OD OS U NH. destruct (usual_all _ U) as (A1 & A2 & A3). destruct (end_lines true e ops d OD OS A1 A2 A3) as (s' & lines & body & E & O & _ & Nb & _ & _ & _ & Ke & Sd).
  destruct Nb as [-> Fi]; [apply bodyless_other; [exact NH|]; apply (usual_status ops); [exact U|exact ok_status]|].
  eexists s', [_], lines. split; [exact E|]. split; [exact O|]. cbn [List.concat]. rewrite app_nil_r. split; [exact Fi|]. split; [exact Ke|exact Sd].
Qed.

(** ** A request and its response *)
Lemma numbered_snd {A} w (l : list (func A * opts)) : map snd (numbered w l) = l.
Proof.
  unfold numbered. assert (forall n, map snd (combine (map w (List.seq n (List.length l))) l) = l) as K; [|apply K].
  induction l as [|x l IH]; intros n; [reflexivity|]. cbn [List.length List.seq map combine snd]. now rewrite IH.
Qed.
Lemma eyes_see o c r ns : sound_call o c -> frame_head (m_head (msg_of c)) (blen (m_head (msg_of c)) - 2) = Framed r -> Forall (fun n => ~ In n reserved) ns ->
  seen r ns = map (fun n => values n (sent_fields c)) ns.
Proof.
  intros G Fr F. destruct (call_framed o c G) as (r' & Fr' & _ & _ & _ & _ & _ & _ & _ & St & _). rewrite Fr in Fr'. injection Fr' as <-.
  unfold seen. apply map_ext_in. intros n I. apply St. rewrite Forall_forall in F. now apply F.
Qed.
Lemma stack_right o ap paths c date : good_app ap paths -> good_call o c -> one_line date ->
  exists r z w x, frame_head (m_head (msg_of c)) (blen (m_head (msg_of c)) - 2) = Framed r /\ snd (app_serve date ap r (body_of c)) = z /\
    (exists items, r_out z = map Some items ++ [None] /\ List.concat items = w) /\ fine w x /\ right_page ap paths c x /\ r_keep z = true.
Proof.
  intros (SR & S0 & SB & SN & SL & SE & SP & SF & SA) G OD. destruct (call_framed o c (good_sound _ _ G)) as (r & Fr & Va & Me & Ur & Ve & Ka & _ & Pa & _). apply (good_keeps o c _ G) in Ka.
  pose proof (fun ns F => eyes_see o c r ns (good_sound _ _ G) Fr F) as Ey.
  destruct G as (Ft & _ & _ & NH & (p & HP) & _). assert (~ In LF (k_url c)) as NL by (destruct Ft as (_ & X & _); rewrite !in_app_iff in X; tauto).
  pose proof (chosen (p_regs ap) paths (k_url c) p SR HP NL) as Ch.
  exists r. unfold app_serve. rewrite Va, Ve, Me, Ka. change (beqb (bs "1.1") (bs "1.1")) with true. set (e := mkEnv true (upper (k_method c)) date (p_name ap)).
  unfold serve_request, headers_received. set (sv := server_of e ap r).
  set (eyes := map (fun n => values n (sent_fields c)) (p_eyes ap)).
  set (xs := map (fun g => g (upper (k_method c)) (k_url c) eyes) (p_before ap)).
  set (zs := map (fun g => g (upper (k_method c)) (k_url c) eyes) (p_after ap)).
  assert (map snd (numbered ReqMid (s_req sv)) = map (fun x => (mid_func e x, [])) xs) as Hx.
  { rewrite numbered_snd. unfold sv, server_of. cbn [s_req]. rewrite Me, Ur, (Ey _ SE). unfold xs. now rewrite map_map. }
  assert (mids_are e sv (rev zs)) as Hz.
  { unfold mids_are. rewrite map_rev, numbered_snd. unfold sv, server_of. cbn [s_resp]. rewrite Me, Ur, (Ey _ SE). unfold zs. now rewrite !map_rev, map_map. }
  assert (Forall (fun x => Forall user_call (fst x)) xs) as Ux.
  { unfold xs. apply Forall_map. eapply Forall_impl; [|exact SF]. intros g Hg. apply Hg. }
  assert (Forall (Forall user_call) (rev zs) /\ Forall (Forall sure_call) (rev zs)) as [Uz Sz].
  { split; apply Forall_rev; unfold zs; apply Forall_map; (eapply Forall_impl; [|exact SA]); intros g Hg; apply Hg. }
  unfold right_page, page_by. fold eyes. fold xs. fold zs.
  pose proof (before_run e xs OD SN (numbered ReqMid (s_req sv)) (mkW tt (new_rsp true) [] []) Hx) as Bf.
  destruct (turned xs) as [calls [d|]] eqn:Tu; cbn [snd] in Bf.
  - (* a request middleware answers *)
    assert (exists ops, walked xs = HBase :: ops /\ Forall usual ops /\ filter nb ops = calls) as (ops & Ew & Uo & En).
    { pose proof (walked_usual xs Ux) as W. pose proof (nb_walked xs Ux) as N. rewrite Tu in N. cbn [fst] in N. destruct (walked xs) as [|h ops] eqn:Ew; [|].
      - destruct xs as [|[ops [d'|]] xs']; discriminate.
      - assert (h = HBase) as -> by (destruct xs as [|[? [?|]] ?]; cbn [walked] in Ew; congruence). exists ops. split; [reflexivity|]. split; [now inversion W|exact N]. }
    destruct (end_right e ops d OD SN Uo NH) as (s' & items & lines & E & O & Fi & Ke & Sd). cbn [w_rsp] in Bf. rewrite Ew in Bf. destruct (Bf s' E) as (w' & Em & Rw).
    exists s', (List.concat items), (mkAnswer (status_line e (the_status (HBase :: ops))) lines d). split; [exact Fr|]. unfold andthen at 1. rewrite Em. unfold ret. cbn [snd]. split; [exact Rw|].
    split; [now exists items|]. split; [exact Fi|]. split; [|exact Ke]. unfold says. cbn [r_line r_data r_lines]. rewrite <- En. split; [|split; [reflexivity|]].
    + unfold the_status. rewrite final_nb. reflexivity.
    + intros name NA. rewrite (Sd name NA), said_nb. reflexivity.
  - destruct Bf as (w1 & Em & R1). cbn [w_rsp] in R1. unfold andthen at 1. rewrite Em. cbn [snd].
    pose proof (walked_usual xs Ux) as Uw. pose proof (nb_walked xs Ux) as Nw. rewrite Tu in Nw. cbn [fst] in Nw.
    destruct (usual_all _ Uw) as (W1 & W2 & W3). destruct (called_intro True e (walked xs) true W1 (fun _ => W2) W3) as (st & Ca).
    assert (r_headers (w_rsp w1) = Some st) as H1 by (rewrite R1; apply (ca_h _ _ _ _ _ _ Ca)). pose proof (ca_l _ _ _ _ _ _ Ca) as L1.
    assert (forall kw str ops x, kw_ok kw str -> Forall usual (pre_kw kw) -> Forall user_call ops ->
      exists w' items w y, handle_response e sv (has_body r) (page_func e (ops, x)) (merge kw []) w1 = (w', inl tt) /\ r_out (w_rsp w') = map Some items ++ [None] /\ r_keep (w_rsp w') = true /\ List.concat items = w /\ fine w y /\
        says (calls ++ (pre_kw kw ++ ops) ++ List.concat (rev zs)) (data_in x) y) as K.
    { intros kw str ops x Hk Uk Uo. set (pre := walked xs ++ pre_kw kw ++ HBase :: ops).
      assert (Forall usual pre) as Up. { unfold pre. rewrite !Forall_app. split; [exact Uw|]. split; [exact Uk|]. apply Forall_cons; [exact base_usual|now apply users_usual]. }
      destruct (answer_right e (p_buf ap) str pre (based (rev zs)) x eq_refl SB Up (based_usual _ Uz) (based_clean e _ OD SN Uz Sz) (based_framing _ Sz) NH) as (s' & items & lines & E & O & Fi & Ke & Sd).
      destruct (handle_stack e sv (has_body r) (p_buf ap) str kw ops x (rev zs) w1 st s' OD SN Hz eq_refl Hk H1 L1) as (w' & Eh & Rw).
      { rewrite R1, <- do_hops_app. exact E. }
      exists w', items, (List.concat items), (mkAnswer (status_line e (the_status (pre ++ based (rev zs)))) lines (data_in x)). split; [exact Eh|]. split; [now rewrite Rw|]. split; [now rewrite Rw|]. split; [reflexivity|]. split; [exact Fi|].
      assert (filter nb (pre ++ based (rev zs)) = calls ++ (pre_kw kw ++ ops) ++ List.concat (rev zs)) as Nf.
      { unfold pre. rewrite !filter_app, Nw, (nb_based _ Uz). cbn [filter nb]. rewrite (nb_user _ Uo). replace (filter nb (pre_kw kw)) with (pre_kw kw); [now rewrite <- !app_assoc|].
        destruct Hk as [(-> & _)|(z & m & _ & [(-> & _)|(-> & _)])]; reflexivity. }
      unfold says. cbn [r_line r_data r_lines]. rewrite <- Nf. split; [|split; [reflexivity|]].
      - unfold the_status. rewrite final_nb. reflexivity.
      - intros name NA. rewrite (Sd name NA), said_nb. reflexivity. }
    unfold app_route. rewrite Ur. destruct (function_of (p_regs ap) paths p) as [f|] eqn:Ff.
    + destruct Ch as [m ->]. cbn [fst]. destruct f as [|f].
      * cbn [Nat.eqb index]. destruct (K [(bs "status", VStatus 503 (bs "Service Unavailable"))] true [] (Whole (bs "Service Unavailable"))) as (w' & items & w & y & Eh & O & Ke & Ew & Fi & Sy); [|repeat constructor|constructor|].
        { right. exists 503%Z, (bs "Service Unavailable"). split; [apply memb_notIn; reflexivity|]. left. now split. }
        { intros X. vm_compute in X. intuition discriminate. }
        exists (w_rsp w'), w, y. split; [exact Fr|]. rewrite Eh. cbn [snd]. split; [reflexivity|]. split; [now exists items|]. split; [exact Fi|]. split; [|exact Ke]. exists p. split; [exact HP|]. rewrite Ff. exact Sy.
      * cbn [Nat.eqb index]. rewrite Me, (Ey _ (SL (S f))). set (page := p_page ap (S f) _ _ _ _). pose proof (SP (S f) (upper (k_method c)) (k_url c) (map (fun n => values n (sent_fields c)) (p_looks ap (S f))) (body_of c)) as Up. fold page in Up.
        destruct (K [] true (fst page) (snd page)) as (w' & items & w & y & Eh & O & Ke & Ew & Fi & Sy); [left; now split|constructor|exact Up|].
        exists (w_rsp w'), w, y. split; [exact Fr|]. replace (fst page, snd page) with page in Eh by now destruct page. rewrite Eh. cbn [snd]. split; [reflexivity|]. split; [now exists items|]. split; [exact Fi|]. split; [|exact Ke]. exists p. split; [exact HP|]. rewrite Ff. fold page. exact Sy.
    + rewrite Ch. cbn [on_404 app_errors]. rewrite Pa. set (path := fst (fst (partition (bs "?") (k_url c)))).
      destruct (page_404 path (p_name ap)) as [|y0 ys] eqn:P4; [discriminate|].
      destruct (K [(bs "status", VStatus 404 (bs "Not Found")); (bs "stream", VBool false)] false [] (Parts y0 ys)) as (w' & items & w & y & Eh & O & Ke & Ew & Fi & Sy); [|repeat constructor|constructor|].
      { right. exists 404%Z, (bs "Not Found"). split; [apply memb_notIn; reflexivity|]. right. now split. }
      { intros X. vm_compute in X. intuition discriminate. }
      exists (w_rsp w'), w, y. split; [exact Fr|]. change (Gen (map yields (y0 :: ys))) with (page_func e ([], Parts y0 ys)). rewrite Eh. cbn [snd]. split; [reflexivity|]. split; [now exists items|]. split; [exact Fi|]. split; [|exact Ke]. exists p. split; [exact HP|]. rewrite Ff.
      exists path, (snd (partition (bs "?") (k_url c))). split; [|rewrite P4; exact Sy].
      unfold path, partition. change (bs "?") with ["?"%char]. destruct (find ["?"%char] (k_url c)) as [i|] eqn:Fi'.
      * apply find1_some in Fi' as (F1 & F2 & _). cbn [fst snd]. split; [exact F2|]. left. cbn [List.length]. rewrite Nat.add_1_r. exact F1.
      * cbn [fst snd]. split; [now apply find1_none|]. right. now split.
Qed.

(** ** The exchange *)
Section Run.
Context (o : copts) (ap : stack) (paths : list bytes) (reqs : list call) (date : nat -> bytes) (tr : list cev) (s : conn) (b : list obs).
Let M := map msg_of reqs.
Hypothesis (Ook : opts_ok o) (Aok : good_app ap paths) (Rok : Forall (good_call o) reqs) (Dok : forall i, one_line (date i)).
Hypothesis (Hrun : conn_run o conn_new tr = Some (s, b)) (Hop : c_closing s = false).
Hypothesis (Hc : client_ok o M tr) (Hs : S_Conn.settled o tr \/ client_waits o M tr) (Hh : handlers_ok o M tr) (Hp : performs_app ap date tr b).

Lemma closed_page i c : nth_error reqs i = Some c -> In i (closers tr) ->
  exists items, did i tr = map Some items ++ [None] /\ (i < ended b -> exists x, fine (List.concat items) x /\ right_page ap paths c x).
Proof.
  intros Ei Hi. destruct (closed_read o reqs tr s b Ook (all_sound _ _ Rok) Hrun Hop Hc Hs Hh i c Ei Hi) as (St & Gb & _). pose proof (nth_good _ _ _ _ Rok Ei) as G.
  destruct (stack_right o ap paths c (date i) Aok G (Dok i)) as (r & z & w & x & Fr & Ez & (items & Oi & Ew) & Rd & Ra & _).
  exists items. split; [|intros _; exists x; split; [rewrite Ew; exact Rd|exact Ra]].
  rewrite (Hp i _ r St Hi Fr), Gb, Ez. exact Oi.
Qed.
Lemma stack_exchange : exists l rest, read_answers (ended b) (written b) = Some (l, rest) /\ Forall2 (right_page ap paths) (firstn (ended b) reqs) l /\
  (input tr = List.concat (map wire M) -> quiet o tr s b -> ended b = List.length reqs /\ rest = []).
Proof.
  destruct (answers_upto fine (right_page ap paths) o reqs tr s b Ook (all_sound _ _ Rok) Hrun Hop Hc Hs Hh closed_page (ended b) (le_n _)) as (l & A & B). exists l, (out (ended b) b). split; [|split; [exact B|]].
  - rewrite written_out. assert (List.length l = ended b) as E.
    { pose proof (f2_length _ _ _ A) as X. rewrite map_length, seq_length in X. now symmetry. }
    rewrite <- E at 1. now apply read_all.
  - exact (all_done fine (right_page ap paths) o reqs tr s b Ook (all_sound _ _ Rok) Hrun Hop Hc Hs Hh closed_page).
Qed.
End Run.
