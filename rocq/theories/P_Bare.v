(** Proofs about exchanges with HEAD requests and responses without a body (C81). *)
From Verif Require Import PyBytes PyBytesFacts PyBytesFacts2 PyDictFacts PyInt PyIntFacts PyExn PyUtf8 PyRe M_Parser M_Framing M_Route M_Conn M_Response M_Server M_Pages M_Site M_Stack
  S_Head S_Num S_Scope S_Route S_Response S_Calls S_Chunked S_Conn S_Site S_AsgiSite S_Stack S_Open S_Keep S_Bare S_Told P_Route P_Response P_Response2 P_Response3 P_Response4 P_Response5 P_Response6 P_Said P_Response7 P_Response8
  P_Framing P_Site P_Site2 P_Site3 P_Site4 P_Exchange P_AsgiSite P_Stack P_Stack2 P_Told P_Keep.

(** ** The client *)
Definition fine_to (m w : bytes) (x : answer) : Prop := forall rest, read_answer_to m (w ++ rest) = Some (x, rest).
Definition fine_pair (w : bytes) (p : bytes * answer) : Prop := fine_to (fst p) w (snd p).
Definition right_pair (ap : stack) (paths : list bytes) (c : S_Site.call) (p : bytes * answer) : Prop := fst p = method_of c /\ right_page_to ap paths c (snd p).
Lemma read_all_to l rest : forall ws, Forall2 fine_pair ws l -> read_answers_to (map fst l) (List.concat ws ++ rest) = Some (map snd l, rest).
Proof.
  induction l as [|x l IH]; intros ws F; inversion_clear F as [|w ? ws' ? Rw Fw]; [reflexivity|]. cbn [map read_answers_to List.concat]. rewrite <- app_assoc, (Rw _). now rewrite (IH ws' Fw).
Qed.
(** What the client reads in the Connection line. *)
Definition reads (kp : bool) (y : answer) : Prop := if kp then says_open y else says_close y.
Lemma told_read kp z items m y : told kp z -> r_out z = map Some items ++ [None] -> fine_to m (List.concat items) y -> reads kp y.
Proof.
  intros (first & lines & v & t & q & E & Ol & N0 & Nb & Cn & W) E2 Fi. rewrite E2 in E. destruct items as [|i items]; [discriminate|]. cbn [map app] in E. injection E as -> _.
  specialize (Fi []). cbn [List.concat] in Fi. unfold read_answer_to, read_answer in Fi. rewrite app_nil_r, <- app_assoc in Fi. rewrite read_head_of in Fi; [|exact Ol|intros [X|X]; [now apply N0|contradiction]|].
  2:{ pose proof (head_of_length (first :: lines)). rewrite app_length. lia. }
  assert (r_lines y = lines) as Ey.
  { destruct (beqb m _ || _); [injection Fi as <- _; reflexivity|]. destruct (existsb _ lines); [destruct (read_chunks _ _) as [[d r]|]; [|discriminate]; now injection Fi as <- _|]. destruct (map field_text _) as [|t' ts]; [discriminate|]. destruct (if forallb _ _ then _ else _) as [n|]; [|discriminate]. destruct (n <=? _); [|discriminate]. now injection Fi as <- _. }
  unfold reads, says_open, says_close. rewrite Ey. destruct kp; [destruct W as [-> | ->]; [now left|now right]|cbn [word] in W; rewrite W in Cn; exact Cn].
Qed.
Lemma fine_bare m first lines : Forall one_line (first :: lines) -> first <> [] -> ~ In [] lines -> beqb m (bs "HEAD") || bare_line first = true -> fine_to m (head_of (first :: lines)) (mkAnswer first lines []).
Proof.
  intros F N0 N B rest. unfold read_answer_to. rewrite read_head_of; [|exact F|intros [X|X]; [now apply N0|contradiction]|].
  2:{ pose proof (head_of_length (first :: lines)). rewrite app_length. lia. }
  now rewrite B.
Qed.
Lemma fine_full m w x : fine w x -> beqb m (bs "HEAD") || bare_line (r_line x) = false -> fine_to m w x.
Proof.
  intros F B rest. specialize (F rest). unfold read_answer_to. pose proof F as F'. unfold read_answer in F. destruct (read_head _ _) as [[[|first lines] rest']|]; try discriminate.
  assert (r_line x = first) as E.
  { destruct (existsb _ lines); [destruct (read_chunks _ _) as [[d r]|]; [|discriminate]; now injection F as <- _|]. destruct (map field_text _) as [|t ts]; [discriminate|]. destruct (if forallb _ _ then _ else _) as [n|]; [|discriminate]. destruct (n <=? _); [|discriminate]. now injection F as <- _. }
  rewrite E in B. now rewrite B.
Qed.
Lemma find_space n v : ~ In " "%char n -> find (bs " ") (n ++ " "%char :: v) = Some (List.length n).
Proof.
  intros N. induction n as [|c n IH]; [reflexivity|]. rewrite find_unfold. cbn [app List.length].
  replace (startswith (bs " ") (c :: n ++ " "%char :: v)) with false; [now rewrite IH by (intros H; apply N; now right)|].
  cbn [bs list_ascii_of_string startswith]. destruct (Ascii.eqb_spec " "%char c) as [<-|_]; [exfalso; apply N; now left|reflexivity].
Qed.
Lemma fmt_d_chars z c : In c (fmt_d z) -> c = "-"%char \/ dec_digit c.
Proof.
  intros H. destruct (Z.leb_spec 0 z) as [L|L].
  - right. rewrite fmt_d_nonneg in H by exact L. destruct (fmt_nat_canonical (Z.to_N z)) as ((_ & C & _) & _). rewrite Forall_forall in C. now apply C.
  - destruct z as [|p|p]; try lia. cbn [fmt_d] in H. destruct H as [<-|H]; [now left|]. right. destruct (fmt_nat_canonical (Npos p)) as ((_ & C & _) & _). rewrite Forall_forall in C. now apply C.
Qed.
Lemma code_of e st : e_11 e = true -> code_text (status_line e st) = fmt_d (fst st).
Proof.
  intros V. unfold code_text, status_line, version. rewrite V.
  change (bs "HTTP/" ++ bs "1.1" ++ bs " " ++ fmt_d (fst st) ++ bs " " ++ snd st) with (bs "HTTP/1.1" ++ " "%char :: (fmt_d (fst st) ++ " "%char :: snd st)).
  rewrite find_space by (apply memb_notIn; reflexivity). change (skipn (S (List.length (bs "HTTP/1.1"))) (bs "HTTP/1.1" ++ " "%char :: (fmt_d (fst st) ++ " "%char :: snd st))) with (fmt_d (fst st) ++ " "%char :: snd st).
  rewrite find_space; [|intros H; apply fmt_d_chars in H as [H|H]; [discriminate|unfold dec_digit in H; vm_compute in H; intuition congruence]].
  rewrite firstn_app, Nat.sub_diag, firstn_O, firstn_all, app_nil_r. reflexivity.
Qed.
Lemma bare_status e st : e_11 e = true -> bare_line (status_line e st) = true <-> (fst st = 204 \/ fst st = 304 \/ 100 <= fst st < 200)%Z.
Proof.
  intros V. unfold bare_line. rewrite (code_of e st V). destruct (Z.leb_spec 0 (fst st)) as [L|L].
  - rewrite <- (Z2Nat.id (fst st)) at 1 by exact L. rewrite number_of. rewrite !orb_true_iff, andb_true_iff, !Nat.eqb_eq, Nat.leb_le, Nat.ltb_lt. lia.
  - assert (number (fmt_d (fst st)) = None) as ->; [|split; [discriminate|lia]]. destruct (fst st) as [|p|p]; try lia. reflexivity.
Qed.

(** ** The calls *)
Definition calm_call (h : hop) : Prop := match h with HStatus _ _ => False | _ => True end.
Definition soft (h : hop) : Prop := appends_clean h /\ name_ok h /\ unreserved h /\ match h with HStatus z _ => z = 204%Z \/ z = 304%Z \/ ~ bodyless [] z | _ => True end.
Lemma usual_soft h : usual h -> soft h.
Proof. intros (A & B & C & D). repeat (split; [assumption|]). destruct h; try exact I. right. now right. Qed.
Lemma soft_soft h : soft_call h -> soft h.
Proof.
  intros H. destruct h as [n v|n v|n v d x p dm ss se ho|z m|c|]; try (now apply usual_soft, user_usual). split; [exact I|]. split; [exact I|]. split; [exact I|]. exact H.
Qed.
Lemma soft_softs l : Forall soft_call l -> Forall soft l.
Proof. intros F. eapply Forall_impl; [|exact F]. exact soft_soft. Qed.
Lemma soft_all l : Forall soft l -> Forall appends_clean l /\ Forall name_ok l /\ Forall unreserved l.
Proof. intros F. repeat split; (eapply Forall_impl; [|exact F]); now intros h (? & ? & ? & ?). Qed.
Lemma nb_soft ops : Forall soft_call ops -> filter nb ops = ops.
Proof. induction 1 as [|h ops U F IH]; [reflexivity|]. cbn [filter]. rewrite IH. now destruct h. Qed.
Lemma nb_walked_soft xs : Forall (fun x => Forall soft_call (fst x)) xs -> filter nb (walked xs) = fst (turned xs).
Proof.
  induction 1 as [|[ops [d|]] xs U F IH]; [reflexivity| |]; cbn [walked turned fst filter nb]; [now apply nb_soft|]. rewrite filter_app, IH. cbn [fst] in *. now rewrite nb_soft.
Qed.
Lemma walked_soft xs : Forall (fun x => Forall soft_call (fst x)) xs -> Forall soft (walked xs).
Proof.
  induction 1 as [|[ops [d|]] xs U F IH]; [constructor| |]; cbn [walked fst] in *; (apply Forall_cons; [apply usual_soft, base_usual|]); [now apply soft_softs|]. apply Forall_app. split; [now apply soft_softs|exact IH].
Qed.
Lemma usual_softs l : Forall usual l -> Forall soft l.
Proof. intros F. eapply Forall_impl; [|exact F]. exact usual_soft. Qed.
Lemma status_usual z m : ~ bodyless [] z -> Forall usual [HStatus z m].
Proof. intros N. constructor; [|constructor]. repeat (split; [exact I|]). exact N. Qed.
Lemma turned_none xs : forall calls, turned xs = (calls, None) -> Forall (fun x => snd x = None) xs.
Proof.
  induction xs as [|[ops [d|]] xs IH]; intros calls E; [constructor|discriminate|]. cbn [turned] in E. destruct (turned xs) as [c o]. cbn [fst snd] in E. injection E as _ ->. constructor; [reflexivity|]. now apply (IH c).
Qed.
Definition mild (z : Z) : Prop := z = 204%Z \/ z = 304%Z \/ ~ bodyless [] z.
Lemma soft_status l st : Forall soft l -> mild (fst st) -> mild (fst (final_status l st)).
Proof.
  intros F. revert st. induction F as [|h l (_ & _ & _ & U) F IH]; intros st H; [exact H|]. destruct h as [n v|n v|n v d x p dm ss se ho|z m|c|]; cbn [final_status]; apply IH; try exact H. destruct (memb LF m); [exact H|exact U].
Qed.
Lemma calm_status l st : Forall calm_call l -> final_status l st = st.
Proof. intros F. revert st. induction F as [|h l U F IH]; intros st; [reflexivity|]. destruct h; cbn [final_status]; try apply IH. destruct U. Qed.
Lemma based_calm xs : Forall (Forall calm_call) xs -> Forall calm_call (based xs).
Proof. induction 1 as [|ops xs U F IH]; [constructor|]. unfold based in *. cbn [flat_map app]. apply Forall_cons; [exact I|]. apply Forall_app. now split. Qed.
Lemma usual_content pre : Forall usual pre -> no_content (fst (the_status pre)) = false.
Proof.
  intros U. pose proof (usual_status pre (200%Z, bs "OK") U ok_status) as N. fold (the_status pre) in N. destruct (no_content (fst (the_status pre))) eqn:E; [|reflexivity]. exfalso. apply N. unfold no_content in E. unfold bodyless. right.
  rewrite !orb_true_iff, andb_true_iff, !Z.eqb_eq, Z.leb_le, Z.ltb_lt in E. tauto.
Qed.
(** Whether there is a body, for the server and for the client. *)
Lemma silent_bodyless m z st : mild z -> fst st = z -> bodyless m z -> silent m st = true.
Proof.
  intros M E B. unfold silent. rewrite E. destruct (beqb m (bs "HEAD")) eqn:H; [reflexivity|]. cbn [orb]. destruct M as [->|[->|N]]; [reflexivity|reflexivity|]. exfalso. apply N. destruct B as [B|B]; [|now right]. subst m. now rewrite beqb_refl in H.
Qed.
Lemma body_speaks m z st : fst st = z -> ~ bodyless m z -> silent m st = false.
Proof.
  intros E B. unfold silent. rewrite E. destruct (beqb m (bs "HEAD")) eqn:H; [apply beqb_eq in H; destruct B; now left|]. destruct (Z.eqb_spec z 204) as [->|_]; [destruct B; right; now left|]. destruct (Z.eqb_spec z 304) as [->|_]; [destruct B; do 3 right; now left|reflexivity].
Qed.
Lemma client_bare e st : e_11 e = true -> silent (e_method e) st = true -> beqb (e_method e) (bs "HEAD") || bare_line (status_line e st) = true.
Proof.
  intros V H. unfold silent in H. destruct (beqb (e_method e) _); [reflexivity|]. cbn [orb] in *. apply bare_status; [exact V|]. apply orb_prop in H as [H|H]; apply Z.eqb_eq in H; lia.
Qed.
Lemma client_full e st : e_11 e = true -> ~ bodyless (e_method e) (fst st) -> beqb (e_method e) (bs "HEAD") || bare_line (status_line e st) = false.
Proof.
  intros V N. destruct (beqb (e_method e) (bs "HEAD")) eqn:H; [apply beqb_eq in H; destruct N; now left|]. cbn [orb]. destruct (bare_line _) eqn:B; [|reflexivity]. apply bare_status in B; [|exact V]. destruct N. right. lia.
Qed.

(** ** Answers *)
Lemma bodyless_dec m z : {bodyless m z} + {~ bodyless m z}.
Proof.
  destruct (beqb m (bs "HEAD")) eqn:H; [left; left; now apply beqb_eq|]. destruct (no_content z) eqn:E; unfold no_content in E.
  - left. right. rewrite !orb_true_iff, andb_true_iff, !Z.eqb_eq, Z.leb_le, Z.ltb_lt in E. tauto.
  - right. intros [->|B]; [now rewrite beqb_refl in H|]. rewrite !orb_false_iff, andb_false_iff, !Z.eqb_neq, Z.leb_gt, Z.ltb_ge in E. lia.
Qed.
Lemma answer_any kp e n str pre mid x : e_11 e = true -> (1 <= n)%Z -> Forall soft pre -> Forall usual mid -> Forall (clean e) mid ->
  Forall (fun h => ~ In (bs "transfer-encoding") (names h) /\ ~ In (bs "content-length") (names h)) mid -> Forall calm_call mid ->
  exists s' items lines, answer_of e (mkHOpts None str n) mid x (start e pre kp) = (Ok tt, s') /\ r_out s' = map Some items ++ [None] /\
    fine_to (e_method e) (List.concat items) (mkAnswer (status_line e (the_status (pre ++ mid))) lines (if silent (e_method e) (the_status (pre ++ mid)) then [] else data_in x)) /\
    (match x with Parts _ _ => no_content (fst (the_status pre)) = false | _ => True end -> r_keep s' = kp) /\ forall k, ~ In k added -> lines_named k lines = said k (pre ++ mid) [].
Proof.
  intros V Hn U Um C T Ca. destruct (soft_all _ U) as (A1 & A2' & A3). destruct (usual_all _ Um) as (_ & A2'' & _). assert (Forall name_ok (pre ++ mid)) as A2 by (apply Forall_app; now split).
  assert (the_status (pre ++ mid) = the_status pre) as Es by (unfold the_status; rewrite final_app; now apply calm_status).
  assert (final_status mid (the_status pre) = the_status (pre ++ mid)) as Ef by (rewrite Es; now apply calm_status).
  pose proof (soft_status pre (200%Z, bs "OK") U (or_intror (or_intror ok_status))) as Mi. fold (the_status pre) in Mi.
  destruct (bodyless_dec (e_method e) (fst (the_status pre))) as [B|B].
  - rewrite (silent_bodyless _ _ _ Mi (f_equal fst Es) B).
    assert (forall lines, Forall one_line (status_line e (the_status (pre ++ mid)) :: lines) -> ~ In [] lines -> fine_to (e_method e) (List.concat [head_of (status_line e (the_status (pre ++ mid)) :: lines)]) (mkAnswer (status_line e (the_status (pre ++ mid))) lines [])) as Fb.
    { intros lines Ol Nb. cbn [List.concat]. rewrite app_nil_r. apply fine_bare; [exact Ol|discriminate|exact Nb|]. apply client_bare; [exact V|]. now rewrite (silent_bodyless _ _ _ Mi (f_equal fst Es) B). }
    destruct x as [d|y0 ys]; cbn [answer_of h_buf].
    + destruct (bare_value e (mkHOpts None true n) pre mid d kp Hn A1 A2 A3 C B) as (s' & lines & E & O & Ol & Nb & Ke & Sd). rewrite Ef in *.
      exists s', [head_of (status_line e (the_status (pre ++ mid)) :: lines)], lines. split; [exact E|]. split; [exact O|]. split; [now apply Fb|]. split; [intros _; exact Ke|exact Sd].
    + destruct (bare_stream e (mkHOpts None str n) pre mid y0 ys kp Hn A1 A2 A3 C B) as (s' & lines & E & O & Ol & Nb & Ke & Sd). rewrite Ef in *.
      exists s', [head_of (status_line e (the_status (pre ++ mid)) :: lines)], lines. split; [exact E|]. split; [exact O|]. split; [now apply Fb|]. split; [now apply Ke|exact Sd].
  - destruct (answer_body kp e n str pre mid x V Hn A1 A2' A3 A2'' C T B) as (s' & items & lines & E & O & Fi & Ke & Sd). rewrite (body_speaks _ _ _ (f_equal fst Es) B).
    exists s', items, lines. split; [exact E|]. split; [exact O|]. split; [|split; [intros _; exact Ke|exact Sd]]. apply fine_full; [exact Fi|]. cbn [r_line]. apply client_full; [exact V|]. now rewrite Es.
Qed.
Lemma end_any kp e ops d : e_11 e = true -> one_line (e_date e) -> one_line (e_server e) -> Forall soft ops ->
  exists s' items lines, end_ e d true None (start e (HBase :: ops) kp) = (Ok tt, s') /\ r_out s' = map Some items ++ [None] /\
    fine_to (e_method e) (List.concat items) (mkAnswer (status_line e (the_status (HBase :: ops))) lines (if silent (e_method e) (the_status (HBase :: ops)) then [] else d)) /\ r_keep s' = kp /\
    forall k, ~ In k added -> lines_named k lines = said k (HBase :: ops) [].
Proof.
  intros V OD OS U. destruct (soft_all _ U) as (A1 & A2 & A3). destruct (end_lines kp e ops d OD OS A1 A2 A3) as (s' & lines & body & E & O & Bl & Nb & Ol & NBl & _ & Ke & Sd).
  pose proof (soft_status ops (200%Z, bs "OK") U (or_intror (or_intror ok_status))) as Mi. change (final_status ops (200%Z, bs "OK")) with (the_status (HBase :: ops)) in Mi.
  eexists s', [_], lines. split; [exact E|]. split; [exact O|]. cbn [List.concat]. rewrite app_nil_r. split; [|split; [exact Ke|exact Sd]].
  destruct (bodyless_dec (e_method e) (fst (the_status (HBase :: ops)))) as [B|B].
  - rewrite (Bl B), app_nil_r, (silent_bodyless _ _ _ Mi eq_refl B). apply fine_bare; [exact Ol|discriminate|exact NBl|]. apply client_bare; [exact V|]. exact (silent_bodyless _ _ _ Mi eq_refl B).
  - destruct (Nb B) as [-> Fi]. rewrite (body_speaks _ _ _ eq_refl B). apply fine_full; [exact Fi|]. now apply client_full.
Qed.

(** ** A request and its response *)
Lemma stack_any o ap paths c date : soft_app ap paths -> sound_call o c -> one_line date ->
  exists r z w x, frame_head (m_head (msg_of c)) (blen (m_head (msg_of c)) - 2) = Framed r /\ snd (app_serve date ap r (body_of c)) = z /\
    (exists items, r_out z = map Some items ++ [None] /\ List.concat items = w) /\ fine_to (method_of c) w x /\ right_page_to ap paths c x /\ (full_streams ap -> r_keep z = rq_keepalive r) /\ (leaves_connection ap -> reads (rq_keepalive r) x).
Proof.
  intros (SR & S0 & SB & SN & SL & SE & SP & SF & SA) G OD. destruct (call_framed o c G) as (r & Fr & Va & Me & Ur & Ve & Ka & _ & Pa & _).
  pose proof (fun ns F => eyes_see o c r ns G Fr F) as Ey.
  destruct G as (Ft & _ & _ & (p & HP) & _). assert (~ In LF (k_url c)) as NL by (destruct Ft as (_ & X & _); rewrite !in_app_iff in X; tauto).
  pose proof (chosen (p_regs ap) paths (k_url c) p SR HP NL) as Ch.
  exists r. unfold app_serve. rewrite Va, Ve, Me. set (kp := rq_keepalive r). change (beqb (bs "1.1") (bs "1.1")) with true. set (e := mkEnv true (upper (k_method c)) date (p_name ap)).
  unfold serve_request, headers_received. set (sv := server_of e ap r).
  set (eyes := map (fun n => values n (sent_fields c)) (p_eyes ap)).
  set (xs := map (fun g => g (upper (k_method c)) (k_url c) eyes) (p_before ap)).
  set (zs := map (fun g => g (upper (k_method c)) (k_url c) eyes) (p_after ap)).
  assert (map snd (numbered ReqMid (s_req sv)) = map (fun x => (mid_func e x, [])) xs) as Hx.
  { rewrite numbered_snd. unfold sv, server_of. cbn [s_req]. rewrite Me, Ur, (Ey _ SE). unfold xs. now rewrite map_map. }
  assert (mids_are e sv (rev zs)) as Hz.
  { unfold mids_are. rewrite map_rev, numbered_snd. unfold sv, server_of. cbn [s_resp]. rewrite Me, Ur, (Ey _ SE). unfold zs. now rewrite !map_rev, map_map. }
  assert (Forall (fun x => Forall soft_call (fst x)) xs) as Ux.
  { unfold xs. apply Forall_map. eapply Forall_impl; [|exact SF]. intros g Hg. apply Hg. }
  assert (Forall (Forall user_call) (rev zs) /\ Forall (Forall sure_call) (rev zs) /\ Forall (Forall calm_call) (rev zs)) as (Uz & Sz & Cz).
  { repeat split; apply Forall_rev; unfold zs; apply Forall_map; (eapply Forall_impl; [|exact SA]); intros g Hg; apply Hg. }
  unfold right_page_to, page_by, method_of. fold eyes. fold xs. fold zs.
  pose proof (before_run e xs OD SN (numbered ReqMid (s_req sv)) (mkW tt (new_rsp kp) [] []) Hx) as Bf.
  destruct (turned xs) as [calls [d|]] eqn:Tu; cbn [snd] in Bf.
  - (* a request middleware answers *)
    assert (exists ops, walked xs = HBase :: ops /\ Forall soft ops /\ filter nb ops = calls) as (ops & Ew & Uo & En).
    { pose proof (walked_soft xs Ux) as W. pose proof (nb_walked_soft xs Ux) as N. rewrite Tu in N. cbn [fst] in N. destruct (walked xs) as [|h ops] eqn:Ew; [|].
      - destruct xs as [|[ops [d'|]] xs']; discriminate.
      - assert (h = HBase) as -> by (destruct xs as [|[? [?|]] ?]; cbn [walked] in Ew; congruence). exists ops. split; [reflexivity|]. split; [now inversion W|exact N]. }
    destruct (end_any kp e ops d eq_refl OD SN Uo) as (s' & items & lines & E & O & Fi & Ke & Sd). cbn [w_rsp] in Bf. rewrite Ew in Bf. destruct (Bf s' E) as (w' & Em & Rw).
    exists s', (List.concat items), (mkAnswer (status_line e (the_status (HBase :: ops))) lines (if silent (upper (k_method c)) (the_status (HBase :: ops)) then [] else d)). split; [exact Fr|]. unfold andthen at 1. rewrite Em. unfold ret. cbn [snd]. split; [exact Rw|].
    split; [now exists items|]. split; [exact Fi|]. split; [|split; [intros _; exact Ke|intros _; destruct (soft_all _ Uo) as (B1 & B2 & B3); exact (told_read kp s' items _ _ (end_told kp e ops d s' OD SN B1 B2 B3 E) O Fi)]]. unfold says_to, says. cbn [r_line r_data r_lines]. rewrite <- En. split; [|split].
    + unfold the_status. rewrite final_nb. reflexivity.
    + unfold the_status. rewrite final_nb. reflexivity.
    + intros name NA. rewrite (Sd name NA), said_nb. reflexivity.
  - destruct Bf as (w1 & Em & R1). cbn [w_rsp] in R1. unfold andthen at 1. rewrite Em. cbn [snd].
    pose proof (walked_soft xs Ux) as Uw. pose proof (nb_walked_soft xs Ux) as Nw. rewrite Tu in Nw. cbn [fst] in Nw.
    destruct (soft_all _ Uw) as (W1 & W2 & W3). destruct (called_intro True e (walked xs) kp W1 (fun _ => W2) W3) as (st & Ca).
    assert (r_headers (w_rsp w1) = Some st) as H1 by (rewrite R1; apply (ca_h _ _ _ _ _ _ Ca)). pose proof (ca_l _ _ _ _ _ _ Ca) as L1.
    assert (forall kw str ops x, kw_ok kw str -> Forall soft (pre_kw kw) -> Forall soft_call ops ->
      exists w' items w y, handle_response e sv (has_body r) (page_func e (ops, x)) (merge kw []) w1 = (w', inl tt) /\ r_out (w_rsp w') = map Some items ++ [None] /\ (match x with Parts _ _ => Forall usual (pre_kw kw) /\ Forall user_call ops /\ Forall (fun x => Forall user_call (fst x)) xs | _ => True end -> r_keep (w_rsp w') = kp) /\ List.concat items = w /\ fine_to (upper (k_method c)) w y /\
        says_to (upper (k_method c)) (calls ++ (pre_kw kw ++ ops) ++ List.concat (rev zs)) (data_in x) y /\ (leaves_connection ap -> reads kp y)) as K.
    { intros kw str ops x Hk Uk Uo. set (pre := walked xs ++ pre_kw kw ++ HBase :: ops).
      assert (Forall soft pre) as Up. { unfold pre. rewrite !Forall_app. split; [exact Uw|]. split; [exact Uk|]. apply Forall_cons; [apply usual_soft, base_usual|now apply soft_softs]. }
      destruct (answer_any kp e (p_buf ap) str pre (based (rev zs)) x eq_refl SB Up (based_usual _ Uz) (based_clean e _ OD SN Uz Sz) (based_framing _ Sz) (based_calm _ Cz)) as (s' & items & lines & E & O & Fi & Ke & Sd).
      destruct (handle_stack e sv (has_body r) (p_buf ap) str kw ops x (rev zs) w1 st s' OD SN Hz eq_refl Hk H1 L1) as (w' & Eh & Rw).
      { rewrite R1, <- do_hops_app. exact E. }
      exists w', items, (List.concat items), (mkAnswer (status_line e (the_status (pre ++ based (rev zs)))) lines (if silent (upper (k_method c)) (the_status (pre ++ based (rev zs))) then [] else data_in x)). split; [exact Eh|]. split; [now rewrite Rw|]. split; [|split; [reflexivity|split; [exact Fi|split]]].
      3:{ intros Lc. destruct (soft_all _ Up) as (B1 & B2 & B3). destruct (usual_all _ (based_usual _ Uz)) as (_ & B4 & _). apply (told_read kp s' items (upper (k_method c))); [|exact O|exact Fi].
          apply (answer_told kp e (p_buf ap) str pre (based (rev zs)) x s' SB B1 ltac:(apply Forall_app; now split) B3 (based_clean e _ OD SN Uz Sz)); [|exact E].
          apply based_leaves, Forall_rev. unfold zs. apply Forall_map. eapply Forall_impl; [|exact Lc]. intros g Hg. apply Hg. }
      { rewrite Rw. intros Hx'. apply Ke. destruct x; [exact I|]. destruct Hx' as (H1' & H2' & H3'). apply usual_content. unfold pre. rewrite !Forall_app. split; [now apply walked_usual|]. split; [exact H1'|]. apply Forall_cons; [exact base_usual|now apply users_usual]. }
      assert (filter nb (pre ++ based (rev zs)) = calls ++ (pre_kw kw ++ ops) ++ List.concat (rev zs)) as Nf.
      { unfold pre. rewrite !filter_app, Nw, (nb_based _ Uz). cbn [filter nb]. rewrite (nb_soft _ Uo). replace (filter nb (pre_kw kw)) with (pre_kw kw); [now rewrite <- !app_assoc|].
        destruct Hk as [(-> & _)|(z & m & _ & [(-> & _)|(-> & _)])]; reflexivity. }
      unfold says_to, says. cbn [r_line r_data r_lines]. rewrite <- Nf. split; [|split].
      - unfold the_status. rewrite final_nb. reflexivity.
      - unfold the_status. rewrite final_nb. reflexivity.
      - intros name NA. rewrite (Sd name NA), said_nb. reflexivity. }
    assert (Forall (fun g => forall m u v, snd (g m u v) = None -> Forall user_call (fst (g m u v))) (p_before ap) -> Forall (fun x => Forall user_call (fst x)) xs) as Gx.
    { intros Hb. pose proof (turned_none _ _ Tu) as Tn. unfold xs in *. apply Forall_map. apply (proj1 (Forall_map _ _ _)) in Tn. apply Forall_forall. intros g Ig. rewrite Forall_forall in Hb, Tn. apply Hb; [exact Ig|now apply Tn]. }
    unfold app_route. rewrite Ur. destruct (function_of (p_regs ap) paths p) as [f|] eqn:Ff.
    + destruct Ch as [m ->]. cbn [fst]. destruct f as [|f].
      * cbn [Nat.eqb index]. destruct (K [(bs "status", VStatus 503 (bs "Service Unavailable"))] true [] (Whole (bs "Service Unavailable"))) as (w' & items & w & y & Eh & O & Ke & Ew & Fi & Sy & Rd); [|apply usual_softs, status_usual|constructor|].
        { right. exists 503%Z, (bs "Service Unavailable"). split; [apply memb_notIn; reflexivity|]. left. now split. }
        { intros X. vm_compute in X. intuition discriminate. }
        exists (w_rsp w'), w, y. split; [exact Fr|]. rewrite Eh. cbn [snd]. split; [reflexivity|]. split; [now exists items|]. split; [exact Fi|]. split; [|split; [intros _; now apply Ke|exact Rd]]. exists p. split; [exact HP|]. rewrite Ff. exact Sy.
      * cbn [Nat.eqb index]. rewrite Me, (Ey _ (SL (S f))). set (page := p_page ap (S f) _ _ _ _). pose proof (SP (S f) (upper (k_method c)) (k_url c) (map (fun n => values n (sent_fields c)) (p_looks ap (S f))) (body_of c)) as Up. fold page in Up.
        destruct (K [] true (fst page) (snd page)) as (w' & items & w & y & Eh & O & Ke & Ew & Fi & Sy & Rd); [left; now split|constructor|exact Up|].
        exists (w_rsp w'), w, y. split; [exact Fr|]. replace (fst page, snd page) with page in Eh by now destruct page. rewrite Eh. cbn [snd]. split; [reflexivity|]. split; [now exists items|]. split; [exact Fi|]. split.
        { exists p. split; [exact HP|]. rewrite Ff. fold page. exact Sy. }
        split; [|exact Rd]. intros [Hp Hb]. apply Ke. specialize (Hp (S f) (upper (k_method c)) (k_url c) (map (fun n => values n (sent_fields c)) (p_looks ap (S f))) (body_of c)). fold page in Hp. destruct page as [ops [d|y0 ys]]; [exact I|]. split; [constructor|]. split; [exact Hp|now apply Gx].
    + rewrite Ch. cbn [on_404 app_errors]. rewrite Pa. set (path := fst (fst (partition (bs "?") (k_url c)))).
      destruct (page_404 path (p_name ap)) as [|y0 ys] eqn:P4; [discriminate|].
      destruct (K [(bs "status", VStatus 404 (bs "Not Found")); (bs "stream", VBool false)] false [] (Parts y0 ys)) as (w' & items & w & y & Eh & O & Ke & Ew & Fi & Sy & Rd); [|apply usual_softs, status_usual|constructor|].
      { right. exists 404%Z, (bs "Not Found"). split; [apply memb_notIn; reflexivity|]. right. now split. }
      { intros X. vm_compute in X. intuition discriminate. }
      exists (w_rsp w'), w, y. split; [exact Fr|]. change (Gen (map yields (y0 :: ys))) with (page_func e ([], Parts y0 ys)). rewrite Eh. cbn [snd]. split; [reflexivity|]. split; [now exists items|]. split; [exact Fi|]. split.
      2:{ split; [|exact Rd]. intros [_ Hb]. apply Ke. split; [apply status_usual; intros X; vm_compute in X; intuition discriminate|]. split; [constructor|now apply Gx]. }
      exists p. split; [exact HP|]. rewrite Ff.
      exists path, (snd (partition (bs "?") (k_url c))). split; [|rewrite P4; exact Sy].
      unfold path, partition. change (bs "?") with ["?"%char]. destruct (find ["?"%char] (k_url c)) as [i|] eqn:Fi'.
      * apply find1_some in Fi' as (F1 & F2 & _). cbn [fst snd]. split; [exact F2|]. left. cbn [List.length]. rewrite Nat.add_1_r. exact F1.
      * cbn [fst snd]. split; [now apply find1_none|]. right. now split.
Qed.

(** ** The exchange *)
Section Run.
Context (o : copts) (ap : stack) (paths : list bytes) (reqs : list call) (date : nat -> bytes) (tr : list cev) (s : conn) (b : list obs).
Let M := map msg_of reqs.
Hypothesis (Ook : opts_ok o) (Aok : soft_app ap paths) (Rok : Forall (sound_call o) reqs) (Dok : forall i, one_line (date i)).
Hypothesis (Hrun : conn_run o conn_new tr = Some (s, b)) (Hop : c_closing s = false).
Hypothesis (Hc : client_ok o M tr) (Hs : S_Conn.settled o tr \/ client_waits o M tr) (Hh : handlers_ok o M tr) (Hp : performs_app ap date tr b).

Lemma closed_page i c : nth_error reqs i = Some c -> In i (closers tr) ->
  exists items, did i tr = map Some items ++ [None] /\ (i < ended b -> exists x, fine_pair (List.concat items) x /\ right_pair ap paths c x).
Proof.
  intros Ei Hi. destruct (closed_read o reqs tr s b Ook Rok Hrun Hop Hc Hs Hh i c Ei Hi) as (St & Gb & _). assert (sound_call o c) as G by (rewrite Forall_forall in Rok; apply Rok; now apply nth_error_In in Ei).
  destruct (stack_any o ap paths c (date i) Aok G (Dok i)) as (r & z & w & x & Fr & Ez & (items & Oi & Ew) & Rd & Ra & _).
  exists items. split; [|intros _; exists (method_of c, x); split; [rewrite Ew; exact Rd|split; [reflexivity|exact Ra]]].
  rewrite (Hp i _ r St Hi Fr), Gb, Ez. exact Oi.
Qed.
Lemma bare_exchange : exists l rest, read_answers_to (map method_of (firstn (ended b) reqs)) (written b) = Some (l, rest) /\ Forall2 (right_page_to ap paths) (firstn (ended b) reqs) l /\
  (input tr = List.concat (map wire M) -> quiet o tr s b -> ended b = List.length reqs /\ rest = []).
Proof.
  destruct (answers_upto fine_pair (right_pair ap paths) o reqs tr s b Ook Rok Hrun Hop Hc Hs Hh closed_page (ended b) (le_n _)) as (l & A & B). exists (map snd l), (out (ended b) b). split; [|split].
  - rewrite written_out. replace (map method_of (firstn (ended b) reqs)) with (map fst l).
    + now apply read_all_to.
    + clear -B. induction B as [|c x cs l [E _] F IH]; [reflexivity|]. cbn [map]. now rewrite E, IH.
  - clear -B. induction B as [|c x cs l [_ R] F IH]; [constructor|]. cbn [map]. now constructor.
  - exact (all_done fine_pair (right_pair ap paths) o reqs tr s b Ook Rok Hrun Hop Hc Hs Hh closed_page).
Qed.
End Run.

(** ** Open connections *)
Lemma bare_keeps o ap paths c date r x : soft_app ap paths -> full_streams ap -> sound_call o c -> ~ bids_close c -> one_line date ->
  frame_head (m_head (msg_of c)) (blen (m_head (msg_of c)) - 2) = Framed r -> r_keep (snd (app_serve date ap r x)) = true.
Proof.
  intros A Fs G Nb D Fr. set (ap' := mkStack (p_regs ap) (p_looks ap) (fun f m u v _ => p_page ap f m u v x) (p_eyes ap) (p_before ap) (p_after ap) (p_rate ap) (p_buf ap) (p_name ap)).
  assert (soft_app ap' paths) as A' by (destruct A as (A1 & A2 & A3 & A4 & A5 & A6 & A7 & A8); split; [exact A1|]; repeat (split; [assumption|]); split; [intros f m u v y; apply A7|exact A8]).
  assert (full_streams ap') as Fs' by (destruct Fs as [F1 F2]; split; [intros f m u v y; apply F1|exact F2]).
  destruct (stack_any o ap' paths c date A' G D) as (r' & z & w & y & Fr' & Ez & _ & _ & _ & Ke & _). rewrite Fr in Fr'. injection Fr' as <-. change (app_serve date ap r x) with (app_serve date ap' r (body_of c)). rewrite Ez, (Ke Fs'). destruct (call_framed o c G) as (r2 & Fr2 & _ & _ & _ & _ & Ka & _). rewrite Fr in Fr2. injection Fr2 as <-. destruct (rq_keepalive r); [reflexivity|]. exfalso. now apply Nb, Ka.
Qed.
Lemma bare_kept o ap paths reqs date tr s b :
  opts_ok o -> (0 < o_body o)%Z -> soft_app ap paths -> full_streams ap -> Forall (sound_call o) reqs -> Forall (fun c => ~ bids_close c) reqs -> Forall (small o) reqs -> (forall i, one_line (date i)) ->
  conn_run o conn_new tr = Some (s, b) -> client_waits o (map msg_of reqs) tr -> handlers_ok o (map msg_of reqs) tr -> unbroken tr -> keeps_up o tr -> closes_app ap date tr b ->
  c_closing s = false /\ c_lost s = false.
Proof.
  intros Oo Ob A Fs R Nb L D Run W H U K C. apply (kept_open o reqs tr s b Oo Ob R Nb L Run W H U K). intros i c keep Ei St _ Hi.
  pose proof (proj1 (Forall_forall _ _) R c (nth_error_In _ _ Ei)) as G. destruct (call_framed o c G) as (r & Fr & _). rewrite (C i _ r keep St Hi Fr). exact (bare_keeps o ap paths c (date i) r _ A Fs G (proj1 (Forall_forall _ _) Nb c (nth_error_In _ _ Ei)) (D i) Fr).
Qed.
