(** Proofs about the content type of responses (C90). *)
From Verif Require Import PyBytes PyBytesFacts PyDictFacts PyInt PyIntFacts PyExn M_Response S_Response S_Calls S_Chunked S_Sendfile P_Response P_Response2 P_Response3 P_Response4 P_Response5 P_Response6 P_Response7 P_Response8 P_Sendfile P_Sendfile2 S_Ctype.

(** ** The calls *)
Lemma type_lines e h s : ~ about_type h -> lines_at k_ctype (snd (do_hop e h s)) = lines_at k_ctype s /\ r_ctype (snd (do_hop e h s)) = r_ctype s.
Proof.
  assert (forall n v s, lower n <> k_ctype -> lines_at k_ctype (snd (set_header n v s)) = lines_at k_ctype s /\ r_ctype (snd (set_header n v s)) = r_ctype s) as SH.
  { intros n v s0 N. split; [apply set_header_at; congruence|]. unfold set_header. destruct (_ || _); [reflexivity|]. unfold seq, get_headers. now destruct (r_headers s0). }
  assert (forall n v s, lower n <> k_ctype -> lines_at k_ctype (snd (append_header n v s)) = lines_at k_ctype s /\ r_ctype (snd (append_header n v s)) = r_ctype s) as AH.
  { intros n v s0 N. split; [apply append_header_at; congruence|]. unfold append_header, seq, get_headers. now destruct (r_headers s0). }
  intros N. destruct h; cbn [about_type do_hop] in *.
  - now apply SH.
  - now apply AH.
  - unfold set_cookie. destruct (memb _ _); [now split|]. apply AH. discriminate.
  - unfold set_status. destruct (memb _ _); [now split|]. unfold seq at 1, get_headers, lines_at.
    unfold seq. destruct (r_headers s) as [d|] eqn:H; [|cbn; now rewrite ?H].
    destruct (hget k_line d); [|cbn; now rewrite H].
    destruct (list_set l 1 _); [|cbn; now rewrite H].
    destruct (list_set l0 2 _); cbn; (split; [now apply dget_dset_other|reflexivity]).
  - now destruct N.
  - unfold set_base_header. destruct (r_headers s) as [[|]|] eqn:H; [|now split|now split].
    unfold seq. pose proof (SH (bs "Date") (e_date e) s ltac:(discriminate)) as [X Y]. destruct (set_header (bs "Date") _ s) as [[u|x] s1]; cbn [snd] in X, Y; [|now split].
    pose proof (SH (bs "Server") (e_server e) s1 ltac:(discriminate)) as [X1 Y1]. now rewrite X1, Y1.
Qed.
Lemma type_other e h s : ~ about_type h -> ctype_of (snd (do_hop e h s)) = ctype_of s.
Proof. intros N. destruct (type_lines e h s N) as [X Y]. unfold ctype_of. now rewrite X, Y. Qed.
Lemma type_others e ops : Forall (fun h => ~ about_type h) ops -> forall s, ctype_of (do_hops e ops s) = ctype_of s.
Proof. intros F. induction F as [|h ops Hh F IH]; intros s; cbn [do_hops]; [reflexivity|]. rewrite IH. now apply type_other. Qed.
Lemma type_set e h t s : headers_sent s = false -> sets_type h t -> ~ (exists n, match h with HSet m _ => m = n /\ In LF n | _ => False end) -> ctype_of (snd (do_hop e h s)) = t.
Proof.
  intros S (O & L & X) NL. destruct h; try contradiction.
  - destruct X as [N ->]. assert (one_line name) as On by (intros I; apply NL; now exists name).
    unfold ctype_of. change k_ctype with (bs "content-type"). rewrite <- N. rewrite (set_at e name t s S On O). unfold header_line.
    assert (List.length name = 12%nat) as Ln by (apply (f_equal (@List.length ascii)) in N; unfold lower in N; rewrite map_length in N; exact N).
    rewrite skipn_app, Ln, skipn_all2 by lia. cbn [Nat.sub app skipn bs list_ascii_of_string]. exact L.
  - subst. now apply ctype_set.
Qed.
Lemma type_lf n : lower n = bs "content-type" -> ~ In LF n.
Proof.
  intros E I. assert (In (lower1 LF) (lower n)) as J by now apply in_map. rewrite E in J. vm_compute in J. intuition discriminate.
Qed.
Lemma type_main e ops t keep : has_type ops t -> ctype_of (start e ops keep) = t.
Proof.
  intros [(a & h & b & -> & Hs & F)|[F ->]]; unfold start.
  - assert (forall x y s, do_hops e (x ++ y) s = do_hops e y (do_hops e x s)) as Ap by (induction x as [|z x IH]; intros y s; [reflexivity|]; cbn [app do_hops]; apply IH).
    rewrite Ap. cbn [do_hops]. rewrite type_others by exact F. apply type_set; [apply start_sent|exact Hs|].
    intros (n & X). destruct h; try contradiction. destruct X as [-> I]. destruct Hs as (_ & _ & N & _). exact (type_lf _ N I).
  - rewrite type_others by exact F. reflexivity.
Qed.
Lemma type_base a b t : has_type (a ++ b) t -> has_type (a ++ HBase :: b) t.
Proof.
  intros [(x & h & y & E & Hs & F)|[F ->]].
  - left. revert a E. induction x as [|z x IH]; intros [|w a] E; cbn [app] in *.
    + subst. exists [HBase], h, y. exact (conj eq_refl (conj Hs F)).
    + injection E as -> <-. exists [], h, (a ++ HBase :: b). split; [reflexivity|]. split; [exact Hs|]. apply Forall_app in F as [F1 F2]. apply Forall_app. split; [exact F1|]. constructor; [exact (fun f => f)|exact F2].
    + subst. exists (HBase :: z :: x), h, y. exact (conj eq_refl (conj Hs F)).
    + injection E as <- E. destruct (IH a E) as (x' & h' & y' & E' & R). exists (w :: x'), h', y'. split; [now rewrite E'|exact R].
  - right. apply Forall_app in F as [F1 F2]. split; [|reflexivity]. apply Forall_app. split; [exact F1|]. constructor; [exact (fun f => f)|exact F2].
Qed.

(** ** Values and streams, without response middlewares. The first lines follow P_Response7.start_run. *)
Lemma start_type (Nm : Prop) e o s d : r_headers s = Some d -> goodS (P1 Nm) s -> hmem k_line d = false ->
  let st := status_of s in
  let nc := no_content (fst st) in
  let ch := chunk_choice e (h_chunked o) nc in
  nc = false -> exists d' l, start_response e o s = (Ok (fst st, nc), mkRsp (Some d') ch (tl (r_status s)) l (r_buf s) (r_out s) (r_keep s) (r_up s)) /\ hget k_ctype d' = Some [bs "Content-Type: " ++ ctype_of s].
Proof.
  intros H G NL st nc ch Nc.
  assert (good (P1 Nm) d) as GD by (apply (proj1 G), H).
  assert (one_line (snd st)) as OS by (eapply status_of_line, G).
  unfold start_response. rewrite (seq_ok _ _ _ _ _ (get_status_run s d H NL)). fold st. fold nc. fold (chunk_choice e (h_chunked o) nc). fold ch.
  rewrite (seq_ok (update _) _ _ tt _ eq_refl).
  set (s1 := with_chunked (with_status s (tl (r_status s))) ch).
  assert (r_headers s1 = Some d) as H1 by exact H.
  rewrite (seq_ok get_headers _ s1 d s1) by (unfold get_headers; now rewrite H1).
  rewrite (seq_ok (put_headers _) _ _ tt _ eq_refl). fold (the_line e st).
  set (s2 := with_headers s1 (hset k_line (the_line e st) d)).
  set (d2 := hset k_line (the_line e st) d) in *.
  assert (good (P1 Nm) d2) as G2 by (apply good_set; [exact GD|easy|now apply the_line_ok]).
  assert (goodS (P1 Nm) s2) as GS2.
  { split; [intros x E; injection E as <-; exact G2|]. split; [|apply G]. cbn. destruct G as (_ & F & _). destruct (r_status s); [constructor|]. now inversion F. }
  destruct (ct_step_run Nm nc s2 d2 eq_refl GS2) as (d3 & l & E3 & G3 & Fl & K3 & O3 & C3).
  fold (ct_step nc). rewrite (seq_ok _ _ _ _ _ E3). clear E3.
  assert (keeps d d3) as KD3 by (apply K3, keeps_line, keeps_refl).
  assert (hget k_line d3 = Some (the_line e st)) as L3 by (rewrite O3; [apply dget_dset_same|discriminate]).
  set (s3 := with_ctype (with_headers s2 d3) l).
  rewrite (seq_ok (fun s => (Ok s, s)) _ s3 s3 s3 eq_refl).
  change (r_chunked s3) with ch.
  set (d4 := if ch then hdr1 (bs "Transfer-Encoding") (bs "chunked") d3 else d3).
  rewrite (seq_ok _ _ s3 tt (with_headers s3 d4)).
  2:{ unfold d4. destruct ch; [|reflexivity]. rewrite (set_header_run _ _ _ d3); [reflexivity|reflexivity|ol|ol]. }
  exists d4, l. split; [reflexivity|]. transitivity (hget k_ctype d3); [unfold d4; destruct ch; [|reflexivity]; now rewrite hget_hdr1_other|].
  rewrite (C3 Nc). do 3 f_equal. unfold ctype_of, lines_at, s2, s1, d2. rewrite H. cbn -[hget hset k_ctype k_line bs]. unfold hget, hset. now rewrite dget_dset_other.
Qed.

Definition typed_head (out out' : list (option bytes)) (e : renv) (st : Z * bytes) (t : bytes) : Prop :=
  exists lines rest, out' = out ++ Some (head_of (status_line e st :: lines)) :: rest /\ Forall one_line (status_line e st :: lines) /\ ~ In [] lines /\ only_line k_ctype (bs "Content-Type: " ++ t) lines.
Lemma ready_typed e s2 d2 st t out' rest : ready True s2 d2 (the_line e st) -> hget k_ctype d2 = Some [bs "Content-Type: " ++ t] ->
  out' = r_out s2 ++ Some (head_item (the_line e st) d2) :: rest -> typed_head (r_out s2) out' e st t.
Proof.
  intros R T O. pose proof (proj1 (rd_g _ _ _ _ R) _ (rd_h _ _ _ _ R)) as G2. exists (lines_of (hdel k_line d2)), rest. unfold head_item in O. rewrite status_line_join in O. split; [exact O|]. split; [|split].
  - constructor; [|apply (lines_ok True); now apply good_del]. rewrite <- status_line_join. apply one_line_join; [ol|]. destruct (good_get (P1 True) _ _ _ G2 (rd_l _ _ _ _ R)) as [_ F]. eapply Forall_impl; [|exact F]. now intros x [Ox _].
  - now apply (no_blank_lines True).
  - apply (only_line_intro True); [exact Logic.I|exact G2|discriminate|exact T].
Qed.
(** ** Response middlewares: the Content-Type line is there already. *)
Fixpoint last_type (mid : list hop) (c : bytes) : bytes := match mid with [] => c | HCtype x :: mid' => last_type mid' x | _ :: mid' => last_type mid' c end.
Lemma last_none mid c : Forall (fun h => ~ about_type h) mid -> last_type mid c = c.
Proof. intros F. induction F as [|h mid Hh F IH]; [reflexivity|]. destruct h; cbn [last_type]; try exact IH. now destruct Hh. Qed.
Lemma hop_type e h s c : clean e h -> ~ In k_ctype (names h) -> lines_at k_ctype s = Some [bs "Content-Type: " ++ c] -> lines_at k_ctype (snd (do_hop e h s)) = Some [bs "Content-Type: " ++ last_type [h] c].
Proof.
  intros Cl N L. assert (~ about_type h \/ exists x, h = HCtype x) as [O|[x ->]].
  { destruct h; try (right; eexists; reflexivity); left; cbn [about_type names In] in *; [intros X; apply N; left; exact X|intros X; apply N; left; exact X|exact (fun f => f)..]. }
  { rewrite (proj1 (type_lines e h s O)), L. rewrite last_none; [reflexivity|now constructor]. }
  cbn [do_hop clean] in *. unfold set_content_type. assert (memb LF x = false) as -> by now apply memb_notIn. unfold seq, get_headers. unfold lines_at in L. destruct (r_headers s) as [d|] eqn:H; [|discriminate].
  unfold hmem, dmem. unfold hget in L. rewrite L. unfold lines_at. cbn -[hget hset k_ctype bs]. unfold hget, hset. apply dget_dset_same.
Qed.
Lemma hops_type e mid : Forall (clean e) mid -> Forall (fun h => ~ In k_ctype (names h)) mid -> forall s c, lines_at k_ctype s = Some [bs "Content-Type: " ++ c] -> lines_at k_ctype (do_hops e mid s) = Some [bs "Content-Type: " ++ last_type mid c].
Proof.
  intros C. induction C as [|h mid Hh C IH]; intros N s c L; [exact L|]. pose proof (Forall_inv N) as N1. apply Forall_inv_tail in N. cbn [do_hops]. pose proof (hop_type e h s c Hh N1 L) as L1.
  rewrite (IH N _ _ L1). destruct h; reflexivity.
Qed.
Lemma last_app a b c : last_type (a ++ b) c = last_type b (last_type a c).
Proof. revert c. induction a as [|h a IH]; intros c; [reflexivity|]. destruct h; cbn [app last_type]; apply IH. Qed.
Lemma type_mid e pre mid t keep : Forall (fun h => ~ In k_ctype (names h)) mid -> has_type (pre ++ mid) t -> last_type mid (ctype_of (start e pre keep)) = t.
Proof.
  intros N [(a & h & b & E & Hs & F)|[F ->]].
  - apply app_eq_app in E as (l & [[-> E]|[-> E]]).
    + destruct l as [|x l].
      * cbn [app] in E. subst mid. rewrite app_nil_r. pose proof (Forall_inv N) as N1. destruct Hs as (_ & _ & Hs). destruct h; try contradiction; [exfalso; apply N1; left; exact (proj1 Hs)|]. cbn [last_type]. subst. now apply last_none.
      * injection E as <- ->. apply Forall_app in F as [F1 F2]. rewrite last_none by exact F2. apply type_main. left. exists a, h, l. exact (conj eq_refl (conj Hs F1)).
    + subst mid. rewrite last_app. apply Forall_app in N as [_ N]. pose proof (Forall_inv N) as N1. destruct Hs as (_ & _ & Hs). destruct h; try contradiction; [exfalso; apply N1; left; exact (proj1 Hs)|]. cbn [last_type]. subst. now apply last_none.
  - apply Forall_app in F as [F1 F2]. rewrite last_none by exact F2. apply type_main. right. now split.
Qed.
Lemma mid_typed e mid s2 d2 st c : ready True s2 d2 (the_line e st) -> hget k_ctype d2 = Some [bs "Content-Type: " ++ c] -> Forall (clean e) mid -> Forall name_ok mid -> Forall (fun h => ~ In k_ctype (names h)) mid ->
  exists s3 d3, do_mid e mid s2 = (Ok tt, s3) /\ ready True s3 d3 (the_line e (final_status mid st)) /\ hget k_ctype d3 = Some [bs "Content-Type: " ++ last_type mid c] /\ r_out s3 = r_out s2.
Proof.
  intros R T CL B N.
  assert (Forall appends_clean mid) as A by (eapply Forall_impl; [|exact CL]; intros h X; now apply clean_appends in X).
  assert (Forall unreserved mid) as U by (eapply Forall_impl; [|exact CL]; intros h X; now apply clean_appends in X).
  destruct (ready_hops True e mid s2 d2 (the_line e st) R A (fun _ => B)) as (d1 & l1 & R1 & T1 & SL). rewrite (SL st eq_refl U) in R1.
  exists (do_hops e mid s2), d1. split; [|split; [exact R1|split]].
  - apply (do_mid_hops e mid s2 st CL). unfold lines_at. rewrite (rd_h _ _ _ _ R). apply R.
  - pose proof (hops_type e mid CL N s2 c) as X. unfold lines_at in X. rewrite (rd_h _ _ _ _ R), (rd_h _ _ _ _ R1) in X. exact (X T).
  - pose proof (do_hops_io e mid s2) as X. unfold same_io in X. tauto.
Qed.
Lemma value_type e o mid data s d r s' : Forall (clean e) mid -> Forall name_ok mid -> Forall (fun h => ~ In k_ctype (names h)) mid -> r_headers s = Some d -> goodS (P1 True) s -> hmem k_line d = false -> r_buf s = [] -> (1 <= h_buf o)%Z ->
  no_content (fst (status_of s)) = false -> respond_value e o mid data s = (r, s') -> r = Ok tt /\ typed_head (r_out s) (r_out s') e (final_status mid (status_of s)) (last_type mid (ctype_of s)).
Proof.
  intros Cl Nk Nt H G NL B Hb Nc E. unfold respond_value in E. destruct (start_run True e o s d H G NL) as (d1 & l & S1 & G1 & Fl & K1 & L1 & T1 & CL1).
  destruct (start_type True e o s d H G NL Nc) as (d1' & l' & S1' & T). rewrite S1 in S1'. injection S1' as <- <-.
  set (ch := chunk_choice _ _ _) in *. set (s1 := mkRsp _ _ _ _ _ _ _ _) in S1. rewrite (seq_ok _ _ _ _ _ S1) in E. cbv beta iota in E.
  rewrite (seq_ok (fun s => (Ok s, s)) _ s1 s1 s1 eq_refl) in E. change (r_chunked s1) with ch in E. change (r_keep s1) with (r_keep s) in E. rewrite Nc in E. cbn [orb] in E.
  set (d2 := if ch then d1 else hdr1 (bs "Content-Length") (fmt_d (blen data)) d1).
  rewrite (seq_ok _ _ s1 tt (with_headers s1 d2)) in E.
  2:{ unfold d2. destruct ch; [reflexivity|]. rewrite (set_header_run _ _ _ d1); [reflexivity|reflexivity|ol|ol]. }
  assert (good (P1 True) d2) as G2 by (unfold d2; destruct ch; [exact G1|apply good_hdr1; [ol|ol|reflexivity|exact G1]]).
  set (cv := if r_keep s then bs "keep-alive" else bs "close") in *.
  assert (one_line cv) as OC by (unfold cv; destruct (r_keep s); ol).
  set (s2 := with_headers s1 (hdr1 (bs "Connection") cv d2)).
  rewrite (seq_ok _ _ _ tt s2) in E.
  2:{ rewrite (set_header_run _ _ _ d2); [reflexivity|reflexivity|ol|exact OC]. }
  assert (ready True s2 (hdr1 (bs "Connection") cv d2) (the_line e (status_of s))) as R2.
  { split; [reflexivity| | | |exact B].
    - split; [|split; [|exact Fl]].
      + intros x X. injection X as <-. apply good_hdr1; [ol|exact OC|reflexivity|exact G2].
      + cbn. destruct G as (_ & F & _). destruct (r_status s); [constructor|]. now inversion F.
    - rewrite hget_hdr1_other by discriminate. unfold d2. destruct ch; [exact L1|]. rewrite hget_hdr1_other; [exact L1|discriminate].
    - unfold hmem, dmem. change (dget beqb (bs "connection") (hdr1 (bs "Connection") cv d2)) with (hget (lower (bs "Connection")) (hdr1 (bs "Connection") cv d2)).
      now rewrite hget_hdr1_same. }
  assert (hget k_ctype (hdr1 (bs "Connection") cv d2) = Some [bs "Content-Type: " ++ ctype_of s]) as T2.
  { rewrite hget_hdr1_other by discriminate. unfold d2. destruct ch; [exact T|]. now rewrite hget_hdr1_other by discriminate. }
  destruct (mid_typed e mid s2 _ _ _ R2 T2 Cl Nk Nt) as (s3 & d3 & M3 & R3 & T3 & O3). rewrite (seq_ok _ _ _ _ _ M3) in E. rewrite orb_false_r in E. change (r_out s) with (r_out s2). rewrite <- O3.
  destruct (is_head e).
  - rewrite (write_none True e _ s3 _ _ R3) in E. injection E as <- <-. split; [reflexivity|]. eapply ready_typed; [exact R3|exact T3|reflexivity].
  - assert ((writes e (map (fun y => (y, mkKw true (h_buf o) None)) (filter nonempty [data]) ++ [([], kw_now)]) ;; close true) s3 = (r, s')) as W.
    { rewrite <- E. destruct data as [|c data]; cbn [filter nonempty map app writes]; rewrite ?seq_assoc; [reflexivity|]. apply seq_ext. intros [] s4. rewrite seq_assoc. reflexivity. }
    destruct (writes_close True e (map (fun y => (y, mkKw true (h_buf o) None)) (filter nonempty [data]) ++ [([], kw_now)]) s3 _ _ r s' R3) as (items & Hr & O & _); [now destruct (map _ (filter _ _))| |exact W|].
    { apply Forall_app. split; [|constructor; [cbn; lia|constructor]]. apply Forall_forall. intros x I. apply in_map_iff in I as (y & <- & _). exact Hb. }
    split; [exact Hr|]. eapply ready_typed; [exact R3|exact T3|exact O].
Qed.
Lemma stream_type e o mid y0 ys s d r s' : Forall (clean e) mid -> Forall name_ok mid -> Forall (fun h => ~ In k_ctype (names h)) mid -> r_headers s = Some d -> goodS (P1 True) s -> hmem k_line d = false -> r_buf s = [] -> (1 <= h_buf o)%Z ->
  no_content (fst (status_of s)) = false -> respond_stream e o mid y0 ys s = (r, s') -> r = Ok tt /\ typed_head (r_out s) (r_out s') e (final_status mid (status_of s)) (last_type mid (ctype_of s)).
Proof.
  intros Cl Nk Nt H G NL B Hb Nc E. unfold respond_stream in E. destruct (start_run True e o s d H G NL) as (d1 & l & S1 & G1 & Fl & K1 & L1 & T1 & CL1).
  destruct (start_type True e o s d H G NL Nc) as (d1' & l' & S1' & T). rewrite S1 in S1'. injection S1' as <- <-.
  set (ch := chunk_choice _ _ _) in *. set (s1 := mkRsp _ _ _ _ _ _ _ _) in S1. rewrite (seq_ok _ _ _ _ _ S1) in E. cbv beta iota in E.
  rewrite (seq_ok (fun s => (Ok s, s)) _ s1 s1 s1 eq_refl) in E. set (st := fst (status_of s)) in *.
  set (kp := if r_keep s then (st =? 101)%Z || ch || hmem (bs "content-length") d else false).
  set (up := if r_keep s && (st =? 101)%Z then true else r_up s).
  set (cv := if r_keep s then (if special st then bs "upgrade" else bs "keep-alive") else bs "close").
  assert (one_line cv) as OC by (unfold cv; destruct (r_keep s); [destruct (special _)|]; ol).
  set (s2 := mkRsp (Some (hdr1 (bs "Connection") cv d1)) ch (tl (r_status s)) l (r_buf s) (r_out s) kp up).
  assert (ready True s2 (hdr1 (bs "Connection") cv d1) (the_line e (status_of s))) as R2.
  { split; [reflexivity| | | |exact B].
    - split; [|split; [|exact Fl]].
      + intros x X. injection X as <-. apply good_hdr1; [ol|exact OC|reflexivity|exact G1].
      + cbn. destruct G as (_ & F & _). destruct (r_status s); [constructor|]. now inversion F.
    - rewrite hget_hdr1_other; [exact L1|discriminate].
    - unfold hmem, dmem. change (dget beqb (bs "connection") (hdr1 (bs "Connection") cv d1)) with (hget (lower (bs "Connection")) (hdr1 (bs "Connection") cv d1)).
      now rewrite hget_hdr1_same. }
  rewrite (seq_ok _ _ s1 tt s2) in E.
  2:{ unfold s2, kp, up, cv. change (r_keep s1) with (r_keep s). destruct (r_keep s) eqn:RK.
      - rewrite (seq_ok get_headers _ s1 d1 s1 eq_refl). rewrite (seq_ok (update _) _ _ tt _ eq_refl).
        change (r_chunked s1) with ch. rewrite CL1. cbn [andb]. fold (special st).
        destruct (st =? 101)%Z eqn:E1; cbn [orb].
        + rewrite (set_header_run _ _ _ d1); [|reflexivity|ol|destruct (special st); ol].
          unfold s1, with_up, with_headers; cbn. now rewrite ?RK.
        + destruct (ch || hmem (bs "content-length") d).
          * rewrite (set_header_run _ _ _ d1); [|reflexivity|ol|destruct (special st); ol]. unfold s1, with_headers; cbn. now rewrite ?RK.
          * rewrite (set_header_run _ _ _ d1); [|reflexivity|ol|destruct (special st); ol]. reflexivity.
      - rewrite (set_header_run _ _ _ d1); [|reflexivity|ol|ol]. unfold s1, with_headers; cbn. now rewrite ?RK. }
  assert (hget k_ctype (hdr1 (bs "Connection") cv d1) = Some [bs "Content-Type: " ++ ctype_of s]) as T2 by (now rewrite hget_hdr1_other by discriminate).
  destruct (mid_typed e mid s2 _ _ _ R2 T2 Cl Nk Nt) as (s3 & d3 & M3 & R3 & T3 & O3). rewrite (seq_ok _ _ _ _ _ M3) in E. rewrite Nc, orb_false_r in E. change (r_out s) with (r_out s2). rewrite <- O3.
  destruct (is_head e).
  - rewrite (write_none True e _ s3 _ _ R3) in E. injection E as <- <-. split; [reflexivity|]. eapply ready_typed; [exact R3|exact T3|reflexivity].
  - set (k := mkKw true (h_buf o) _) in E. rewrite yields_close in E.
    destruct (writes_close True e (map (fun y => (y, k)) (filter nonempty (y0 :: ys)) ++ [([], mkKw false (k_bufsize k) (k_min k))]) s3 _ _ r s' R3) as (items & Hr & O & _); [now destruct (map _ (filter _ _))| |exact E|].
    { apply Forall_app. split; [|constructor; [exact Hb|constructor]]. apply Forall_forall. intros x I. apply in_map_iff in I as (y & <- & _). exact Hb. }
    split; [exact Hr|]. eapply ready_typed; [exact R3|exact T3|exact O].
Qed.
