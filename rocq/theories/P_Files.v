From Verif Require Import PyBytes PyBytesFacts PyBytesFacts2 PyDictFacts PyInt PyIntFacts PyExn PyUtf8 PyUrl PyQs M_Parser M_Form M_Files S_Form S_Head S_Files P_Parser P_Parser2 P_Framing P_Form P_Cookie.
From Coq Require Import ZifyN ZifyBool ZifyNat.

(** ** Finding in a longer text *)
Lemma find_from_ext sub st l r i : find_from sub st l = Some i -> find_from sub st (l ++ r) = Some i.
Proof.
  unfold find_from. destruct (Nat.ltb_spec (List.length l) st); [discriminate|]. rewrite app_length. replace (Nat.ltb (List.length l + List.length r) st) with false by lia.
  rewrite skipn_app. replace (st - List.length l) with 0 by lia. cbn [skipn]. destruct (find sub (skipn st l)) as [k|] eqn:F; [|discriminate]. intros E. now rewrite (find_app_ext _ _ _ _ F).
Qed.
Lemma find_from_intro sub st l i : st <= i -> i + List.length sub <= List.length l -> startswith sub (skipn i l) = true ->
  (forall j, st <= j < i -> startswith sub (skipn j l) = false) -> find_from sub st l = Some i.
Proof.
  intros A B C D. unfold find_from. replace (Nat.ltb (List.length l) st) with false by lia. rewrite (find_intro sub (skipn st l) (i - st)); [cbn; f_equal; lia|..].
  - rewrite <- skipn_add. now replace (st + (i - st)) with i by lia.
  - rewrite skipn_length. lia.
  - intros j Hj. rewrite <- skipn_add. apply D. lia.
Qed.

(** ** The head of a part *)
Lemma first_line_hget k line h : ~ In k reserved -> hget k (headers (first_line line h)) = hget k (headers h).
Proof.
  intros N. assert (forall k', In k' reserved -> k <> k') as K by (intros k' I ->; easy).
  assert (k <> k_line /\ k <> k_version /\ k <> k_message /\ k <> k_status /\ k <> k_method /\ k <> k_url) as (K1 & K2 & K3 & K4 & K5 & K6) by (repeat split; apply K; cbn; tauto).
  unfold first_line. cbn [set_headers headers]. rewrite hget_hset_other by exact K1. destruct (rfind (bs "HTTP/") line) as [[|p]|].
  - unfold first_response. destruct (split_max _ _ _) as [|? [|? [|? [|? [|? ?]]]]]; cbn [headers]; try destruct (py_int _); cbn [headers]; now rewrite !hget_hset_other by assumption.
  - destruct (_ && _); [|reflexivity]. unfold first_request. destruct (split_max _ _ _) as [|? [|? [|? ?]]]; cbn [headers]; now rewrite !hget_hset_other by assumption.
  - reflexivity.
Qed.
Section Part.
Context (b : bytes) (fields : list field) (Hb : ~ In LF b) (Lb : (blen b <= 8000)%Z) (Hf : Forall good_field fields) (Hn : List.length fields < 100) (Hl : Forall (fun f => (blen (field_bytes f) <= 8190)%Z) fields).
Definition plines : list bytes := (bs "--" ++ b) :: map field_bytes fields.
Lemma plines_ok : Forall (fun l => l <> [] /\ ~ In LF l) plines.
Proof.
  constructor; [split; [discriminate|]; cbn; intros [I|[I|I]]; [discriminate..|easy]|]. now apply fields_lines.
Qed.
Lemma plines_len : 2 <= List.length (lines_bytes plines).
Proof. unfold plines. rewrite lines_bytes_cons, !app_length. cbn [List.length CRLF]. lia. Qed.
Lemma phead_find body : find (CRLF ++ CRLF) (lines_bytes plines ++ CRLF ++ body) = Some (List.length (lines_bytes plines) - 2).
Proof. apply find_head; [discriminate|apply plines_ok]. Qed.
Lemma phead_parse h body : parse h (lines_bytes plines ++ CRLF ++ body) (Z.of_nat (List.length (lines_bytes plines))) 65536 [] 100 8190 =
  check_host (fold_left (add_field []) (map (fun f : field => (fst f, SP :: snd f)) fields) (first_line (bs "--" ++ b) (mkHeader false false false false [] [] body))).
Proof.
  pose proof plines_len as L2. pose proof (phead_find body) as F.
  assert (forall h', parse h (lines_bytes plines ++ CRLF ++ body) (Z.of_nat (List.length (lines_bytes plines))) 65536 [] 100 8190 = parse h' (lines_bytes plines ++ CRLF ++ body) (Z.of_nat (List.length (lines_bytes plines))) 65536 [] 100 8190) as K.
  { intros h'. unfold parse. replace (Z.of_nat (List.length (lines_bytes plines)) =? -1)%Z with false by lia. replace (Z.of_nat (List.length (lines_bytes plines)) <? 2)%Z with false by lia. reflexivity. }
  rewrite (K header0). fold (parse_header (lines_bytes plines ++ CRLF ++ body) (Z.of_nat (List.length (lines_bytes plines))) 65536 [] 100 8190).
  rewrite (parse_as_lines _ _ _ _ _ _ _ plines F).
  - rewrite app_assoc. replace (List.length (lines_bytes plines) - 2 + 4) with (List.length (lines_bytes plines ++ CRLF) + 0) by (rewrite app_length; cbn [List.length CRLF]; lia).
    rewrite skipn_app_len_plus. cbn [skipn].
    assert (Forall (good_line 8190) plines) as G.
    { apply Forall_forall. intros l Il. split.
      - destruct Il as [<-|Il]; [unfold blen in *; rewrite app_length; cbn [List.length bs list_ascii_of_string]; lia|]. apply in_map_iff in Il as (f & <- & If). rewrite Forall_forall in Hl. now apply Hl.
      - pose proof plines_ok as H. rewrite Forall_forall in H. now apply H. }
    pose proof (Forall_inv G) as G1. pose proof (Forall_inv_tail G) as G2. apply good_line_test in G1. unfold plines at 1. cbn [run_lines]. rewrite G1.
    rewrite (run_fields_good _ _ _ _ (fields_split fields Hf)); [reflexivity|exact G2|rewrite map_length; lia].
  - right. lia.
  - rewrite firstn_app. replace (List.length (lines_bytes plines) - 2 + 2) with (List.length (lines_bytes plines)) by lia.
    rewrite firstn_all, Nat.sub_diag. apply app_nil_r.
  - eapply Forall_impl; [|exact plines_ok]. intros l [_ H]. now apply line_ok_nolf.
Qed.
Lemma phead_get h body k : ~ In k reserved -> k <> k_host ->
  hget k (headers (parse h (lines_bytes plines ++ CRLF ++ body) (Z.of_nat (List.length (lines_bytes plines))) 65536 [] 100 8190)) =
  match values k fields with [] => None | [v] => Some (One (AB v)) | vs => Some (Many (map AB vs)) end.
Proof.
  intros N Nh. rewrite phead_parse. set (h1 := fold_left _ _ _). assert (hget k (headers (check_host h1)) = hget k (headers h1)) as ->.
  { unfold check_host. destruct (_ && _); [|reflexivity]. cbn [headers]. now apply hget_hset_other. }
  unfold h1. rewrite fold_add_hget, values_nv, first_line_hget by exact N. apply fold_add_value_none.
Qed.
End Part.

(** ** What it says *)
Lemma lookup_dget {A} k (d : list (pystr * A)) : lookup k d = dget streqb k d.
Proof. unfold lookup. induction d as [|[k' v] d IH]; [reflexivity|]. cbn [List.find dget fst]. rewrite streqb_same. now destruct (same k k'). Qed.
Lemma lookup_iset k k' v i : lookup k (iset k' v i) = if same k k' then Some v else lookup k i.
Proof.
  rewrite !lookup_dget. unfold iset. induction i as [|[k2 v2] i IH]; cbn [dset dget]; rewrite ?streqb_same.
  - reflexivity.
  - destruct (same k' k2) eqn:E; cbn [dget]; rewrite ?streqb_same.
    + apply same_eq in E as ->. destruct (same k k2); reflexivity.
    + rewrite IH. destruct (same k k2) eqn:E2, (same k k') eqn:E3; try reflexivity. apply same_eq in E2 as ->. apply same_eq in E3 as ->. rewrite same_refl in E. discriminate.
Qed.
Lemma encodes_app stop t1 t2 e1 e2 : encodes stop t1 e1 -> encodes stop t2 e2 -> encodes stop (t1 ++ t2) (e1 ++ e2).
Proof.
  intros (b1 & p1 & U1 & F1 & ->) (b2 & p2 & U2 & F2 & ->). exists (b1 ++ b2), (p1 ++ p2). split; [|split; [now apply Forall2_app|now rewrite concat_app]].
  clear F1 F2. revert b1 U1. induction t1 as [|n t1 IH]; intros b1 U1; cbn [utf8_encode app] in *; [injection U1 as <-; exact U2|].
  destruct (scalar n); [|discriminate]. destruct (utf8_encode t1) as [b'|]; [|discriminate]. injection U1 as <-. rewrite (IH b' eq_refl). cbn [option_map]. now rewrite app_assoc.
Qed.
Lemma quoted_encodes t e : encodes (bs ";&") t e -> encodes (bs ";&") (34%N :: t ++ [34%N]) ([QUOTE] ++ e ++ [QUOTE]).
Proof.
  intros E. assert (encodes (bs ";&") [34%N] [QUOTE]) as Q.
  { apply (plain_encodes (bs ";&") [QUOTE]); [repeat constructor; reflexivity|]. intros c [<-|[]]. cbn. intuition discriminate. }
  change (34%N :: t ++ [34%N]) with ([34%N] ++ t ++ [34%N]). repeat apply encodes_app; assumption.
Qed.
Lemma strip_quoted t : no_quotes t -> strip_quote (34%N :: t ++ [34%N]) = t.
Proof.
  intros [A B]. unfold strip_quote. cbn [lstrip_quote N.eqb Pos.eqb]. assert (lstrip_quote (t ++ [34%N]) = t ++ [34%N] \/ t = []) as [->| ->].
  - destruct t as [|c t]; [now right|]. left. cbn [app lstrip_quote hd] in *. replace (c =? 34)%N with false by lia. reflexivity.
  - rewrite rev_app_distr. cbn [rev app lstrip_quote N.eqb Pos.eqb]. assert (lstrip_quote (rev t) = rev t) as ->; [|apply rev_involutive].
    destruct t as [|c t] using rev_ind; [reflexivity|]. rewrite rev_app_distr. cbn [rev app lstrip_quote]. rewrite last_last in B. now replace (c =? 34)%N with false by lia.
  - reflexivity.
Qed.
Lemma parse_qsl_texts ts m : join (bs "&") ts <> [] -> ts <> [] -> Forall (fun t => ~ In "&"%char t) ts ->
  parse_qsl (join (bs "&") ts) m = if Nat.ltb m (List.length ts) then Raise ValueError else Ok (flat_map qfield ts).
Proof.
  intros J Ne F. pose proof (split_join "&"%char _ F Ne) as S. unfold parse_qsl, count. change (bs "&") with ["&"%char] in *. rewrite S.
  destruct (join ["&"%char] ts); [easy|]. rewrite ?S. destruct ts as [|f fs]; [easy|]. cbn [List.length]. rewrite Nat.sub_succ, Nat.sub_0_r. reflexivity.
Qed.
Lemma param_qfield f q : encodes (bs "=;&") (fst q) (fst f) -> encodes (bs ";&") (snd q) (snd f) -> qfield (param_text f) = [(fst q, 34%N :: snd q ++ [34%N])].
Proof.
  intros A B. change (param_text f) with (field_text (fst f, [QUOTE] ++ snd f ++ [QUOTE])). rewrite (qfield_text (bs ";&") _ (fst q, 34%N :: snd q ++ [34%N])); [reflexivity|right; now left|exact A|].
  now apply quoted_encodes.
Qed.
Lemma param_free f q c : In c (bs ";&") -> encodes (bs "=;&") (fst q) (fst f) -> encodes (bs ";&") (snd q) (snd f) -> ~ In c (param_text f).
Proof.
  intros I A B J. change (param_text f) with (field_text (fst f, [QUOTE] ++ snd f ++ [QUOTE])) in J. apply quoted_encodes in B.
  pose proof (written_free (bs ";&") [(fst f, [QUOTE] ++ snd f ++ [QUOTE])] [(fst q, 34%N :: snd q ++ [34%N])] c) as W.
  assert (In c (bs "&;")) as I2 by (cbn in *; tauto). specialize (W I2 I). assert (written (bs ";&") [(fst f, [QUOTE] ++ snd f ++ [QUOTE])] [(fst q, 34%N :: snd q ++ [34%N])]) as X.
  { constructor; [split; assumption|constructor]. }
  apply W in X. inversion X as [|? ? X1 _]. now apply X1.
Qed.
Lemma disposition_reads h fs params : hget (bs "content-disposition") h = Some (One (AB (join (bs "; ") (bs "form-data" :: map param_text fs)))) ->
  Forall2 (fun f p => encodes (bs "=;&") (fst p) (fst f) /\ encodes (bs ";&") (snd p) (snd f)) fs params -> List.length fs < 100 ->
  NoDup (map fst params) -> Forall (fun q => no_quotes (snd q)) params ->
  exists i, disposition h = Ok i /\ forall k, lookup k i = option_map IStr (lookup k params).
Proof.
  intros H F L ND Q. unfold disposition. rewrite H, semicolons_sc.
  assert (forall c, In c (bs ";&") -> Forall (fun t => ~ In c t) (bs "form-data" :: map param_text fs)) as Fr.
  { intros c I. constructor; [cbn in *; intuition (subst; discriminate)|]. apply Forall_map. clear - F I. induction F as [|f q fs ps [A B] F IH]; constructor; [|exact IH]. now apply (param_free f q). }
  rewrite <- (app_nil_r (join (bs "; ") (bs "form-data" :: map param_text fs))), sc_join by (apply Fr; now left). cbn [sc]. rewrite app_nil_r.
  rewrite parse_qsl_texts; [|destruct fs; discriminate|discriminate|apply Fr; right; now left]. cbn [List.length]. rewrite map_length. replace (Nat.ltb 100 (S (List.length fs))) with false by lia. cbn [bind].
  eexists. split; [reflexivity|]. cbn [flat_map]. change (qfield (bs "form-data")) with (@nil (pystr * pystr)). cbn [app].
  assert (flat_map qfield (map param_text fs) = map (fun q => (fst q, 34%N :: snd q ++ [34%N])) params) as ->.
  { clear - F. induction F as [|f q fs ps [A B] F IH]; [reflexivity|]. cbn [map flat_map]. rewrite IH, (param_qfield f q A B). reflexivity. }
  clear - ND Q. intros k.
  assert (forall params i0, NoDup (map fst params) -> Forall (fun q => no_quotes (snd q)) params ->
    lookup k (fold_left (fun i p => iset (fst p) (IStr (strip_quote (snd p))) i) (map (fun q => (fst q, 34%N :: snd q ++ [34%N])) params) i0) =
    match lookup k params with Some v => Some (IStr v) | None => lookup k i0 end) as K.
  { clear. induction params as [|[k2 v] ps IH]; intros i0 ND Q; [reflexivity|]. inversion_clear ND as [|? ? N ND']. inversion_clear Q as [|? ? Q1 Q']. cbn [map fold_left fst snd] in *.
    rewrite IH by assumption. rewrite lookup_iset. unfold lookup at 3. cbn [List.find fst]. destruct (same k k2) eqn:E.
    - apply same_eq in E as ->. cbn [option_map snd]. rewrite strip_quoted by exact Q1. assert (lookup k2 ps = None) as ->; [|reflexivity].
      unfold lookup. destruct (List.find (fun q => same k2 (fst q)) ps) as [q|] eqn:Fd; [|reflexivity]. apply List.find_some in Fd as [I E]. apply same_eq in E. exfalso. apply N. rewrite E. now apply in_map.
    - fold (lookup k ps). reflexivity. }
  rewrite K by assumption. destruct (lookup k params); reflexivity.
Qed.

(** ** The loop *)
Section Loop.
Context (b : bytes) (Gb : good_boundary b).
Definition closing : bytes := bs "--" ++ b ++ bs "--" ++ CRLF.
Definition delim : bytes := CRLF ++ bs "--" ++ b.
Lemma b_nolf : ~ In LF b.
Proof. destruct Gb as (_ & _ & F & _). rewrite Forall_forall in F. intros I. apply F in I. vm_compute in I. easy. Qed.
Lemma multipart_starts ps : exists r, multipart b ps = bs "--" ++ b ++ r /\ r <> [].
Proof.
  destruct ps as [|p ps]; [exists (bs "--" ++ CRLF); split; [reflexivity|discriminate]|]. unfold multipart, head_of. cbn [map concat]. rewrite lines_bytes_cons, <- !app_assoc. eexists. split; [reflexivity|discriminate].
Qed.
Lemma multipart_cons p ps : multipart b (p :: ps) = lines_bytes (plines b (p_head p)) ++ CRLF ++ p_data p ++ CRLF ++ multipart b ps.
Proof. unfold multipart, head_of. cbn [map concat]. unfold plines. now rewrite <- !app_assoc. Qed.

(** The state between parts, and inside a part. *)
Definition stN (l : loc) (q : rq) (ps : list part) : Prop :=
  l_open l = None /\ l_body l = [] /\ (0 <= l_bsize l)%Z /\ l_clen l = 0%Z /\ q_fin q = None /\
  q_buf q ++ concat (q_stream q) = multipart b ps /\ (l_hsize l = 1%Z -> find (CRLF ++ CRLF) (q_buf q) = None) /\ (q_eof q = true -> q_stream q = []).
Definition stO (i : info) (l : loc) (q : rq) (p : part) (ps : list part) : Prop :=
  l_open l = Some i /\ (l_hsize l <> 1)%Z /\ l_clen l = (if p_length p then blen (p_data p) else 0)%Z /\ q_fin q = None /\
  l_body l ++ concat (q_stream q) = p_data p ++ CRLF ++ multipart b ps /\
  (l_bsize l <> -1 \/ find_from delim (Z.to_nat (l_clen l)) (l_body l) = None)%Z /\
  beqb (q_buf q) closing = false /\ (q_eof q = true -> q_stream q = []).
Definition meas (l : loc) (q : rq) : nat := List.length (q_stream q) + if l_paused l then 1 else 0.

Lemma full_find p ps : good_part b p -> find_from delim (Z.to_nat (if p_length p then blen (p_data p) else 0)%Z) (p_data p ++ CRLF ++ multipart b ps) = Some (List.length (p_data p)).
Proof.
  intros (_ & _ & _ & _ & _ & _ & _ & _ & _ & _ & D). destruct (multipart_starts ps) as (r & E & _). rewrite E.
  assert (p_data p ++ CRLF ++ bs "--" ++ b ++ r = (p_data p ++ delim) ++ r) as -> by (unfold delim; now rewrite <- !app_assoc).
  apply find_from_intro.
  - destruct (p_length p); unfold blen; lia.
  - rewrite !app_length. lia.
  - rewrite <- app_assoc, skipn_app_len. apply startswith_spec. now exists r.
  - intros j Hj. rewrite skipn_app, startswith_app_long.
    + destruct (p_length p); [unfold blen in Hj; lia|]. apply (D eq_refl j). lia.
    + rewrite skipn_length, app_length. lia.
Qed.


Lemma read_ok l q : q_fin q = None -> (q_eof q = true -> q_stream q = []) -> (l_paused l = false -> q_stream q = [] -> l_hsize l <> 1 /\ l_bsize l <> -1)%Z ->
  exists data st e, files_read l q = inl (data, mkRq (q_buf q) st None e (q_header q)) /\ data ++ concat st = concat (q_stream q) /\
    (List.length st < meas l q \/ q_stream q = [] /\ st = [] /\ data = []) /\ (e = true -> st = []).
Proof.
  intros Fi Ee Ne. unfold files_read, meas. destruct (l_paused l).
  - exists [], (q_stream q), (q_eof q). split; [rewrite <- Fi; now destruct q|]. split; [reflexivity|split; [left; lia|exact Ee]].
  - destruct (q_stream q) as [|d st] eqn:Es.
    + rewrite Fi. destruct (Ne eq_refl eq_refl) as [A B]. replace (l_hsize l =? 1)%Z with false by lia. replace (l_bsize l =? -1)%Z with false by lia.
      exists [], [], true. split; [reflexivity|]. split; [reflexivity|split; [right; auto|reflexivity]].
    + rewrite Fi. exists d, st, (q_eof q). split; [reflexivity|]. split; [reflexivity|split; [left; cbn [List.length]; lia|]]. intros H. specialize (Ee H). discriminate.
Qed.
Lemma app_prefix {A} (a1 a2 b1 b2 : list A) : List.length a1 <= List.length b1 -> a1 ++ a2 = b1 ++ b2 -> exists r, b1 = a1 ++ r /\ a2 = r ++ b2.
Proof.
  revert b1. induction a1 as [|x a1 IH]; intros b1 L E; [now exists b1|]. destruct b1 as [|y b1]; cbn [List.length] in L; [lia|]. cbn [app] in E.
  injection E as -> E. destruct (IH b1 ltac:(lia) E) as (r & -> & ->). now exists r.
Qed.

(** Inside a part, one step: it is yielded, or more is read. *)
Lemma step_open i l q p ps : good_part b p -> stO i l q p ps -> (0 < l_limit l)%Z ->
  (exists l' q', files_step b l q = FYield i (p_data p) l' q' /\ stN l' q' ps /\ l_limit l' = (l_limit l - 1)%Z) \/
  (exists l' q', files_step b l q = FGo l' q' /\ stO i l' q' p ps /\ l_limit l' = l_limit l /\ meas l' q' < meas l q).
Proof.
  intros G (O & Hs & C & Fi & Eb & Bs & Bc & Ee) Li. pose proof (full_find p ps G) as F. rewrite <- C in F.
  destruct (read_ok l q Fi Ee) as (data & st & e & R & Dc & M & Ee').
  { intros _ Es. split; [exact Hs|]. destruct Bs as [B|B]; [exact B|]. rewrite Es in Eb. cbn [concat] in Eb. rewrite app_nil_r in Eb. congruence. }
  unfold files_step. fold closing. rewrite Bc. replace (0 <? l_limit l)%Z with true by lia. cbn [negb andb]. rewrite R, O. fold delim.
  rewrite <- Dc, app_assoc in Eb. cbn [q_buf q_stream q_fin q_eof q_header]. cbv zeta.
  destruct (find_from delim (Z.to_nat (l_clen l)) (l_body l ++ data)) as [j|] eqn:Fj.
  - left. rewrite <- Eb, (find_from_ext _ _ _ (concat st) _ Fj) in F. injection F as F. subst j. cbn [pos].
    replace (Z.of_nat (List.length (p_data p)) =? -1)%Z with false by lia. rewrite upto_nonneg, from_nonneg by lia.
    assert (List.length (p_data p) + List.length delim <= List.length (l_body l ++ data)) as Lj.
    { unfold find_from in Fj. destruct (Nat.ltb_spec (List.length (l_body l ++ data)) (Z.to_nat (l_clen l))); [discriminate|].
      destruct (find delim _) as [z|] eqn:Fz; [|discriminate]. injection Fj as Fj. apply find_some in Fz as (Lz & Sz & _). rewrite skipn_length in *. lia. }
    rewrite app_assoc in Eb. symmetry in Eb. unfold delim in Lj. rewrite !app_length in Lj. cbn [List.length CRLF] in Lj.
    destruct (app_prefix (p_data p ++ CRLF) (multipart b ps) (l_body l ++ data) (concat st)) as (r & E1 & E2); [rewrite !app_length; cbn [List.length CRLF]; lia|exact Eb|].
    rewrite E1, <- app_assoc. replace (Z.to_nat (Z.of_nat (List.length (p_data p)))) with (List.length (p_data p)) by lia. rewrite firstn_app_len.
    replace (Z.to_nat (Z.of_nat (List.length (p_data p)) + 2)) with (List.length (p_data p) + 2) by lia. rewrite skipn_app_len_plus. cbn [CRLF app skipn].
    eexists. eexists. split; [reflexivity|]. split; [|reflexivity]. unfold stN. cbn [l_open l_body l_bsize l_clen l_hsize l_paused q_fin q_buf q_stream q_eof].
    repeat split; try reflexivity; [lia|now rewrite E2|intros; contradiction|exact Ee'].
  - right. cbn [pos Z.eqb Z.opp]. eexists. eexists. split; [reflexivity|]. split; [|split; [reflexivity|]].
    + unfold stO. cbn [l_open l_body l_bsize l_clen l_hsize q_buf q_stream q_fin q_eof]. repeat split; auto.
    + unfold meas at 1. cbn [l_paused q_stream]. destruct M as [M|(E & -> & ->)]; [lia|]. exfalso. rewrite <- Eb in F. cbn [concat] in F. rewrite app_nil_r in F. congruence.
Qed.

(** The head of a part: the info dict and the declared length. *)
Lemma head_info h rest p : good_part b p -> exists i,
  (let hd := parse h (lines_bytes (plines b (p_head p)) ++ CRLF ++ rest) (Z.of_nat (List.length (lines_bytes (plines b (p_head p))))) 65536 [] 100 8190 in
   let! i := disposition (headers hd) in let! (i2, n) := declared (headers hd) i 0 in let! i3 := typed (headers hd) i2 in Ok (i3, n)) =
  Ok (i, if p_length p then blen (p_data p) else 0%Z) /\ describes i p.
Proof.
  intros (Gf & Ln & Ll & _ & (fs & Vd & Fd & Lf) & ND & Q & Vt & Vl & Di & _). destruct Gb as (_ & Lb & _ & _).
  pose proof (phead_get b (p_head p) b_nolf Lb Gf Ln Ll h rest) as K. set (hd := parse _ _ _ _ _ _ _) in *. cbv zeta.
  pose proof (K (bs "content-disposition") ltac:(cbn; intuition discriminate) ltac:(discriminate)) as Kd.
  pose proof (K (bs "content-length") ltac:(cbn; intuition discriminate) ltac:(discriminate)) as Kl.
  pose proof (K (bs "content-type") ltac:(cbn; intuition discriminate) ltac:(discriminate)) as Kt. rewrite Vd in Kd. rewrite Vl in Kl. rewrite Vt in Kt. clearbody hd. clear K.
  destruct (disposition_reads (headers hd) fs (p_params p) Kd Fd Lf ND) as (i & Ei & Li). { eapply Forall_impl; [|exact Q]. now intros ? (_ & _ & ?). }
  rewrite Ei. cbn [bind].
  assert (forall k, In k (map fst (p_params p)) -> k <> name_text "length" /\ k <> name_text "type") as Nk.
  { intros k I. apply in_map_iff in I as (q & <- & I). rewrite Forall_forall in Q. destruct (Q q I) as (A & B & _). easy. }
  assert (forall k, lookup k (p_params p) <> None -> In k (map fst (p_params p))) as Lk.
  { intros k. unfold lookup. destruct (List.find _ _) as [q|] eqn:E; [|easy]. intros _. apply List.find_some in E as [I E]. apply same_eq in E as ->. now apply in_map. }
  assert (lookup (name_text "length") (p_params p) = None) as N1 by (destruct (lookup (name_text "length") (p_params p)) eqn:E; [|reflexivity]; destruct (Nk _ (Lk (name_text "length") ltac:(congruence))); congruence).
  assert (lookup (name_text "type") (p_params p) = None) as N2 by (destruct (lookup (name_text "type") (p_params p)) eqn:E; [|reflexivity]; destruct (Nk _ (Lk (name_text "type") ltac:(congruence))); congruence).
  assert (exists i2, declared (headers hd) i 0 = Ok (i2, if p_length p then blen (p_data p) else 0%Z) /\
    forall k, lookup k i2 = if same k (name_text "length") then (if p_length p then Some (IInt (blen (p_data p))) else None) else lookup k i) as (i2 & E2 & L2).
  { unfold declared. rewrite Kl. destruct (p_length p).
    - rewrite py_int_plus_fmt by (try exact Di; unfold blen; lia). eexists. split; [reflexivity|]. intros k. rewrite lookup_iset. reflexivity.
    - exists i. split; [reflexivity|]. intros k. destruct (same k (name_text "length")) eqn:E; [|reflexivity]. apply same_eq in E as ->. now rewrite Li, N1. }
  rewrite E2. cbn [bind].
  assert (exists i3, typed (headers hd) i2 = Ok i3 /\ forall k, lookup k i3 = if same k (name_text "type") then option_map (fun t => IStr (map N_of_ascii t)) (p_type p) else lookup k i2) as (i3 & E3 & L3).
  { unfold typed. rewrite Kt. destruct (p_type p) as [t|]; cbn [opt_list].
    - eexists. split; [reflexivity|]. intros k. rewrite lookup_iset. reflexivity.
    - exists i2. split; [reflexivity|]. intros k. destruct (same k (name_text "type")) eqn:E; [|reflexivity]. apply same_eq in E as ->. rewrite L2, Li, N2. reflexivity. }
  rewrite E3. cbn [bind]. exists i3. split; [reflexivity|]. intros k. rewrite L3, L2, Li. reflexivity.
Qed.

Lemma closing_nohead : find (CRLF ++ CRLF) closing = None.
Proof.
  destruct (find (CRLF ++ CRLF) closing) as [j|] eqn:F; [|reflexivity]. exfalso. apply find_some in F as (L & S & _). apply startswith_spec in S as (r & E).
  pose proof b_nolf as B. unfold closing in *.
  assert (forall n j' (l : bytes) t, ~ In LF l -> skipn j' (l ++ CRLF) = CRLF ++ CRLF ++ t -> n = 0 -> False) as K.
  { intros n j' l t N E' _. assert (List.length (skipn j' (l ++ CRLF)) = 4 + List.length t) as L' by (rewrite E'; reflexivity). rewrite skipn_length, app_length in L'. cbn [List.length CRLF] in L'.
    rewrite skipn_app in E'. replace (j' - List.length l) with 0 in E' by lia. cbn [skipn] in E'. destruct (skipn j' l) as [|x [|y z]] eqn:Es.
    - discriminate.
    - discriminate.
    - cbn [app CRLF] in E'. assert (y = LF) by congruence. subst y. apply N. rewrite <- (firstn_skipn j' l), Es. apply in_or_app. right. right. now left. }
  apply (K 0 j (bs "--" ++ b ++ bs "--") r); [| |reflexivity].
  - rewrite !in_app_iff. cbn. intuition discriminate.
  - rewrite <- !app_assoc in *. exact E.
Qed.
Lemma delim_line_not_closing x r : bs "--" ++ b ++ CRLF ++ x = closing ++ r -> False.
Proof. unfold closing. rewrite <- !app_assoc. intros E. apply app_inv_head in E. apply app_inv_head in E. discriminate. Qed.
Lemma plines_starts p : exists x, lines_bytes (plines b (p_head p)) = bs "--" ++ b ++ CRLF ++ x.
Proof. unfold plines. rewrite lines_bytes_cons, <- app_assoc. eexists. reflexivity. Qed.

(** Between parts, one step: the head of the next part is read, or more of it. *)
Lemma step_head l q p ps : good_part b p -> stN l q (p :: ps) -> (0 < l_limit l)%Z ->
  (exists i l' q', files_step b l q = FGo l' q' /\ stO i l' q' p ps /\ describes i p /\ l_limit l' = l_limit l) \/
  (exists l' q', files_step b l q = FGo l' q' /\ stN l' q' (p :: ps) /\ l_limit l' = l_limit l /\ meas l' q' < meas l q).
Proof.
  intros G (O & B0 & Bs & C & Fi & Eb & Hs & Ee) Li. rewrite multipart_cons in Eb. pose proof G as (Gf & Ln & _ & Lh & _). pose proof (plines_len b (p_head p) Ln) as L2.
  set (hb := lines_bytes (plines b (p_head p))) in *. set (tail := p_data p ++ CRLF ++ multipart b ps) in *.
  pose proof (phead_find b (p_head p) b_nolf Gf) as Ff. fold hb in Ff.
  destruct (plines_starts p) as (x & Ex). fold hb in Ex.
  destruct (read_ok l q Fi Ee) as (data & st & e & R & Dc & M & Ee').
  { intros _ Es. split; [|lia]. intros H1. specialize (Hs H1). rewrite Es in Eb. cbn [concat] in Eb. rewrite app_nil_r in Eb. rewrite Eb, Ff in Hs. discriminate. }
  assert (beqb (q_buf q) closing = false) as Bc.
  { destruct (beqb (q_buf q) closing) eqn:E; [apply beqb_eq in E|]; [|reflexivity]. exfalso. rewrite E, Ex, <- !app_assoc in Eb. symmetry in Eb. now apply delim_line_not_closing in Eb. }
  unfold files_step. fold closing. rewrite Bc. replace (0 <? l_limit l)%Z with true by lia. cbn [negb andb]. rewrite R, O. cbn [q_buf q_stream q_fin q_eof q_header]. cbv zeta.
  rewrite <- Dc, app_assoc in Eb.
  destruct (find (CRLF ++ CRLF) (q_buf q ++ data)) as [j|] eqn:Fj.
  - left. assert (j = List.length hb - 2) as ->.
    { pose proof (find_app_ext _ _ (concat st) _ Fj) as F2. rewrite Eb, Ff in F2. congruence. }
    apply find_some in Fj as (Lj & _). cbn [List.length app CRLF] in Lj. symmetry in Eb. rewrite app_assoc in Eb.
    destruct (app_prefix (hb ++ CRLF) tail (q_buf q ++ data) (concat st)) as (r & E1 & E2); [rewrite app_length; cbn [List.length CRLF]; lia|exact Eb|].
    cbn [pos]. replace (Z.of_nat (List.length hb - 2) + 2)%Z with (Z.of_nat (List.length hb)) by lia.
    replace (Z.of_nat (List.length hb) =? 1)%Z with false by lia.
    assert (Z.of_nat (List.length hb) <=? 8192 = true)%Z as -> by (unfold head_of, blen in Lh; fold (plines b (p_head p)) in Lh; fold hb in Lh; rewrite app_length in Lh; lia).
    assert (startswith (bs "--" ++ b ++ CRLF) (q_buf q ++ data) = true) as -> by (apply startswith_spec; exists (x ++ CRLF ++ r); rewrite E1, Ex, <- !app_assoc; reflexivity).
    cbn [andb]. rewrite C. rewrite E1, <- app_assoc.
    destruct (head_info (q_header q) r p G) as (i & Ei & Di). fold hb in Ei. cbv zeta in Ei. rewrite Ei.
    exists i. eexists. eexists. split; [reflexivity|]. split; [|split; [exact Di|reflexivity]].
    unfold stO. cbn [l_open l_body l_bsize l_clen l_hsize q_buf q_stream q_fin q_eof]. rewrite B0. cbn [app]. repeat split; try lia; try exact Ee'.
    + rewrite from_nonneg by lia. rewrite app_assoc. replace (Z.to_nat (Z.of_nat (List.length hb) + 2)) with (List.length (hb ++ CRLF) + 0) by (rewrite app_length; cbn [List.length CRLF]; lia).
      rewrite skipn_app_len_plus. cbn [skipn]. symmetry. exact E2.
    + destruct (beqb (hb ++ CRLF ++ r) closing) eqn:E; [apply beqb_eq in E|]; [|reflexivity]. exfalso. rewrite Ex, <- !app_assoc in E. apply (delim_line_not_closing (x ++ CRLF ++ r) []). rewrite app_nil_r. exact E.
  - right. cbn [pos]. change (-1 + 2 =? 1)%Z with true. cbv iota.
    assert (8192 <? blen (q_buf q ++ data) = false)%Z as ->.
    { apply Z.ltb_ge. destruct (Nat.le_gt_cases (List.length (hb ++ CRLF)) (List.length (q_buf q ++ data))) as [Le|Gt].
      - exfalso. symmetry in Eb. rewrite app_assoc in Eb. destruct (app_prefix _ _ _ _ Le Eb) as (r & E1 & _). rewrite E1, <- app_assoc, Ff in Fj. discriminate.
      - unfold head_of, blen in Lh. fold (plines b (p_head p)) in Lh. fold hb in Lh. unfold blen. lia. }
    eexists. eexists. split; [reflexivity|]. split; [|split; [reflexivity|]].
    + unfold stN. cbn [l_open l_body l_bsize l_clen l_hsize q_fin q_buf q_stream q_eof]. repeat split; auto. rewrite multipart_cons. exact Eb.
    + unfold meas at 1. cbn [l_paused q_stream]. destruct M as [M|(E & -> & ->)]; [lia|]. exfalso. cbn [concat] in Eb. rewrite !app_nil_r in *. rewrite Eb, Ff in Fj. discriminate.
Qed.

(** After the last part. *)
Lemma step_close l q : stN l q [] -> (0 < l_limit l)%Z ->
  (files_step b l q = FStop q) \/
  (exists l' q', files_step b l q = FGo l' q' /\ stN l' q' [] /\ l_limit l' = l_limit l /\ meas l' q' < meas l q).
Proof.
  intros (O & B0 & Bs & C & Fi & Eb & Hs & Ee) Li. unfold files_step. fold closing. replace (0 <? l_limit l)%Z with true by lia. cbn [negb andb].
  destruct (beqb (q_buf q) closing) eqn:Nc; [left; reflexivity|right]. cbn [negb]. apply beqb_neq in Nc.
  change (multipart b []) with closing in Eb.
  destruct (read_ok l q Fi Ee) as (data & st & e & R & Dc & M & Ee').
  { intros _ Es. exfalso. rewrite Es in Eb. cbn [concat] in Eb. rewrite app_nil_r in Eb. easy. }
  rewrite R, O. cbn [q_buf q_stream q_fin q_eof q_header]. cbv zeta. rewrite <- Dc, app_assoc in Eb.
  assert (find (CRLF ++ CRLF) (q_buf q ++ data) = None) as ->.
  { destruct (find (CRLF ++ CRLF) (q_buf q ++ data)) as [j|] eqn:F; [|reflexivity]. apply (find_app_ext _ _ (concat st)) in F. rewrite Eb, closing_nohead in F. discriminate. }
  cbn [pos]. change (-1 + 2 =? 1)%Z with true. cbv iota.
  assert (8192 <? blen (q_buf q ++ data) = false)%Z as ->.
  { apply Z.ltb_ge. assert (List.length ((q_buf q ++ data) ++ concat st) = List.length closing) as L by now rewrite Eb. unfold closing in L. rewrite !app_length in L. cbn [List.length CRLF bs list_ascii_of_string] in L.
    destruct Gb as (_ & Lb & _). unfold blen in *. rewrite !app_length. lia. }
  eexists. eexists. split; [reflexivity|]. split; [|split; [reflexivity|]].
  - unfold stN. cbn [l_open l_body l_bsize l_clen l_hsize q_fin q_buf q_stream q_eof]. repeat split; auto; intros _.
    destruct (find (CRLF ++ CRLF) (q_buf q ++ data)) as [j|] eqn:F; [|reflexivity]. apply (find_app_ext _ _ (concat st)) in F. rewrite Eb, closing_nohead in F. discriminate.
  - unfold meas at 1. cbn [l_paused q_stream]. destruct M as [M|(E & -> & ->)]; [lia|]. exfalso. rewrite E in Dc. cbn [concat] in *. rewrite !app_nil_r in *. easy.
Qed.

Lemma run_more n : forall k l q r, files_run n b l q = Some r -> files_run (n + k) b l q = Some r.
Proof.
  induction n as [|n IH]; intros k l q r E; [discriminate|]. cbn [Nat.add files_run] in *. destruct (files_step b l q); [now apply IH| |exact E..].
  destruct (files_run n b l0 q0) as [r0|] eqn:E0; [|discriminate]. now rewrite (IH k _ _ _ E0).
Qed.
Lemma stN_has l q ps : stN l q ps -> has_parts b q ps.
Proof. intros (_ & _ & _ & _ & A & B & _ & C). now split. Qed.
Lemma run_parts ps : Forall (good_part b) ps -> forall m l q, meas l q = m -> stN l q ps ->
  exists n outs q', files_run n b l q = Some (outs, None, q') /\ Forall2 is_part outs (firstn (Z.to_nat (l_limit l)) ps) /\ has_parts b q' (skipn (Z.to_nat (l_limit l)) ps).
Proof.
  intros G. induction G as [|p ps Gp G IHp]; intros m; induction m as [m IH] using lt_wf_ind; intros l q Em SN;
    (destruct (Z.ltb_spec 0 (l_limit l)) as [Li|Li]; [|exists 1, [], q; replace (Z.to_nat (l_limit l)) with 0 by lia; split; [|split; [constructor|exact (stN_has _ _ _ SN)]];
      cbn [files_run]; unfold files_step; replace (0 <? l_limit l)%Z with false by lia; reflexivity]).
  - destruct (step_close l q SN Li) as [E|(l' & q' & E & SN' & Ll & Lm)].
    + exists 1, [], q. rewrite firstn_nil, skipn_nil. split; [cbn [files_run]; now rewrite E|]. split; [constructor|exact (stN_has _ _ _ SN)].
    + destruct (IH (meas l' q') ltac:(lia) l' q' eq_refl SN') as (n & outs & q2 & E2 & F2 & H2). rewrite Ll in *. exists (S n), outs, q2. split; [cbn [files_run]; now rewrite E|]. now split.
  - assert (forall i m' l q, meas l q = m' -> stO i l q p ps -> describes i p -> (0 < l_limit l)%Z -> exists n outs q', files_run n b l q = Some (outs, None, q') /\
      Forall2 is_part outs (firstn (Z.to_nat (l_limit l)) (p :: ps)) /\ has_parts b q' (skipn (Z.to_nat (l_limit l)) (p :: ps))) as KO.
    { clear IH l q Em SN Li. intros i m'. induction m' as [m' IHm] using lt_wf_ind. intros l q Em SO Di Li. destruct (step_open i l q p ps Gp SO Li) as [(l' & q' & E & SN' & Ll)|(l' & q' & E & SO' & Ll & Lm)].
      - destruct (IHp (meas l' q') l' q' eq_refl SN') as (n & outs & q2 & E2 & F2 & H2). exists (S n), ((i, p_data p) :: outs), q2. split; [cbn [files_run]; rewrite E, E2; reflexivity|].
        replace (Z.to_nat (l_limit l)) with (S (Z.to_nat (l_limit l'))) by lia. cbn [firstn skipn]. split; [|exact H2]. constructor; [now split|exact F2].
      - destruct (IHm (meas l' q') ltac:(lia) l' q' eq_refl SO' Di ltac:(lia)) as (n & outs & q2 & E2 & F2 & H2). rewrite Ll in *. exists (S n), outs, q2. split; [cbn [files_run]; now rewrite E|]. now split. }
    destruct (step_head l q p ps Gp SN Li) as [(i & l' & q' & E & SO & Di & Ll)|(l' & q' & E & SN' & Ll & Lm)].
    + destruct (KO i (meas l' q') l' q' eq_refl SO Di ltac:(lia)) as (n & outs & q2 & E2 & F2 & H2). rewrite Ll in *. exists (S n), outs, q2. split; [cbn [files_run]; now rewrite E|]. now split.
    + destruct (IH (meas l' q') ltac:(lia) l' q' eq_refl SN') as (n & outs & q2 & E2 & F2 & H2). rewrite Ll in *. exists (S n), outs, q2. split; [cbn [files_run]; now rewrite E|]. now split.
Qed.

Lemma boundary_read : files_boundary (bs "multipart/form-data; boundary=" ++ b) = Ok b.
Proof.
  destruct Gb as (Ne & _ & Vi & Fr). unfold files_boundary. rewrite semicolons_sc.
  assert (bs "multipart/form-data; boundary=" ++ b = join (bs "; ") [bs "multipart/form-data"; field_text (bs "boundary", b)] ++ []) as -> by (rewrite app_nil_r; reflexivity).
  assert (encodes (bs ";&") (map N_of_ascii b) b) as Eb.
  { apply plain_encodes.
    - apply Forall_forall. intros c I. rewrite Forall_forall in Vi. specialize (Vi c I). lia.
    - intros c I. specialize (Fr c I). cbn in *. tauto. }
  assert (encodes (bs "=;&") (map N_of_ascii (bs "boundary")) (bs "boundary")) as Ec.
  { apply plain_encodes; [repeat constructor; reflexivity|]. intros c I. cbn in I. cbn. intuition (subst; discriminate). }
  assert (forall c, In c (bs ";&") -> Forall (fun t => ~ In c t) [bs "multipart/form-data"; field_text (bs "boundary", b)]) as Fc.
  { intros c I. constructor; [cbn in *; intuition (subst; discriminate)|]. constructor; [|constructor]. unfold field_text. cbn [fst snd]. rewrite !in_app_iff. intros [J|[J|J]].
    - cbn in I, J. intuition (subst; discriminate).
    - cbn in I, J. intuition (subst; discriminate).
    - apply (Fr c J). cbn in *. tauto. }
  rewrite sc_join by (apply Fc; now left). cbn [sc]. rewrite app_nil_r.
  unfold parse_qs. rewrite parse_qsl_texts; [|discriminate|discriminate|apply Fc; right; now left]. cbn [List.length Nat.ltb Nat.leb bind flat_map].
  change (qfield (bs "multipart/form-data")) with (@nil (pystr * pystr)). cbn [app]. rewrite app_nil_r.
  rewrite (qfield_text (bs ";&") _ (map N_of_ascii (bs "boundary"), map N_of_ascii b)); [|right; now left|exact Ec|exact Eb].
  assert (blankless (map N_of_ascii (bs "boundary"), map N_of_ascii b) = [(map N_of_ascii (bs "boundary"), map N_of_ascii b)]) as -> by (unfold blankless; cbn [snd]; destruct b; [easy|reflexivity]).
  cbn [fold_left fst snd dget dset bind]. unfold text. rewrite streqb_same, same_refl.
  clear. induction b as [|c l IH]; [reflexivity|]. cbn [map latin1]. assert (N_of_ascii c <? 256 = true)%N as -> by (pose proof (N_ascii_bounded c); lia). rewrite IH. cbn [bind]. now rewrite ascii_N_embedding.
Qed.
End Loop.

Lemma files_main b ps limit q : good_boundary b -> Forall (good_part b) ps -> has_parts b q ps ->
  exists n outs q', (forall fuel, n <= fuel -> files fuel (bs "multipart/form-data; boundary=" ++ b) limit q = Some (outs, None, q')) /\
    Forall2 is_part outs (firstn (Z.to_nat limit) ps) /\ has_parts b q' (skipn (Z.to_nat limit) ps).
Proof.
  intros Gb Gp (Fi & Ee & Eb).
  destruct (run_parts b Gb ps Gp (meas (loc0 limit) q) (loc0 limit) q eq_refl) as (n & outs & q' & E & F & H).
  { unfold stN, loc0. cbn [l_open l_body l_bsize l_clen l_hsize]. repeat split; try assumption; try lia; try discriminate. }
  exists n, outs, q'. split; [|split; assumption]. intros fuel L. unfold files. assert (q_eof q && beqb (q_buf q) [] = false) as ->.
  { destruct (q_eof q); [|reflexivity]. rewrite (Ee eq_refl) in Eb. cbn [concat] in Eb. rewrite app_nil_r in Eb. rewrite Eb. destruct (multipart_starts b ps) as (r & -> & _). reflexivity. }
  rewrite (boundary_read b Gb). replace fuel with (n + (fuel - n)) by lia. now apply run_more.
Qed.
