From Verif Require Import PyBytes PyBytesFacts PyDictFacts PyInt PyIntFacts PyExn PyUrl M_Response S_Response S_Calls S_Chunked
  P_Response P_Response2 P_Response3 P_Response4 P_Response5 P_Response6 P_Response7 M_Sendfile S_Range S_Sendfile P_Sendfile P_Sendfile2 P_Sendfile3.
From Coq Require Import ZifyBool ZifyNat ZifyN.
Local Open Scope Z_scope.

Definition multi_call (e : renv) (k : kw) (boundary ctype file : bytes) (ranges : list (Z * Z * Z)) : call unit :=
  do_mid e (multi_hops (bs "multipart/byteranges; boundary=" ++ boundary)) ;;
  write_parts e k boundary ctype file (blen file) ranges ;;
  write e (Some (bs "--" ++ boundary ++ bs "--" ++ CRLF)) None k ;;
  write e (Some []) None k ;;
  close true.
Definition single_call (e : renv) (k : kw) (ctype file : bytes) (r : Z * Z * Z) : call unit :=
  let '(a, b, n) := r in
  do_mid e (range_hops ctype n (content_range a b (blen file))) ;;
  write_range (range_fuel n) e (Some false) k file a n ;;
  close true.

Lemma range_eq e q f file_size ctype boundary k s : size_ok f file_size -> uses_range e q f ->
  sendfile e q f file_size ctype boundary k s =
  match range_header (blen (fl_bytes f)) (f_range q) with
  | Raise x => (Raise x, s)
  | Ok [r] => single_call e k ctype (fl_bytes f) r s
  | Ok ranges => multi_call e k boundary ctype (fl_bytes f) ranges s
  end.
Proof.
  intros Z (V & R & I). unfold sendfile, send_opened. rewrite (size_is f file_size Z), V. destruct (f_range q) as [|v vs]; [easy|].
  assert (match f_if_range q with [] => false | [d] => negb (beqb d (fl_mdate f)) | _ => true end = false) as ->.
  { destruct I as [-> | ->]; [reflexivity|now rewrite beqb_refl]. }
  destruct (range_header (blen (fl_bytes f)) (v :: vs)) as [ranges|x]; [|reflexivity].
  assert (forall rest : call unit, (set_status 206 (bs "Partial Content") ;; rest) s = (do_hop e (HStatus 206 (bs "Partial Content")) ;; rest) s) as X by reflexivity.
  assert ((set_status 206 (bs "Partial Content") ;; set_content_type (bs "multipart/byteranges; boundary=" ++ boundary) ;;
           write_parts e k boundary ctype (fl_bytes f) (blen (fl_bytes f)) ranges ;; write e (Some (bs "--" ++ boundary ++ bs "--" ++ CRLF)) None k ;;
           write e (Some []) None k ;; close true) s = multi_call e k boundary ctype (fl_bytes f) ranges s) as M.
  { unfold multi_call, multi_hops. rewrite do_mid_seq. apply seq_ext. intros _ s1. rewrite do_mid_seq. reflexivity. }
  destruct ranges as [|[[a b] n] [|r2 rs]]; [exact M| |exact M].
  unfold single_call, range_hops. rewrite do_mid_seq. apply seq_ext. intros _ s1. rewrite do_mid_seq. apply seq_ext. intros _ s2.
  rewrite do_mid_seq. apply seq_ext. intros _ s3. rewrite do_mid_seq. reflexivity.
Qed.

Section Range.
Context (e : renv) (k : kw) (ctype boundary file : bytes) (pre : list hop) (keep : bool).
Context (HB : 1 <= k_bufsize k) (CT : ctype_ok ctype) (OB : one_line boundary).
Context (HA : Forall appends_clean pre) (HN : Forall name_ok pre) (HU : Forall unreserved pre) (HF : Forall unframed_call pre).

Lemma single_wr a b n s : in_file (blen file) (a, b, n) -> exists l,
  (write_range (range_fuel n) e (Some false) k file a n ;; close true) s = (wr e (Some false) k l ;; close true) s /\
  concat l = positions file a b /\ l <> [].
Proof.
  intros (A & B & N). destruct (write_range_wr e (Some false) k file HB (range_fuel n) a n) as (l & E & C & _ & Ne); [lia|lia|unfold range_fuel; lia|].
  exists l. split; [apply seq_ext_l, E|]. split; [|apply Ne; lia]. rewrite C. unfold read_at, positions. now rewrite N.
Qed.
Lemma range_status ct n cr : the_status (pre ++ range_hops ct n cr) = ok_206.
Proof. unfold the_status. rewrite final_app. reflexivity. Qed.
Lemma multi_status ct : the_status (pre ++ multi_hops ct) = ok_206.
Proof. unfold the_status. rewrite final_app. reflexivity. Qed.
Lemma not_head_206 : e_method e <> bs "HEAD" -> ~ bodyless (e_method e) (fst ok_206).
Proof. intros M [B|B]; [easy|]. cbn in B. lia. Qed.

Lemma range_stored n cr : one_line cr -> exists stored, r_headers (start e (pre ++ range_hops ctype n cr) keep) = Some stored /\ stored <> [].
Proof.
  intros O. destruct (start_some e (pre ++ range_hops ctype n cr) keep) as (stored & H). exists stored. split; [exact H|].
  apply (stored_ne _ _ _ _ (bs "content-range") H). unfold range_hops.
  change [HStatus 206 (bs "Partial Content"); HCtype ctype; HSet (bs "Content-Length") (fmt_d n); HSet (bs "Content-Range") cr]
    with ([HStatus 206 (bs "Partial Content"); HCtype ctype; HSet (bs "Content-Length") (fmt_d n)] ++ HSet (bs "Content-Range") cr :: []).
  rewrite app_assoc. change (bs "content-range") with (lower (bs "Content-Range")).
  rewrite start_set; [discriminate|ol|exact O|discriminate|discriminate|constructor].
Qed.

Lemma single_main a b n : in_file (blen file) (a, b, n) -> e_method e <> bs "HEAD" ->
  exists s', single_call e k ctype file (a, b, n) (start e pre keep) = (Ok tt, s') /\ served e ctype boundary file keep [(a, b)] s'.
Proof.
  intros IF NH. unfold single_call. set (cr := content_range a b (blen file)). set (mid := range_hops ctype n cr).
  destruct (range_clean e ctype n cr (proj1 CT) ltac:(apply one_line_cr)) as [MC MN]. fold mid in MC, MN.
  destruct (single_wr a b n (start e (pre ++ mid) keep) IF) as (l & E & C & Nl).
  destruct (range_stored n cr ltac:(apply one_line_cr)) as (stored & H & Ne). fold mid in H.
  destruct (mid_close e pre mid keep k HA HN HU MC MN HB (Some false) l stored H Ne) as (s' & sent & items & R & O & S & I & K).
  { unfold mid. rewrite range_status. now apply not_head_206. } { exact Nl. }
  destruct IF as (_ & _ & En).
  destruct (single_sent e pre keep stored sent ctype a b (blen file) n CT HF En H S) as (SL & CM & _).
  rewrite mid_run in * by assumption. rewrite <- E in R. exists s'. split; [exact R|].
  unfold mid in O, S. rewrite range_status in O. cbn [chunk_choice orb] in *.
  exists (lines_of sent), items. split; [exact O|]. split; [|split; [|split]].
  - pose proof (so_lines _ _ _ _ _ _ S) as X. now rewrite range_status in X.
  - rewrite K, CM. apply andb_true_r.
  - exact SL.
  - rewrite I. unfold enc. now rewrite map_id.
Qed.
Lemma single_head a b n : in_file (blen file) (a, b, n) -> e_method e = bs "HEAD" ->
  exists s' lines, single_call e k ctype file (a, b, n) (start e pre keep) = (Ok tt, s') /\
    on_wire (r_keep s') (r_out s') = head_of (status_line e ok_206 :: lines) /\ Forall one_line (status_line e ok_206 :: lines) /\
    single_lines ctype (blen file) a b lines.
Proof.
  intros IF NH. unfold single_call. set (cr := content_range a b (blen file)). set (mid := range_hops ctype n cr).
  destruct (range_clean e ctype n cr (proj1 CT) ltac:(apply one_line_cr)) as [MC MN]. fold mid in MC, MN.
  destruct (single_wr a b n (start e (pre ++ mid) keep) IF) as (l & E & C & Nl).
  destruct (range_stored n cr ltac:(apply one_line_cr)) as (stored & H & Ne). fold mid in H.
  destruct (mid_close_bodyless e pre mid keep k HA HN HU MC MN HB (Some false) l stored H Ne) as (s' & sent & R & S & O);
    try (unfold mid; rewrite range_status; first [now left|cbn; lia]); [exact Nl|].
  destruct IF as (_ & _ & En).
  destruct (single_sent e pre keep stored sent ctype a b (blen file) n CT HF En H S) as (SL & CM & _).
  rewrite mid_run in * by assumption. rewrite <- E in R. exists s', (lines_of sent). split; [exact R|].
  unfold mid in O, S. rewrite range_status in O. split; [exact O|]. split; [|exact SL].
  pose proof (so_lines _ _ _ _ _ _ S) as X. now rewrite range_status in X.
Qed.

Lemma multi_wr ranges s : Forall (in_file (blen file)) ranges -> exists l,
  (write_parts e k boundary ctype file (blen file) ranges ;; write e (Some (bs "--" ++ boundary ++ bs "--" ++ CRLF)) None k ;;
   write e (Some []) None k ;; close true) s = (wr e None k (filter nonempty l ++ [[]]) ;; close true) s /\
  concat l = byteranges boundary ctype file (map fst ranges).
Proof.
  intros F. destruct (write_parts_wr e k boundary ctype file HB ranges F) as (l & E & C & Ne).
  exists (l ++ [bs "--" ++ boundary ++ bs "--" ++ CRLF]). split.
  - rewrite filter_app. assert (filter nonempty l = l) as ->.
    { clear -Ne. induction Ne as [|d l Hd Ne IH]; [reflexivity|]. cbn [filter]. destruct d; [easy|]. cbn [nonempty]. now rewrite IH. }
    cbn [filter nonempty app bs]. rewrite <- app_assoc. cbn [app].
    match goal with |- _ = seq ?m ?g s => rewrite (seq_ext_l m (fun s => wr e None k (l ++ [_; []]) s) g s eq_refl) end.
    transitivity ((wr e None k l ;; wr e None k [bs "--" ++ boundary ++ bs "--" ++ CRLF; []] ;; close true) s).
    + rewrite (seq_ext_l _ _ _ _ (E s)). apply seq_ext. intros _ s1. cbn [wr]. rewrite seq_assoc. apply seq_ext. intros _ s2.
      rewrite seq_assoc. apply seq_ext. intros _ s3. reflexivity.
    + rewrite <- seq_assoc. apply seq_ext_l. symmetry. apply wr_app.
  - rewrite concat_app, C. unfold byteranges. rewrite map_map. cbn [concat]. now rewrite app_nil_r.
Qed.

Lemma multi_main ranges stored0 : Forall (in_file (blen file)) ranges -> List.length ranges <> 1%nat -> e_method e <> bs "HEAD" -> e_11 e = true ->
  r_headers (start e pre keep) = Some stored0 -> stored0 <> [] ->
  exists s', multi_call e k boundary ctype file ranges (start e pre keep) = (Ok tt, s') /\ served e ctype boundary file keep (map fst ranges) s'.
Proof.
  intros F L NH V H0 Ne0. unfold multi_call. set (ct := bs "multipart/byteranges; boundary=" ++ boundary). set (mid := multi_hops ct).
  assert (one_line ct) as OC by (apply one_line_app; [ol|exact OB]).
  destruct (multi_clean e ct OC) as [MC MN]. fold mid in MC, MN.
  destruct (multi_wr ranges (start e (pre ++ mid) keep) F) as (l & E & C).
  destruct (start_some e (pre ++ mid) keep) as (stored & H).
  assert (stored <> []) as Ne.
  { intros ->. destruct stored0 as [|[key x] stored0]; [easy|].
    pose proof (do_hops_present e key mid (start e pre keep)) as P. unfold start in H. rewrite do_hops_app in H. fold (start e pre keep) in H.
    unfold lines_at in P. rewrite H, H0 in P. apply P; [|reflexivity]. unfold hget. cbn [dget]. now rewrite beqb_refl. }
  destruct (mid_close e pre mid keep k HA HN HU MC MN HB None (filter nonempty l ++ [[]]) stored H Ne) as (s' & sent & items & R & O & S & I & K).
  { unfold mid. rewrite multi_status. now apply not_head_206. } { now destruct (filter nonempty l). }
  cbn [chunk_choice] in *. rewrite V in *. cbn [andb negb orb] in *.
  pose proof (multi_sent e pre keep stored sent boundary OB HF H S) as ML.
  rewrite mid_run in * by assumption. rewrite <- E in R. exists s'. split; [exact R|].
  unfold mid in O, S. rewrite multi_status in O.
  exists (lines_of sent), items. split; [exact O|]. split; [|split; [|]].
  - pose proof (so_lines _ _ _ _ _ _ S) as X. now rewrite multi_status in X.
  - rewrite K. apply andb_true_r.
  - assert (multi_lines boundary (lines_of sent) /\
           exists cs, concat items = chunked_body cs (bs "0") [] CRLF /\ Forall good_chunk cs /\
             chunks_data cs = byteranges boundary ctype file (map fst ranges)) as Q.
    { split; [exact ML|]. exists (map chunk_of (filter nonempty l)). rewrite I. split; [apply enc_chunks|]. split; [apply enc_chunks_good|].
      now rewrite chunks_data_of. }
    destruct ranges as [|[[a b] n] [|r2 rs]]; [exact Q|now cbn in L|]. exact Q.
Qed.
End Range.

Lemma suffix0_range size v r : 0 <= size -> parse_range size v = Ok r -> ~ suffix0 v -> in_file size r.
Proof.
  intros Z E N. destruct (parse_range_sound size v r Z E) as [I|I]; [exact I|]. exfalso. apply N. unfold empty_suffix in I. subst r.
  unfold parse_range in E. unfold suffix0. destruct (startswith (bs "-") (strip_ws v)) eqn:S.
  - split; [reflexivity|]. destruct (py_int (strip_ws v)) as [n|]; [|discriminate]. destruct (size + n <? 0); [discriminate|].
    assert ((size + n, size - 1, size - (size + n)) = (size, size - 1, 0)) as X by congruence. f_equal. inversion X. lia.
  - exfalso. destruct (endswith (bs "-") (strip_ws v)).
    + destruct (py_int _) as [n|]; [|discriminate]. destruct (size <=? n) eqn:L; [discriminate|].
      assert ((n, size - 1, size - n) = (size, size - 1, 0)) as X by congruence. inversion X. lia.
    + destruct (split_max _ _ _) as [|a [|b [|]]]; try discriminate. destruct (py_int a) as [n|]; [|discriminate]. destruct (py_int b) as [m|]; [|discriminate].
      set (m' := if m =? 0 then n else m) in *. destruct ((m' <? n) || (size <=? m')) eqn:L; [discriminate|].
      assert ((n, m', m' - n + 1) = (size, size - 1, 0)) as X by congruence. inversion X. lia.
Qed.
Lemma suffix0_ranges size vs : forall rs, 0 <= size -> parse_ranges size vs = Ok rs -> Forall (fun v => ~ suffix0 v) vs -> Forall (in_file size) rs.
Proof.
  induction vs as [|v vs IH]; intros rs Z E F; cbn [parse_ranges] in E; [injection E as <-; constructor|].
  inversion_clear F as [|? ? Hv F']. destruct (parse_range size v) as [r|] eqn:R; [|discriminate]. cbn [bind] in E.
  destruct (parse_ranges size vs) as [rs'|]; [|discriminate]. injection E as <-. constructor; [now apply (suffix0_range size v)|now apply IH].
Qed.

Lemma base_stored e pre keep : one_line (e_date e) -> one_line (e_server e) -> exists d, r_headers (start e (HBase :: pre) keep) = Some d /\ d <> [].
Proof.
  intros A B. destruct (start_some e (HBase :: pre) keep) as (d & H). exists d. split; [exact H|].
  apply (stored_ne _ _ _ _ (bs "date") H). unfold start. cbn [do_hops do_hop]. apply do_hops_present. now apply base_present.
Qed.

Lemma base_ok pre : Forall appends_clean pre -> Forall name_ok pre -> Forall unreserved pre -> Forall unframed_call pre ->
  Forall appends_clean (HBase :: pre) /\ Forall name_ok (HBase :: pre) /\ Forall unreserved (HBase :: pre) /\ Forall unframed_call (HBase :: pre).
Proof.
  intros A B C D. repeat split; constructor; try assumption; try exact I. split; vm_compute; intuition discriminate.
Qed.

Lemma c34_main e q f file_size ctype boundary k pre keep :
  size_ok f file_size -> uses_range e q f -> Forall (fun v => ~ suffix0 v) (specs (f_range q)) ->
  1 <= k_bufsize k -> ctype_ok ctype -> one_line boundary -> one_line (e_date e) -> one_line (e_server e) ->
  Forall appends_clean pre -> Forall name_ok pre -> Forall unreserved pre -> Forall unframed_call pre -> e_method e <> bs "HEAD" ->
  let s := start e (HBase :: pre) keep in
  sendfile e q f file_size ctype boundary k s = (Raise BadRequest, s) \/
  sendfile e q f file_size ctype boundary k s = (Raise RangeNotSatisfiable, s) \/
  exists s' rs, sendfile e q f file_size ctype boundary k s = (Ok tt, s') /\
    (1 <= List.length rs <= 101)%nat /\ Forall (in_bounds (blen (fl_bytes f))) rs /\
    served e ctype boundary (fl_bytes f) keep rs s'.
Proof.
  intros Z UR S0 HB CT OB D1 D2 A N U F NH s. rewrite (range_eq e q f file_size ctype boundary k s Z UR).
  destruct (base_ok pre A N U F) as (A' & N' & U' & F').
  assert (0 <= blen (fl_bytes f)) as Z0 by (unfold blen; lia).
  destruct (range_header (blen (fl_bytes f)) (f_range q)) as [rs|x] eqn:R.
  2:{ destruct (range_header_errors _ _ _ R) as [-> | ->]; [now left|right; now left]. }
  right; right. destruct (range_header_sound _ _ _ Z0 R) as [_ L].
  assert (Forall (in_file (blen (fl_bytes f))) rs) as FI.
  { unfold range_header in R. destruct (forallb _ _); [|discriminate]. now apply (suffix0_ranges _ (specs (f_range q))). }
  assert (Forall (in_bounds (blen (fl_bytes f))) (map fst rs)) as FB.
  { apply Forall_forall. intros r I. apply in_map_iff in I as ([[a b] n] & <- & I). rewrite Forall_forall in FI. specialize (FI _ I). cbn in FI |- *. unfold in_bounds. cbn. lia. }
  destruct (base_stored e pre keep D1 D2) as (d & H & Ne).
  assert (List.length rs <> 1%nat -> exists s', multi_call e k boundary ctype (fl_bytes f) rs s = (Ok tt, s') /\ served e ctype boundary (fl_bytes f) keep (map fst rs) s') as M.
  { intros NL. apply (multi_main e k ctype boundary (fl_bytes f) (HBase :: pre) keep) with (stored0 := d); try assumption. apply UR. }
  destruct rs as [|[[a b] n] [|r2 rs]].
  - cbn in L. lia.
  - inversion_clear FI as [|? ? I _].
    destruct (single_main e k ctype boundary (fl_bytes f) (HBase :: pre) keep HB CT A' N' U' F' a b n I NH) as (s' & E & Sv).
    exists s', [(a, b)]. split; [exact E|]. split; [cbn; lia|]. split; [exact FB|exact Sv].
  - destruct M as (s' & E & Sv); [cbn; lia|]. exists s', (map fst ((a, b, n) :: r2 :: rs)). split; [exact E|]. split; [now rewrite map_length|]. split; [exact FB|exact Sv].
Qed.

Lemma resolve_bounds size r x : 0 <= size -> resolve size r = Some x -> in_bounds size x.
Proof.
  intros Z. unfold resolve, in_bounds. destruct r as [a b|a|n]; [destruct ((a <=? b)%N && (Z.of_N b <? size)) eqn:E|destruct (Z.of_N a <? size) eqn:E|destruct ((0 <? n)%N && (Z.of_N n <=? size)) eqn:E];
    try discriminate; intros [= <-]; cbn; lia.
Qed.
Lemma resolve_all_ok size rs : forall l, 0 <= size -> resolve_all size rs = Some l -> Forall (in_bounds size) l /\ List.length l = List.length rs.
Proof.
  induction rs as [|r rs IH]; intros l Z E; cbn [resolve_all] in E; [injection E as <-; auto|].
  destruct (resolve size r) as [x|] eqn:R; [|discriminate]. destruct (resolve_all size rs) as [l'|]; [|discriminate]. injection E as <-.
  destruct (IH l' Z eq_refl) as [F L]. split; [constructor; [now apply (resolve_bounds size r)|exact F]|cbn; now rewrite L].
Qed.
Lemma c34_standard_main e q f file_size ctype boundary k pre keep rs :
  size_ok f file_size -> uses_range e q f -> f_range q = [header_text rs] ->
  Forall spec_short rs -> Forall plain rs -> rs <> [] -> (List.length rs <= 101)%nat ->
  1 <= k_bufsize k -> ctype_ok ctype -> one_line boundary -> one_line (e_date e) -> one_line (e_server e) ->
  Forall appends_clean pre -> Forall name_ok pre -> Forall unreserved pre -> Forall unframed_call pre -> e_method e <> bs "HEAD" ->
  let s := start e (HBase :: pre) keep in
  match resolve_all (blen (fl_bytes f)) rs with
  | None => sendfile e q f file_size ctype boundary k s = (Raise RangeNotSatisfiable, s)
  | Some l => exists s', sendfile e q f file_size ctype boundary k s = (Ok tt, s') /\ served e ctype boundary (fl_bytes f) keep l s'
  end.
Proof.
  intros Z UR HT Sh Pl Ne L HB CT OB D1 D2 A N U F NH s. rewrite (range_eq e q f file_size ctype boundary k s Z UR), HT.
  destruct (base_ok pre A N U F) as (A' & N' & U' & F').
  assert (0 <= blen (fl_bytes f)) as Z0 by (unfold blen; lia).
  rewrite (header_parse _ rs Z0 Sh Pl Ne L).
  destruct (resolve_all (blen (fl_bytes f)) rs) as [l|] eqn:R; [|reflexivity].
  destruct (resolve_all_ok _ _ _ Z0 R) as [FB LL].
  assert (Forall (in_file (blen (fl_bytes f))) (map triple l)) as FI.
  { apply Forall_forall. intros r I. apply in_map_iff in I as ([a b] & <- & I). rewrite Forall_forall in FB. specialize (FB _ I). unfold in_bounds in FB. cbn in *. lia. }
  assert (map fst (map triple l) = l) as ML.
  { rewrite map_map. rewrite <- (map_id l) at 2. apply map_ext. now intros [a b]. }
  destruct (base_stored e pre keep D1 D2) as (d & H & Nd).
  assert (List.length (map triple l) <> 1%nat -> exists s', multi_call e k boundary ctype (fl_bytes f) (map triple l) s = (Ok tt, s') /\ served e ctype boundary (fl_bytes f) keep l s') as M.
  { intros NL. pose proof (multi_main e k ctype boundary (fl_bytes f) (HBase :: pre) keep HB OB A' N' U' F' (map triple l) d FI NL NH (proj1 UR) H Nd) as X. now rewrite ML in X. }
  destruct l as [|[a b] [|r2 l]].
  - destruct rs; [easy|discriminate].
  - inversion_clear FI as [|? ? I _].
    exact (single_main e k ctype boundary (fl_bytes f) (HBase :: pre) keep HB CT A' N' U' F' a b _ I NH).
  - apply M. cbn. lia.
Qed.

Lemma c34_head_main e q f file_size ctype boundary k pre keep r a b :
  size_ok f file_size -> uses_range e q f -> f_range q = [header_text [r]] -> spec_short r -> plain r -> resolve (blen (fl_bytes f)) r = Some (a, b) ->
  1 <= k_bufsize k -> ctype_ok ctype ->
  Forall appends_clean pre -> Forall name_ok pre -> Forall unreserved pre -> Forall unframed_call pre -> e_method e = bs "HEAD" ->
  exists s' lines, sendfile e q f file_size ctype boundary k (start e pre keep) = (Ok tt, s') /\
    on_wire (r_keep s') (r_out s') = head_of (status_line e ok_206 :: lines) /\ Forall one_line (status_line e ok_206 :: lines) /\
    single_lines ctype (blen (fl_bytes f)) a b lines.
Proof.
  intros Z UR HT Sh Pl R HB CT A N U F NH. rewrite (range_eq e q f file_size ctype boundary k _ Z UR), HT.
  assert (0 <= blen (fl_bytes f)) as Z0 by (unfold blen; lia).
  rewrite (header_parse _ [r] Z0) by (try (constructor; [assumption|constructor]); try easy; cbn; lia).
  cbn [resolve_all]. rewrite R. cbn [map triple fst snd].
  apply (single_head e k ctype (fl_bytes f) pre keep HB CT A N U F a b); [|exact NH].
  pose proof (resolve_bounds _ _ _ Z0 R) as X. unfold in_bounds in X. cbn in *. lia.
Qed.
