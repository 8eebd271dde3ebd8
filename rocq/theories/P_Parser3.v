(** Proofs of C03, C05, C06. *)
From Verif Require Import PyBytes PyBytesFacts PyInt PyExn M_Parser S_Head P_Parser P_Parser2.
From Coq Require Import ZifyBool ZifyNat.

Lemma nv_values_has lines nvs k : Forall2 (fun l nv => field_split l = Some nv) lines nvs ->
  (nv_values k nvs <> [] <-> has_field k lines).
Proof.
  unfold nv_values. induction 1 as [|l nv ls nvs E F IH]; cbn [filter map].
  - split; [easy|]. intros (l & n & [] & _).
  - destruct (beqb (lower (fst nv)) k) eqn:B.
    + split; [|easy]. intros _. apply beqb_eq in B. exists l, (fst nv).
      split; [now left|]. split; [|exact B]. apply field_split_elim in E as (E1 & E2 & E3 & E4).
      exists (snd nv). auto.
    + apply beqb_neq in B. rewrite IH. split.
      * intros (l' & n & H1 & H2 & H3). exists l', n. split; [now right|]. now split.
      * intros (l' & n & [<-|H1] & H2 & H3).
        -- exfalso. apply B. rewrite (field_line_name _ _ _ E H2). exact H3.
        -- exists l', n. auto.
Qed.

Lemma head_region data p : find CRLF2 data = Some p ->
  firstn (p + 4) data = firstn (p + 2) data ++ CRLF.
Proof.
  intros F. pose proof (find_some _ _ _ F) as (H1 & H2 & _). cbn in H1.
  apply startswith_spec in H2 as (r & H2).
  rewrite <- (firstn_skipn p data), H2. rewrite !firstn_app, firstn_length.
  replace (p + 4 - min p (List.length data)) with 4 by lia.
  replace (p + 2 - min p (List.length data)) with 2 by lia.
  rewrite !firstn_firstn. replace (min (p + 4) p) with p by lia. replace (min (p + 2) p) with p by lia.
  rewrite <- app_assoc. reflexivity.
Qed.

(** What a fully accepted head leads to. *)
Lemma parse_good ex ml mls body first rest method target version nvs :
  is_request_line first method target version ->
  S (List.length rest) <= ml -> good_line mls first -> Forall (good_line mls) rest ->
  Forall2 (fun l nv => field_split l = Some nv) rest nvs ->
  let h0 := mkHeader true false true false
    (hset k_line (One (AB first)) (hset k_version (One (AB version))
       (hset k_url (One (AB target)) (hset k_method (One (AB method)) [])))) [] body in
  finish (run_lines ex mls ml true (first :: rest) (mkHeader false false false false [] [] body)) =
  check_host (fold_left (add_field ex) nvs h0).
Proof.
  intros R L G Gs F2. cbv zeta. destruct ml as [|ml]; [lia|]. cbn [run_lines].
  apply good_line_test in G. rewrite G.
  rewrite (run_fields_good _ _ _ _ F2) by (assumption || lia).
  rewrite (first_line_request _ _ _ _ _ R). reflexivity.
Qed.

Lemma check_host_valid_intro h : is_valid_request (check_host h) = true ->
  is_valid_request h = true.
Proof.
  unfold check_host. destruct (_ && _); cbn; [|easy]. now intros H%andb_true_iff.
Qed.

Lemma c03_exact data p hs hmax ex ml mls :
  find CRLF2 data = Some p -> scanned hs hmax p (List.length data) ->
  (is_valid_request (parse_header data hs hmax ex ml mls) = true <->
   exists first rest version, request_head ml mls (firstn (p + 4) data) first rest version /\
     (version = bs "1.1" -> has_field (bs "host") rest \/ has_field (bs "_version") rest)).
Proof.
  intros F S1. destruct (region_lines _ _ F) as (lines & E & Lk).
  rewrite (parse_as_lines data p hs hmax ex ml mls lines) by assumption.
  assert (forall first rest method target version nvs,
     is_request_line first method target version ->
     S (List.length rest) <= ml -> good_line mls first -> Forall (good_line mls) rest ->
     Forall2 (fun l nv => field_split l = Some nv) rest nvs ->
     (is_valid_request (finish (run_lines ex mls ml true (first :: rest)
         (mkHeader false false false false [] [] (skipn (p + 4) data)))) = true <->
      (version = bs "1.1" -> has_field (bs "host") rest \/ has_field (bs "_version") rest))) as K.
  { intros first rest method target version nvs H1 H2 H3 H4 H5.
    rewrite (parse_good _ _ _ _ _ _ _ _ _ _ H1 H2 H3 H4 H5).
    set (h0 := mkHeader true false true false _ _ _).
    pose proof (fold_add_flags ex nvs h0) as (FL1 & _ & FL3 & _). cbv zeta in *.
    unfold check_host. rewrite FL1. cbn [is_request h0 andb].
    rewrite hmem_hget, fold_add_hget.
    assert (hget k_host (headers h0) = None) as -> by reflexivity.
    rewrite fold_add_value_none.
    destruct (nv_values k_host nvs) as [|v vs] eqn:Ev.
    - cbn [negb]. cbn [is_valid_request]. rewrite FL3. cbn [is_valid_request h0 andb].
      rewrite hget_hset_other by discriminate. rewrite fold_add_hget.
      assert (hget k_version (headers h0) = Some (One (AB version))) as -> by reflexivity.
      rewrite fold_add_value_one.
      assert (~ has_field (bs "host") rest) as NH.
      { intros H. apply (nv_values_has _ _ _ H5) in H. change (bs "host") with k_host in H. congruence. }
      destruct (nv_values k_version nvs) as [|w ws] eqn:Ew.
      + cbn [is_version_11]. split.
        * intros H Hv. rewrite Hv, beqb_refl in H. easy.
        * intros H. destruct (beqb version (bs "1.1")) eqn:B; [|reflexivity].
          apply beqb_eq in B. destruct (H B) as [C|C]; [easy|].
          apply (nv_values_has _ _ _ H5) in C. change (bs "_version") with k_version in C. congruence.
      + cbn [is_version_11 negb]. split; [|reflexivity]. intros _ _. right.
        apply (nv_values_has _ _ _ H5). change (bs "_version") with k_version. congruence.
    - match goal with |- context [negb ?x] => assert (negb x = false) as N by (destruct vs; reflexivity) end.
      rewrite N, FL3. cbn [is_valid_request h0]. split; [|reflexivity].
      intros _ _. left. apply (nv_values_has _ _ _ H5). change (bs "host") with k_host. congruence. }
  split.
  - intros H. destruct lines as [|first rest]; [cbn in H; easy|].
    assert (is_valid_request (snd (run_lines ex mls ml true (first :: rest)
              (mkHeader false false false false [] [] (skipn (p + 4) data)))) = true) as H'.
    { destruct (run_lines _ _ _ _ _ _) as [[|] h]; cbn [finish snd] in *; [exact H|].
      now apply check_host_valid_intro. }
    destruct ml as [|ml]; [cbn in H'; easy|]. cbn [run_lines] in H'.
    destruct ((mls <? blen first)%Z || memb LF first) eqn:G; [cbn in H'; easy|].
    apply good_line_test in G.
    apply run_fields_valid in H' as (V & L & Gs & nvs & F2).
    apply first_line_valid in V as (m & u & v & R); [|reflexivity].
    exists first, rest, v. split.
    + unfold request_head. split; [now rewrite head_region, E by assumption|].
      split; [now exists m, u|]. split; [cbn; lia|]. split; [constructor; [exact G|exact Gs]|].
      clear -F2. induction F2 as [|l nv ls nvs E _ IH]; constructor; [|exact IH].
      apply field_line_iff. now exists nv.
    + apply (K first rest m u v nvs); try assumption. lia.
  - intros (first & rest & version & (R1 & (m & u & R2) & R3 & R4 & R5) & R6).
    rewrite head_region, E in R1 by assumption. apply app_inv_tail in R1.
    assert (lines = first :: rest) as ->.
    { assert (Forall line_ok (first :: rest)) as Lk2.
      { eapply Forall_impl; [|exact R4]. intros l [_ H]. now apply line_ok_nolf. }
      revert R1 Lk Lk2. clear. generalize (first :: rest) as l2. revert lines.
      induction lines as [|a la IH]; intros [|b lb] H F1 F2; [reflexivity| | |].
      - rewrite lines_bytes_cons in H. cbn in H. destruct b; discriminate.
      - rewrite lines_bytes_cons in H. cbn in H. destruct a; discriminate.
      - rewrite !lines_bytes_cons in H. inversion F1; inversion F2; subst.
        pose proof (find_line a (lines_bytes la) ltac:(assumption)) as Fa.
        pose proof (find_line b (lines_bytes lb) ltac:(assumption)) as Fb.
        rewrite H, Fb in Fa. injection Fa as Fa.
        assert (a = b) as -> by (rewrite <- (firstn_app_len a (CRLF ++ lines_bytes la)), H, <- Fa; apply firstn_app_len).
        apply app_inv_head in H. apply app_inv_head in H. f_equal. apply IH; assumption. }
    inversion R4 as [|? ? G Gs]; subst.
    assert (exists nvs, Forall2 (fun l nv => field_split l = Some nv) rest nvs) as (nvs & F2).
    { clear -R5. induction R5 as [|l ls H _ (nvs & IH)]; [exists []; constructor|].
      apply field_line_iff in H as (nv & H). exists (nv :: nvs). now constructor. }
    cbn [List.length] in R3. apply (K first rest m u version nvs); assumption.
Qed.

Lemma c03_main data p hs hmax ex ml mls :
  find CRLF2 data = Some p -> scanned hs hmax p (List.length data) ->
  (forall first rest version, request_head ml mls (firstn (p + 4) data) first rest version ->
     ~ has_field (bs "_version") rest) ->
  (is_valid_request (parse_header data hs hmax ex ml mls) = true <->
   well_formed_request ml mls (firstn (p + 4) data)).
Proof.
  intros F S1 NV. rewrite (c03_exact data p hs hmax ex ml mls F S1). unfold well_formed_request. split.
  - intros (f & r & v & R & H). exists f, r, v. split; [exact R|]. intros Hv.
    destruct (H Hv) as [C|C]; [exact C|]. exfalso. exact (NV f r v R C).
  - intros (f & r & v & R & H). exists f, r, v. split; [exact R|]. intros Hv. left. now apply H.
Qed.

(** ** C06 *)
Lemma remove_loop_filter args i l : i <= List.length l ->
  remove_loop args i l = filter (fun nv => negb (mem_bytes (fst nv) args)) (firstn i l) ++ skipn i l.
Proof.
  revert l; induction i as [|i IH]; intros l Hi; [reflexivity|]. cbn [remove_loop].
  destruct (nth_error l i) as [[name v]|] eqn:E.
  2:{ apply nth_error_None in E. lia. }
  apply nth_error_split in E as (l1 & l2 & -> & Li). subst i.
  rewrite app_length in Hi. cbn [List.length] in Hi.
  assert (firstn (S (List.length l1)) (l1 ++ (name, v) :: l2) = l1 ++ [(name, v)]) as E1.
  { rewrite firstn_app, firstn_all2 by lia. f_equal. replace (S (List.length l1) - List.length l1) with 1 by lia. reflexivity. }
  assert (skipn (S (List.length l1)) (l1 ++ (name, v) :: l2) = l2) as E2.
  { replace (S (List.length l1)) with (List.length l1 + 1) by lia. rewrite skipn_app_len_plus. reflexivity. }
  rewrite E1, E2, filter_app. cbn [filter fst]. destruct (mem_bytes name args) eqn:M; cbn [negb].
  - rewrite firstn_app_len, skipn_app_len_plus. cbn [skipn].
    rewrite IH by (rewrite app_length; lia). rewrite firstn_app_len, skipn_app_len. now rewrite app_nil_r.
  - rewrite IH by (rewrite app_length; cbn; lia). rewrite firstn_app_len, skipn_app_len. now rewrite <- app_assoc.
Qed.

Lemma mem_bytes_In x l : mem_bytes x l = true <-> In x l.
Proof.
  unfold mem_bytes. rewrite existsb_exists. split.
  - intros (y & H & E). apply beqb_eq in E. now subst.
  - intros H. exists x. split; [exact H|apply beqb_refl].
Qed.

Lemma c06_remove h args :
  hlist (remove h args) = filter (fun nv => negb (mem_bytes (fst nv) args)) (hlist h) /\
  headers (remove h args) = headers h /\ hbody (remove h args) = hbody h.
Proof.
  destruct args as [|a args].
  - cbn [remove]. split; [|now split]. symmetry. induction (hlist h) as [|x l IH]; [reflexivity|]. cbn. now f_equal.
  - unfold remove, set_hlist. cbn [hlist headers hbody]. split; [|now split].
    rewrite remove_loop_filter by lia. rewrite firstn_all, skipn_all. apply app_nil_r.
Qed.

Lemma c06_append h args :
  hlist (append h args) = hlist h ++ flat_map (fun o => match o with Some v => [v] | None => [] end) args /\
  headers (append h args) = headers h /\ hbody (append h args) = hbody h.
Proof.
  revert h; induction args as [|[v|] args IH]; intros h; cbn [append flat_map].
  - rewrite app_nil_r. auto.
  - destruct (IH (set_hlist h (hlist h ++ [v]))) as (H1 & H2 & H3). rewrite H1, H2, H3.
    cbn [set_hlist hlist headers hbody]. rewrite <- app_assoc. auto.
  - exact (IH h).
Qed.
