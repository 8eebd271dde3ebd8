(** Proofs of the parser properties C01-C06. *)
From Verif Require Import PyBytes PyBytesFacts PyInt PyExn M_Parser S_Head P_Parser.
From Coq Require Import ZifyBool ZifyNat.

Definition CRLF2 : bytes := CRLF ++ CRLF.

Lemma find_skip s l k : k <= List.length l ->
  (forall j, j < k -> startswith s (skipn j l) = false) ->
  find s l = option_map (Nat.add k) (find s (skipn k l)).
Proof.
  revert l; induction k as [|k IH]; intros l Hk Hj.
  - cbn [skipn]. destruct (find s l); reflexivity.
  - destruct l as [|x l]; [cbn in Hk; lia|]. rewrite find_unfold.
    pose proof (Hj 0 ltac:(lia)) as H0. cbn [skipn] in H0. rewrite H0. cbn [skipn].
    rewrite (IH l); [|cbn in Hk; lia|].
    + destruct (find s (skipn k l)); reflexivity.
    + intros j Lj. apply (Hj (S j)). lia.
Qed.

Lemma startswith_prefix a b l : startswith (a ++ b) l = true -> startswith a l = true.
Proof. rewrite !startswith_spec. intros (r & ->). exists (b ++ r). now rewrite app_assoc. Qed.

Lemma find_head lines body : lines <> [] -> Forall (fun l => l <> [] /\ ~ In LF l) lines ->
  find CRLF2 (lines_bytes lines ++ CRLF ++ body) = Some (List.length (lines_bytes lines) - 2).
Proof.
  induction lines as [|l ls IH]; intros Hne F; [easy|].
  inversion F as [|? ? [Hl Hlf] F']; subst.
  rewrite lines_bytes_cons. rewrite <- !app_assoc.
  pose proof (find_crlf_line l (lines_bytes ls ++ CRLF ++ body) Hlf) as FL.
  pose proof (find_some _ _ _ FL) as (L1 & _ & Nj).
  assert (forall j, j < List.length l ->
            startswith CRLF2 (skipn j (l ++ CRLF ++ lines_bytes ls ++ CRLF ++ body)) = false) as Nj2.
  { intros j Hj. destruct (startswith CRLF2 _) eqn:E; [|reflexivity].
    apply startswith_prefix in E. rewrite Nj in E by exact Hj. easy. }
  destruct ls as [|l2 ls].
  - cbn [lines_bytes map concat app]. rewrite !app_length. cbn [List.length CRLF].
    replace (List.length l + (2 + 0) - 2) with (List.length l) by lia.
    apply find_intro; [|rewrite app_length; lia|exact Nj2].
    rewrite skipn_app_len. reflexivity.
  - inversion F' as [|? ? [Hl2 Hlf2] F'']; subst.
    rewrite (find_skip _ _ (List.length l + 2)).
    + rewrite skipn_app_len_plus. cbn [skipn app CRLF].
      change (CR :: LF :: body) with (CRLF ++ body).
      rewrite IH; [|easy|exact F']. cbn [option_map]. f_equal.
      rewrite lines_bytes_cons. cbn [List.length CRLF app]. rewrite !app_length. cbn [List.length]. rewrite ?app_length. cbn [List.length]. lia.
    + rewrite !app_length. cbn [List.length CRLF]. lia.
    + intros j Hj.
      destruct (Nat.lt_ge_cases j (List.length l)) as [G|G]; [now apply Nj2|].
      replace j with (List.length l + (j - List.length l)) by lia.
      rewrite skipn_app_len_plus. destruct (j - List.length l) as [|[|k]] eqn:K; [| |lia].
      * cbn [skipn]. destruct (startswith CRLF2 _) eqn:E; [|reflexivity]. exfalso.
        cbn [CRLF2 CRLF app startswith] in E. rewrite !Ascii.eqb_refl in E. cbn [andb] in E.
        assert (startswith CRLF (lines_bytes (l2 :: ls) ++ CR :: LF :: body) = true) as E2 by exact E.
        rewrite lines_bytes_cons, <- !app_assoc in E2.
        pose proof (find_crlf_line l2 (lines_bytes ls ++ CR :: LF :: body) Hlf2) as FL2.
        apply find_some in FL2 as (_ & _ & N2). specialize (N2 0).
        cbn [skipn] in N2. rewrite N2 in E2; [easy|]. destruct l2; [easy|cbn; lia].
      * reflexivity.
Qed.

Lemma norm_index_nonneg n (z : Z) : (0 <= z)%Z -> norm_index n z = min n (Z.to_nat z).
Proof. intros H. unfold norm_index. replace (z <? 0)%Z with false by lia. lia. Qed.

Lemma upto_nonneg {A} (l : list A) z : (0 <= z)%Z -> upto l z = firstn (Z.to_nat z) l.
Proof.
  intros H. unfold upto. rewrite norm_index_nonneg by exact H.
  destruct (Nat.le_ge_cases (List.length l) (Z.to_nat z)) as [G|G].
  - rewrite Nat.min_l by exact G. now rewrite firstn_all, firstn_all2.
  - now rewrite Nat.min_r.
Qed.
Lemma from_nonneg {A} (l : list A) z : (0 <= z)%Z -> from l z = skipn (Z.to_nat z) l.
Proof.
  intros H. unfold from. rewrite norm_index_nonneg by exact H.
  destruct (Nat.le_ge_cases (List.length l) (Z.to_nat z)) as [G|G].
  - rewrite Nat.min_l by exact G. now rewrite skipn_all, skipn_all2.
  - now rewrite Nat.min_r.
Qed.

(** The header size that the scan finds, or that the caller passes. *)
Definition scanned (hs hmax : Z) (p len : nat) : Prop :=
  (hs = -1 /\ Z.of_nat p + 4 <= hmax)%Z \/ hs = (Z.of_nat p + 2)%Z.

Lemma find_upto s l i k : find s l = Some i -> i + List.length s <= k -> find s (firstn k l) = Some i.
Proof.
  intros F Hk. pose proof (find_some _ _ _ F) as (H1 & H2 & H3).
  assert (forall j, j <= i -> startswith s (skipn j (firstn k l)) = startswith s (skipn j l)) as E.
  { intros j Hj. rewrite <- (firstn_skipn k l) at 2. rewrite skipn_app, firstn_length.
    replace (j - min k (List.length l)) with 0 by lia. cbn [skipn]. symmetry.
    apply startswith_app_long. rewrite skipn_length, firstn_length. lia. }
  apply find_intro.
  - rewrite E by lia. exact H2.
  - rewrite firstn_length. lia.
  - intros j Hj. rewrite E by lia. now apply H3.
Qed.

Lemma parse_scanned data p hs hmax ex ml mls :
  find CRLF2 data = Some p -> scanned hs hmax p (List.length data) ->
  parse_header data hs hmax ex ml mls =
  match parse_lines ex mls ml true (firstn (p + 2) data)
          (mkHeader false false false false [] [] (skipn (p + 4) data)) with
  | (Return, h1) => h1
  | (Break, h1) => check_host h1
  end.
Proof.
  intros F S1. unfold parse_header, parse.
  assert ((if (hs =? -1)%Z then (pos (find (CRLF ++ CRLF) (upto data hmax)) + 2)%Z else hs) = Z.of_nat p + 2)%Z as E.
  { destruct S1 as [[-> Hm]| ->].
    - rewrite Z.eqb_refl. rewrite upto_nonneg by lia.
      change (CRLF ++ CRLF) with CRLF2. rewrite (find_upto _ _ p); [reflexivity|exact F|].
      cbn. lia.
    - replace (Z.of_nat p + 2 =? -1)%Z with false by lia. reflexivity. }
  rewrite E. replace (Z.of_nat p + 2 <? 2)%Z with false by lia.
  rewrite upto_nonneg, from_nonneg by lia.
  replace (Z.to_nat (Z.of_nat p + 2)) with (p + 2) by lia.
  replace (Z.to_nat (Z.of_nat p + 2 + 2)) with (p + 4) by lia. reflexivity.
Qed.

Lemma region_lines data p : find CRLF2 data = Some p ->
  exists lines, firstn (p + 2) data = lines_bytes lines /\ Forall line_ok lines.
Proof.
  intros F. apply (decompose_crlf _ (firstn p data)).
  rewrite (find_split _ _ _ F) at 1. cbn [CRLF2 List.length].
  pose proof (find_some _ _ _ F) as (H1 & _). cbn in H1.
  rewrite firstn_app, firstn_firstn, firstn_length.
  replace (min (p + 2) p) with p by lia. f_equal.
  replace (p + 2 - min p (List.length data)) with 2 by lia. reflexivity.
Qed.

Definition finish (r : exit * header) : header :=
  match r with (Return, h) => h | (Break, h) => check_host h end.

Lemma parse_as_lines data p hs hmax ex ml mls lines :
  find CRLF2 data = Some p -> scanned hs hmax p (List.length data) ->
  firstn (p + 2) data = lines_bytes lines -> Forall line_ok lines ->
  parse_header data hs hmax ex ml mls =
  finish (run_lines ex mls ml true lines
            (mkHeader false false false false [] [] (skipn (p + 4) data))).
Proof.
  intros F S1 E L. rewrite (parse_scanned _ p) by assumption.
  rewrite E. rewrite <- (app_nil_r (lines_bytes lines)). rewrite parse_lines_run; [reflexivity|reflexivity|exact L].
Qed.

(** ** C02 *)
Definition same_head (h1 h2 : header) : Prop :=
  is_request h1 = is_request h2 /\ is_response h1 = is_response h2 /\
  is_valid_request h1 = is_valid_request h2 /\ is_valid_response h1 = is_valid_response h2 /\
  headers h1 = headers h2 /\ hlist h1 = hlist h2.

Definition set_body (b : bytes) (h : header) : header :=
  mkHeader (is_request h) (is_response h) (is_valid_request h) (is_valid_response h)
           (headers h) (hlist h) b.

Lemma first_line_body b line h : first_line line (set_body b h) = set_body b (first_line line h).
Proof.
  unfold first_line, set_body. destruct (rfind (bs "HTTP/") line) as [[|p]|]; cbn [set_headers].
  - unfold first_response. destruct (split_max _ _ _) as [|? [|? [|? [|? [|? ?]]]]]; cbn; try reflexivity.
    destruct (py_int _); reflexivity.
  - destruct (_ && _); [|reflexivity].
    unfold first_request. destruct (split_max _ _ _) as [|? [|? [|? ?]]]; reflexivity.
  - reflexivity.
Qed.

Lemma run_lines_body ex mls b lines : forall n first h,
  run_lines ex mls n first lines (set_body b h) =
  (fst (run_lines ex mls n first lines h), set_body b (snd (run_lines ex mls n first lines h))).
Proof.
  induction lines as [|l ls IH]; intros n first h; [reflexivity|].
  destruct n as [|n]; cbn [run_lines]; [reflexivity|].
  destruct (_ || _); [reflexivity|]. destruct first.
  - rewrite first_line_body. apply IH.
  - destruct (find_from (bs ":") 1 l) as [c|]; [|reflexivity].
    destruct (Ascii.eqb _ _); [reflexivity|]. apply (IH n false (field_line ex c l h)).
Qed.

Lemma check_host_body b h : check_host (set_body b h) = set_body b (check_host h).
Proof. unfold check_host, set_body. cbn. destruct (_ && _); reflexivity. Qed.

Lemma parse_head_body head body hs hmax ex ml mls p :
  find CRLF2 head = Some p -> List.length head = p + 4 -> scanned hs hmax p (List.length head) ->
  parse_header (head ++ body) hs hmax ex ml mls = set_body body (parse_header head hs hmax ex ml mls).
Proof.
  intros F L S1. destruct (region_lines _ _ F) as (lines & E & Lk).
  rewrite (parse_as_lines (head ++ body) p _ _ _ _ _ lines);
    [|now apply find_app_ext|exact S1| |exact Lk].
  - rewrite (parse_as_lines head p _ _ _ _ _ lines) by assumption.
    rewrite skipn_app. replace (p + 4 - List.length head) with 0 by lia.
    rewrite skipn_all2 by lia. cbn [skipn app].
    change (mkHeader false false false false [] [] body)
      with (set_body body (mkHeader false false false false [] [] [])).
    rewrite run_lines_body. destruct (run_lines _ _ _ _ _ _) as [[|] h]; cbn [fst snd finish]; [reflexivity|].
    apply check_host_body.
  - rewrite firstn_app. replace (p + 2 - List.length head) with 0 by lia. now rewrite app_nil_r.
Qed.

(** ** C01 *)
Lemma lower1_noncolon x : lower1 x = ":"%char -> x = ":"%char.
Proof.
  unfold lower1. destruct ((65 <=? N_of_ascii x)%N && (N_of_ascii x <=? 90)%N) eqn:E; [|easy].
  intros H. exfalso. assert (N_of_ascii (ascii_of_N (N_of_ascii x + 32)) = 58%N) as H2 by now rewrite H.
  rewrite N_ascii_embedding in H2 by lia. lia.
Qed.

Lemma drop_space_cons v : drop_space (SP :: v) = v.
Proof. reflexivity. Qed.

Lemma values_nv name fields :
  nv_values name (map (fun f : field => (fst f, SP :: snd f)) fields) = values name fields.
Proof.
  unfold nv_values, values. induction fields as [|f fs IH]; [reflexivity|].
  cbn [map filter fst snd]. destruct (beqb (lower (fst f)) name); cbn [map]; [|exact IH].
  now rewrite IH.
Qed.

Lemma good_field_line f : good_field f -> field_bytes f <> [] /\ ~ In LF (field_bytes f) /\
  field_split (field_bytes f) = Some (fst f, SP :: snd f).
Proof.
  intros ((N1 & N2 & N3 & N4 & N5) & V). unfold field_bytes.
  split; [destruct (fst f); [easy|discriminate]|]. split.
  - intros H. apply in_app_or in H as [H|H]; [easy|]. cbn in H.
    destruct H as [H|[H|H]]; [discriminate|discriminate|easy].
  - change (bs ": ") with (":"%char :: [SP]). cbn [app]. apply field_split_intro; [exact N1| |exact N5].
    destruct (fst f); [easy|]. intros H; apply N2. now right.
Qed.

Section C01.
  Context (method url version : bytes) (fields : list field).
  Context (Hm : ~ In SP method) (Hlf : ~ In LF (method ++ url ++ version))
          (Hv : contains (bs "HTTP/") version = false)
          (Hf : Forall good_field fields).

  Lemma request_line_nolf : ~ In LF (request_line method url version).
  Proof.
    unfold request_line. rewrite !in_app_iff in *. cbn [In bs list_ascii_of_string].
    intros H. apply Hlf. intuition discriminate.
  Qed.

  Lemma fields_lines : Forall (fun l => l <> [] /\ ~ In LF l) (map field_bytes fields).
  Proof.
    apply Forall_map. eapply Forall_impl; [|exact Hf]. intros f G.
    destruct (good_field_line f G) as (A & B & _). now split.
  Qed.

  Lemma head_lines_ok :
    Forall (fun l => l <> [] /\ ~ In LF l) (request_line method url version :: map field_bytes fields).
  Proof.
    constructor; [|exact fields_lines]. split; [|exact request_line_nolf].
    unfold request_line. destruct method; discriminate.
  Qed.

  Lemma fields_split : Forall2 (fun l nv => field_split l = Some nv) (map field_bytes fields)
                         (map (fun f : field => (fst f, SP :: snd f)) fields).
  Proof.
    clear Hlf Hm Hv. induction Hf as [|f fs G Gs IH]; cbn [map]; [constructor|].
    constructor; [now apply good_field_line|exact (IH Gs)].
  Qed.

  Lemma head_bytes_eq body : head_bytes method url version fields ++ body =
    lines_bytes (request_line method url version :: map field_bytes fields) ++ CRLF ++ body.
  Proof. unfold head_bytes. now rewrite <- app_assoc. Qed.

  Lemma head_len : List.length (head_bytes method url version fields) =
    List.length (lines_bytes (request_line method url version :: map field_bytes fields)) - 2 + 4.
  Proof.
    unfold head_bytes. rewrite app_length, lines_bytes_cons, !app_length. cbn [List.length CRLF]. lia.
  Qed.

  Lemma c01_parse body hs hmax ex ml mls :
    S (List.length fields) <= ml ->
    Forall (fun l => blen l <= mls)%Z (request_line method url version :: map field_bytes fields) ->
    ((hs = -1 /\ blen (head_bytes method url version fields) <= hmax) \/
     hs = blen (head_bytes method url version fields) - 2)%Z ->
    parse_header (head_bytes method url version fields ++ body) hs hmax ex ml mls =
    check_host (fold_left (add_field ex) (map (fun f : field => (fst f, SP :: snd f)) fields)
      (first_line (request_line method url version)
         (mkHeader false false false false [] [] body))).
  Proof.
    intros Hml Hmls Hs. rewrite head_bytes_eq.
    set (lines := request_line method url version :: map field_bytes fields) in *.
    pose proof (find_head lines body ltac:(discriminate) head_lines_ok) as F.
    pose proof head_len as HL. fold lines in HL.
    assert (List.length (lines_bytes lines) >= 2) as L2.
    { unfold lines. rewrite lines_bytes_cons, !app_length. cbn [List.length CRLF]. lia. }
    rewrite (parse_as_lines _ _ _ _ _ _ _ lines F).
    - rewrite app_assoc. replace (List.length (lines_bytes lines) - 2 + 4) with (List.length (lines_bytes lines ++ CRLF) + 0)
        by (rewrite app_length; cbn [List.length CRLF]; lia).
      rewrite skipn_app_len_plus. cbn [skipn].
      assert (Forall (good_line mls) lines) as G.
      { apply Forall_forall. intros l Hl. split.
        - rewrite Forall_forall in Hmls. now apply Hmls.
        - pose proof head_lines_ok as H. rewrite Forall_forall in H. now apply H. }
      unfold lines at 1. destruct ml as [|ml]; [lia|]. cbn [run_lines].
      inversion G as [|? ? G1 G2]; subst.
      apply good_line_test in G1. rewrite G1.
      rewrite (run_fields_good _ _ _ _ fields_split); [reflexivity|exact G2|rewrite map_length; lia].
    - unfold scanned. unfold blen in Hs. lia.
    - rewrite firstn_app. replace (List.length (lines_bytes lines) - 2 + 2) with (List.length (lines_bytes lines)) by lia.
      rewrite firstn_all, Nat.sub_diag. cbn. apply app_nil_r.
    - eapply Forall_impl; [|exact head_lines_ok]. intros l [_ H]. now apply line_ok_nolf.
  Qed.
End C01.

Lemma beqb_false_intro a b : a <> b -> beqb a b = false.
Proof. apply beqb_neq. Qed.

Lemma hmem_hget k d : hmem k d = match hget k d with Some _ => true | None => false end.
Proof. reflexivity. Qed.

Lemma values_reserved name fields : Forall (fun f : field => ~ In (lower (fst f)) reserved) fields ->
  In name reserved -> values name fields = [].
Proof.
  intros F H. unfold values. induction F as [|f fs G _ IH]; [reflexivity|]. cbn [filter].
  rewrite (proj2 (beqb_neq _ _)); [exact IH|]. intros E. apply G. now rewrite E.
Qed.

Lemma c01_main method url version fields body hs hmax ex ml mls :
  ~ In SP method -> ~ In LF (method ++ url ++ version) -> contains (bs "HTTP/") version = false ->
  Forall good_field fields -> Forall (fun f => ~ In (lower (fst f)) reserved) fields ->
  S (List.length fields) <= ml ->
  Forall (fun l => blen l <= mls)%Z (request_line method url version :: map field_bytes fields) ->
  ((hs = -1 /\ blen (head_bytes method url version fields) <= hmax) \/
   hs = blen (head_bytes method url version fields) - 2)%Z ->
  let h := parse_header (head_bytes method url version fields ++ body) hs hmax ex ml mls in
  is_request h = true /\ is_response h = false /\
  getmethod h = Some (One (AB method)) /\ geturl h = Some (One (AB url)) /\
  getversion h = Some (One (AB version)) /\
  hlist h = filter (fun nv => negb (mem_bytes (fst nv) ex))
                   (map (fun f => (lower (fst f), snd f)) fields) /\
  (forall name, ~ In name reserved -> name <> bs "host" \/ values name fields <> [] ->
     hget name (headers h) = match values name fields with
                             | [] => None
                             | [v] => Some (One (AB v))
                             | vs => Some (Many (map AB vs))
                             end) /\
  hbody h = body /\
  (is_valid_request h = false <-> version = bs "1.1" /\ values (bs "host") fields = []).
Proof.
  intros Hm Hlf Hv Hf Hr Hml Hmls Hs. cbv zeta. rewrite c01_parse by assumption.
  rewrite (first_line_request _ method url version) by now split.
  cbn [is_response is_valid_response headers hlist hbody].
  set (h0 := mkHeader true false true false _ _ _).
  set (nvs := map (fun f : field => (fst f, SP :: snd f)) fields).
  set (h1 := fold_left (add_field ex) nvs h0).
  pose proof (fold_add_flags ex nvs h0) as (FL1 & FL2 & FL3 & FL4 & FL5). fold h1 in FL1, FL2, FL3, FL4, FL5.
  assert (forall k, hget k (headers h1) = fold_left add_value (values k fields) (hget k (headers h0))) as HG.
  { intros k. unfold h1. rewrite fold_add_hget. unfold nvs. now rewrite values_nv. }
  assert (hlist h1 = filter (fun nv => negb (mem_bytes (fst nv) ex)) (map (fun f => (lower (fst f), snd f)) fields)) as HL.
  { unfold h1. rewrite fold_add_hlist. cbn [hlist h0 app]. f_equal. unfold nvs. rewrite map_map. reflexivity. }
  assert (forall k, ~ In k reserved -> hget k (headers h0) = None) as H0.
  { intros k Hk. unfold h0. cbn [headers].
    rewrite !hget_hset_other by (intros ->; apply Hk; cbn; tauto). reflexivity. }
  assert (hget k_method (headers h1) = Some (One (AB method))) as M.
  { rewrite HG, values_reserved by (assumption || (cbn; tauto)). cbn [fold_left]. unfold h0. cbn [headers].
    rewrite !hget_hset_other by discriminate. apply hget_hset_same. }
  assert (hget k_url (headers h1) = Some (One (AB url))) as U.
  { rewrite HG, values_reserved by (assumption || (cbn; tauto)). cbn [fold_left]. unfold h0. cbn [headers].
    rewrite !hget_hset_other by discriminate. apply hget_hset_same. }
  assert (hget k_version (headers h1) = Some (One (AB version))) as V.
  { rewrite HG, values_reserved by (assumption || (cbn; tauto)). cbn [fold_left]. unfold h0. cbn [headers].
    rewrite !hget_hset_other by discriminate. apply hget_hset_same. }
  assert (hget k_host (headers h1) = match values k_host fields with [] => None | [v] => Some (One (AB v))
           | vs => Some (Many (map AB vs)) end) as Ho.
  { rewrite HG, H0 by (cbn; intuition discriminate). apply fold_add_value_none. }
  assert (forall name, ~ In name reserved ->
     hget name (headers h1) = match values name fields with
        | [] => None | [v] => Some (One (AB v)) | vs => Some (Many (map AB vs)) end) as HN.
  { intros name Hn. rewrite HG, H0 by exact Hn. apply fold_add_value_none. }
  unfold check_host. rewrite FL1. cbn [is_request h0 andb].
  rewrite hmem_hget, Ho.
  destruct (values k_host fields) as [|v vs] eqn:E.
  - cbn [negb]. unfold getmethod, geturl, getversion.
    cbn [is_request is_response is_valid_request headers hlist hbody].
    rewrite !hget_hset_other by discriminate. rewrite FL2, FL3, FL5, M, U, V, HL.
    cbn [h0 is_response is_valid_request hbody is_version_11 andb].
    do 6 (split; [reflexivity|]). split; [|split; [reflexivity|split]].
    + intros name Hn [Hh|Hh]; [rewrite hget_hset_other by exact Hh; now apply HN|].
      rewrite hget_hset_other; [now apply HN|]. intros ->. now apply Hh.
    + intros H. apply negb_false_iff, beqb_eq in H. now split.
    + intros [-> _]. rewrite beqb_refl. reflexivity.
  - match goal with |- context [negb ?x] => assert (negb x = false) as N by (destruct vs; reflexivity) end.
    rewrite N. unfold getmethod, geturl, getversion. rewrite FL1, FL2, FL3, FL5, M, U, V, HL.
    cbn [h0 is_request is_response is_valid_request hbody].
    do 6 (split; [reflexivity|]). split; [|split; [reflexivity|split]].
    + intros name Hn _. now apply HN.
    + discriminate.
    + intros [_ H]. change k_host with (bs "host") in E. congruence.
Qed.
