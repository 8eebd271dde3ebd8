(** Proofs about the header parser model. *)
From Verif Require Import PyBytes PyBytesFacts PyInt PyExn M_Parser S_Head.
From Coq Require Import ZifyBool ZifyNat.

(** ** rfind *)
Lemma rfind_some sub l i :
  rfind sub l = Some i ->
  i <= List.length l /\ startswith sub (skipn i l) = true /\
  forall j, i < j -> j <= List.length l -> startswith sub (skipn j l) = false.
Proof.
  revert i; induction l as [|x l IH]; intros i; cbn [rfind].
  - destruct (startswith sub []) eqn:E; [|easy]. intros H; injection H as <-.
    split; [cbn; lia|]. split; [exact E|]. intros j H1 H2. cbn in H2. lia.
  - destruct (rfind sub l) as [k|] eqn:F.
    + intros H; injection H as <-. destruct (IH k eq_refl) as (H1 & H2 & H3).
      split; [cbn; lia|]. split; [exact H2|].
      intros [|j] Hj Hl; [lia|]. cbn in Hl |- *. apply H3; lia.
    + destruct (startswith sub (x :: l)) eqn:E; [|easy]. intros H; injection H as <-.
      split; [lia|]. split; [exact E|].
      intros [|j] Hj Hl; [lia|]. cbn [skipn]. clear -F Hl.
      assert (forall m, rfind sub m = None -> forall j, j <= List.length m -> startswith sub (skipn j m) = false) as N.
      { clear. induction m as [|y m IH]; cbn [rfind]; intros H j Hj.
        - destruct (startswith sub []) eqn:E; [easy|]. cbn in Hj. now replace j with 0 by lia.
        - destruct (rfind sub m) eqn:F; [easy|]. destruct (startswith sub (y :: m)) eqn:E; [easy|].
          destruct j; [exact E|]. cbn in Hj |- *. apply IH; [reflexivity|lia]. }
      apply N; [exact F|cbn in Hl; lia].
Qed.

Lemma rfind_none sub l : rfind sub l = None ->
  forall j, j <= List.length l -> startswith sub (skipn j l) = false.
Proof.
  induction l as [|y m IH]; cbn [rfind]; intros H j Hj.
  - destruct (startswith sub []) eqn:E; [easy|]. cbn in Hj. now replace j with 0 by lia.
  - destruct (rfind sub m) eqn:F; [easy|]. destruct (startswith sub (y :: m)) eqn:E; [easy|].
    destruct j; [exact E|]. cbn in Hj |- *. apply IH; [reflexivity|lia].
Qed.

Lemma rfind_intro sub l i :
  i <= List.length l -> startswith sub (skipn i l) = true ->
  (forall j, i < j -> j <= List.length l -> startswith sub (skipn j l) = false) ->
  rfind sub l = Some i.
Proof.
  intros H1 H2 H3. destruct (rfind sub l) as [k|] eqn:F.
  - apply rfind_some in F as (K1 & K2 & K3). f_equal.
    destruct (lt_eq_lt_dec i k) as [[L| ->]|L]; [|reflexivity|].
    + rewrite H3 in K2; [easy|exact L|exact K1].
    + rewrite K3 in H2; [easy|exact L|exact H1].
  - rewrite (rfind_none _ _ F) in H2; [easy|exact H1].
Qed.

Lemma skipn_app_len {A} (a b : list A) : skipn (List.length a) (a ++ b) = b.
Proof. rewrite skipn_app, skipn_all, Nat.sub_diag. reflexivity. Qed.
Lemma firstn_app_len {A} (a b : list A) : firstn (List.length a) (a ++ b) = a.
Proof. rewrite firstn_app, firstn_all, Nat.sub_diag. cbn. apply app_nil_r. Qed.
Lemma skipn_app_len_plus {A} (a b : list A) k : skipn (List.length a + k) (a ++ b) = skipn k b.
Proof. rewrite skipn_add, skipn_app_len. reflexivity. Qed.

(** "HTTP/" cannot overlap itself. *)
Lemma rfind_http a v : contains (bs "HTTP/") v = false ->
  rfind (bs "HTTP/") (a ++ bs "HTTP/" ++ v) = Some (List.length a).
Proof.
  intros Hv. apply contains_false in Hv. apply rfind_intro.
  - rewrite app_length. lia.
  - rewrite skipn_app_len. apply startswith_app.
  - intros j L1 L2. replace j with (List.length a + (j - List.length a)) by lia.
    rewrite skipn_app_len_plus. rewrite !app_length in L2. cbn [List.length bs list_ascii_of_string] in L2.
    destruct (j - List.length a) as [|[|[|[|[|k]]]]] eqn:E; try lia; try reflexivity.
    cbn [bs list_ascii_of_string app skipn].
    apply (find_none _ _ Hv). lia.
Qed.

(** ** Decomposition of a region into CRLF-terminated lines *)
Definition line_ok (l : bytes) : Prop := find CRLF (l ++ CRLF) = Some (List.length l).

Lemma line_ok_nolf l : ~ In LF l -> line_ok l.
Proof. intros H. unfold line_ok. rewrite <- (app_nil_r CRLF) at 2. now apply find_crlf_line. Qed.

Lemma lines_bytes_cons l ls : lines_bytes (l :: ls) = l ++ CRLF ++ lines_bytes ls.
Proof. unfold lines_bytes. cbn [map concat]. now rewrite <- app_assoc. Qed.

Lemma find_line l rest : line_ok l -> find CRLF (l ++ CRLF ++ rest) = Some (List.length l).
Proof. intros H. rewrite app_assoc. now apply find_app_ext. Qed.

Lemma find_line_ok r e : find CRLF r = Some e -> line_ok (firstn e r).
Proof.
  intros F. pose proof (find_some _ _ _ F) as (H1 & H2 & H3). cbn [List.length CRLF] in H1.
  unfold line_ok. apply find_intro.
  - rewrite firstn_length. replace (min e (List.length r)) with e by lia.
    rewrite skipn_app, firstn_length. replace (e - min e (List.length r)) with 0 by lia.
    rewrite skipn_all2 by (rewrite firstn_length; lia). reflexivity.
  - rewrite app_length. lia.
  - rewrite firstn_length. intros j Hj.
    assert (skipn j r = skipn j (firstn e r ++ CRLF) ++ skipn (e + 2) r) as E.
    { rewrite (find_split _ _ _ F) at 1. cbn [List.length CRLF].
      rewrite app_assoc, skipn_app. rewrite app_length, firstn_length. cbn [List.length CRLF].
      replace (j - (min e (List.length r) + 2)) with 0 by lia. reflexivity. }
    specialize (H3 j ltac:(lia)). rewrite E in H3.
    rewrite startswith_app_long in H3; [exact H3|].
    rewrite skipn_length, app_length, firstn_length. cbn. lia.
Qed.

Lemma decompose r : exists lines tail,
  r = lines_bytes lines ++ tail /\ Forall line_ok lines /\ find CRLF tail = None.
Proof.
  remember (List.length r) as n eqn:E. assert (List.length r <= n) as L by lia. clear E.
  revert r L; induction n as [|n IH]; intros r L.
  - destruct r; [|cbn in L; lia]. exists [], []. repeat split. constructor.
  - destruct (find CRLF r) as [e|] eqn:F.
    + pose proof (find_split _ _ _ F) as S1. cbn [List.length CRLF] in S1.
      pose proof (find_some _ _ _ F) as (H1 & _).
      destruct (IH (skipn (e + 2) r)) as (ls & tail & E1 & E2 & E3).
      { rewrite skipn_length. cbn in H1. lia. }
      exists (firstn e r :: ls), tail. rewrite lines_bytes_cons. split.
      * rewrite S1 at 1. rewrite E1. now rewrite <- !app_assoc.
      * split; [|exact E3]. constructor; [now apply find_line_ok|exact E2].
    + exists [], r. repeat split; [constructor|exact F].
Qed.

(** The loop, seen as a function of the list of lines. *)
Section Run.
  Context (ex : list bytes) (mls : Z).
  Fixpoint run_lines (n : nat) (first : bool) (lines : list bytes) (h : header) {struct lines} : exit * header :=
    match lines with
    | [] => (Break, h)
    | line :: ls =>
        match n with
        | O => (Return, invalidate h)
        | S n' =>
            if (mls <? blen line)%Z || memb LF line then (Return, invalidate h)
            else if first then run_lines n' false ls (first_line line h)
            else match find_from (bs ":") 1 line with
                 | Some c => if Ascii.eqb (nth (c - 1) line LF) SP then (Break, invalidate h)
                             else run_lines n' false ls (field_line ex c line h)
                 | None => (Break, invalidate h)
                 end
        end
    end.

  Lemma parse_lines_run tail : find CRLF tail = None -> forall lines n first h,
    Forall line_ok lines ->
    parse_lines ex mls n first (lines_bytes lines ++ tail) h = run_lines n first lines h.
  Proof.
    intros Ht. induction lines as [|l ls IH]; intros n first h F.
    - cbn [lines_bytes map concat app]. destruct n; cbn [parse_lines run_lines]; now rewrite Ht.
    - inversion F as [|? ? Hl F']; subst.
      assert (find CRLF (lines_bytes (l :: ls) ++ tail) = Some (List.length l)) as E.
      { rewrite lines_bytes_cons, <- !app_assoc. now apply find_line. }
      assert (firstn (List.length l) (lines_bytes (l :: ls) ++ tail) = l) as E1.
      { rewrite lines_bytes_cons, <- !app_assoc. apply firstn_app_len. }
      assert (skipn (List.length l + 2) (lines_bytes (l :: ls) ++ tail) = lines_bytes ls ++ tail) as E2.
      { rewrite lines_bytes_cons, <- !app_assoc. rewrite skipn_app_len_plus. reflexivity. }
      destruct n as [|n]; cbn [parse_lines run_lines]; rewrite E; [reflexivity|].
      rewrite E1, E2. unfold blen.
      destruct ((mls <? Z.of_nat (List.length l))%Z || memb LF l); [reflexivity|].
      destruct first; [apply IH; exact F'|].
      destruct (find_from (bs ":") 1 l) as [c|]; [|reflexivity].
      destruct (Ascii.eqb (nth (c - 1) l LF) SP); [reflexivity|apply IH; exact F'].
  Qed.

  (** Field lines, decided as the code does. *)
  Definition field_split (line : bytes) : option (bytes * bytes) :=
    match find_from (bs ":") 1 line with
    | Some c => if Ascii.eqb (nth (c - 1) line LF) SP then None
                else Some (firstn c line, skipn (c + 1) line)
    | None => None
    end.

  Definition good_line (l : bytes) : Prop := (blen l <= mls)%Z /\ ~ In LF l.

  Lemma good_line_test l :
    ((mls <? blen l)%Z || memb LF l) = false <-> good_line l.
  Proof.
    unfold good_line. rewrite orb_false_iff, memb_notIn. split; intros [H1 H2]; split; try lia; assumption.
  Qed.

  (** The effect of one field on the header. *)
  Definition add_field (h : header) (nv : bytes * bytes) : header :=
    let name := lower (fst nv) in
    let value := drop_space (snd nv) in
    mkHeader (is_request h) (is_response h) (is_valid_request h) (is_valid_response h)
             (store name value (headers h))
             (if mem_bytes name ex then hlist h else hlist h ++ [(name, value)])
             (hbody h).

  Lemma run_fields_good lines nvs : Forall2 (fun l nv => field_split l = Some nv) lines nvs ->
    Forall good_line lines -> forall n h, List.length lines <= n ->
    run_lines n false lines h = (Break, fold_left add_field nvs h).
  Proof.
    induction 1 as [|l nv ls nvs E _ IH]; intros G n h Hn; [reflexivity|].
    inversion G as [|? ? G1 G2]; subst. destruct n as [|n]; [cbn in Hn; lia|].
    cbn [run_lines fold_left]. apply good_line_test in G1. rewrite G1.
    unfold field_split in E. destruct (find_from (bs ":") 1 l) as [c|]; [|easy].
    destruct (Ascii.eqb (nth (c - 1) l LF) SP); [easy|]. injection E as <-.
    rewrite IH; [reflexivity|exact G2|cbn in Hn; lia].
  Qed.

  Lemma run_fields_valid lines : forall n h,
    is_valid_request (snd (run_lines n false lines h)) = true ->
    is_valid_request h = true /\ List.length lines <= n /\ Forall good_line lines /\
    exists nvs, Forall2 (fun l nv => field_split l = Some nv) lines nvs.
  Proof.
    induction lines as [|l ls IH]; intros n h H.
    - cbn in H. repeat split; [exact H|cbn; lia|constructor|]. exists []. constructor.
    - destruct n as [|n]; cbn [run_lines] in H; [cbn in H; easy|].
      destruct ((mls <? blen l)%Z || memb LF l) eqn:G; [cbn in H; easy|].
      destruct (find_from (bs ":") 1 l) as [c|] eqn:C; [|cbn in H; easy].
      destruct (Ascii.eqb (nth (c - 1) l LF) SP) eqn:S1; [cbn in H; easy|].
      apply IH in H as (H1 & H2 & H3 & nvs & H4). split; [exact H1|].
      split; [cbn; lia|]. split; [constructor; [now apply good_line_test|exact H3]|].
      exists ((firstn c l, skipn (c + 1) l) :: nvs). constructor; [|exact H4].
      unfold field_split. now rewrite C, S1.
  Qed.
End Run.

(** A region that ends with CRLF has no unterminated tail. *)
Lemma decompose_crlf r r0 : r = r0 ++ CRLF ->
  exists lines, r = lines_bytes lines /\ Forall line_ok lines.
Proof.
  intros Hr. destruct (decompose r) as (lines & tail & E & F & T).
  destruct tail as [|x tail'] eqn:Et.
  - exists lines. rewrite app_nil_r in E. now split.
  - exfalso. rewrite <- Et in *. assert (exists t0 y, tail = t0 ++ [y]) as (t0 & y & E2).
    { destruct (exists_last (l := tail)) as (t0 & y & E2); [rewrite Et; easy|now exists t0, y]. }
    clear Et x tail'. subst tail.
    assert (y = LF) as ->.
    { assert (last r CR = LF) as L by (rewrite Hr; change CRLF with ([CR] ++ [LF]); rewrite app_assoc; apply last_last).
      rewrite E, app_assoc, last_last in L. exact L. }
    destruct (exists_last (l := t0)) as (t1 & z & E3).
    { intros ->. cbn [app] in E. destruct lines as [|l ls] using rev_ind.
      - cbn in E. rewrite E in Hr. destruct r0 as [|? [|? ?]]; cbn in Hr; try discriminate.
      - unfold lines_bytes in E. rewrite map_app, concat_app in E. cbn [map concat] in E.
        rewrite app_nil_r in E. rewrite E in Hr.
        change CRLF with ([CR] ++ [LF]) in Hr. rewrite !app_assoc in Hr.
        apply app_inj_tail in Hr as [Hr _]. apply app_inj_tail in Hr as [_ Hr]. discriminate. }
    subst t0. rewrite E in Hr. change CRLF with ([CR] ++ [LF]) in Hr.
    rewrite !app_assoc in Hr. apply app_inj_tail in Hr as [Hr _].
    apply app_inj_tail in Hr as [_ ->].
    assert (contains CRLF ((t1 ++ [CR]) ++ [LF]) = true) as C.
    { apply contains_spec. exists t1, []. now rewrite <- !app_assoc. }
    apply contains_false in T. congruence.
Qed.

(** ** Field lines *)
Lemma nth_last (l : bytes) d : nth (List.length l - 1) l d = last l d.
Proof.
  destruct l as [|a l _] using rev_ind; [reflexivity|].
  rewrite app_length, last_last. cbn [List.length].
  rewrite app_nth2 by lia. now replace (List.length l + 1 - 1 - List.length l) with 0 by lia.
Qed.

Lemma find_from_1 x n0 n r : ~ In x n -> find_from [x] 1 (n0 :: n ++ x :: r) = Some (S (List.length n)).
Proof.
  intros H. unfold find_from. cbn [List.length skipn]. rewrite app_length. cbn [List.length].
  replace (S (List.length n + S (List.length r)) <? 1) with false by lia.
  rewrite find1_app by exact H. reflexivity.
Qed.

Lemma field_split_intro name rest : name <> [] -> ~ In ":"%char (tl name) -> last name LF <> SP ->
  field_split (name ++ ":"%char :: rest) = Some (name, rest).
Proof.
  intros H1 H2 H3. unfold field_split. destruct name as [|n0 n]; [easy|]. cbn [tl] in H2.
  change (bs ":") with [":"%char]. cbn [app]. rewrite find_from_1 by exact H2.
  replace (S (List.length n) - 1) with (List.length n) by lia.
  assert (nth (List.length n) (n0 :: n ++ ":"%char :: rest) LF = last (n0 :: n) LF) as E.
  { rewrite <- nth_last. cbn [List.length]. replace (S (List.length n) - 1) with (List.length n) by lia.
    change (n0 :: n ++ ":"%char :: rest) with ((n0 :: n) ++ ":"%char :: rest).
    apply app_nth1. cbn. lia. }
  rewrite E. apply Ascii.eqb_neq in H3. rewrite H3.
  change (n0 :: n ++ ":"%char :: rest) with ((n0 :: n) ++ ":"%char :: rest).
  change (S (List.length n)) with (List.length (n0 :: n)).
  rewrite firstn_app_len, skipn_app_len_plus. reflexivity.
Qed.

Lemma field_split_elim l nv : field_split l = Some nv ->
  l = fst nv ++ ":"%char :: snd nv /\ fst nv <> [] /\ ~ In ":"%char (tl (fst nv)) /\ last (fst nv) LF <> SP.
Proof.
  unfold field_split, find_from. change (bs ":") with [":"%char].
  destruct (Nat.ltb_spec (List.length l) 1) as [?|L]; [easy|].
  destruct l as [|x l]; [cbn in L; lia|]. cbn [skipn].
  destruct (find [":"%char] l) as [i|] eqn:F; cbn [option_map]; [|easy].
  apply find1_some in F as (S1 & N & Li).
  destruct (Ascii.eqb (nth (1 + i - 1) (x :: l) LF) SP) eqn:E; [easy|].
  intros H; injection H as <-. cbn [fst snd]. rewrite Nat.add_comm. cbn [Nat.add].
  replace (i + 1) with (S i) in * by lia. cbn [firstn skipn tl app].
  replace (S i + 1) with (S (S i)) by lia. cbn [skipn].
  split; [now f_equal|]. split; [easy|]. split; [exact N|].
  apply Ascii.eqb_neq in E. rewrite <- nth_last. cbn [List.length]. rewrite firstn_length.
  replace (S (min i (List.length l)) - 1) with i by lia.
  replace (1 + i - 1) with i in E by lia.
  intros C. apply E. rewrite <- C. clear -Li.
  change (x :: firstn i l) with (firstn (S i) (x :: l)).
  revert Li. generalize (x :: l) as m. intros m _. 
  destruct (Nat.lt_ge_cases i (List.length m)) as [G|G].
  - rewrite <- (firstn_skipn (S i) m) at 1. apply app_nth1. rewrite firstn_length. lia.
  - rewrite firstn_all2 by lia. reflexivity.
Qed.

Lemma field_line_iff l : (exists nv, field_split l = Some nv) <-> (exists name, is_field_line l name).
Proof.
  split.
  - intros (nv & H). apply field_split_elim in H as (H1 & H2 & H3 & H4).
    exists (fst nv), (snd nv). auto.
  - intros (name & rest & -> & H1 & H2 & H3). exists (name, rest). now apply field_split_intro.
Qed.

Lemma field_line_name l nv name : field_split l = Some nv -> is_field_line l name -> fst nv = name.
Proof.
  intros H (rest & -> & H1 & H2 & H3). rewrite field_split_intro in H by assumption.
  injection H as <-. reflexivity.
Qed.

(** ** The effect of storing fields *)
Lemma hget_hset_same k v d : hget k (hset k v d) = Some v.
Proof. apply dget_dset_same. exact beqb_eq. Qed.
Lemma hget_hset_other k k' v d : k <> k' -> hget k (hset k' v d) = hget k d.
Proof. apply dget_dset_other. exact beqb_eq. Qed.

Definition add_value (o : option hval) (v : bytes) : option hval :=
  match o with
  | None => Some (One (AB v))
  | Some (One a) => Some (Many [a; AB v])
  | Some (Many l) => Some (Many (l ++ [AB v]))
  end.

Lemma hget_store_same name v d : hget name (store name v d) = add_value (hget name d) v.
Proof. unfold store, add_value. destruct (hget name d) as [[a|l]|]; apply hget_hset_same. Qed.
Lemma hget_store_other k name v d : k <> name -> hget k (store name v d) = hget k d.
Proof. intros H. unfold store. destruct (hget name d) as [[a|l]|]; now apply hget_hset_other. Qed.

(** Values (already trimmed) stored for a lower-case name. *)
Definition nv_values (k : bytes) (nvs : list (bytes * bytes)) : list bytes :=
  map (fun nv => drop_space (snd nv)) (filter (fun nv => beqb (lower (fst nv)) k) nvs).

Lemma fold_add_hget ex k nvs : forall h,
  hget k (headers (fold_left (add_field ex) nvs h)) = fold_left add_value (nv_values k nvs) (hget k (headers h)).
Proof.
  induction nvs as [|nv nvs IH]; intros h; [reflexivity|].
  cbn [fold_left]. rewrite IH. unfold nv_values. cbn [filter].
  cbn [add_field headers]. destruct (beqb (lower (fst nv)) k) eqn:E.
  - apply beqb_eq in E as <-. cbn [map fold_left]. now rewrite hget_store_same.
  - apply beqb_neq in E. rewrite hget_store_other by congruence. reflexivity.
Qed.

Lemma fold_add_value_many vs : forall l, fold_left add_value vs (Some (Many l)) = Some (Many (l ++ map AB vs)).
Proof.
  induction vs as [|v vs IH]; intros l; cbn; [now rewrite app_nil_r|].
  rewrite IH, <- app_assoc. reflexivity.
Qed.

Lemma fold_add_value_none vs : fold_left add_value vs None =
  match vs with [] => None | [v] => Some (One (AB v)) | v1 :: v2 :: vs' => Some (Many (map AB (v1 :: v2 :: vs'))) end.
Proof.
  destruct vs as [|v [|v2 vs]]; cbn; [reflexivity|reflexivity|]. now rewrite fold_add_value_many.
Qed.

Lemma fold_add_value_one vs a : fold_left add_value vs (Some (One a)) =
  match vs with [] => Some (One a) | _ => Some (Many (a :: map AB vs)) end.
Proof. destruct vs as [|v vs]; cbn; [reflexivity|]. now rewrite fold_add_value_many. Qed.

Lemma fold_add_flags ex nvs : forall h,
  let h' := fold_left (add_field ex) nvs h in
  is_request h' = is_request h /\ is_response h' = is_response h /\
  is_valid_request h' = is_valid_request h /\ is_valid_response h' = is_valid_response h /\
  hbody h' = hbody h.
Proof. induction nvs as [|nv nvs IH]; intros h; cbn; [auto|]. apply (IH (add_field ex h nv)). Qed.

Lemma fold_add_hlist ex nvs : forall h,
  hlist (fold_left (add_field ex) nvs h) =
  hlist h ++ filter (fun nv => negb (mem_bytes (fst nv) ex))
                    (map (fun nv => (lower (fst nv), drop_space (snd nv))) nvs).
Proof.
  induction nvs as [|nv nvs IH]; intros h; cbn [fold_left map filter]; [now rewrite app_nil_r|].
  rewrite IH. cbn [add_field hlist fst]. destruct (mem_bytes (lower (fst nv)) ex); cbn [negb]; [reflexivity|].
  now rewrite <- app_assoc.
Qed.

(** ** The first line *)
Lemma In_firstn {A} (x : A) n l : In x (firstn n l) -> In x l.
Proof. intros H. rewrite <- (firstn_skipn n l). apply in_or_app. now left. Qed.

Lemma nth_app_mid (a : bytes) x r d : nth (List.length a) (a ++ x :: r) d = x.
Proof. rewrite app_nth2 by lia. now rewrite Nat.sub_diag. Qed.

Lemma split1 x a b : ~ In x a -> split_max [x] 1 (a ++ x :: b) = [a; b].
Proof.
  intros H. cbn [split_max]. rewrite find1_app by exact H. rewrite firstn_app_len.
  cbn [List.length]. rewrite skipn_app_len_plus. reflexivity.
Qed.

Lemma first_line_request line method url version h :
  is_request_line line method url version ->
  first_line line h =
  mkHeader true (is_response h) true (is_valid_response h)
    (hset k_line (One (AB line)) (hset k_version (One (AB version))
       (hset k_url (One (AB url)) (hset k_method (One (AB method)) (headers h)))))
    (hlist h) (hbody h).
Proof.
  intros (El & Hm & Hv). unfold first_line.
  assert (line = (method ++ [SP] ++ url ++ [SP]) ++ bs "HTTP/" ++ version) as E2.
  { rewrite El. unfold request_line. now rewrite <- !app_assoc. }
  assert (rfind (bs "HTTP/") line = Some (List.length (method ++ [SP] ++ url ++ [SP]))) as R.
  { rewrite E2. now apply rfind_http. }
  rewrite R. set (pre := method ++ [SP] ++ url ++ [SP]) in *.
  assert (List.length pre = S (S (List.length method + List.length url))) as Lp.
  { unfold pre. rewrite !app_length. cbn [List.length]. lia. }
  rewrite Lp. cbn [Nat.sub].
  replace (1 <? S (S (List.length method + List.length url))) with true by reflexivity.
  assert (pre = (method ++ SP :: url) ++ [SP]) as Ep by (unfold pre; now rewrite <- !app_assoc).
  assert (List.length (method ++ SP :: url) = S (List.length method + List.length url)) as Lq.
  { rewrite app_length. cbn. lia. }
  assert (nth (S (List.length method + List.length url)) line LF = SP) as N.
  { rewrite E2, Ep, <- Lq, <- app_assoc. apply nth_app_mid. }
  rewrite N, Ascii.eqb_refl. cbn [andb]. unfold first_request.
  replace (S (S (List.length method + List.length url)) - 1) with (List.length (method ++ SP :: url)) by lia.
  assert (firstn (List.length (method ++ SP :: url)) line = method ++ SP :: url) as F.
  { rewrite E2, Ep, <- app_assoc. apply firstn_app_len. }
  rewrite F, split1 by exact Hm.
  assert (skipn (S (S (List.length method + List.length url)) + 5) line = version) as K.
  { rewrite E2, <- Lp. rewrite skipn_app_len_plus. reflexivity. }
  rewrite K. reflexivity.
Qed.

Lemma first_line_valid line h : is_valid_request h = false ->
  is_valid_request (first_line line h) = true ->
  exists method url version, is_request_line line method url version.
Proof.
  intros Hh. unfold first_line. cbn [set_headers is_valid_request].
  destruct (rfind (bs "HTTP/") line) as [[|p']|] eqn:R; [|remember (S p') as p|].
  - unfold first_response. destruct (split_max _ _ _) as [|? [|? [|? [|? [|? ?]]]]]; cbn; try congruence.
    destruct (py_int _); cbn; congruence.
  - destruct ((1 <? p) && Ascii.eqb (nth (p - 1) line LF) SP) eqn:C; [|congruence].
    apply andb_true_iff in C as [C1 C2]. apply Ascii.eqb_eq in C2. apply Nat.ltb_lt in C1.
    unfold first_request. destruct (split_max [SP] 1 (firstn (p - 1) line)) as [|m [|u [|? ?]]] eqn:S1; cbn; try congruence.
    intros _. exists m, u, (skipn (p + 5) line).
    apply rfind_some in R as (L & St & Af).
    cbn [split_max] in S1. destruct (find [SP] (firstn (p - 1) line)) as [i|] eqn:F; [|easy].
    injection S1 as S1 S2. apply find1_some in F as (F1 & F2 & F3).
    unfold is_request_line. split; [|split].
    + unfold request_line. rewrite <- S1, <- S2.
      cbn [List.length] in *. replace (i + 1) with (S i) by lia.
      replace (firstn i (firstn (p - 1) line) ++ [SP] ++ skipn (S i) (firstn (p - 1) line) ++
               [SP] ++ bs "HTTP/" ++ skipn (p + 5) line)
        with (firstn (p - 1) line ++ [SP] ++ bs "HTTP/" ++ skipn (p + 5) line)
        by (rewrite F1 at 1; now rewrite <- !app_assoc).
      apply startswith_spec in St as (r & St).
      rewrite (skipn_add p 5), St. rewrite (skipn_app 5), (skipn_all2 (n:=5)) by (cbn; lia).
      cbn [List.length bs list_ascii_of_string]. rewrite Nat.sub_diag. cbn [skipn app].
      rewrite <- (firstn_skipn (p - 1) line) at 1. f_equal.
      assert (skipn (p - 1) line = nth (p - 1) line LF :: skipn p line) as E.
      { clear -L C1. revert p L C1. induction line as [|x l IH]; intros p L C1; [cbn in L; lia|].
        destruct p as [|[|p]]; [lia|reflexivity|].
        replace (S (S p) - 1) with (S p) by lia. cbn [skipn nth]. 
        destruct p as [|p]; [destruct l; [cbn in L; lia|reflexivity]|].
        specialize (IH (S (S p))). cbn in L. specialize (IH ltac:(lia) ltac:(lia)).
        replace (S (S p) - 1) with (S p) in IH by lia. exact IH. }
      rewrite E, C2, St. reflexivity.
    + now rewrite <- S1.
    + apply contains_false. apply find_none_intro. intros j Hj.
      rewrite <- skipn_add. apply Af; [lia|]. rewrite skipn_length in Hj.
      apply startswith_spec in St as (r & St).
      assert (List.length (skipn p line) = 5 + List.length r) as LL by (rewrite St; apply app_length).
      rewrite skipn_length in LL. lia.
  - congruence.
Qed.
