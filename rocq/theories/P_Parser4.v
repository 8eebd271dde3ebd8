(** Proof of C05: save() is lossless. *)
From Verif Require Import PyBytes PyBytesFacts PyInt PyExn M_Parser S_Head P_Parser P_Parser2 P_Parser3.
From Coq Require Import ZifyBool ZifyNat ZifyN.

Definition valid (h : header) : bool := is_valid_request h || is_valid_response h.

Lemma run_fields_any ex mls lines : forall n h,
  valid (snd (run_lines ex mls n false lines h)) = true ->
  valid h = true /\ List.length lines <= n /\ Forall (good_line mls) lines /\
  exists nvs, Forall2 (fun l nv => field_split l = Some nv) lines nvs.
Proof.
  induction lines as [|l ls IH]; intros n h H.
  - cbn in H. repeat split; [exact H|cbn; lia|constructor|]. exists []. constructor.
  - destruct n as [|n]; cbn [run_lines] in H; [cbn in H; easy|].
    destruct ((mls <? blen l)%Z || memb LF l) eqn:G; [cbn in H; easy|].
    destruct (find_from (bs ":") 1 l) as [c|] eqn:C; [|cbn in H; easy].
    destruct (Ascii.eqb (nth (c - 1) l LF) SP) eqn:S1; [cbn in H; easy|].
    apply IH in H as (H1 & H2 & H3 & nvs & H4). split; [exact H1|].
    split; [cbn; lia|]. split; [constructor; [now apply good_line_test|exact H3]|].
    exists ((firstn c l, skipn (c + 1) l) :: nvs). constructor; [|exact H4].
    unfold field_split. now rewrite C, S1.
Qed.

Lemma check_host_facts h :
  hlist (check_host h) = hlist h /\ hbody (check_host h) = hbody h /\
  (valid (check_host h) = true -> valid h = true) /\
  hget k_line (headers (check_host h)) = hget k_line (headers h).
Proof.
  unfold check_host, valid. destruct (_ && _); cbn [is_valid_request is_valid_response hlist hbody headers]; [|auto].
  repeat split; [|now apply hget_hset_other].
  destruct (is_valid_request h), (is_valid_response h); cbn; auto.
Qed.

Lemma first_line_facts line h :
  hlist (first_line line h) = hlist h /\ hbody (first_line line h) = hbody h /\
  hget k_line (headers (first_line line h)) = Some (One (AB line)).
Proof.
  unfold first_line. cbn [set_headers headers]. rewrite hget_hset_same.
  destruct (rfind (bs "HTTP/") line) as [[|p]|]; cbn [set_headers hlist hbody].
  - unfold first_response. destruct (split_max _ _ _) as [|? [|? [|? [|? [|? ?]]]]]; cbn [hlist hbody]; auto.
    destruct (py_int _); auto.
  - destruct (_ && _); [|auto]. unfold first_request. destruct (split_max _ _ _) as [|? [|? [|? ?]]]; auto.
  - auto.
Qed.

Lemma lower1_inv x c : lower1 x = c -> (N_of_ascii c < 97)%N -> x = c.
Proof.
  unfold lower1. destruct ((65 <=? N_of_ascii x)%N && (N_of_ascii x <=? 90)%N) eqn:E; [|easy].
  intros <- H. rewrite N_ascii_embedding in H by lia. lia.
Qed.

Lemma lower_idem l : lower (lower l) = lower l.
Proof.
  unfold lower. rewrite map_map. apply map_ext. intros x. unfold lower1 at 1.
  destruct ((65 <=? N_of_ascii (lower1 x))%N && (N_of_ascii (lower1 x) <=? 90)%N) eqn:E; [|reflexivity].
  exfalso. unfold lower1 in E.
  destruct ((65 <=? N_of_ascii x)%N && (N_of_ascii x <=? 90)%N) eqn:E2; [|congruence].
  rewrite N_ascii_embedding in E by lia. lia.
Qed.

Lemma lower_In x l : (N_of_ascii x < 97)%N -> In x (lower l) -> In x l.
Proof.
  intros H Hi. apply in_map_iff in Hi as (y & E & Hy). apply lower1_inv in E; [|exact H]. now subst.
Qed.

Lemma last_map {A B} (f : A -> B) l d d' : l <> [] -> last (map f l) d' = f (last l d).
Proof.
  intros H. destruct (exists_last H) as (l0 & x & ->). rewrite map_app. cbn [map]. now rewrite !last_last.
Qed.

(** The re-emitted field lines parse to the same fields. *)
Definition saved_field (nv : bytes * bytes) : bytes * bytes := (lower (fst nv), drop_space (snd nv)).

Lemma drop_space_In x v : In x (drop_space v) -> In x v.
Proof.
  unfold drop_space. destruct (startswith [SP] v); [|easy]. destruct v; [easy|]. cbn. now right.
Qed.
Lemma drop_space_len v : List.length (drop_space v) <= List.length v.
Proof. unfold drop_space. destruct (startswith [SP] v); [|lia]. rewrite skipn_length. lia. Qed.

Lemma saved_field_ok mls l nv : field_split l = Some nv -> good_line mls l ->
  let f := field_bytes (saved_field nv) in
  f <> [] /\ good_line (mls + 1) f /\ field_split f = Some (lower (fst nv), SP :: drop_space (snd nv)).
Proof.
  intros E [G1 G2]. apply field_split_elim in E as (E1 & E2 & E3 & E4). cbv zeta.
  unfold field_bytes, saved_field. cbn [fst snd]. change (bs ": ") with (":"%char :: [SP]). cbn [app].
  assert (lower (fst nv) <> []) as Hn by (destruct (fst nv); [easy|discriminate]).
  split; [destruct (lower (fst nv)); discriminate|]. split.
  - split.
    + unfold blen in *. rewrite app_length. cbn [List.length]. unfold lower. rewrite map_length.
      pose proof (drop_space_len (snd nv)). rewrite E1, app_length in G1. cbn [List.length] in G1. lia.
    + intros H. apply in_app_or in H as [H|[H|[H|H]]]; try discriminate.
      * apply lower_In in H; [|reflexivity]. apply G2. rewrite E1. apply in_or_app. now left.
      * apply drop_space_In in H. apply G2. rewrite E1. apply in_or_app. right. now right.
  - apply field_split_intro; [exact Hn| |].
    + intros H. apply E3. destruct (fst nv); [easy|]. cbn in H |- *. now apply lower_In in H.
    + unfold lower. rewrite (last_map _ _ LF) by (destruct (fst nv); easy).
      intros H. apply lower1_inv in H; [|reflexivity]. easy.
Qed.

Lemma filter_map_comm {A B} (f : A -> B) (p : B -> bool) l : filter p (map f l) = map f (filter (fun x => p (f x)) l).
Proof. induction l as [|x l IH]; [reflexivity|]. cbn. destruct (p (f x)); cbn; now rewrite IH. Qed.

Lemma filter_idem {A} (p : A -> bool) l : filter p (filter p l) = filter p l.
Proof. induction l as [|x l IH]; [reflexivity|]. cbn. destruct (p x) eqn:E; cbn; rewrite ?E, IH; reflexivity. Qed.

Lemma Forall2_filter {A B} (R : A -> B -> Prop) (p : B -> bool) la lb : Forall2 R la lb ->
  exists la', Forall2 R la' (filter p lb) /\ (forall x, In x la' -> In x la) /\ List.length la' <= List.length la.
Proof.
  induction 1 as [|a b la lb H _ (la' & IH1 & IH2 & IH3)]; [exists []; repeat split; [constructor|easy|cbn; lia]|]. cbn [filter].
  destruct (p b).
  - exists (a :: la'). split; [now constructor|]. split; [|cbn; lia]. intros x [->|Hx]; [now left|right; auto].
  - exists la'. split; [exact IH1|]. split; [|cbn; lia]. intros x Hx. right; auto.
Qed.

Lemma join_crlf first rest : join CRLF (first :: rest) ++ CRLF = lines_bytes (first :: rest).
Proof.
  revert first; induction rest as [|r rs IH]; intros first.
  - cbn [join]. unfold lines_bytes. cbn. now rewrite app_nil_r.
  - rewrite join_cons by discriminate. rewrite <- !app_assoc, IH. now rewrite (lines_bytes_cons first).
Qed.

Lemma c05_main data p hs hmax ex ml mls first rest :
  find CRLF2 data = Some p -> scanned hs hmax p (List.length data) ->
  firstn (p + 4) data = lines_bytes (first :: rest) ++ CRLF -> Forall (fun l => ~ In LF l) (first :: rest) ->
  ~ has_field (bs "_line") rest ->
  let h := parse_header data hs hmax ex ml mls in
  is_valid_request h = true \/ is_valid_response h = true ->
  let out := lines_bytes (first :: map field_bytes (hlist h)) ++ CRLF ++ skipn (p + 4) data in
  save h = Ok out /\
  forall hmax' mls', (mls + 1 <= mls')%Z -> (blen out <= hmax')%Z ->
    let h' := parse_header out (-1) hmax' ex ml mls' in
    hlist h' = hlist h /\ hbody h' = hbody h /\ hbody h = skipn (p + 4) data.
Proof.
  intros F S1 Ehead LF1 NL. cbv zeta. intros V.
  rewrite (head_region _ _ F) in Ehead. apply app_inv_tail in Ehead.
  assert (Forall line_ok (first :: rest)) as Lk.
  { eapply Forall_impl; [|exact LF1]. intros l. apply line_ok_nolf. }
  rewrite (parse_as_lines data p hs hmax ex ml mls (first :: rest)) in * by assumption.
  set (body := skipn (p + 4) data) in *.
  set (hh := mkHeader false false false false [] [] body) in *.
  assert (valid (finish (run_lines ex mls ml true (first :: rest) hh)) = true) as V'.
  { unfold valid. now apply orb_true_iff. }
  clear V. destruct ml as [|ml]; [cbn in V'; easy|]. cbn [run_lines] in *.
  destruct ((mls <? blen first)%Z || memb LF first) eqn:G; [cbn in V'; easy|].
  assert (valid (snd (run_lines ex mls ml false rest (first_line first hh))) = true) as V2.
  { destruct (run_lines ex mls ml false rest (first_line first hh)) as [[|] h]; cbn [finish snd] in *; [exact V'|].
    now apply check_host_facts in V'. }
  apply run_fields_any in V2 as (V3 & L & Gs & nvs & F2).
  rewrite (run_fields_good _ _ _ _ F2) by (assumption || lia). cbn [finish].
  set (h1 := fold_left (add_field ex) nvs (first_line first hh)).
  destruct (first_line_facts first hh) as (FL1 & FL2 & FL3).
  destruct (check_host_facts h1) as (CH1 & CH2 & _ & CH4).
  assert (hbody h1 = body) as Hb.
  { unfold h1. pose proof (fold_add_flags ex nvs (first_line first hh)) as (_ & _ & _ & _ & B).
    cbv zeta in B. rewrite B, FL2. reflexivity. }
  assert (hlist h1 = filter (fun nv => negb (mem_bytes (fst nv) ex)) (map saved_field nvs)) as Hl.
  { unfold h1. rewrite fold_add_hlist, FL1. reflexivity. }
  assert (hget k_line (headers h1) = Some (One (AB first))) as Hk.
  { unfold h1. rewrite fold_add_hget, FL3.
    destruct (nv_values k_line nvs) eqn:E; [reflexivity|exfalso].
    apply NL. apply (nv_values_has _ _ _ F2). change (bs "_line") with k_line. congruence. }
  rewrite CH1. split.
  - unfold save. rewrite CH4, Hk, CH1, CH2, Hb. f_equal.
    rewrite !app_assoc. rewrite join_crlf. rewrite <- !app_assoc. reflexivity.
  - intros hmax' mls' Hmls Hmax. cbv zeta.
    assert (first <> []) as Hne.
    { intros ->. unfold first_line in V3. cbn in V3. easy. }
    assert (exists lines', Forall2 (fun l nv => field_split l = Some nv) lines' (filter (fun nv => negb (mem_bytes (fst (saved_field nv)) ex)) nvs)
               /\ (forall x, In x lines' -> In x rest) /\ List.length lines' <= List.length rest) as (lines' & K1 & K2 & K3)
      by (apply Forall2_filter; exact F2).
    set (nvs' := filter (fun nv => negb (mem_bytes (fst (saved_field nv)) ex)) nvs) in *.
    assert (hlist h1 = map saved_field nvs') as Hl2 by (rewrite Hl; apply (filter_map_comm saved_field (fun nv => negb (mem_bytes (fst nv) ex)))).
    assert (Forall (fun l => l <> [] /\ good_line (mls + 1) l) (map field_bytes (map saved_field nvs')) /\
            Forall2 (fun l nv => field_split l = Some nv) (map field_bytes (map saved_field nvs'))
              (map (fun nv => (lower (fst nv), SP :: drop_space (snd nv))) nvs') /\
            List.length nvs' = List.length lines') as (Q1 & Q2 & Q3).
    { clearbody nvs'. clear -K1 K2 Gs. induction K1 as [|l nv ls nvs' E K1 IH]; cbn [map]; [repeat split; constructor|].
      destruct IH as (I1 & I2 & I3); [intros x Hx; apply K2; now right|].
      assert (good_line mls l) as Gl by (rewrite Forall_forall in Gs; apply Gs, K2; now left).
      destruct (saved_field_ok mls l nv E Gl) as (A1 & A2 & A3).
      split; [constructor; [now split|exact I1]|]. split; [constructor; [exact A3|exact I2]|cbn; lia]. }
    rewrite Hl2 in Hmax |- *. set (out := lines_bytes (first :: map field_bytes (map saved_field nvs')) ++ CRLF ++ body) in *.
    set (lines2 := first :: map field_bytes (map saved_field nvs')) in *.
    assert (Forall (fun l => l <> [] /\ ~ In LF l) lines2) as W1.
    { constructor; [split; [exact Hne|now inversion LF1]|].
      eapply Forall_impl; [|exact Q1]. intros l [? [? ?]]. now split. }
    assert (Forall (good_line mls') lines2) as W2.
    { constructor.
      - apply good_line_test in G. destruct G as [G1 G2]. split; [lia|exact G2].
      - eapply Forall_impl; [|exact Q1]. intros l [? [? ?]]. split; [lia|assumption]. }
    pose proof (find_head lines2 body ltac:(discriminate) W1) as F'.
    assert (List.length (lines_bytes lines2) >= 2) as L2.
    { unfold lines2. rewrite lines_bytes_cons, !app_length. cbn [List.length CRLF]. lia. }
    rewrite (parse_as_lines out _ (-1) hmax' ex (S ml) mls' lines2 F').
    + set (b2 := skipn (List.length (lines_bytes lines2) - 2 + 4) out).
      set (h2 := fold_left (add_field ex) (map (fun nv => (lower (fst nv), SP :: drop_space (snd nv))) nvs')
                   (first_line first (mkHeader false false false false [] [] b2))).
      assert (finish (run_lines ex mls' (S ml) true lines2 (mkHeader false false false false [] [] b2)) = check_host h2) as ER.
      { inversion W2 as [|? ? W3 W4]; subst. unfold lines2. cbn [run_lines].
        apply good_line_test in W3. rewrite W3.
        rewrite (run_fields_good _ _ _ _ Q2) by (assumption || (rewrite !map_length; lia)). reflexivity. }
      rewrite ER, CH2, Hb.
      destruct (check_host_facts h2) as (C1 & C2 & _ & _).
      rewrite C1, C2. split; [|split; [|reflexivity]].
      * unfold h2. rewrite fold_add_hlist.
        match goal with |- context [first_line first ?x] => destruct (first_line_facts first x) as (X1 & _ & _) end.
        rewrite X1. cbn [hlist app]. rewrite map_map. cbn [fst snd].
        rewrite (map_ext _ saved_field).
        2:{ intros nv. unfold saved_field. rewrite lower_idem. reflexivity. }
        unfold nvs'. rewrite (filter_map_comm saved_field (fun nv => negb (mem_bytes (fst nv) ex))). f_equal. apply filter_idem.
      * unfold h2. match goal with |- context [fold_left (add_field ex) ?l ?x] =>
          pose proof (fold_add_flags ex l x) as (_ & _ & _ & _ & B) end.
        cbv zeta in B. rewrite B.
        match goal with |- context [first_line first ?x] => destruct (first_line_facts first x) as (_ & X2 & _) end.
        rewrite X2. cbn [hbody]. unfold b2, out. rewrite app_assoc.
        replace (List.length (lines_bytes lines2) - 2 + 4) with (List.length (lines_bytes lines2 ++ CRLF) + 0)
          by (rewrite app_length; cbn [List.length CRLF]; lia).
        rewrite skipn_app_len_plus. reflexivity.
    + left. split; [reflexivity|]. unfold out, blen in Hmax. rewrite !app_length in Hmax. cbn [List.length CRLF] in Hmax. lia.
    + unfold out. rewrite firstn_app. replace (List.length (lines_bytes lines2) - 2 + 2) with (List.length (lines_bytes lines2)) by lia.
      rewrite firstn_all, Nat.sub_diag. cbn. apply app_nil_r.
    + eapply Forall_impl; [|exact W1]. intros l [_ H]. now apply line_ok_nolf.
Qed.
