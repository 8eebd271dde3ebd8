(** Proofs about request construction and framing: C04, C07-C09. *)
From Verif Require Import PyBytes PyBytesFacts PyInt PyIntFacts PyExn M_Parser M_Framing
  S_Head S_Num P_Parser P_Parser2 P_Parser3.
From Coq Require Import ZifyBool ZifyNat ZifyN.
Ltac Zify.zify_post_hook ::= Z.div_mod_to_equations.

(** ** Canonical numerals *)
Lemma dec_value_dval s : forall acc, Forall dec_digit s -> (0 <= acc)%Z ->
  dec_value acc s = Z.of_N (dval 10 (Z.to_N acc) (map (fun c => (N_of_ascii c - 48)%N) s)).
Proof.
  induction s as [|c s IH]; intros acc F Ha; cbn [dec_value map dval]; [lia|].
  inversion F as [|? ? D F']; subst. unfold dec_digit in D.
  rewrite IH by (assumption || lia). do 2 f_equal. lia.
Qed.

Lemma digit_char_dec d : (d < 10)%N -> dec_digit (digit_char d) /\ (N_of_ascii (digit_char d) - 48 = d)%N.
Proof.
  intros H. unfold dec_digit. rewrite digit_char_N by lia. replace (d <? 10)%N with true by lia. lia.
Qed.

Lemma map_digit_char_inv ds : Forall (fun d => (d < 10)%N) ds ->
  map (fun c => (N_of_ascii c - 48)%N) (map digit_char ds) = ds.
Proof.
  induction 1 as [|d ds H _ IH]; [reflexivity|]. cbn. rewrite IH. f_equal. now apply digit_char_dec.
Qed.

Lemma fmt_nat_canonical n : canonical_decimal (fmt_nat 10 n) /\ dec_value 0 (fmt_nat 10 n) = Z.of_N n.
Proof.
  assert (Forall dec_digit (fmt_nat 10 n)) as F.
  { apply fmt_nat_forall; [lia|]. intros d Hd. now apply digit_char_dec. }
  split.
  - split; [|split; [exact F|]].
    + destruct (fmt_nat_cons 10 n ltac:(lia)) as (d & ds & E & _). rewrite E. discriminate.
    + unfold fmt_nat in *. destruct (digits_lead 10 n ltac:(lia)) as (d & ds & E & Z0).
      pose proof (digits_range 10 n ltac:(lia)) as R. rewrite E in *. cbn [map hd].
      destruct (N.eq_dec d 0) as [->|Hd].
      * left. destruct (Z0 eq_refl) as [_ ->]. reflexivity.
      * right. inversion R; subst. intros C. destruct (digit_char_dec d) as [_ D]; [assumption|].
        rewrite C in D. cbn in D. lia.
  - rewrite dec_value_dval by (assumption || lia). f_equal. unfold fmt_nat.
    rewrite map_digit_char_inv by (apply digits_range; lia). now apply digits_value.
Qed.

Lemma canonical_fmt s : canonical_decimal s -> s = fmt_nat 10 (Z.to_N (dec_value 0 s)).
Proof.
  intros (Hne & F & L). rewrite dec_value_dval by (assumption || lia). rewrite N2Z.id.
  set (ds := map (fun c => (N_of_ascii c - 48)%N) s).
  assert (ds = digits 10 (dval 10 (Z.to_N 0) ds)) as E.
  { apply digits_unique; [lia| | | |reflexivity].
    - unfold ds. apply Forall_map. eapply Forall_impl; [|exact F]. unfold dec_digit. intros; lia.
    - unfold ds. destruct s; [easy|discriminate].
    - intros d ds' Hd Hz. unfold ds in Hd. destruct s as [|c s]; [easy|]. cbn in Hd. injection Hd as Hd Hs.
      destruct L as [L|L].
      + injection L as -> ->. now subst.
      + exfalso. apply L. cbn. inversion F; subst. unfold dec_digit in *.
        rewrite <- (ascii_N_embedding c). replace (N_of_ascii c) with 48%N by lia. reflexivity. }
  unfold fmt_nat. rewrite <- E. unfold ds. rewrite map_map.
  rewrite <- (map_id s) at 1. apply map_ext_in. intros c Hc. rewrite Forall_forall in F. specialize (F c Hc).
  unfold dec_digit in F. unfold digit_char. replace (N_of_ascii c - 48 <? 10)%N with true by lia.
  replace (48 + (N_of_ascii c - 48))%N with (N_of_ascii c) by lia. now rewrite ascii_N_embedding.
Qed.

(** ** int() of '+' followed by text *)
Lemma strip_plus_nonneg v n : py_int (bs "+" ++ v) = Some n -> (0 <= n)%Z.
Proof.
  unfold py_int. 
  assert (exists t, strip_ws (bs "+" ++ v) = "+"%char :: t) as (t & E).
  { unfold strip_ws, strip_by. cbn [bs list_ascii_of_string app lstrip_by].
    replace (is_space "+") with false by reflexivity.
    unfold rstrip_by. cbn [rev].
    assert (forall l, exists t, lstrip_by is_space (l ++ ["+"%char]) = t ++ ["+"%char]) as G.
    { induction l as [|x l (t & IH)]; cbn.
      - exists []. reflexivity.
      - destruct (is_space x); [exists t; exact IH|]. exists (x :: l). reflexivity. }
    destruct (G (rev v)) as (t & ->). exists (rev t). now rewrite rev_unit. }
  rewrite E. cbn [int_sign]. replace (Ascii.eqb "+" "-") with false by reflexivity.
  replace (Ascii.eqb "+" "+") with true by reflexivity.
  destruct (int_digits 10 false t 0 0) as [[m c]|]; [|easy].
  destruct (c <=? int_max_str_digits)%Z; [|easy]. intros H. assert (n = 1 * Z.of_N m)%Z as E2 by congruence. rewrite E2. lia.
Qed.

Lemma py_int_plus_fmt z : (0 <= z)%Z -> (blen (fmt_d z) <= int_max_str_digits)%Z ->
  py_int (bs "+" ++ fmt_d z) = Some z.
Proof.
  intros Hz Hl. rewrite fmt_d_nonneg in * by exact Hz. unfold py_int.
  assert (strip_ws (bs "+" ++ fmt_nat 10 (Z.to_N z)) = bs "+" ++ fmt_nat 10 (Z.to_N z)) as ->.
  { apply strip_by_id. apply Forall_app. split; [repeat constructor|].
    apply fmt_nat_forall; [lia|]. intros d Hd. apply digit_char_not_space. lia. }
  cbn [bs list_ascii_of_string app int_sign].
  replace (Ascii.eqb "+" "-") with false by reflexivity. replace (Ascii.eqb "+" "+") with true by reflexivity.
  unfold fmt_nat. rewrite int_digits_fmt; [|lia|apply digits_range; lia|].
  - rewrite digits_value by lia. unfold blen, fmt_nat in Hl. rewrite map_length in Hl.
    replace (0 + Z.of_nat (List.length (digits 10 (Z.to_N z))) <=? int_max_str_digits)%Z with true by lia.
    f_equal. lia.
  - destruct (digits_lead 10 (Z.to_N z) ltac:(lia)) as (d & ds & E & _). rewrite E. easy.
Qed.

(** ** C07, C08 *)
Lemma bind_ok {A B} (r : res A) (f : A -> res B) b :
  bind r f = Ok b -> exists a, r = Ok a /\ f a = Ok b.
Proof. destruct r as [a|e]; cbn; [intros H; now exists a|discriminate]. Qed.

Lemma frame_inv r r' : frame r = Ok r' ->
  exists ka, keepalive_of r = Ok ka /\ rq_keepalive r' = ka /\
  rq_headers r' = rq_headers r /\ rq_version r' = rq_version r /\ rq_method r' = rq_method r /\ rq_url r' = rq_url r /\
  if has_body r then
    transfer_encoding_of r = Ok (rq_transfer_encoding r') /\
    content_length_of r (rq_transfer_encoding r') = Ok (rq_content_length r') /\
    continue_of r = Ok (rq_continue r')
  else rq_transfer_encoding r' = rq_transfer_encoding r /\ rq_content_length r' = rq_content_length r /\
       rq_continue r' = rq_continue r.
Proof.
  unfold frame. intros H. apply bind_ok in H as (ka & K & H). exists ka. split; [exact K|].
  destruct (has_body r).
  - apply bind_ok in H as (te & T & H). apply bind_ok in H as (cl & C & H).
    apply bind_ok in H as (co & Co & H). injection H as <-. cbn. repeat split; assumption.
  - injection H as <-. cbn. repeat split.
Qed.

Lemma c07_main r r' : frame r = Ok r' -> hget k_content_length (rq_headers r) <> None ->
  exists v, hget k_content_length (rq_headers r) = Some (One (AB v)) /\
            canonical_decimal v /\ rq_content_length r' = dec_value 0 v.
Proof.
  intros H Hc. apply frame_inv in H as (ka & _ & _ & _ & _ & _ & _ & H).
  assert (has_body r = true) as B.
  { unfold has_body, hmem, dmem. change (dget beqb) with hget.
    change (dget beqb k_content_length (rq_headers r)) with (hget k_content_length (rq_headers r)).
    destruct (hget k_content_length (rq_headers r)); [reflexivity|easy]. }
  rewrite B in H. destruct H as (_ & H & _). unfold content_length_of in H.
  destruct (hget k_content_length (rq_headers r)) as [[[v|]|]|]; try easy.
  destruct (py_int (bs "+" ++ v)) as [n|] eqn:P; [|easy].
  destruct (negb (beqb (fmt_d n) v) || contains (bs "chunked") (rq_transfer_encoding r')) eqn:E; [easy|].
  injection H as H. apply orb_false_iff in E as [E _]. apply negb_false_iff, beqb_eq in E.
  exists v. split; [reflexivity|]. apply strip_plus_nonneg in P as N0.
  rewrite fmt_d_nonneg in E by exact N0. destruct (fmt_nat_canonical (Z.to_N n)) as [C1 C2].
  rewrite E in C1, C2. split; [exact C1|]. rewrite <- H, C2. lia.
Qed.

(** A request whose only framing header is a canonical Content-Length is accepted. *)
Lemma c07_accept r v c :
  hget k_content_length (rq_headers r) = Some (One (AB v)) -> canonical_decimal v ->
  (blen v <= int_max_str_digits)%Z ->
  hget k_transfer_encoding (rq_headers r) = None -> rq_transfer_encoding r = bs "none" ->
  keepalive_of r = Ok c -> hget k_expect (rq_headers r) = None ->
  exists r', frame r = Ok r' /\ rq_content_length r' = dec_value 0 v.
Proof.
  intros H1 H2 H3 H4 H5 H6 H7. unfold frame. rewrite H6. cbn [bind].
  assert (has_body r = true) as B.
  { unfold has_body, hmem, dmem. change (dget beqb k_content_length (rq_headers r)) with (hget k_content_length (rq_headers r)).
    now rewrite H1. }
  rewrite B. unfold transfer_encoding_of. rewrite H4, H5. cbn [bind].
  unfold content_length_of. rewrite H1.
  assert (v = fmt_d (dec_value 0 v)) as E.
  { rewrite (canonical_fmt v H2) at 1. destruct (fmt_nat_canonical (Z.to_N (dec_value 0 v))) as [_ C].
    assert (0 <= dec_value 0 v)%Z by (rewrite dec_value_dval by (apply H2 || lia); lia).
    now rewrite fmt_d_nonneg. }
  assert (0 <= dec_value 0 v)%Z as N0 by (rewrite dec_value_dval by (apply H2 || lia); lia).
  remember (dec_value 0 v) as n eqn:En. rewrite E in H3 |- *. rewrite py_int_plus_fmt by assumption.
  rewrite beqb_refl. cbn [negb orb]. replace (contains (bs "chunked") (bs "none")) with false by reflexivity.
  cbn [bind]. unfold continue_of. rewrite H7. cbn [bind]. eexists. split; [reflexivity|reflexivity].
Qed.

Lemma c08_main r r' : frame r = Ok r' ->
  let cl := hget k_content_length (rq_headers r) in
  let te := hget k_transfer_encoding (rq_headers r) in
  (cl <> None -> exists v, cl = Some (One (AB v))) /\
  (te <> None -> exists v, te = Some (One (AB v)) /\ rq_version r <> bs "1.0" /\
                           (cl <> None -> contains (bs "chunked") (lower v) = false)) /\
  (rq_version r = bs "1.0" -> te = None /\ (has_body r = true -> cl <> None)).
Proof.
  intros H. cbv zeta. pose proof (c07_main r r' H) as C7.
  apply frame_inv in H as (ka & _ & _ & _ & _ & _ & _ & H).
  split; [intros Hc; destruct (C7 Hc) as (v & E & _); now exists v|].
  unfold has_body, hmem, dmem in *.
  change (dget beqb k_content_length (rq_headers r)) with (hget k_content_length (rq_headers r)) in *.
  change (dget beqb k_transfer_encoding (rq_headers r)) with (hget k_transfer_encoding (rq_headers r)) in *.
  destruct (hget k_transfer_encoding (rq_headers r)) as [te|] eqn:T.
  - rewrite orb_true_r in H. destruct H as (H1 & H2 & _). unfold transfer_encoding_of in H1.
    rewrite T in H1. destruct (beqb (rq_version r) (bs "1.0")) eqn:V; [easy|]. apply beqb_neq in V.
    destruct te as [[v|]|]; cbn in H1; try easy. injection H1 as H1. split.
    + intros _. exists v. split; [reflexivity|]. split; [exact V|]. intros Hc.
      destruct (C7 Hc) as (w & E & _). unfold content_length_of in H2. rewrite E in H2.
      destruct (py_int _) as [n|]; [|easy]. rewrite <- H1 in H2.
      destruct (contains (bs "chunked") (lower v)); [|reflexivity]. rewrite orb_true_r in H2. easy.
    + intros V2. easy.
  - split; [easy|]. intros V. split; [reflexivity|].
    intros B. rewrite orb_false_r in B. destruct (hget k_content_length (rq_headers r)); easy.
Qed.

(** ** C09 *)
Lemma filter_flat_map (p : byte -> bool) l : flat_map (fun y => if p y then [] else [y]) l = filter (fun y => negb (p y)) l.
Proof. induction l as [|x l IH]; [reflexivity|]. cbn. destruct (p x); cbn; now rewrite IH. Qed.

Lemma replace_space c : replace (bs " ") [] c = filter (fun x => negb (Ascii.eqb SP x)) c.
Proof. change (bs " ") with [SP]. rewrite replace1_flat_map. apply filter_flat_map. Qed.

Lemma contains_tokens (w : bytes) (parts : list bytes) :
  ~ In ","%char w -> parts <> [] -> Forall (fun p => ~ In ","%char p) parts ->
  (contains (bs "," ++ w ++ bs ",") (bs "," ++ join (bs ",") parts ++ bs ",") = true <-> In w parts).
Proof.
  intros Hw. change (bs ",") with [","%char]. set (c := ","%char) in *. clearbody c.
  assert (forall a r q, ~ In c a -> ~ In c w -> (w ++ [c]) ++ q = a ++ c :: r -> w = a) as U.
  { intros a r q Ha _ E. rewrite <- app_assoc in E. cbn in E.
    pose proof (find1_app c w q Hw) as F1. rewrite E, find1_app in F1 by exact Ha. injection F1 as F1.
    rewrite <- (firstn_app_len w (c :: q)), E, <- F1. apply firstn_app_len. }
  intros Hne F. rewrite contains_spec. split.
  - revert Hne. induction F as [|p ps Hp F IH]; [easy|]. intros _ (a & q & E).
    destruct a as [|x a].
    + cbn [app] in E. injection E as E. destruct ps as [|p2 ps].
      * cbn [join] in E. left. symmetry. apply (U p [] q); [exact Hp|exact Hw|]. rewrite <- E. reflexivity.
      * left. symmetry.
        apply (U p (join [c] (p2 :: ps) ++ [c]) q); [exact Hp|exact Hw|]. rewrite <- E, <- !app_assoc. reflexivity.
    + cbn [app] in E. injection E as <- E. destruct ps as [|p2 ps].
      * cbn [join] in E. exfalso.
        (* a ++ c :: w ++ [c] ++ q = p ++ [c] has two commas on the left *)
        assert (p ++ [c] = a ++ [c] ++ (w ++ [c]) ++ q) as E' by exact E.
        pose proof (find1_app c p [] Hp) as F1. cbn [app] in E'. rewrite E' in F1.
        assert (List.length (p ++ [c]) = List.length (a ++ c :: (w ++ [c]) ++ q)) as L by now rewrite E'.
        rewrite !app_length in L. cbn [List.length] in L. rewrite !app_length in L. cbn [List.length] in L.
        assert (nth (List.length a) (p ++ [c]) LF = c) as N by (rewrite E'; apply nth_app_mid).
        rewrite app_nth1 in N by lia. apply Hp. rewrite <- N. apply nth_In. lia.
      * right. apply IH; [discriminate|]. rewrite <- app_assoc in E. cbn [app] in E.
        (* cut at the first comma *)
        assert (exists a', a = p ++ a') as (a' & ->).
        { assert (forall (p a X Y : bytes), ~ In c p -> p ++ c :: X = a ++ c :: Y -> exists a', a = p ++ a') as G.
          { clear. induction p as [|x p IH]; intros a X Y Hp E; [now exists a|].
            destruct a as [|y a]; cbn in E; injection E as E1 E2.
            - exfalso. apply Hp. now left.
            - subst y. destruct (IH a X Y) as (a' & ->); [intros H; apply Hp; now right|exact E2|]. now exists a'. }
          apply (G p a (join [c] (p2 :: ps) ++ [c]) ((w ++ [c]) ++ q) Hp). exact E. }
        rewrite <- app_assoc in E. apply app_inv_head in E. exists a', q. exact E.
  - intros Hi. apply in_split in Hi as (p1 & p2 & ->). clear -F.
    assert (forall p1 p2, p1 <> [] -> p2 <> [] -> join [c] (p1 ++ p2) = join [c] p1 ++ [c] ++ join [c] p2) as J.
    { clear. induction p1 as [|p p1 IH]; intros p2 H1 H2; [easy|]. destruct p1 as [|p' p1].
      - cbn [app]. now rewrite join_cons.
      - cbn [app]. rewrite join_cons by discriminate. rewrite (join_cons _ p (p' :: p1)) by discriminate.
        change (p' :: p1 ++ p2) with ((p' :: p1) ++ p2). rewrite IH by (discriminate || exact H2). now rewrite <- !app_assoc. }
    assert (exists B, join [c] (w :: p2) ++ [c] = w ++ [c] ++ B) as (B & EB).
    { destruct p2 as [|q p2]; [exists []; reflexivity|]. rewrite join_cons by discriminate.
      exists (join [c] (q :: p2) ++ [c]). now rewrite <- !app_assoc. }
    destruct p1 as [|q p1].
    + exists [], B. cbn [app]. f_equal. rewrite EB. now rewrite <- !app_assoc.
    + rewrite J by discriminate. exists ([c] ++ join [c] (q :: p1)), B.
      rewrite <- !app_assoc. rewrite EB. cbn [app]. now rewrite <- ?app_assoc.
Qed.

Definition norm_token (t : bytes) : bytes := lower (filter (fun x => negb (Ascii.eqb SP x)) t).

Lemma norm_join parts : norm_token (join (bs ",") parts) = join (bs ",") (map norm_token parts).
Proof.
  unfold norm_token. induction parts as [|p ps IH]; [reflexivity|]. destruct ps as [|p2 ps]; [reflexivity|].
  cbn [map] in *. rewrite !join_cons by discriminate. rewrite filter_app. unfold lower in *. rewrite map_app. f_equal.
  rewrite filter_app, map_app, IH. reflexivity.
Qed.

Lemma norm_nocomma p : ~ In ","%char p -> ~ In ","%char (norm_token p).
Proof.
  intros H Hi. apply in_map_iff in Hi as (x & E & Hx). apply filter_In in Hx as [Hx _]. apply H.
  replace ","%char with x; [exact Hx|]. revert E. unfold lower1.
  destruct ((65 <=? N_of_ascii x)%N && (N_of_ascii x <=? 90)%N) eqn:C; [|easy]. intros E.
  assert (N_of_ascii (ascii_of_N (N_of_ascii x + 32)) = 44%N) as E2 by now rewrite E.
  rewrite N_ascii_embedding in E2 by lia. lia.
Qed.

Lemma c09_header r r' v parts : frame r = Ok r' ->
  hget k_connection (rq_headers r) = Some (One (AB v)) ->
  parts <> [] -> Forall (fun p => ~ In ","%char p) parts -> join (bs ",") parts = v ->
  (rq_keepalive r' = false <-> exists t, In t parts /\ norm_token t = bs "close").
Proof.
  intros F H Hne Hp Hj. apply frame_inv in F as (ka & K & Hk & _). unfold keepalive_of in K. rewrite H in K.
  cbn in K. injection K as K. rewrite Hk, <- K. rewrite negb_false_iff.
  rewrite replace_space. change (lower (filter _ v)) with (norm_token v). rewrite <- Hj, norm_join.
  etransitivity; [apply (contains_tokens (bs "close") (map norm_token parts))|].
  - cbn. intuition discriminate.
  - destruct parts; [easy|discriminate].
  - apply Forall_map. eapply Forall_impl; [|exact Hp]. intros a. apply norm_nocomma.
  - rewrite in_map_iff. split; intros (t & A & B); exists t; now split.
Qed.

Lemma c09_noheader r r' : frame r = Ok r' -> hget k_connection (rq_headers r) = None ->
  (rq_keepalive r' = true <-> rq_version r = bs "1.1").
Proof.
  intros F H. apply frame_inv in F as (ka & K & Hk & _). unfold keepalive_of in K. rewrite H in K.
  injection K as K. rewrite Hk, <- K. apply beqb_eq.
Qed.

Lemma c09_repeated r v : hget k_connection (rq_headers r) = Some v -> (forall b, v <> One (AB b)) ->
  frame r = Raise AttributeError.
Proof.
  intros H N. unfold frame, keepalive_of. rewrite H. destruct v as [[b|]|]; [now specialize (N b)|reflexivity|reflexivity].
Qed.

(** ** C04 *)
Section C04.
  Context (k : bytes) (v : bytes).
  Definition kept (h : header) : Prop :=
    hget k (headers h) = Some (One (AB v)) \/ exists l, hget k (headers h) = Some (Many l).

  Lemma kept_store name val h d : kept h -> headers h = d ->
    forall h', headers h' = store name val d -> kept h'.
  Proof.
    intros K E h' E'. unfold kept in *. rewrite E', <- E.
    destruct (beqb k name) eqn:B.
    - apply beqb_eq in B as <-. rewrite hget_store_same. destruct K as [->|(l & ->)]; cbn; eauto.
    - apply beqb_neq in B. rewrite hget_store_other by exact B. exact K.
  Qed.

  Lemma kept_run ex mls lines : forall n h, kept h -> kept (snd (run_lines ex mls n false lines h)).
  Proof.
    induction lines as [|l ls IH]; intros n h K; [exact K|].
    destruct n as [|n]; cbn [run_lines]; [exact K|].
    destruct (_ || _); [exact K|].
    destruct (find_from (bs ":") 1 l) as [c|]; [|exact K]. destruct (Ascii.eqb _ _); [exact K|].
    apply IH. eapply kept_store; [exact K|reflexivity|reflexivity].
  Qed.

  Lemma kept_host h : k <> k_host -> kept h -> kept (check_host h).
  Proof.
    intros Hk K. unfold check_host. destruct (_ && _); [|exact K]. unfold kept in *. cbn [headers].
    now rewrite hget_hset_other.
  Qed.
End C04.

Lemma run_version ex mls v lines : ~ has_field (bs "_version") lines -> forall n h,
  hget k_version (headers h) = Some (One (AB v)) ->
  hget k_version (headers (snd (run_lines ex mls n false lines h))) = Some (One (AB v)).
Proof.
  induction lines as [|l ls IH]; intros NF n h H; [exact H|].
  assert (~ has_field (bs "_version") ls) as NF'.
  { intros (l' & n' & A & B). apply NF. exists l', n'. split; [now right|exact B]. }
  destruct n as [|n]; cbn [run_lines]; [exact H|].
  destruct (_ || _); [exact H|].
  destruct (find_from (bs ":") 1 l) as [c|] eqn:C; [|exact H]. destruct (Ascii.eqb (nth (c - 1) l LF) SP) eqn:S1; [exact H|].
  apply IH; [exact NF'|]. cbn [field_line headers].
  rewrite hget_store_other; [exact H|]. intros E. apply NF.
  exists l, (firstn c l). split; [now left|]. split; [|symmetry; exact E].
  assert (field_split l = Some (firstn c l, skipn (c + 1) l)) as FS by (unfold field_split; now rewrite C, S1).
  apply field_split_elim in FS as (E1 & E2 & E3 & E4). cbn [fst snd] in *. now exists (skipn (c + 1) l).
Qed.

Lemma c04_main data p hs hmax ex ml mls first rest method target version r :
  find CRLF2 data = Some p -> scanned hs hmax p (List.length data) ->
  firstn (p + 4) data = lines_bytes (first :: rest) ++ CRLF -> Forall line_ok (first :: rest) ->
  is_request_line first method target version ->
  request_init (parse_header data hs hmax ex ml mls) = Ok r ->
  rq_method r = upper method /\ rq_url r = target /\
  (~ has_field (bs "_version") rest -> rq_version r = if beqb version (bs "1.0") then bs "1.0" else bs "1.1").
Proof.
  intros F S1 E Lk R I. rewrite (head_region _ _ F) in E. apply app_inv_tail in E.
  rewrite (parse_as_lines data p hs hmax ex ml mls (first :: rest)) in I by assumption.
  set (hh := mkHeader false false false false [] [] (skipn (p + 4) data)) in *.
  destruct ml as [|ml]; [cbn in I; easy|]. cbn [run_lines] in I.
  destruct (_ || _); [cbn in I; easy|].
  rewrite (first_line_request _ _ _ _ _ R) in I.
  set (h0 := mkHeader true (is_response hh) true (is_valid_response hh) _ _ _) in *.
  assert (forall k w, k <> k_host -> hget k (headers h0) = Some (One (AB w)) ->
            kept k w (finish (run_lines ex mls ml false rest h0))) as K.
  { intros k w Hk H. pose proof (kept_run k w ex mls rest ml h0 (or_introl H)) as K.
    destruct (run_lines ex mls ml false rest h0) as [[|] h]; cbn [finish snd] in *; [exact K|].
    now apply kept_host. }
  assert (~ has_field (bs "_version") rest -> hget k_version (headers (finish (run_lines ex mls ml false rest h0))) = Some (One (AB version))) as Kv.
  { intros NF. pose proof (run_version ex mls version rest NF ml h0 eq_refl) as K'.
    destruct (run_lines ex mls ml false rest h0) as [[|] h]; cbn [finish snd] in *; [exact K'|].
    unfold check_host. destruct (_ && _); [|exact K']. cbn [headers]. now rewrite hget_hset_other. }
  set (hf := finish (run_lines ex mls ml false rest h0)) in *.
  pose proof (K k_method method ltac:(discriminate) eq_refl) as Km.
  pose proof (K k_url target ltac:(discriminate) eq_refl) as Ku.
  unfold request_init in I. apply bind_ok in I as (m & Im & I). apply bind_ok in I as (u & Iu & I).
  unfold getmethod, geturl, getversion in *.
  destruct Km as [Km|(lm & Km)]; rewrite Km in Im; cbn in Im; [|easy]. injection Im as <-.
  destruct Ku as [Ku|(lu & Ku)]; rewrite Ku in Iu; cbn in Iu; [|easy]. injection Iu as <-.
  destruct (partition (bs "?") target) as [[pa ?] qs]. injection I as <-. cbn [rq_method rq_url rq_version].
  split; [reflexivity|]. split; [reflexivity|]. intros NF. rewrite (Kv NF).
  change (["1"; "."; "0"]%char) with (bs "1.0"). destruct (beqb version (bs "1.0")) eqn:B; [|reflexivity]. now apply beqb_eq in B.
Qed.
