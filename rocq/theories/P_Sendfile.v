From Verif Require Import PyBytes PyBytesFacts PyInt PyIntFacts PyExn M_Response M_Sendfile S_Range.
From Coq Require Import ZifyBool ZifyNat ZifyN.
Local Open Scope Z_scope.

(** ** Stripping *)
Lemma lstrip_head p l : match lstrip_by p l with [] => True | x :: _ => p x = false end.
Proof. induction l as [|x l IH]; cbn [lstrip_by]; [exact I|]. destruct (p x) eqn:E; [exact IH|exact E]. Qed.
Lemma rstrip_prefix p l : exists t, l = rstrip_by p l ++ t /\ Forall (fun x => p x = true) t.
Proof.
  unfold rstrip_by. assert (forall m, exists t, m = t ++ lstrip_by p m /\ Forall (fun x => p x = true) t) as A.
  { induction m as [|x m (t & E & F)]; cbn [lstrip_by]; [exists []; auto|]. destruct (p x) eqn:Ex; [|now exists []].
    exists (x :: t). split; [cbn; now rewrite E at 1|now constructor]. }
  destruct (A (rev l)) as (t & E & F). exists (rev t). split.
  - rewrite <- rev_app_distr, <- E. now rewrite rev_involutive.
  - apply Forall_rev, F.
Qed.
Lemma strip_cons p c l : p c = false -> exists t, strip_by p (c :: l) = c :: t.
Proof.
  intros E. unfold strip_by. cbn [lstrip_by]. rewrite E. destruct (rstrip_prefix p (c :: l)) as (t & S & F).
  destruct (rstrip_by p (c :: l)) as [|x r]; [|injection S as <- _; now exists r].
  cbn in S. rewrite <- S in F. inversion_clear F. congruence.
Qed.
Lemma strip_head p l : match strip_by p l with [] => True | x :: _ => p x = false end.
Proof.
  unfold strip_by. pose proof (lstrip_head p l) as H. destruct (rstrip_prefix p (lstrip_by p l)) as (t & S & _).
  destruct (rstrip_by p (lstrip_by p l)) as [|x r]; [exact I|]. rewrite S in H. exact H.
Qed.

(** ** Signs *)
Lemma py_int_neg c v n : c = "-"%char -> py_int (c :: v) = Some n -> n <= 0.
Proof.
  intros -> E. unfold py_int in E. destruct (strip_cons is_space "-" v eq_refl) as (t & S). unfold strip_ws in E. rewrite S in E.
  cbn [int_sign] in E. rewrite Ascii.eqb_refl in E. destruct (int_digits 10 false t 0 0) as [[m c]|]; [|discriminate].
  destruct (c <=? int_max_str_digits); [|discriminate]. assert (n = -1 * Z.of_N m) by congruence. lia.
Qed.
Lemma py_int_pos v n : match v with [] => True | c :: _ => is_space c = false /\ c <> "-"%char end -> py_int v = Some n -> 0 <= n.
Proof.
  intros H E. unfold py_int in E. destruct v as [|c v].
  - vm_compute in E. discriminate.
  - destruct H as [Hs Hm]. destruct (strip_cons is_space c v Hs) as (t & S). unfold strip_ws in E. rewrite S in E. cbn [int_sign] in E.
    apply Ascii.eqb_neq in Hm. rewrite Hm in E.
    destruct (Ascii.eqb c "+"); destruct (int_digits 10 false _ 0 0) as [[m c']|]; try discriminate;
      destruct (c' <=? int_max_str_digits); try discriminate; assert (n = 1 * Z.of_N m) by congruence; lia.
Qed.

(** ** Ranges are in the file *)
Definition in_file (size : Z) (r : Z * Z * Z) : Prop :=
  let '(first, last, n) := r in 0 <= first <= last /\ last < size /\ n = last - first + 1.
Definition empty_suffix (size : Z) (r : Z * Z * Z) : Prop := r = (size, size - 1, 0).

Lemma parse_range_sound size v r : 0 <= size -> parse_range size v = Ok r -> in_file size r \/ empty_suffix size r.
Proof.
  intros Hs E. unfold parse_range in E. set (w := strip_ws v) in *.
  assert (match w with [] => True | c :: _ => is_space c = false end) as HW by apply strip_head.
  change (bs "-") with ["-"%char] in *.
  destruct (startswith ["-"%char] w) eqn:S.
  - apply startswith_spec in S as (t & Ew). cbn [app] in Ew. rewrite Ew in E. destruct (py_int ("-"%char :: t)) as [n|] eqn:P; [|discriminate].
    apply py_int_neg in P; [|reflexivity]. destruct (size + n <? 0) eqn:L; [discriminate|]. injection E as <-.
    destruct (n =? 0) eqn:Z0.
    + right. unfold empty_suffix. repeat f_equal; lia.
    + left. cbn. lia.
  - assert (forall t u, w = t ++ u -> match t with [] => True | c :: _ => is_space c = false /\ c <> "-"%char end) as PRE.
    { intros [|c t] u Ew; [exact I|]. rewrite Ew in HW, S. cbn [app] in *. split; [exact HW|]. intros ->. cbn in S. discriminate. }
    destruct (endswith ["-"%char] w) eqn:En.
    + destruct (py_int (upto w (-1))) as [st|] eqn:P; [|discriminate]. apply py_int_pos in P.
      2:{ apply (PRE _ (skipn (norm_index (List.length w) (-1)) w)). unfold upto. now rewrite firstn_skipn. }
      destruct (size <=? st) eqn:L; [discriminate|]. injection E as <-. left. cbn. lia.
    + destruct (split_max ["-"%char] 1 w) as [|a [|b [|]]] eqn:Sp; try discriminate.
      destruct (py_int a) as [st|] eqn:P; [|discriminate]. destruct (py_int b) as [e0|]; [|discriminate].
      apply py_int_pos in P.
      2:{ apply (PRE a (["-"%char] ++ b)). rewrite <- (join_split_max ["-"%char] 1 w ltac:(easy)), Sp. reflexivity. }
      set (e1 := if e0 =? 0 then st else e0) in *.
      destruct ((e1 <? st) || (size <=? e1)) eqn:L; [discriminate|]. injection E as <-. left. cbn. lia.
Qed.
Lemma parse_ranges_sound size vs : forall rs, 0 <= size -> parse_ranges size vs = Ok rs ->
  Forall (fun r => in_file size r \/ empty_suffix size r) rs /\ List.length rs = List.length vs.
Proof.
  induction vs as [|v vs IH]; intros rs Hs E; cbn [parse_ranges bind] in E.
  - injection E as <-. auto.
  - destruct (parse_range size v) as [r|] eqn:R; [|discriminate]. cbn [bind] in E. destruct (parse_ranges size vs) as [rs'|]; [|discriminate].
    injection E as <-. destruct (IH rs' Hs eq_refl) as [F L]. split; [constructor; [now apply (parse_range_sound size v)|exact F]|cbn; now rewrite L].
Qed.
Lemma range_header_sound size values rs : 0 <= size -> range_header size values = Ok rs ->
  Forall (fun r => in_file size r \/ empty_suffix size r) rs /\ (1 <= List.length rs <= 101)%nat.
Proof.
  intros Hs E. unfold range_header in E. destruct (forallb _ _); [|discriminate].
  apply parse_ranges_sound in E as [F L]; [|exact Hs]. split; [exact F|]. rewrite L.
  pose proof (split_max_length (bs ",") 100 (replace (bs "bytes=") [] (join (bs ",") values))).
  pose proof (split_max_nonempty (bs ",") 100 (replace (bs "bytes=") [] (join (bs ",") values))).
  destruct (split_max _ _ _); [easy|]. cbn [List.length] in *. lia.
Qed.
Lemma range_header_errors size values x : range_header size values = Raise x -> x = BadRequest \/ x = RangeNotSatisfiable.
Proof.
  unfold range_header. destruct (forallb _ _); [|intros [= <-]; now left].
  generalize (split_max (bs ",") 100 (replace (bs "bytes=") [] (join (bs ",") values))). induction l as [|v l IH]; [discriminate|].
  cbn [parse_ranges]. intros E. destruct (parse_range size v) as [r|y] eqn:R; cbn [bind] in E.
  - destruct (parse_ranges size l) as [|y]; [discriminate|]. injection E as <-. now apply IH.
  - injection E as <-. unfold parse_range in R.
    repeat match type of R with
           | context [match ?u with _ => _ end] => destruct u; try discriminate
           | (if ?u then _ else _) = _ => destruct u; try discriminate
           end; injection R as <-; auto.
Qed.

(** ** Standard specs *)
Lemma fmt_nat_short n k : (n < 10 ^ N.of_nat k)%N -> (List.length (fmt_nat 10 n) <= Nat.max 1 k)%nat.
Proof.
  intros H. unfold fmt_nat. rewrite map_length. destruct (digits_lead 10 n ltac:(lia)) as (d & ds & E & Z0).
  pose proof (digits_value 10 n ltac:(lia)) as V. rewrite E in *. cbn [List.length].
  destruct (d =? 0)%N eqn:D; [destruct (Z0 ltac:(lia)) as [_ ->]; cbn [List.length]; lia|].
  rewrite dval_cons in V. pose proof (dval_bound 10 ds (0 * 10 + d) ltac:(lia)) as B. rewrite V in B.
  destruct (Nat.le_gt_cases k (List.length ds)) as [C|C]; [|lia]. exfalso.
  assert (10 ^ N.of_nat k <= 10 ^ N.of_nat (List.length ds))%N as P by (apply N.pow_le_mono_r; lia). nia.
Qed.
Lemma dec_int n : short n -> py_int (dec n) = Some (Z.of_N n).
Proof.
  intros H. apply py_int_fmt_d; [lia|]. rewrite fmt_d_nonneg by lia. rewrite N2Z.id. unfold blen.
  unfold short in H. replace 4300%N with (N.of_nat (Z.to_nat 4300)) in H by (vm_compute; reflexivity).
  apply fmt_nat_short in H. unfold int_max_str_digits. lia.
Qed.
Lemma dec_digit n x : In x (dec n) -> exists d, (d < 10)%N /\ x = digit_char d.
Proof.
  unfold dec. rewrite fmt_d_nonneg by lia. unfold fmt_nat. intros I. apply in_map_iff in I as (d & <- & I).
  pose proof (digits_range 10 (Z.to_N (Z.of_N n)) ltac:(lia)) as F. rewrite Forall_forall in F. eauto.
Qed.
Lemma dec_no n x : (N_of_ascii x < 48 \/ 57 < N_of_ascii x)%N -> ~ In x (dec n).
Proof.
  intros H I. apply dec_digit in I as (d & Hd & ->). rewrite digit_char_N in H by lia. destruct (d <? 10)%N eqn:?; lia.
Qed.
Lemma dec_cons n : exists c t, dec n = c :: t /\ Forall (fun x => is_space x = false) (c :: t) /\ c <> "-"%char.
Proof.
  unfold dec. rewrite fmt_d_nonneg by lia. destruct (fmt_nat 10 (Z.to_N (Z.of_N n))) as [|c t] eqn:E.
  - pose proof (fmt_nat_length_pos 10 (Z.to_N (Z.of_N n)) ltac:(lia)) as L. rewrite E in L. cbn in L. lia.
  - exists c, t. split; [reflexivity|]. rewrite <- E. split.
    + apply fmt_nat_forall; [lia|]. intros d Hd. apply digit_char_not_space. lia.
    + intros ->. apply (dec_no n "-"%char); [vm_compute; left; reflexivity|]. unfold dec. rewrite fmt_d_nonneg by lia. rewrite E. now left.
Qed.
Lemma dec_nospace n : Forall (fun x => is_space x = false) (dec n).
Proof. destruct (dec_cons n) as (c & t & -> & F & _). exact F. Qed.
Lemma sp_app a b : Forall (fun x => is_space x = false) a -> Forall (fun x => is_space x = false) b -> Forall (fun x => is_space x = false) (a ++ b).
Proof. intros. now apply Forall_app. Qed.
Lemma endswith_app p l : endswith p (l ++ p) = true.
Proof. unfold endswith. rewrite rev_app_distr. apply startswith_app. Qed.
Lemma endswith1 c l : endswith [c] l = true -> exists l', l = l' ++ [c].
Proof.
  unfold endswith. cbn [rev app]. intros H. apply startswith_spec in H as (r & H). exists (rev r).
  rewrite <- (rev_involutive l), H. now rewrite rev_app_distr.
Qed.

Lemma spec_parse size r : 0 <= size -> spec_short r -> plain r ->
  parse_range size (spec_text r) =
  match resolve size r with Some (a, b) => Ok (a, b, b - a + 1) | None => Raise RangeNotSatisfiable end.
Proof.
  intros Hs Sh Pl. unfold parse_range.
  assert (strip_ws (spec_text r) = spec_text r) as ->.
  { apply strip_by_id. destruct r; cbn [spec_text]; repeat apply sp_app; try apply dec_nospace; repeat constructor. }
  change (bs "-") with ["-"%char]. destruct r as [a b|a|n]; cbn [spec_text resolve spec_short plain] in *; change (bs "-") with ["-"%char].
  - destruct Sh as [Sa Sb]. destruct (dec_cons a) as (c & t & Ea & _ & Hm).
    assert (startswith ["-"%char] (dec a ++ ["-"%char] ++ dec b) = false) as ->.
    { rewrite Ea. cbn [startswith app]. apply andb_false_iff. left. apply Ascii.eqb_neq. congruence. }
    assert (endswith ["-"%char] (dec a ++ ["-"%char] ++ dec b) = false) as ->.
    { destruct (endswith _ _) eqn:X; [|reflexivity]. apply endswith1 in X as (l' & X). exfalso.
      destruct (dec_cons b) as (cb & tb & Eb & _). destruct (exists_last (l := dec b)) as (b' & z & Ez); [rewrite Eb; easy|].
      rewrite Ez in X. rewrite !app_assoc in X. apply app_inj_tail in X as [_ ->].
      apply (dec_no b "-"%char); [vm_compute; left; reflexivity|]. rewrite Ez. apply in_app_iff. right. now left. }
    assert (split_max ["-"%char] 1 (dec a ++ ["-"%char] ++ dec b) = [dec a; dec b]) as ->.
    { apply (split_max_join "-"%char [dec a; dec b]); [|easy|cbn; lia].
      constructor; [|constructor; [|constructor]]; apply dec_no; vm_compute; left; reflexivity. }
    rewrite !dec_int by assumption.
    assert ((if (a <=? b)%N && (Z.of_N b <? size) then Some (Z.of_N a, Z.of_N b) else None) =
            (if (Z.of_N b <? Z.of_N a) || (size <=? Z.of_N b) then None else Some (Z.of_N a, Z.of_N b))) as ->.
    { destruct (a <=? b)%N eqn:?, (Z.of_N b <? size) eqn:?, (Z.of_N b <? Z.of_N a) eqn:?, (size <=? Z.of_N b) eqn:?; try reflexivity; lia. }
    destruct (Z.of_N b =? 0) eqn:B0; [|now destruct ((Z.of_N b <? Z.of_N a) || (size <=? Z.of_N b))].
    assert (Z.of_N a = Z.of_N b) as -> by lia. now destruct ((Z.of_N b <? Z.of_N b) || (size <=? Z.of_N b)).
  - destruct (dec_cons a) as (c & t & Ea & _ & Hm).
    assert (startswith ["-"%char] (dec a ++ ["-"%char]) = false) as ->.
    { rewrite Ea. cbn [startswith app]. apply andb_false_iff. left. apply Ascii.eqb_neq. congruence. }
    rewrite endswith_app. assert (upto (dec a ++ ["-"%char]) (-1) = dec a) as ->.
    { unfold upto, norm_index. rewrite app_length. change (-1 <? 0) with true. cbv iota. cbn [List.length].
      match goal with |- firstn ?u _ = _ => replace u with (List.length (dec a)) by lia end.
      now rewrite firstn_app, Nat.sub_diag, firstn_all, firstn_O, app_nil_r. }
    rewrite dec_int by assumption. destruct (size <=? Z.of_N a) eqn:L; destruct (Z.of_N a <? size) eqn:L2; try lia; [reflexivity|].
    do 2 f_equal. lia.
  - cbn [startswith app]. rewrite Ascii.eqb_refl. cbn [andb].
    assert (py_int ("-"%char :: dec n) = Some (- Z.of_N n)) as ->.
    { pose proof (dec_int n Sh) as P. unfold py_int in *. assert (strip_ws ("-"%char :: dec n) = "-"%char :: dec n) as ->.
      { apply strip_by_id. constructor; [reflexivity|apply dec_nospace]. }
      assert (strip_ws (dec n) = dec n) as X by apply strip_by_id, dec_nospace. rewrite X in P.
      unfold dec in *. rewrite fmt_d_nonneg in * by lia. rewrite int_sign_fmt in P by lia. cbn [int_sign]. rewrite Ascii.eqb_refl.
      destruct (int_digits 10 false _ 0 0) as [[m c]|]; [|discriminate]. destruct (c <=? int_max_str_digits); [|discriminate].
      assert (1 * Z.of_N m = Z.of_N n) by congruence. f_equal. lia. }
    destruct (size + - Z.of_N n <? 0) eqn:L; destruct ((0 <? n)%N && (Z.of_N n <=? size)) eqn:L2; try lia; [reflexivity|].
    f_equal. f_equal. lia.
Qed.

Definition triple (r : Z * Z) : Z * Z * Z := (fst r, snd r, snd r - fst r + 1).

Lemma replace_prefix old rest : old <> [] -> find old rest = None -> replace old [] (old ++ rest) = rest.
Proof.
  intros N F. unfold replace, split. destruct (List.length (old ++ rest)) as [|n] eqn:L.
  { destruct old; [easy|discriminate]. }
  cbn [split_max]. assert (find old (old ++ rest) = Some 0%nat) as ->.
  { rewrite find_unfold. now rewrite startswith_app. }
  cbn [Nat.add]. rewrite skipn_app, Nat.sub_diag, skipn_all. cbn [app skipn firstn].
  assert (split_max old n rest = [rest]) as ->; [|reflexivity]. destruct n; cbn [split_max]; [reflexivity|now rewrite F].
Qed.
Lemma join_In sep ps x : In x (join sep ps) -> In x sep \/ exists p, In p ps /\ In x p.
Proof.
  induction ps as [|p ps IH]; [easy|]. destruct ps as [|q qs].
  - cbn. intros I. right. exists p. auto.
  - rewrite join_cons by easy. rewrite !in_app_iff. intros [I|[I|I]]; [right; exists p; split; [now left|exact I]|now left|].
    destruct (IH I) as [J|(p' & J & K)]; [now left|]. right. exists p'. split; [now right|exact K].
Qed.
Lemma spec_chars r x : In x (spec_text r) -> x = "-"%char \/ (48 <= N_of_ascii x <= 57)%N.
Proof.
  assert (forall n, In x (dec n) -> (48 <= N_of_ascii x <= 57)%N) as D.
  { intros n I. destruct ((48 <=? N_of_ascii x) && (N_of_ascii x <=? 57))%N eqn:E; [lia|]. exfalso. apply (dec_no n x); [lia|exact I]. }
  destruct r; cbn [spec_text]; change (bs "-") with ["-"%char]; rewrite ?in_app_iff; cbn [In]; intuition eauto.
Qed.
Lemma header_parse size rs : 0 <= size -> Forall spec_short rs -> Forall plain rs -> rs <> [] -> (List.length rs <= 101)%nat ->
  range_header size [header_text rs] =
  match resolve_all size rs with Some l => Ok (map triple l) | None => Raise RangeNotSatisfiable end.
Proof.
  intros Hs Sh Pl Ne L. unfold range_header, header_text. cbn [forallb].
  rewrite startswith_app. cbn [andb join].
  assert (forall r x, In r rs -> In x (spec_text r) -> x <> ","%char /\ x <> "="%char) as NC.
  { intros r x _ I. apply spec_chars in I. split; intros ->; destruct I as [I|I]; try discriminate; vm_compute in I; intuition. }
  rewrite replace_prefix; [|easy|].
  2:{ destruct (find (bs "bytes=") (join (bs ",") (map spec_text rs))) eqn:F; [|reflexivity]. exfalso.
      assert (contains (bs "bytes=") (join (bs ",") (map spec_text rs)) = true) as C by (unfold contains; now rewrite F).
      apply contains_spec in C as (a & c & C). assert (In "="%char (join (bs ",") (map spec_text rs))) as I.
      { rewrite C. apply in_app_iff. right. apply in_app_iff. left. cbn. intuition. }
      apply join_In in I as [I|(p & I & J)]; [cbn in I; intuition discriminate|].
      apply in_map_iff in I as (r & <- & I). destruct (NC r _ I J) as [_ X]. now apply X. }
  change (bs ",") with [","%char]. rewrite split_max_join.
  - clear Ne L NC. induction rs as [|r rs IH]; [reflexivity|]. inversion_clear Sh as [|? ? S1 S2]. inversion_clear Pl as [|? ? P1 P2].
    cbn [map parse_ranges resolve_all]. rewrite spec_parse by assumption. rewrite IH by assumption.
    destruct (resolve size r) as [[a b]|]; cbn [bind]; [|reflexivity]. now destruct (resolve_all size rs).
  - apply Forall_forall. intros p I J. apply in_map_iff in I as (r & <- & I). now destruct (NC r _ I J) as [X _].
  - now destruct rs.
  - rewrite map_length. lia.
Qed.

(** ** Reading *)
Fixpoint wr (e : renv) (c : option bool) (k : kw) (l : list bytes) : call unit :=
  match l with [] => done tt | d :: l' => write e (Some d) c k ;; wr e c k l' end.
Lemma seq_assoc' {A B C} (m : call A) (f : A -> call B) (g : B -> call C) s : seq (seq m f) g s = seq m (fun a => seq (f a) g) s.
Proof. unfold seq. now destruct (m s) as [[]]. Qed.
Lemma seq_ext' {A B} (m : call A) (f g : A -> call B) s : (forall a s', f a s' = g a s') -> seq m f s = seq m g s.
Proof. intros H. unfold seq. destruct (m s) as [[a|]]; [apply H|reflexivity]. Qed.
Lemma seq_ext_l {A B} (m m' : call A) (f : A -> call B) s : m s = m' s -> seq m f s = seq m' f s.
Proof. intros H. unfold seq. now rewrite H. Qed.
Lemma wr_app e c k a b s : wr e c k (a ++ b) s = (wr e c k a ;; wr e c k b) s.
Proof.
  revert s. induction a as [|d a IH]; intros s; cbn [wr app]; [reflexivity|]. rewrite seq_assoc'. apply seq_ext'. intros _ s'. apply IH.
Qed.

Lemma read_at_len file p n : 0 <= p <= blen file -> 0 <= n -> blen (read_at file p n) = Z.min n (blen file - p).
Proof. unfold read_at, blen. intros. rewrite firstn_length, skipn_length. lia. Qed.
Lemma skipn_read file p n : 0 <= p -> 0 <= n -> p + n <= blen file ->
  skipn (Z.to_nat p) file = read_at file p n ++ skipn (Z.to_nat (p + n)) file.
Proof.
  intros. unfold read_at. rewrite <- (firstn_skipn (Z.to_nat n) (skipn (Z.to_nat p) file)) at 1. f_equal.
  rewrite <- skipn_add. f_equal. lia.
Qed.
Lemma read_at_all file p n : 0 <= p <= blen file -> blen file - p <= n -> read_at file p n = skipn (Z.to_nat p) file.
Proof. intros. unfold read_at. apply firstn_all2. rewrite skipn_length. unfold blen in *. lia. Qed.

Lemma write_file_wr e k file : (1 <= k_bufsize k) -> forall fuel pos, 0 <= pos <= blen file -> (Z.to_nat (blen file - pos) < fuel)%nat ->
  exists l, (forall s, write_file fuel e k file pos s = wr e (Some false) k l s) /\ concat l = skipn (Z.to_nat pos) file /\ l <> [].
Proof.
  intros Hb. induction fuel as [|fuel IH]; intros pos Hp Hf; [lia|]. cbn [write_file].
  pose proof (read_at_len file pos (k_bufsize k) Hp ltac:(lia)) as L.
  destruct (read_at file pos (k_bufsize k)) as [|c d] eqn:R.
  - exists [[]]. split; [reflexivity|]. split; [|easy]. change (blen []) with 0 in L. cbn. symmetry. apply skipn_all2. unfold blen in *. lia.
  - destruct (IH (pos + blen (c :: d))) as (l & E & C & N); [unfold blen in *; cbn [List.length] in *; lia|unfold blen in *; cbn [List.length] in *; lia|].
    exists ((c :: d) :: l). split; [|split; [|easy]].
    + intros s. cbn [wr]. apply seq_ext'. intros _ s'. apply E.
    + cbn [concat]. rewrite C, L, <- R. destruct (Z.leb_spec (k_bufsize k) (blen file - pos)).
      * rewrite (skipn_read file pos (k_bufsize k)) by lia. rewrite Z.min_l by lia. reflexivity.
      * rewrite read_at_all by lia. rewrite Z.min_r by lia. rewrite (skipn_all2 (n := Z.to_nat (pos + (blen file - pos)))); [apply app_nil_r|]. unfold blen. lia.
Qed.

Lemma write_range_wr e c k file : (1 <= k_bufsize k) -> forall fuel pos size, 0 <= pos -> pos + size <= blen file -> (Z.to_nat size < fuel)%nat ->
  exists l, (forall s, write_range fuel e c k file pos size s = wr e c k l s) /\ concat l = read_at file pos size /\
    Forall (fun d => d <> []) l /\ (0 < size -> l <> []).
Proof.
  intros Hb. induction fuel as [|fuel IH]; intros pos size Hp Hs Hf; [lia|]. cbn [write_range].
  destruct (0 <? size) eqn:P.
  - set (m := Z.min size (k_bufsize k)).
    pose proof (read_at_len file pos m ltac:(unfold blen in *; lia) ltac:(lia)) as L. rewrite Z.min_l in L by lia. rewrite L.
    destruct (Z.leb_spec size (k_bufsize k)).
    + exists [read_at file pos m]. split; [|split; [|split]].
      * intros s. cbn [wr]. apply seq_ext'. intros _ s'. destruct fuel; [lia|]. cbn [write_range].
        replace (0 <? size - k_bufsize k) with false by lia. reflexivity.
      * cbn. rewrite app_nil_r. unfold m. now rewrite Z.min_l by lia.
      * constructor; [|constructor]. intros X. rewrite X in L. change (blen []) with 0 in L. lia.
      * easy.
    + destruct (IH (pos + m) (size - k_bufsize k)) as (l & E & C & N & _); [lia|lia|lia|].
      exists (read_at file pos m :: l). split; [|split; [|split]].
      * intros s. cbn [wr]. apply seq_ext'. intros _ s'. apply E.
      * cbn [concat]. rewrite C. unfold m. rewrite Z.min_r by lia. unfold read_at. 
        replace (Z.to_nat size) with (Z.to_nat (k_bufsize k) + Z.to_nat (size - k_bufsize k))%nat by lia.
        replace (Z.to_nat (pos + k_bufsize k)) with (Z.to_nat pos + Z.to_nat (k_bufsize k))%nat by lia. rewrite skipn_add.
        generalize (skipn (Z.to_nat pos) file). generalize (Z.to_nat (k_bufsize k)). clear.
        intros n l. revert l. induction n as [|n IH]; intros [|x l]; cbn [firstn skipn Nat.add app]; try reflexivity.
        -- now rewrite !firstn_nil.
        -- f_equal. apply IH.
      * constructor; [|exact N]. intros X. rewrite X in L. change (blen []) with 0 in L. lia.
      * easy.
  - exists []. split; [reflexivity|]. split; [|split; [constructor|lia]]. unfold read_at. now replace (Z.to_nat size) with 0%nat by lia.
Qed.

Definition parts_ok (file : bytes) (r : Z * Z * Z) : Prop := in_file (blen file) r \/ empty_suffix (blen file) r.
Lemma write_parts_wr e k boundary ctype file : (1 <= k_bufsize k) -> forall rs, Forall (in_file (blen file)) rs ->
  exists l, (forall s, write_parts e k boundary ctype file (blen file) rs s = wr e None k l s) /\
    concat l = concat (map (fun r => range_part boundary ctype file (fst r)) rs) /\ Forall (fun d => d <> []) l.
Proof.
  intros Hb. induction rs as [|[[st en] n] rs IH]; intros F; [now exists []|].
  inversion_clear F as [|? ? H0 F']. unfold in_file in H0. destruct H0 as (A & B & N). destruct (IH F') as (l & E & C & Ne).
  destruct (write_range_wr e None k file Hb (range_fuel n) st n) as (l1 & E1 & C1 & N1 & _); [lia|lia|unfold range_fuel; lia|].
  exists ([part_head boundary ctype st en (blen file)] ++ l1 ++ [CRLF] ++ l). split; [|split].
  - intros s. cbn [write_parts app wr]. apply seq_ext'. intros _ s1. rewrite wr_app.
    rewrite (seq_ext_l _ _ _ _ (E1 s1)). apply seq_ext'. intros _ s2. cbn [wr app]. apply seq_ext'. intros _ s3. apply E.
  - cbn [map concat app]. rewrite !concat_app. cbn [concat]. rewrite C, C1. rewrite !app_assoc. f_equal.
    unfold part_head, content_range, range_part, range_line, positions, read_at. cbn [fst snd]. rewrite N.
    rewrite <- !app_assoc. cbn [app]. reflexivity.
  - constructor; [easy|]. apply Forall_app. split; [exact N1|]. constructor; [easy|exact Ne].
Qed.
