From Verif Require Import PyBytes PyBytesFacts PyBytesFacts2 PyDictFacts PyInt PyExn PyUtf8 PyUrl PyQs M_Form S_Form.
From Coq Require Import ZifyN ZifyBool ZifyNat.
Local Open Scope N_scope.
Ltac Zify.zify_post_hook ::= Z.div_mod_to_equations.

(** ** Decoding UTF-8 *)
Lemma within_char lo hi n : 128 + n < 256 -> lo <= 128 + n <= hi -> within lo hi (ascii_of_N (128 + n)) = true.
Proof. intros H1 H2. unfold within. rewrite N_ascii by lia. lia. Qed.
Lemma low6_char n : 128 + n < 256 -> low6 (ascii_of_N (128 + n)) = n.
Proof. intros H. unfold low6. rewrite N_ascii by lia. lia. Qed.
Lemma replace_char n l : scalar n = true -> decode_replace (utf8_char n ++ l) = n :: decode_replace l.
Proof.
  intros S. assert (n < 0x110000 /\ ~ (0xD800 <= n < 0xE000)) as [B B2] by (unfold scalar in S; lia). unfold utf8_char.
  destruct (N.ltb_spec n 0x80) as [H1|H1].
  { cbn [map app decode_replace]. rewrite N_ascii by lia. now replace (n <? 128) with true by lia. }
  destruct (N.ltb_spec n 0x800) as [H2|H2].
  { cbn [map app decode_replace]. rewrite N_ascii by lia. set (h := n / 64) in *. assert (2 <= h < 32) by (subst h; lia).
    replace (192 + h <? 128) with false by lia. unfold lead. replace ((194 <=? 192 + h) && (192 + h <=? 223)) with true by lia.
    rewrite within_char by lia. cbn [negb]. rewrite low6_char by lia. change (1 =? 1) with true. cbv iota. f_equal. subst h. lia. }
  destruct (N.ltb_spec n 0x10000) as [H3|H3].
  { cbn [map app decode_replace]. rewrite N_ascii by lia. set (h := n / 4096) in *. assert (h < 16) by (subst h; lia).
    replace (224 + h <? 128) with false by lia. unfold lead. replace ((194 <=? 224 + h) && (224 + h <=? 223)) with false by lia.
    set (m := n / 64 mod 64) in *. assert (n = h * 4096 + m * 64 + n mod 64) as E by (subst h m; lia). assert (m < 64) by (subst m; lia).
    assert (forall lo, lo <= 128 + m <= 191 -> within lo 191 (ascii_of_N (128 + m)) = true) as W by (intros; apply within_char; lia).
    destruct (224 + h =? 224) eqn:A; [|destruct (224 + h =? 237) eqn:A2].
    - rewrite W by lia. cbn [negb]. change (2 =? 1) with false. cbv iota. unfold is_cont. rewrite within_char by lia. cbn [negb]. change (2 =? 2) with true. cbv iota.
      rewrite !low6_char by lia. f_equal. lia.
    - rewrite within_char by lia. cbn [negb]. change (2 =? 1) with false. cbv iota. unfold is_cont. rewrite within_char by lia. cbn [negb]. change (2 =? 2) with true. cbv iota.
      rewrite !low6_char by lia. f_equal. lia.
    - replace ((225 <=? 224 + h) && (224 + h <=? 239)) with true by lia.
      rewrite W by lia. cbn [negb]. change (2 =? 1) with false. cbv iota. unfold is_cont. rewrite within_char by lia. cbn [negb]. change (2 =? 2) with true. cbv iota.
      rewrite !low6_char by lia. f_equal. lia. }
  cbn [map app decode_replace]. rewrite N_ascii by lia. set (h := n / 262144) in *. assert (h < 5) by (subst h; lia).
  replace (240 + h <? 128) with false by lia. unfold lead. replace ((194 <=? 240 + h) && (240 + h <=? 223)) with false by lia.
  replace (240 + h =? 224) with false by lia. replace (240 + h =? 237) with false by lia. replace ((225 <=? 240 + h) && (240 + h <=? 239)) with false by lia.
  set (m := n / 4096 mod 64) in *. set (m2 := n / 64 mod 64) in *. assert (n = h * 262144 + m * 4096 + m2 * 64 + n mod 64) as E by (subst h m m2; lia).
  assert (m < 64) by (subst m; lia). assert (m2 < 64) by (subst m2; lia).
  assert (exists lo hi, (if 240 + h =? 240 then Some (3, 144, 191) else if 240 + h =? 244 then Some (3, 128, 143)
     else if (241 <=? 240 + h) && (240 + h <=? 243) then Some (3, 128, 191) else None) = Some (3, lo, hi) /\ lo <= 128 + m <= hi) as (lo & hi & -> & W).
  { destruct (240 + h =? 240) eqn:A; [|destruct (240 + h =? 244) eqn:A2].
    - exists 144, 191. split; [reflexivity|lia]. - exists 128, 143. split; [reflexivity|lia].
    - exists 128, 191. split; [|lia]. now replace ((241 <=? 240 + h) && (240 + h <=? 243)) with true by lia. }
  rewrite within_char by lia. cbn [negb]. change (3 =? 1) with false. cbv iota. unfold is_cont. rewrite within_char by lia. cbn [negb]. change (3 =? 2) with false. cbv iota.
  rewrite within_char by lia. cbn [negb]. rewrite !low6_char by lia. f_equal. lia.
Qed.
Lemma decode_encode t : forall b, utf8_encode t = Some b -> decode_replace b = t.
Proof.
  induction t as [|n t IH]; intros b E; cbn [utf8_encode] in E; [injection E as <-; reflexivity|].
  destruct (scalar n) eqn:S; [|discriminate]. destruct (utf8_encode t) as [b'|]; [|discriminate]. injection E as <-.
  rewrite replace_char by exact S. now rewrite (IH b' eq_refl).
Qed.
Lemma decode_ascii l : Forall (fun c => N_of_ascii c < 128) l -> decode_replace l = map N_of_ascii l.
Proof. induction 1 as [|c l H F IH]; [reflexivity|]. cbn [decode_replace map]. replace (N_of_ascii c <? 128) with true by lia. now rewrite IH. Qed.

(** ** split *)
Lemma split_cons_hit x l : split [x] (x :: l) = [] :: split [x] l.
Proof.
  rewrite <- (join_split x l) at 1. assert (split [x] l <> []) as N by apply split_max_nonempty.
  replace (x :: join [x] (split [x] l)) with (join [x] ([] :: split [x] l)) by (now rewrite join_cons).
  apply split_join; [|discriminate]. constructor; [easy|apply split_parts].
Qed.
Lemma split_cons_miss x c l : c <> x -> exists h t, split [x] l = h :: t /\ split [x] (c :: l) = (c :: h) :: t.
Proof.
  intros N. pose proof (split_parts x l) as F. pose proof (join_split x l) as J. assert (split [x] l <> []) as Ne by apply split_max_nonempty.
  destruct (split [x] l) as [|h t]; [easy|]. exists h, t. split; [reflexivity|]. inversion_clear F as [|? ? F1 F2].
  replace (c :: l) with (join [x] ((c :: h) :: t)) by (rewrite <- J; now destruct t).
  apply split_join; [|discriminate]. constructor; [|exact F2]. intros [E|I]; congruence || easy.
Qed.

(** unquote_to_bytes, one character at a time. *)
Definition unq1 (item : bytes) : bytes := match hexbyte item with Some c => c :: skipn 2 item | None => "%"%char :: item end.
Lemma unq_lit c l : c <> "%"%char -> unquote_to_bytes (c :: l) = c :: unquote_to_bytes l.
Proof.
  intros N. unfold unquote_to_bytes. destruct (split_cons_miss "%"%char c l N) as (h & t & E1 & E2). change (bs "%") with ["%"%char]. now rewrite E1, E2.
Qed.
Lemma hexval_not c v : hexval c = Some v -> c <> "%"%char.
Proof. intros H ->. discriminate. Qed.
Lemma unq_hex a b x y l : hexval a = Some x -> hexval b = Some y -> unquote_to_bytes ("%"%char :: a :: b :: l) = ascii_of_N (16 * x + y) :: unquote_to_bytes l.
Proof.
  intros A B. unfold unquote_to_bytes. change (bs "%") with ["%"%char]. rewrite split_cons_hit.
  destruct (split_cons_miss "%"%char b l (hexval_not _ _ B)) as (h & t & E1 & E2). destruct (split_cons_miss "%"%char a (b :: l) (hexval_not _ _ A)) as (h' & t' & E3 & E4).
  rewrite E2 in E3. injection E3 as <- <-. rewrite E4, E1. cbn [flat_map app hexbyte skipn]. now rewrite A, B.
Qed.
Lemma hexval_hex c v : is_hex c v -> hexval c = Some v.
Proof.
  unfold is_hex, hexval, digit_val. set (n := N_of_ascii c). intros [[H ->]|[[H ->]|[H ->]]].
  - replace ((48 <=? n) && (n <=? 57)) with true by lia. now replace (n - 48 <? 16) with true by lia.
  - replace ((48 <=? n) && (n <=? 57)) with false by lia. replace ((97 <=? n) && (n <=? 122)) with false by lia. replace ((65 <=? n) && (n <=? 90)) with true by lia.
    now replace (n - 55 <? 16) with true by lia.
  - replace ((48 <=? n) && (n <=? 57)) with false by lia. replace ((97 <=? n) && (n <=? 122)) with true by lia. now replace (n - 87 <? 16) with true by lia.
Qed.
Lemma hex_ascii c v : is_hex c v -> N_of_ascii c < 128 /\ c <> "+"%char /\ c <> "%"%char /\ c <> "&"%char /\ c <> "="%char /\ c <> ";"%char.
Proof.
  unfold is_hex. intros H. split; [lia|]. assert (forall d, c = d -> N_of_ascii c = N_of_ascii d) as K by (now intros d ->).
  repeat split; intros E; apply K in E; vm_compute (N_of_ascii _) in E at 2; lia.
Qed.

(** ** One encoded text *)
Definition plus (c : byte) : bytes := if Ascii.eqb "+" c then [SP] else [c].
Lemma enc_part stop c e : enc_byte stop c e -> forall l,
  flat_map plus e <> [] /\ Forall (fun x => N_of_ascii x < 128) (flat_map plus e) /\ unquote_to_bytes (flat_map plus e ++ l) = c :: unquote_to_bytes l.
Proof.
  intros [(-> & A & N)|[(-> & ->)|(a & b & x & y & -> & Ha & Hb & V)]] l.
  - assert (c <> "%"%char) by (intros ->; apply N; now left). assert (c <> "+"%char) as P by (intros ->; apply N; right; now left).
    cbn [flat_map]. unfold plus. assert (Ascii.eqb "+" c = false) as -> by (apply Ascii.eqb_neq; congruence). cbn [app].
    split; [discriminate|]. split; [now repeat constructor|]. now apply unq_lit.
  - cbn [bs list_ascii_of_string flat_map plus Ascii.eqb Bool.eqb app]. split; [discriminate|]. split; [repeat constructor|]. now apply unq_lit.
  - destruct (hex_ascii a x Ha) as (A1 & A2 & _). destruct (hex_ascii b y Hb) as (B1 & B2 & _). cbn [flat_map]. unfold plus.
    assert (Ascii.eqb "+" a = false) as -> by (apply Ascii.eqb_neq; congruence). assert (Ascii.eqb "+" b = false) as -> by (apply Ascii.eqb_neq; congruence).
    change (Ascii.eqb "+" "%") with false. cbn [app]. split; [discriminate|]. split; [repeat constructor; assumption|].
    rewrite (unq_hex a b x y) by (now apply hexval_hex). rewrite <- V. now rewrite ascii_N_embedding.
Qed.
Lemma unquote_ascii s : Forall (fun x => N_of_ascii x < 128) s -> unquote s = decode_replace (unquote_to_bytes s).
Proof.
  intros F. unfold unquote. destruct (memb "%"%char s) eqn:M.
  - clear M. assert (forall run, unquote_runs run s = decode_replace (unquote_to_bytes (run ++ s))) as K; [|apply K].
    induction F as [|c s H F IH]; intros run; cbn [unquote_runs]; [now rewrite app_nil_r|]. unfold is_ascii. replace (N_of_ascii c <? 128) with true by lia.
    rewrite IH, <- app_assoc. reflexivity.
  - apply memb_notIn in M. assert (unquote_to_bytes s = s) as ->; [|now rewrite decode_ascii].
    clear F. induction s as [|c s IH]; [reflexivity|]. rewrite unq_lit by (intros ->; apply M; now left). f_equal. apply IH. intros I. apply M. now right.
Qed.
Lemma unquote_encoded stop t e : encodes stop t e -> unquote_plus e = t.
Proof.
  intros (b & parts & U & F & ->). unfold unquote_plus. change (bs "+") with ["+"%char]. rewrite replace1_flat_map. change (unquote (flat_map plus (concat parts)) = t).
  assert (Forall (fun x => N_of_ascii x < 128) (flat_map plus (concat parts)) /\ unquote_to_bytes (flat_map plus (concat parts)) = b) as [A E].
  { clear U. induction F as [|c p b parts H F IH]; [split; [constructor|reflexivity]|]. cbn [concat]. rewrite flat_map_app. destruct IH as [IH1 IH2].
    destruct (enc_part stop c p H (flat_map plus (concat parts))) as (_ & A & E). rewrite E, IH2. split; [|reflexivity]. apply Forall_app. now split. }
  rewrite unquote_ascii by exact A. rewrite E. now apply decode_encode.
Qed.
Lemma encoded_empty stop t e : encodes stop t e -> (e = [] <-> t = []).
Proof.
  intros (b & parts & U & F & ->). split; intros E.
  - destruct F as [|c p b parts H F]; [|].
    + destruct t as [|n t]; [reflexivity|]. exfalso. cbn [utf8_encode] in U. destruct (scalar n); [|discriminate]. destruct (utf8_encode t); [|discriminate].
      injection U as U. apply app_eq_nil in U as [U _]. unfold utf8_char in U. repeat destruct (_ <? _); discriminate.
    + exfalso. cbn [concat] in E. apply app_eq_nil in E as [-> _]. destruct (enc_part stop c [] H []) as (N & _). now apply N.
  - subst t. injection U as <-. now inversion F.
Qed.
Lemma encoded_chars stop t e c : encodes stop t e -> In c e -> c = "%"%char \/ c = "+"%char \/ (exists v, is_hex c v) \/ ~ In c stop.
Proof.
  intros (b & parts & _ & F & ->) I. induction F as [|x p b parts H F IH]; [destruct I|]. cbn [concat] in I. apply in_app_or in I as [I|I]; [|auto].
  destruct H as [(-> & _ & N)|[(-> & ->)|(a & a2 & v & y & -> & Ha & Hb & _)]].
  - destruct I as [<-|[]]. right. right. right. intros I. apply N. apply in_or_app. now right.
  - destruct I as [<-|[]]. auto.
  - destruct I as [<-|[<-|[<-|[]]]]; eauto.
Qed.
Lemma encoded_free stop t e c : encodes stop t e -> In c stop -> In c (bs "&=;") -> ~ In c e.
Proof.
  intros H S B I. destruct (encoded_chars stop t e c H I) as [->|[->|[(v & X)|X]]]; [| | |easy].
  - cbn in B. intuition discriminate.
  - cbn in B. intuition discriminate.
  - apply hex_ascii in X. cbn in B. intuition congruence.
Qed.

(** ** Fields *)
Definition qfield (nv : bytes) : list (pystr * pystr) :=
  let '(name, _, value) := partition (bs "=") nv in match value with [] => [] | _ => [(unquote_plus name, unquote_plus value)] end.
Definition blankless (p : pystr * pystr) : list (pystr * pystr) := match snd p with [] => [] | _ => [p] end.
Lemma partition_app x a r : ~ In x a -> partition [x] (a ++ x :: r) = (a, [x], r).
Proof.
  intros N. unfold partition. rewrite find1_app by exact N. rewrite firstn_app, firstn_all, Nat.sub_diag. cbn [firstn]. rewrite app_nil_r.
  do 2 f_equal. replace (List.length a + List.length [x])%nat with (List.length a + 1)%nat by reflexivity.
  rewrite skipn_app. rewrite skipn_all2 by lia. now replace (List.length a + 1 - List.length a)%nat with 1%nat by lia.
Qed.
Lemma qfield_text stop f p : In "&"%char stop -> encodes (bs "=" ++ stop) (fst p) (fst f) -> encodes stop (snd p) (snd f) -> qfield (field_text f) = blankless p.
Proof.
  intros S E1 E2. unfold qfield, field_text, blankless. assert (~ In "="%char (fst f)) as N. { apply (encoded_free _ _ _ _ E1); [now left|right; now left]. }
  change (fst f ++ bs "=" ++ snd f) with (fst f ++ "="%char :: snd f). change (bs "=") with ["="%char]. rewrite partition_app by exact N.
  pose proof (encoded_empty _ _ _ E2) as Em. rewrite (unquote_encoded _ _ _ E1), (unquote_encoded _ _ _ E2).
  destruct p as [pn pv]. cbn [fst snd] in *. destruct (snd f), pv; try reflexivity.
  - now discriminate (proj1 Em eq_refl).
  - now discriminate (proj2 Em eq_refl).
Qed.
Lemma written_parse stop fs pairs : In "&"%char stop -> written stop fs pairs -> flat_map qfield (map field_text fs) = nonblank pairs.
Proof.
  intros S. induction 1 as [|f p fs pairs [H1 H2] F IH]; [reflexivity|]. cbn [map flat_map nonblank filter]. rewrite IH, (qfield_text stop f p S H1 H2).
  unfold blankless, nonblank. destruct p as [pn [|pv]]; reflexivity.
Qed.
Lemma written_free stop fs pairs c : In c (bs "&;") -> In c stop -> written stop fs pairs -> Forall (fun t => ~ In c t) (map field_text fs).
Proof.
  intros B S. induction 1 as [|f p fs pairs [H1 H2] F IH]; [constructor|]. constructor; [|exact IH]. unfold field_text. intros I.
  assert (In c (bs "&=;")) as B' by (cbn in *; intuition auto). apply in_app_or in I as [I|I].
  - revert I. apply (encoded_free _ _ _ _ H1); [apply in_or_app; now right|exact B'].
  - apply in_app_or in I as [I|I]; [cbn in B, I; intuition (subst; discriminate)|]. revert I. apply (encoded_free _ _ _ _ H2); assumption.
Qed.
Lemma parse_qsl_fields fs m : map field_text fs <> [] -> Forall (fun t => ~ In "&"%char t) (map field_text fs) ->
  parse_qsl (join (bs "&") (map field_text fs)) m = if Nat.ltb m (List.length fs) then Raise ValueError else Ok (flat_map qfield (map field_text fs)).
Proof.
  intros Ne F. pose proof (split_join "&"%char _ F Ne) as S. unfold parse_qsl. unfold count. change (bs "&") with ["&"%char] in *. rewrite S, map_length.
  destruct (join ["&"%char] (map field_text fs)) eqn:J.
  - exfalso. destruct fs as [|f [|f2 fs]]; [easy| |]; cbn [map join] in J; unfold field_text in J; apply app_eq_nil in J as [_ J]; discriminate.
  - destruct fs as [|f fs]; [easy|]. cbn [List.length]. rewrite Nat.sub_succ, Nat.sub_0_r. reflexivity.
Qed.

(** ** Grouping *)
Lemma streqb_same a b : streqb a b = same a b.
Proof.
  unfold same. destruct (list_eq_dec N.eq_dec a b) as [->|N].
  - induction b as [|x b IH]; [reflexivity|]. cbn [streqb]. now rewrite N.eqb_refl.
  - revert b N. induction a as [|x a IH]; intros [|y b] N; try reflexivity; [easy|]. cbn [streqb]. destruct (N.eqb_spec x y) as [->|]; [|reflexivity].
    apply IH. congruence.
Qed.
Lemma same_eq a b : same a b = true <-> a = b.
Proof. unfold same. destruct (list_eq_dec N.eq_dec a b); split; easy. Qed.
Lemma same_refl a : same a a = true.
Proof. now apply same_eq. Qed.
Definition gstep (d : qdict) (nv : pystr * pystr) : qdict :=
  match dget streqb (fst nv) d with Some l => dset streqb (fst nv) (l ++ [snd nv]) d | None => dset streqb (fst nv) [snd nv] d end.
Lemma firsts_spec l : forall seen n, In n (firsts seen l) <-> In n l /\ ~ In n seen.
Proof.
  induction l as [|x l IH]; intros seen n; cbn [firsts]; [split; [intros []|intros [[] _]]|].
  assert (existsb (same x) seen = true <-> In x seen) as K.
  { rewrite existsb_exists. split; [intros (y & I & E); apply same_eq in E as ->; exact I|intros I; exists x; split; [exact I|apply same_refl]]. }
  destruct (existsb (same x) seen).
  - rewrite IH. cbn [In]. split; [intros [I N]; auto|]. intros [[<-|I] N]; [destruct N; now apply K|auto].
  - assert (~ In x seen) as Nx by (intros I; apply K in I; discriminate). cbn [In]. rewrite IH. cbn [In]. split.
    + intros [<-|[I N]]; [auto|]. split; [auto|]. intros I2. apply N. now right.
    + intros [[<-|I] N]; [auto|]. destruct (list_eq_dec N.eq_dec x n) as [->|D]; [auto|]. right. split; [exact I|]. intros [E|I2]; easy.
Qed.
Lemma firsts_ext l : forall s1 s2, (forall n, In n s1 <-> In n s2) -> firsts s1 l = firsts s2 l.
Proof.
  induction l as [|x l IH]; intros s1 s2 H; [reflexivity|]. cbn [firsts].
  assert (existsb (same x) s1 = existsb (same x) s2) as ->.
  { apply eq_true_iff_eq. rewrite !existsb_exists. split; intros (y & I & E); exists y; (split; [now apply H|exact E]). }
  destruct (existsb (same x) s2); [now apply IH|]. f_equal. apply IH. intros n. cbn [In]. rewrite H. reflexivity.
Qed.
Lemma firsts_snoc l : forall seen x, firsts seen (l ++ [x]) = if existsb (same x) (seen ++ l) then firsts seen l else firsts seen l ++ [x].
Proof.
  induction l as [|y l IH]; intros seen x; cbn [app firsts]; [now rewrite app_nil_r|].
  assert (forall s, existsb (same x) (s ++ y :: l) = existsb (same x) ((y :: s) ++ l)) as K.
  { intros s. apply eq_true_iff_eq. rewrite !existsb_exists. split; intros (z & I & E); exists z; (split; [|exact E]); cbn [app In] in *; rewrite ?in_app_iff in *; cbn [In] in *; intuition. }
  destruct (existsb (same y) seen) eqn:Y.
  - rewrite IH. assert (existsb (same x) (seen ++ y :: l) = existsb (same x) (seen ++ l)) as ->; [|reflexivity].
    apply eq_true_iff_eq. rewrite !existsb_exists. apply existsb_exists in Y as (z & Iz & Ez). apply same_eq in Ez as <-.
    split; intros (w & I & E); exists w; (split; [|exact E]); rewrite in_app_iff in *; cbn [In] in *; intuition (subst; auto).
  - rewrite IH, K. now destruct (existsb (same x) ((y :: seen) ++ l)).
Qed.
Lemma values_snoc n l x : values n (l ++ [x]) = values n l ++ (if same n (fst x) then [snd x] else []).
Proof. unfold values. rewrite filter_app, map_app. cbn [filter]. now destruct (same n (fst x)). Qed.
Lemma dget_map (f : pystr -> list pystr) l n : dget streqb n (map (fun k => (k, f k)) l) = if existsb (same n) l then Some (f n) else None.
Proof.
  induction l as [|k l IH]; [reflexivity|]. cbn [map dget existsb]. rewrite streqb_same. destruct (same n k) eqn:E; [apply same_eq in E as ->; reflexivity|exact IH].
Qed.
Lemma dset_map (f : pystr -> list pystr) v l n : NoDup l -> dset streqb n v (map (fun k => (k, f k)) l) =
  map (fun k => (k, if same k n then v else f k)) l ++ (if existsb (same n) l then [] else [(n, v)]).
Proof.
  induction 1 as [|k l N ND IH]; [reflexivity|]. cbn [map dset existsb]. rewrite streqb_same. destruct (same n k) eqn:E.
  - apply same_eq in E as ->. rewrite same_refl. cbn [orb]. rewrite app_nil_r. f_equal. apply map_ext_in. intros a I.
    destruct (same a k) eqn:E; [apply same_eq in E as ->; easy|reflexivity].
  - cbn [orb app]. rewrite IH. assert (same k n = false) as ->; [|reflexivity]. destruct (same k n) eqn:E2; [|reflexivity]. apply same_eq in E2 as ->. rewrite same_refl in E. discriminate.
Qed.
Lemma firsts_nodup l : forall seen, NoDup (firsts seen l).
Proof.
  induction l as [|x l IH]; intros seen; cbn [firsts]; [constructor|]. destruct (existsb (same x) seen); [apply IH|]. constructor; [|apply IH].
  intros I. apply firsts_spec in I as [_ N]. apply N. now left.
Qed.
Lemma group_fold pairs : fold_left gstep pairs [] = map (fun n => (n, values n pairs)) (firsts [] (map fst pairs)).
Proof.
  induction pairs as [|x pairs IH] using rev_ind; [reflexivity|]. rewrite fold_left_app. cbn [fold_left]. rewrite IH. unfold gstep. rewrite dget_map.
  rewrite map_app. cbn [map]. rewrite firsts_snoc. cbn [app].
  assert (existsb (same (fst x)) (firsts [] (map fst pairs)) = existsb (same (fst x)) (map fst pairs)) as ->.
  { apply eq_true_iff_eq. rewrite !existsb_exists. split; intros (z & I & E); exists z; (split; [|exact E]); apply firsts_spec in I || apply firsts_spec; [easy|]. split; [exact I|easy]. }
  destruct (existsb (same (fst x)) (map fst pairs)) eqn:Ex.
  - rewrite dset_map by apply firsts_nodup.
    assert (existsb (same (fst x)) (firsts [] (map fst pairs)) = true) as ->.
    { apply existsb_exists in Ex as (z & I & E). apply existsb_exists. exists z. split; [|exact E]. apply firsts_spec. now split. }
    rewrite app_nil_r. apply map_ext. intros n. rewrite values_snoc. destruct (same n (fst x)) eqn:E; [apply same_eq in E as ->; reflexivity|now rewrite app_nil_r].
  - rewrite dset_map by apply firsts_nodup.
    assert (existsb (same (fst x)) (firsts [] (map fst pairs)) = false) as ->.
    { apply not_true_is_false. intros Y. apply existsb_exists in Y as (z & I & E). apply firsts_spec in I as [I _]. apply not_true_iff_false in Ex. apply Ex. apply existsb_exists. eauto. }
    rewrite map_app. cbn [map]. f_equal.
    + apply map_ext_in. intros n I. rewrite values_snoc. destruct (same n (fst x)) eqn:E; [|now rewrite app_nil_r].
      apply same_eq in E as ->. exfalso. apply firsts_spec in I as [I _]. apply not_true_iff_false in Ex. apply Ex. apply existsb_exists. exists (fst x). split; [exact I|apply same_refl].
    + rewrite values_snoc, same_refl. assert (values (fst x) pairs = []) as ->; [|reflexivity].
      unfold values. assert (filter (fun p => same (fst x) (fst p)) pairs = []) as ->; [|reflexivity].
      clear - Ex. induction pairs as [|p pairs IH]; [reflexivity|]. cbn [map existsb filter] in *. apply orb_false_iff in Ex as [-> Ex]. auto.
Qed.

(** ** query and form *)
Lemma parse_qs_written stop fs pairs m : In "&"%char stop -> written stop fs pairs -> fs <> [] ->
  parse_qs (join (bs "&") (map field_text fs)) m =
  if Nat.ltb m (List.length fs) then Raise ValueError else Ok (map (fun n => (n, values n (nonblank pairs))) (firsts [] (map fst (nonblank pairs)))).
Proof.
  intros S W Ne. unfold parse_qs. rewrite parse_qsl_fields.
  - destruct (Nat.ltb m (List.length fs)); [reflexivity|]. cbn [bind]. rewrite (written_parse stop fs pairs S W). f_equal. apply group_fold.
  - now destruct fs.
  - apply (written_free stop fs pairs); [now left|exact S|exact W].
Qed.
Definition cached (r : res qdict) : option qdict := Some (match r with Ok d => d | Raise _ => [] end).
Lemma query_parse q : query q no_params = (parse_qs q 100, mkParams (cached (parse_qs q 100)) None None).
Proof. unfold query. cbn [no_params pr_query pr_cookies pr_post once]. destruct q; reflexivity. Qed.
Lemma query_written fs pairs : written (bs "&") fs pairs -> (List.length fs <= 100)%nat ->
  exists d p', query (join (bs "&") (map field_text fs)) no_params = (Ok d, p') /\ groups (nonblank pairs) d /\ pr_query p' = Some d.
Proof.
  intros W L. rewrite query_parse. destruct fs as [|f fs].
  - inversion W. eexists. eexists. split; [reflexivity|]. split; reflexivity.
  - pose proof (parse_qs_written (bs "&") (f :: fs) pairs 100 ltac:(now left) W ltac:(discriminate)) as P. replace (Nat.ltb 100 (List.length (f :: fs))) with false in P by lia.
    rewrite P. eexists. eexists. split; [reflexivity|]. split; reflexivity.
Qed.
Lemma query_too_many fs pairs : written (bs "&") fs pairs -> (100 < List.length fs)%nat ->
  fst (query (join (bs "&") (map field_text fs)) no_params) = Raise ValueError.
Proof.
  intros W L. pose proof (parse_qs_written (bs "&") fs pairs 100 ltac:(now left) W) as P. replace (Nat.ltb 100 (List.length fs)) with true in P by lia.
  rewrite query_parse. cbn [fst]. apply P. intros ->. cbn in L. lia.
Qed.
(** Any query string at all. *)
Lemma count_occs x l : count [x] l = count_occ Ascii.ascii_dec l x.
Proof.
  unfold count. induction l as [|c l IH]; [reflexivity|]. assert (split [x] l <> []) as Ne by apply split_max_nonempty.
  cbn [count_occ]. destruct (Ascii.ascii_dec c x) as [->|N].
  - rewrite split_cons_hit. cbn [List.length]. rewrite <- IH. destruct (split [x] l); [easy|]. cbn [List.length]. lia.
  - destruct (split_cons_miss x c l N) as (h & t & E1 & E2). rewrite E2, <- IH, E1. reflexivity.
Qed.
Lemma query_any q : (fst (query q no_params) = Raise ValueError /\ (100 <= count_occ Ascii.ascii_dec q "&"%char)%nat) \/
  (exists d, fst (query q no_params) = Ok d /\ (count_occ Ascii.ascii_dec q "&"%char < 100)%nat).
Proof.
  destruct q as [|c q]; [right; eexists; split; [reflexivity|cbn; lia]|]. unfold query. cbn [no_params pr_query once fst]. unfold parse_qs, parse_qsl.
  change (bs "&") with ["&"%char]. rewrite count_occs. destruct (Nat.ltb_spec 100 (1 + count_occ Ascii.ascii_dec (c :: q) "&"%char)).
  - left. split; [reflexivity|lia].
  - right. eexists. split; [reflexivity|lia].
Qed.

(** ** cookies *)
Fixpoint sc (l : bytes) : bytes :=
  match l with
  | [] => []
  | c :: r => (if Ascii.eqb c ";" then "&"%char else c) :: match r with d :: r' => if Ascii.eqb c ";" && Ascii.eqb d SP then sc r' else sc r | [] => [] end
  end.
Lemma semicolons_sc l : semicolons l = sc l.
Proof.
  unfold semicolons. change (bs ";") with [";"%char]. rewrite replace1_flat_map. remember (List.length l) as n eqn:En. assert (List.length l <= n)%nat as H by lia. clear En.
  revert l H. induction n as [|n IH]; intros l H.
  - destruct l; [reflexivity|cbn in H; lia].
  - destruct l as [|c l]; [reflexivity|]. cbn [List.length] in H. destruct (startswith (bs "; ") (c :: l)) eqn:S.
    + rewrite replace_hit by easy. apply startswith_spec in S as (r & E). cbn [bs list_ascii_of_string app] in E. injection E as -> ->.
      cbn [List.length bs list_ascii_of_string skipn app flat_map]. cbn [List.length] in H. rewrite IH by lia. reflexivity.
    + rewrite replace_miss by easy. cbn [flat_map]. rewrite IH by lia. cbn [sc]. rewrite (Ascii.eqb_sym ";" c). destruct (Ascii.eqb c ";") eqn:C.
      * apply Ascii.eqb_eq in C as ->. cbn [app bs list_ascii_of_string]. f_equal. destruct l as [|d l]; [reflexivity|].
        destruct (Ascii.eqb d SP) eqn:D; [|reflexivity]. apply Ascii.eqb_eq in D as ->. discriminate.
      * cbn [app andb]. f_equal. destruct l; reflexivity.
Qed.
Lemma sc_app a r : ~ In ";"%char a -> sc (a ++ r) = a ++ sc r.
Proof.
  induction a as [|c a IH]; intros N; [reflexivity|]. assert (Ascii.eqb c ";" = false) as C by (apply Ascii.eqb_neq; intros ->; apply N; now left).
  cbn [app sc]. rewrite C. cbn [andb]. rewrite <- IH by (intros I; apply N; now right). destruct (a ++ r); reflexivity.
Qed.
Lemma sc_sep r : sc (bs "; " ++ r) = bs "&" ++ sc r.
Proof. reflexivity. Qed.
Lemma join_more sep a b : a <> [] -> b <> [] -> join sep (a ++ b) = join sep a ++ sep ++ join sep b.
Proof.
  intros Na Nb. induction a as [|x a IH]; [easy|]. destruct a as [|y a]; [destruct b; [easy|reflexivity]|].
  change ((x :: y :: a) ++ b) with (x :: (y :: a) ++ b). change (join sep (x :: y :: a)) with (x ++ sep ++ join sep (y :: a)).
  rewrite <- !app_assoc. rewrite <- IH by discriminate. destruct ((y :: a) ++ b) eqn:E; [discriminate|]. reflexivity.
Qed.
Lemma sc_join ts r : Forall (fun t => ~ In ";"%char t) ts -> sc (join (bs "; ") ts ++ r) = join (bs "&") ts ++ sc r.
Proof.
  induction 1 as [|t ts N F IH]; [reflexivity|]. destruct ts as [|t2 ts]; [cbn [join]; now apply sc_app|].
  change (join (bs "; ") (t :: t2 :: ts)) with (t ++ bs "; " ++ join (bs "; ") (t2 :: ts)). change (join (bs "&") (t :: t2 :: ts)) with (t ++ bs "&" ++ join (bs "&") (t2 :: ts)).
  rewrite <- !app_assoc. rewrite sc_app by exact N. rewrite sc_sep. now rewrite IH.
Qed.
Lemma sc_headers tss : Forall (fun ts => ts <> [] /\ Forall (fun t => ~ In ";"%char t) ts) tss ->
  sc (join (bs "&") (map (join (bs "; ")) tss)) = join (bs "&") (concat tss).
Proof.
  induction 1 as [|ts tss [Ne N] F IH]; [reflexivity|]. destruct tss as [|t2 tss].
  - cbn [map join concat]. rewrite app_nil_r. rewrite <- (app_nil_r (join (bs "; ") ts)). rewrite sc_join by exact N. apply app_nil_r.
  - change (map (join (bs "; ")) (ts :: t2 :: tss)) with (join (bs "; ") ts :: map (join (bs "; ")) (t2 :: tss)).
    assert (forall a b, b <> [] -> join (bs "&") (a :: b) = a ++ bs "&" ++ join (bs "&") b) as K by (intros a [|]; [easy|reflexivity]).
    rewrite K by discriminate. rewrite sc_join by exact N. rewrite sc_app by (cbn; intuition discriminate). rewrite IH.
    change (concat (ts :: t2 :: tss)) with (ts ++ concat (t2 :: tss)). symmetry. apply join_more; [exact Ne|].
    inversion F as [|? ? [Ne2 _] ?]; subst. cbn [concat]. destruct t2; [easy|discriminate].
Qed.

Lemma written_concat stop fss pss : Forall2 (written stop) fss pss -> written stop (concat fss) (concat pss).
Proof. induction 1 as [|fs ps fss pss H F IH]; [constructor|]. cbn [concat]. now apply Forall2_app. Qed.
Lemma cookies_written fss pss : fss <> [] -> Forall (fun fs => fs <> []) fss -> Forall2 (written (bs ";&")) fss pss ->
  fst (cookies (map cookie_header fss) no_params) =
  if Nat.ltb (100 * List.length fss) (List.length (concat fss)) then Raise ValueError
  else Ok (map (fun n => (n, values n (nonblank (concat pss)))) (firsts [] (map fst (nonblank (concat pss))))).
Proof.
  intros Ne F W. assert (semicolons (join (bs "&") (map cookie_header fss)) = join (bs "&") (map field_text (concat fss))) as E.
  { rewrite semicolons_sc. unfold cookie_header. rewrite <- (map_map (map field_text) (join (bs "; "))), sc_headers; [now rewrite concat_map|].
    clear Ne. revert F. induction W as [|fs ps fss pss H W IH]; intros F; [constructor|]. apply Forall_cons_iff in F as [F1 F]. cbn [map]. constructor; [|auto].
    split; [now destruct fs|]. apply (written_free (bs ";&") fs ps); [right; now left|now left|exact H]. }
  assert (fst (cookies (map cookie_header fss) no_params) = parse_qs (join (bs "&") (map field_text (concat fss))) (100 * List.length fss)) as ->.
  { rewrite <- E. destruct fss as [|f1 [|f2 fss]]; [easy|reflexivity|]. unfold cookies. cbn [map no_params pr_cookies once fst List.length]. now rewrite map_length. }
  apply (parse_qs_written (bs ";&")); [right; now left|now apply written_concat|]. destruct fss as [|f1 fss]; [easy|]. apply Forall_cons_iff in F as [F _].
  cbn [concat]. destruct f1; [easy|discriminate].
Qed.

(** ** form *)
Lemma form_loop_fits limit pieces : Forall (fun p => (snd p <= limit)%Z) pieces -> forall body, form_loop limit body pieces = Ok (body ++ concat (map fst pieces)).
Proof.
  induction 1 as [|[d z] ps H F IH]; intros body; [cbn; now rewrite app_nil_r|]. cbn [form_loop snd map fst concat] in *. replace (limit <? z)%Z with false by lia.
  rewrite IH, app_assoc. reflexivity.
Qed.
Lemma form_loop_big limit pieces : Exists (fun p => (limit < snd p)%Z) pieces -> forall body, form_loop limit body pieces = Raise ValueError.
Proof.
  induction 1 as [[d z] ps H|[d z] ps F IH]; intros body; cbn [form_loop snd] in *.
  - now replace (limit <? z)%Z with true by lia.
  - destruct (limit <? z)%Z; auto.
Qed.
Lemma form_written ctype limit m pieces total fs pairs :
  contains (bs "application/x-www-form-urlencoded") (lower ctype) = true -> written (bs "&") fs pairs -> concat (map fst pieces) = join (bs "&") (map field_text fs) ->
  Forall (fun p => (snd p <= limit)%Z) pieces -> (2 < total <= limit)%Z -> fs <> [] ->
  fst (form ctype limit m [] pieces None total no_params) =
  if Nat.ltb m (List.length fs) then Raise ValueError else Ok (map (fun n => (n, values n (nonblank pairs))) (firsts [] (map fst (nonblank pairs)))).
Proof.
  intros C W E F T Ne. unfold form. cbn [no_params pr_post once fst]. rewrite C. assert (form_loop limit [] pieces = Ok (join (bs "&") (map field_text fs))) as -> by (rewrite form_loop_fits by exact F; cbn [app]; now f_equal). cbn [bind].
  replace ((2 <? total) && (total <=? limit))%Z with true by lia. apply (parse_qs_written (bs "&")); [now left|exact W|exact Ne].
Qed.
Lemma form_big ctype limit m body pieces fin total :
  contains (bs "application/x-www-form-urlencoded") (lower ctype) = true -> Exists (fun p => (limit < snd p)%Z) pieces ->
  fst (form ctype limit m body pieces fin total no_params) = Raise ValueError.
Proof. intros C E. unfold form. cbn [no_params pr_post once fst]. rewrite C, form_loop_big by exact E. reflexivity. Qed.
Lemma query_all fs pairs : written (bs "&") fs pairs ->
  ((List.length fs <= 100)%nat -> exists d p', query (join (bs "&") (map field_text fs)) no_params = (Ok d, p') /\ groups (nonblank pairs) d /\
     query (join (bs "&") (map field_text fs)) p' = (Ok d, p')) /\
  ((100 < List.length fs)%nat -> fst (query (join (bs "&") (map field_text fs)) no_params) = Raise ValueError).
Proof.
  intros W. split; [|now apply query_too_many with pairs]. intros L. destruct (query_written fs pairs W L) as (d & p' & Q & G & P). exists d, p'. split; [exact Q|]. split; [exact G|].
  unfold query. rewrite P. cbn [once]. rewrite <- P. now destruct p'.
Qed.
Lemma query_limit q : q <> [] ->
  (fst (query q no_params) = Raise ValueError <-> (100 < 1 + count_occ Ascii.ascii_dec q "&"%char)%nat) /\
  (fst (query q no_params) <> Raise ValueError -> exists d, fst (query q no_params) = Ok d).
Proof.
  intros _. destruct (query_any q) as [[E L]|(d & E & L)]; rewrite E.
  - split; [|easy]. split; [lia|reflexivity].
  - split; [|eauto]. split; [discriminate|lia].
Qed.
Lemma cookies_all fss pss : fss <> [] -> Forall (fun fs => fs <> []) fss -> Forall2 (written (bs ";&")) fss pss ->
  ((List.length (concat fss) <= 100 * List.length fss)%nat ->
     exists d, fst (cookies (map cookie_header fss) no_params) = Ok d /\ groups (nonblank (concat pss)) d) /\
  ((100 * List.length fss < List.length (concat fss))%nat -> fst (cookies (map cookie_header fss) no_params) = Raise ValueError).
Proof.
  intros Ne F W. rewrite (cookies_written fss pss Ne F W). destruct (Nat.ltb_spec (100 * List.length fss) (List.length (concat fss))); split; intros; try lia; [reflexivity|].
  eexists. split; reflexivity.
Qed.
Lemma form_all ctype limit m pieces total fs pairs :
  contains (bs "application/x-www-form-urlencoded") (lower ctype) = true -> written (bs "&") fs pairs -> fs <> [] ->
  concat (map fst pieces) = join (bs "&") (map field_text fs) ->
  Forall (fun p => (snd p <= limit)%Z) pieces -> (2 < total <= limit)%Z ->
  ((List.length fs <= m)%nat -> exists d, fst (form ctype limit m [] pieces None total no_params) = Ok d /\ groups (nonblank pairs) d) /\
  ((m < List.length fs)%nat -> fst (form ctype limit m [] pieces None total no_params) = Raise ValueError).
Proof.
  intros C W Ne E F T. rewrite (form_written ctype limit m pieces total fs pairs C W E F T Ne). destruct (Nat.ltb_spec m (List.length fs)); split; intros; try lia; [reflexivity|].
  eexists. split; reflexivity.
Qed.
