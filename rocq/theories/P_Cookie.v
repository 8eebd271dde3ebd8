From Verif Require Import PyBytes PyBytesFacts PyDictFacts PyInt PyIntFacts PyExn PyUtf8 PyUrl PyQs M_Response S_Response S_Calls P_Response P_Response2 P_Response4 M_Form S_Form P_Form S_Cookie.
From Coq Require Import ZifyN ZifyBool ZifyNat.

(** ** What quote and %d write *)
Definition bad : bytes := [";"%char; SP; "009"%char; CR; LF].
Definition calm (l : bytes) : Prop := forall c, In c l -> ~ In c bad.
Lemma calm_app a b : calm a -> calm b -> calm (a ++ b).
Proof. intros A B c I. apply in_app_or in I as [I|I]; auto. Qed.
Lemma safe_bad c : In c bad -> url_safe c = false.
Proof. intros [<-|[<-|[<-|[<-|[<-|[]]]]]]; reflexivity. Qed.
Lemma digit_bad d : (d < 36)%N -> ~ In (digit_char d) bad.
Proof.
  intros L I. assert (In (N_of_ascii (digit_char d)) (map N_of_ascii bad)) as J by (now apply in_map). rewrite digit_char_N in J by exact L.
  assert (map N_of_ascii bad = [59; 32; 9; 13; 10]%N) as E by reflexivity. rewrite E in J. cbn [In] in J. destruct (d <? 10)%N eqn:D; intuition lia.
Qed.
Lemma calm_quote s : calm (quote s).
Proof.
  intros c I. unfold quote in I. apply in_flat_map in I as (x & _ & I). destruct (url_safe x) eqn:S.
  - destruct I as [<-|[]]. intros B. apply safe_bad in B. congruence.
  - unfold percent in I. pose proof (N_ascii_bounded x) as Lx. destruct I as [<-|[<-|[<-|[]]]].
    + cbn. intuition discriminate.
    + apply digit_bad. apply N.div_lt_upper_bound; lia.
    + apply digit_bad. pose proof (N.mod_upper_bound (N_of_ascii x) 16). lia.
Qed.
Lemma calm_fmt_d z : calm (fmt_d z).
Proof.
  assert (forall n, calm (fmt_nat 10 n)) as K.
  { intros n. assert (Forall (fun c => ~ In c bad) (fmt_nat 10 n)) as F by (apply fmt_nat_forall; [lia|]; intros d Hd; apply digit_bad; lia). intros c I. rewrite Forall_forall in F. now apply F. }
  unfold fmt_d. destruct z; [apply K..|]. intros c [<-|I]; [cbn; intuition discriminate|]. exact (K (Npos p) c I).
Qed.

(** ** Reading it *)
Lemma parts_app x a r : ~ In x a -> parts_at x (a ++ x :: r) = (a, let '(h, t) := parts_at x r in h :: t).
Proof.
  intros N. induction a as [|c a IH]; cbn [app parts_at].
  - rewrite Ascii.eqb_refl. now destruct (parts_at x r).
  - rewrite IH by (intros I; apply N; now right). assert (Ascii.eqb c x = false) as -> by (apply Ascii.eqb_neq; intros ->; apply N; now left). reflexivity.
Qed.
Lemma parts_none x a : ~ In x a -> parts_at x a = (a, []).
Proof.
  intros N. induction a as [|c a IH]; [reflexivity|]. cbn [parts_at]. rewrite IH by (intros I; apply N; now right).
  assert (Ascii.eqb c x = false) as -> by (apply Ascii.eqb_neq; intros ->; apply N; now left). reflexivity.
Qed.
Lemma cut_app x a r : ~ In x a -> cut_at x (a ++ x :: r) = (a, Some r).
Proof.
  intros N. induction a as [|c a IH]; cbn [app cut_at].
  - now rewrite Ascii.eqb_refl.
  - rewrite IH by (intros I; apply N; now right). assert (Ascii.eqb c x = false) as -> by (apply Ascii.eqb_neq; intros ->; apply N; now left). reflexivity.
Qed.
Lemma trim_left_calm l : calm l -> trim_left l = l.
Proof.
  intros C. destruct l as [|c l]; [reflexivity|]. cbn [trim_left]. assert (wsp c = false) as ->; [|reflexivity].
  unfold wsp. apply orb_false_iff. split; apply Ascii.eqb_neq; intros ->; apply (C _ (or_introl eq_refl)); cbn; auto.
Qed.
Lemma trim_calm l : calm l -> trim l = l.
Proof.
  intros C. unfold trim. rewrite (trim_left_calm l C). rewrite trim_left_calm; [apply rev_involutive|]. intros c I. apply in_rev in I. now apply C.
Qed.
Lemma calm_semi l : calm l -> ~ In ";"%char l.
Proof. intros C I. apply (C _ I). now left. Qed.
(** The text after the first part. *)
Definition attr_text (a : bytes * bytes) : bytes := bs "; " ++ fst a ++ bs "=" ++ snd a.
Definition flag_text (f : bytes) : bytes := bs "; " ++ f.
Definition attr_ok (a : bytes * bytes) : Prop := calm (fst a) /\ ~ In "="%char (fst a) /\ ~ In ";"%char (snd a) /\ trim (snd a) = snd a.
Lemma attr_reads a : attr_ok a -> attribute (SP :: fst a ++ bs "=" ++ snd a) = a.
Proof.
  intros (C & E & _ & T). unfold attribute. change (SP :: fst a ++ bs "=" ++ snd a) with ((SP :: fst a) ++ "="%char :: snd a).
  rewrite cut_app by (intros [I|I]; [discriminate|easy]). assert (trim (SP :: fst a) = fst a) as ->; [|rewrite T; now destruct a].
  unfold trim. cbn [trim_left]. change (wsp SP) with true. cbv iota. apply (trim_calm _ C).
Qed.
Lemma flag_reads f : calm f -> ~ In "="%char f -> attribute (SP :: f) = (f, []).
Proof.
  intros C E. unfold attribute. assert (forall l, ~ In "="%char l -> cut_at "=" l = (l, None)) as K.
  { induction l as [|c l IH]; intros N; [reflexivity|]. cbn [cut_at]. rewrite IH by (intros I; apply N; now right).
    assert (Ascii.eqb c "=" = false) as -> by (apply Ascii.eqb_neq; intros ->; apply N; now left). reflexivity. }
  rewrite K by (intros [I|I]; [discriminate|easy]). assert (trim (SP :: f) = f) as ->; [|reflexivity].
  unfold trim. cbn [trim_left]. change (wsp SP) with true. cbv iota. apply (trim_calm _ C).
Qed.
Lemma parts_attrs first atexts : ~ In ";"%char first -> Forall (fun t => ~ In ";"%char t) atexts ->
  parts_at ";" (first ++ flat_map (fun t => bs "; " ++ t) atexts) = (first, map (cons SP) atexts).
Proof.
  intros N F. revert first N. induction F as [|t ts Nt F IH]; intros first N; cbn [flat_map map].
  - rewrite app_nil_r. now apply parts_none.
  - change ((bs "; " ++ t) ++ flat_map (fun t0 : list ascii => bs "; " ++ t0) ts) with (";"%char :: (SP :: t) ++ flat_map (fun t0 : list ascii => bs "; " ++ t0) ts).
    rewrite parts_app by exact N. rewrite IH; [reflexivity|]. intros [I|I]; [discriminate|easy].
Qed.

Lemma cookie_reads name value date expires path domain samesite secure httponly :
  calm name -> name <> [] -> ~ In "="%char name -> ~ In ";"%char date -> trim date = date ->
  user_agent (cookie_text name value date expires path domain samesite secure httponly) =
  Some (mkCookie name (quote value) ([(bs "expires", date); (bs "max-age", fmt_d expires); (bs "path", quote path)]
    ++ opt_attr (bs "domain") domain ++ opt_attr (bs "samesite") samesite ++ opt_flag (bs "secure") secure ++ opt_flag (bs "httponly") httponly)).
Proof.
  intros Cn Nn En Sd Td. 
  set (at0 := fun (n v : bytes) => n ++ bs "=" ++ v). set (oa := fun (n v : bytes) => match v with [] => [] | _ => [at0 n (quote v)] end). set (ob := fun (n : bytes) (b : bool) => if b then [n] else []).
  set (ts := [at0 (bs "expires") date; at0 (bs "max-age") (fmt_d expires); at0 (bs "path") (quote path)] ++ oa (bs "domain") domain ++ oa (bs "samesite") samesite ++ ob (bs "secure") secure ++ ob (bs "httponly") httponly).
  assert (cookie_text name value date expires path domain samesite secure httponly = (name ++ bs "=" ++ quote value) ++ flat_map (fun t => bs "; " ++ t) ts) as ->.
  { unfold cookie_text, ts, at0, oa, ob. rewrite !flat_map_app. destruct domain, samesite, secure, httponly; cbn [flat_map app]; rewrite ?app_nil_r; rewrite <- ?app_assoc; reflexivity. }
  unfold user_agent. rewrite parts_attrs.
  - change (name ++ bs "=" ++ quote value) with (name ++ "="%char :: quote value). rewrite cut_app by exact En. rewrite (trim_calm name Cn). destruct name as [|c0 name]; [easy|].
    rewrite (trim_calm _ (calm_quote value)). do 2 f_equal. unfold ts. rewrite !map_app.
    assert (forall n v, attr_ok (n, v) -> attribute (SP :: at0 n v) = (n, v)) as K by (intros n v A; apply (attr_reads (n, v) A)).
    assert (forall n v, calm n -> ~ In "="%char n -> calm v -> attr_ok (n, v)) as K2.
    { intros n v A B C. repeat split; cbn [fst snd]; [exact A|exact B|now apply calm_semi|now apply trim_calm]. }
    assert (forall n v, calm n -> ~ In "="%char n -> map attribute (map (cons SP) (oa n v)) = opt_attr n v) as K3.
    { intros n [|c v] A B; [reflexivity|]. cbn [map oa opt_attr]. f_equal. apply K. apply K2; [exact A|exact B|apply calm_quote]. }
    assert (forall n b, calm n -> ~ In "="%char n -> map attribute (map (cons SP) (ob n b)) = opt_flag n b) as K4.
    { intros n [] A B; [|reflexivity]. cbn [map ob opt_flag]. f_equal. now apply flag_reads. }
    assert (forall n, existsb (fun c => memb c bad) n = false -> calm n) as Kc.
    { intros n E c I B. apply not_true_iff_false in E. apply E. apply existsb_exists. exists c. split; [exact I|]. now apply memb_In. }
    rewrite !K3, !K4 by (try (apply Kc; reflexivity); cbn; intuition discriminate). f_equal. cbn [map].
    rewrite (K (bs "expires") date), (K (bs "max-age")), (K (bs "path")); [reflexivity|..].
    + apply K2; [apply Kc; reflexivity|cbn; intuition discriminate|apply calm_quote].
    + apply K2; [apply Kc; reflexivity|cbn; intuition discriminate|apply calm_fmt_d].
    + split; [apply Kc; reflexivity|]. split; [cbn; intuition discriminate|]. split; [exact Sd|exact Td].
  - intros I. apply in_app_or in I as [I|I]; [now apply (calm_semi name Cn)|]. destruct I as [I|I]; [discriminate|]. now apply (calm_semi _ (calm_quote value)).
  - assert (forall n v, ~ In ";"%char n -> ~ In ";"%char v -> ~ In ";"%char (at0 n v)) as K.
    { intros n v A B I. apply in_app_or in I as [I|I]; [easy|]. destruct I as [I|I]; [discriminate|easy]. }
    unfold ts. rewrite !Forall_app. split; [|split; [|split; [|split]]].
    + repeat match goal with |- Forall _ (_ :: _) => constructor | |- Forall _ [] => constructor end; apply K; try (cbn; intuition discriminate); [apply calm_semi, calm_fmt_d|apply calm_semi, calm_quote].
    + unfold oa. destruct domain; constructor; [|constructor]. apply K; [cbn; intuition discriminate|apply calm_semi, calm_quote].
    + unfold oa. destruct samesite; constructor; [|constructor]. apply K; [cbn; intuition discriminate|apply calm_semi, calm_quote].
    + unfold ob. destruct secure; repeat constructor. cbn; intuition discriminate.
    + unfold ob. destruct httponly; repeat constructor. cbn; intuition discriminate.
Qed.

(** ** The line is added, or nothing *)
Lemma cookie_line_one name value date expires path domain samesite secure httponly : one_line name -> one_line date ->
  one_line (cookie_text name value date expires path domain samesite secure httponly).
Proof.
  intros A B. assert (forall l, calm l -> one_line l) as K by (intros l C I; apply (C _ I); cbn; tauto). unfold cookie_text.
  repeat apply one_line_app; try assumption; try (apply K; first [apply calm_quote|apply calm_fmt_d]); try (now apply one_line_bs_dec).
  - destruct domain; [now apply one_line_bs_dec|]. apply one_line_app; [now apply one_line_bs_dec|apply K, calm_quote].
  - destruct samesite; [now apply one_line_bs_dec|]. apply one_line_app; [now apply one_line_bs_dec|apply K, calm_quote].
  - destruct secure; now apply one_line_bs_dec.
  - destruct httponly; now apply one_line_bs_dec.
Qed.
Lemma cookie_added e name value date expires path domain samesite secure httponly s : headers_sent s = false -> one_line name -> one_line date ->
  let h := HCookie name value date expires path domain samesite secure httponly in
  let s' := snd (do_hop e h s) in
  fst (do_hop e h s) = Ok tt /\
  now_at (bs "Set-Cookie") s' = now_at (bs "Set-Cookie") s ++ [bs "Set-Cookie: " ++ cookie_text name value date expires path domain samesite secure httponly] /\
  (forall k, k <> bs "set-cookie" -> lines_at k s' = lines_at k s).
Proof.
  intros S A B. cbn zeta. cbn [do_hop]. unfold set_cookie. pose proof (cookie_line_one name value date expires path domain samesite secure httponly A B) as O.
  apply memb_notIn in O. rewrite O. split; [|split].
  - unfold append_header, seq, get_headers, headers_sent in *. now destruct (r_headers s).
  - unfold now_at, lines_at, append_header, seq, get_headers, put_headers, update, headers_sent in *. destruct (r_headers s) as [d|]; [|discriminate].
    cbn [snd with_headers r_headers]. change (lower (bs "Set-Cookie")) with (bs "set-cookie"). unfold hget, hset. destruct (dget beqb (bs "set-cookie") d); rewrite dget_dset_same; reflexivity.
  - intros k N. apply append_header_at. exact N.
Qed.

(** ** And back *)
Lemma digit_hex d : (d < 16)%N -> is_hex (digit_char d) d.
Proof. intros L. unfold is_hex. rewrite digit_char_N by lia. destruct (d <? 10)%N eqn:D; lia. Qed.
Lemma quote_encodes stop t b : (forall c, In c stop -> url_safe c = false) -> utf8_encode t = Some b -> encodes stop t (quote b).
Proof.
  intros St U. exists b, (map (fun c => if url_safe c then [c] else percent c) b). split; [exact U|]. split; [|unfold quote; now rewrite flat_map_concat_map].
  clear U. induction b as [|c b IH]; [constructor|]. cbn [map]. constructor; [|exact IH]. destruct (url_safe c) eqn:S.
  - left. split; [reflexivity|]. split.
    + unfold url_safe in S. destruct (memb c (bs "_.-~/")) eqn:M; [|lia]. apply memb_In in M. cbn in M. intuition (subst; reflexivity).
    + intros I. apply in_app_or in I as [I|I]; [|apply St in I; congruence]. cbn in I. intuition (subst; discriminate).
  - right. right. pose proof (N_ascii_bounded c) as L. exists (digit_char (N_of_ascii c / 16)), (digit_char (N_of_ascii c mod 16)), (N_of_ascii c / 16)%N, (N_of_ascii c mod 16)%N.
    split; [reflexivity|]. split; [apply digit_hex; apply N.div_lt_upper_bound; lia|]. split; [apply digit_hex; apply N.mod_upper_bound; lia|]. apply N.div_mod. lia.
Qed.
Lemma ascii_utf8 l : Forall (fun c => N_of_ascii c < 128)%N l -> utf8_encode (map N_of_ascii l) = Some l.
Proof.
  induction 1 as [|c l H F IH]; [reflexivity|]. cbn [map utf8_encode]. rewrite IH. assert (scalar (N_of_ascii c) = true) as -> by (unfold scalar; lia). unfold utf8_char. replace (N_of_ascii c <? 0x80)%N with true by lia.
  cbn [map app option_map]. now rewrite ascii_N_embedding.
Qed.
Lemma plain_encodes stop l : Forall (fun c => N_of_ascii c < 128)%N l -> (forall c, In c l -> ~ In c (bs "%+" ++ stop)) -> encodes stop (map N_of_ascii l) l.
Proof.
  intros A N. exists l, (map (fun c => [c]) l). split; [now apply ascii_utf8|]. split; [|induction l as [|c l IH]; [reflexivity|]].
  - induction A as [|c l H F IH]; [constructor|]. cbn [map]. constructor; [|apply IH; intros x I; apply N; now right]. left. split; [reflexivity|]. split; [exact H|]. apply N. now left.
  - cbn [map concat app]. f_equal. apply IH; [now inversion A|]. intros x I. apply N. now right.
Qed.
Lemma groups_in pairs d n : groups pairs d -> In n (map fst pairs) -> In (n, values n pairs) d.
Proof. intros -> I. apply (in_map (fun n => (n, values n pairs))). apply firsts_spec. now split. Qed.
Lemma round_trip t b name date expires path domain samesite secure httponly before after pb pa :
  utf8_encode t = Some b -> cookie_name name -> ~ In ";"%char date -> trim date = date ->
  written (bs ";&") before pb -> written (bs ";&") after pa -> List.length before + List.length after < 100 ->
  exists ck d, user_agent (cookie_text name b date expires path domain samesite secure httponly) = Some ck /\
    fst (cookies [cookie_header (before ++ (ck_name ck, ck_value ck) :: after)] no_params) = Ok d /\
    groups (nonblank (pb ++ (map N_of_ascii name, t) :: pa)) d.
Proof.
  intros U (Nn & Fn & Bn) Sd Td W1 W2 L. eexists. eexists. split; [apply cookie_reads; try assumption|].
  - intros c I B. rewrite Forall_forall in Fn. apply Fn in I as F. specialize (Bn c I). cbn in B, Bn. destruct B as [<-|[<-|[<-|[<-|[<-|[]]]]]]; [tauto|vm_compute in F; easy..].
  - intros I. specialize (Bn _ I). cbn in Bn. tauto.
  - cbn [ck_name ck_value].
    change [cookie_header (before ++ (name, quote b) :: after)] with (map cookie_header [before ++ (name, quote b) :: after]).
    assert (written (bs ";&") (before ++ (name, quote b) :: after) (pb ++ (map N_of_ascii name, t) :: pa)) as W.
    { apply Forall2_app; [exact W1|]. constructor; [|exact W2]. cbn [fst snd]. split.
      - apply plain_encodes.
        + eapply Forall_impl; [|exact Fn]. cbn beta. intros; lia.
        + intros c I B. specialize (Bn c I). cbn in B, Bn. tauto.
      - apply quote_encodes; [|exact U]. intros c I. cbn in I. destruct I as [<-|[<-|[]]]; reflexivity. }
    rewrite (cookies_written _ [pb ++ (map N_of_ascii name, t) :: pa]); [|discriminate|repeat constructor; now destruct before|constructor; [exact W|constructor]].
    cbn [List.length concat]. rewrite !app_nil_r. rewrite app_length. cbn [List.length]. assert (Nat.ltb (100 * 1) (List.length before + S (List.length after)) = false) as -> by lia.
    split; reflexivity.
Qed.
Lemma cookie_name_calm n : cookie_name n -> calm n /\ n <> [] /\ ~ In "="%char n.
Proof.
  intros (Nn & Fn & Bn). split; [|split; [exact Nn|]].
  - intros c I B. rewrite Forall_forall in Fn. apply Fn in I as F. specialize (Bn c I). cbn in B, Bn. destruct B as [<-|[<-|[<-|[<-|[<-|[]]]]]]; [tauto|vm_compute in F; easy..].
  - intros I. specialize (Bn _ I). cbn in Bn. tauto.
Qed.
Lemma cookie_reads' name value date expires path domain samesite secure httponly :
  cookie_name name -> ~ In ";"%char date -> trim date = date ->
  user_agent (cookie_text name value date expires path domain samesite secure httponly) =
  Some (mkCookie name (quote value) ([(bs "expires", date); (bs "max-age", fmt_d expires); (bs "path", quote path)]
    ++ opt_attr (bs "domain") domain ++ opt_attr (bs "samesite") samesite ++ opt_flag (bs "secure") secure ++ opt_flag (bs "httponly") httponly)).
Proof. intros N. destruct (cookie_name_calm _ N) as (A & B & C). intros D T. now apply cookie_reads. Qed.
Lemma cookie_added_one e name value date expires path domain samesite secure httponly s : headers_sent s = false -> one_line name -> one_line date ->
  let h := HCookie name value date expires path domain samesite secure httponly in
  let s' := snd (do_hop e h s) in
  fst (do_hop e h s) = Ok tt /\
  now_at (bs "Set-Cookie") s' = now_at (bs "Set-Cookie") s ++ [bs "Set-Cookie: " ++ cookie_text name value date expires path domain samesite secure httponly] /\
  one_line (cookie_text name value date expires path domain samesite secure httponly) /\
  (forall k, k <> bs "set-cookie" -> lines_at k s' = lines_at k s).
Proof.
  intros S A B. destruct (cookie_added e name value date expires path domain samesite secure httponly s S A B) as (H1 & H2 & H3).
  split; [exact H1|]. split; [exact H2|]. split; [now apply cookie_line_one|exact H3].
Qed.
Lemma values_others n l : ~ In n (map fst l) -> values n l = [].
Proof.
  intros N. unfold values. assert (filter (fun p => same n (fst p)) l = []) as ->; [|reflexivity]. induction l as [|p l IH]; [reflexivity|]. cbn [filter map In] in *.
  destruct (same n (fst p)) eqn:E; [apply same_eq in E as ->; tauto|]. apply IH. tauto.
Qed.
Lemma nonblank_sub l n : In n (map fst (nonblank l)) -> In n (map fst l).
Proof. intros I. apply in_map_iff in I as (p & <- & I). apply filter_In in I as [I _]. now apply in_map. Qed.
Lemma round_trip_alone t b name date expires path domain samesite secure httponly before after pb pa :
  utf8_encode t = Some b -> t <> [] -> cookie_name name -> ~ In ";"%char date -> trim date = date ->
  written (bs ";&") before pb -> written (bs ";&") after pa -> List.length before + List.length after < 100 ->
  ~ In (map N_of_ascii name) (map fst (pb ++ pa)) ->
  exists ck d, user_agent (cookie_text name b date expires path domain samesite secure httponly) = Some ck /\
    fst (cookies [cookie_header (before ++ (ck_name ck, ck_value ck) :: after)] no_params) = Ok d /\
    forall l, In (map N_of_ascii name, l) d <-> l = [t].
Proof.
  intros U Nt Cn Sd Td W1 W2 L Oth. destruct (round_trip t b name date expires path domain samesite secure httponly before after pb pa U Cn Sd Td W1 W2 L) as (ck & d & A & B & G).
  exists ck, d. split; [exact A|]. split; [exact B|]. set (n := map N_of_ascii name) in *.
  rewrite map_app, in_app_iff in Oth.
  assert (nonblank (pb ++ (n, t) :: pa) = nonblank pb ++ (n, t) :: nonblank pa) as E. { unfold nonblank. rewrite filter_app. cbn [filter snd]. destruct t; [easy|reflexivity]. }
  assert (values n (nonblank (pb ++ (n, t) :: pa)) = [t]) as V.
  { rewrite E. unfold values. rewrite filter_app, map_app. cbn [filter fst]. rewrite same_refl. cbn [map snd].
    fold (values n (nonblank pb)). fold (values n (nonblank pa)). rewrite !values_others; [reflexivity|..]; intros I; apply nonblank_sub in I; tauto. }
  assert (In n (map fst (nonblank (pb ++ (n, t) :: pa)))) as I by (rewrite E, map_app; apply in_or_app; right; now left).
  intros l. split.
  - intros J. rewrite G in J. apply in_map_iff in J as (m & Em & _). injection Em as -> <-. exact V.
  - intros ->. rewrite <- V. now apply groups_in.
Qed.
