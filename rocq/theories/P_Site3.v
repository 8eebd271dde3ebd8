(** Proofs about whole exchanges (C75): requests. *)
From Verif Require Import PyBytes PyBytesFacts PyBytesFacts2 PyInt PyIntFacts PyExn PyUtf8 PyRe M_Parser M_Framing M_Conn M_Site
  S_Head S_Num S_Scope S_Route S_Conn S_Site P_Parser P_Parser2 P_Framing P_Scope.

Lemma values_app n a b : values n (a ++ b) = values n a ++ values n b.
Proof. unfold values. now rewrite filter_app, map_app. Qed.
Lemma values_none n (fs : list field) : (forall f, In f fs -> lower (fst f) <> n) -> values n fs = [].
Proof.
  intros H. unfold values. induction fs as [|f fs IH]; [reflexivity|]. cbn [filter]. rewrite (proj2 (beqb_neq _ _)) by (apply H; now left). apply IH. intros g I. apply H. now right.
Qed.
Lemma framing_values c n : Forall (fun f => ~ In (lower (fst f)) length_names) (k_fields c) -> In n length_names ->
  values n (sent_fields c) = if beqb n (bs "content-length") then match k_body c with Some x => [fmt_d (blen x)] | None => [] end else [].
Proof.
  intros F I. unfold sent_fields. rewrite values_app, (values_none n (k_fields c)); cbn [app].
  - destruct (k_body c) as [x|]; [|now destruct (beqb n _)]. unfold values. cbn [filter fst]. change (lower (bs "Content-Length")) with (bs "content-length").
    rewrite (beqb_sym n). now destruct (beqb (bs "content-length") n).
  - intros f If E. rewrite Forall_forall in F. apply (F f If). now rewrite E.
Qed.
Lemma strings_values l : strings (dict_value l) = l.
Proof.
  destruct l as [|v [|w l]]; try reflexivity. cbn [dict_value strings]. change (flat_map _ (map AB (v :: w :: l))) with (flat_map (fun a : atom => match a with AB x => [x] | _ => [] end) (map AB (v :: w :: l))).
  induction (v :: w :: l) as [|x xs IH]; [reflexivity|]. cbn [map flat_map app]. now rewrite IH.
Qed.

Lemma good_sound o c : good_call o c -> sound_call o c.
Proof.
  intros (A & B & C & _ & D). assert (Forall (fun f : field => ~ In (lower (fst f)) length_names) (k_fields c)) as C1 by (eapply Forall_impl; [|exact C]; intros f N I; apply N; now right).
  assert (values (bs "connection") (k_fields c) = []) as C2 by (apply values_none; intros f I E; rewrite Forall_forall in C; apply (C f I); rewrite E; now left).
  split; [exact A|]. split; [exact B|]. split; [split; [exact C1|rewrite C2; cbn; lia]|exact D].
Qed.
Lemma good_stays o c : good_call o c -> ~ bids_close c.
Proof.
  intros (_ & _ & C & _) (words & t & I & _). assert (values (bs "connection") (k_fields c) = []) as E; [|rewrite E in I; destruct I].
  apply values_none. intros f If E. rewrite Forall_forall in C. apply (C f If). rewrite E. now left.
Qed.
Lemma good_keeps o c (k : bool) : good_call o c -> (k = false <-> bids_close c) -> k = true.
Proof. intros G H. destruct k; [reflexivity|]. exfalso. apply (good_stays o c G). now apply H. Qed.
Lemma all_sound o reqs : Forall (good_call o) reqs -> Forall (sound_call o) reqs.
Proof. apply Forall_impl. apply good_sound. Qed.
Lemma all_stay o reqs : Forall (good_call o) reqs -> Forall (fun c => ~ bids_close c) reqs.
Proof. apply Forall_impl. apply good_stays. Qed.
Lemma nth_good o reqs i c : Forall (good_call o) reqs -> nth_error reqs i = Some c -> good_call o c.
Proof. intros F E. apply nth_error_In in E. exact (proj1 (Forall_forall _ _) F c E). Qed.
Lemma call_framed o c : sound_call o c -> exists r, frame_head (m_head (msg_of c)) (blen (m_head (msg_of c)) - 2) = Framed r /\
  rq_is_valid r = true /\ rq_method r = upper (k_method c) /\ rq_url r = k_url c /\ rq_version r = bs "1.1" /\ (rq_keepalive r = false <-> bids_close c) /\ rq_continue r = false /\
  rq_path r = fst (fst (partition (bs "?") (k_url c))) /\
  (forall n, ~ In n reserved -> strings (M_Parser.hget n (rq_headers r)) = values n (sent_fields c)) /\
  match k_body c with Some x => hmem k_content_length (rq_headers r) = true /\ rq_content_length r = blen x | None => has_body r = false end.
Proof.
  intros (Ft & Hh & (Fn & Fc) & _ & _ & Dg). cbn [m_head msg_of].
  pose proof (heard_facts _ _ _ _ [] Ft) as (HM & HU & HV & _ & HD & HI). pose proof (init_facts _ _ _ _ [] Ft) as (r & Ir & R1 & R2 & _ & R4 & R5 & R6 & R7).
  destruct Ft as (F1 & F2 & F3 & F4 & F5 & F6 & F7).
  destruct (c01_main _ _ _ _ [] (blen (head_bytes (k_method c) (k_url c) (bs "1.1") (sent_fields c)) - 2) 65536 [bs "proxy"] 100 8190 F1 F2 F3 F4 F5 F6 F7 (or_intror eq_refl)) as (Rq & _).
  unfold heard in *. cbv zeta in *. rewrite app_nil_r in *. unfold frame_head. rewrite Rq. rewrite Ir.
  set (h := parse_header _ _ _ _ _ _) in *. change (beqb (bs "1.1") (bs "1.0")) with false in R7. cbn iota in R7.
  assert (values (bs "host") (sent_fields c) <> []) as Hh'. { unfold sent_fields. rewrite values_app. destruct (values (bs "host") (k_fields c)); [easy|discriminate]. }
  assert (forall n, ~ In n reserved -> M_Parser.hget n (rq_headers r) = dict_value (values n (sent_fields c))) as D.
  { intros n N. rewrite R1. apply HD; [exact N|]. destruct (beqb n (bs "host")) eqn:E; [|left; now apply beqb_neq]. apply beqb_eq in E as ->. now right. }
  assert (forall n, In n length_names -> ~ In n reserved) as NR by (intros n I J; cbn in I, J; intuition (subst; discriminate)).
  assert (forall n, In n length_names -> beqb n (bs "content-length") = false -> M_Parser.hget n (rq_headers r) = None) as N0.
  { intros n I E. rewrite (D n (NR n I)), (framing_values c n Fn I), E. reflexivity. }
  assert (rq_is_valid r = true) as Va.
  { rewrite R2. destruct (is_valid_request h); [reflexivity|]. destruct (proj1 HI eq_refl) as [_ V]. contradiction. }
  assert (exists ka, keepalive_of r = Ok ka /\ (ka = false <-> bids_close c)) as (ka & Ka & Kc).
  { assert (values (bs "connection") (sent_fields c) = values (bs "connection") (k_fields c)) as Ec by (unfold sent_fields; rewrite values_app; destruct (k_body c); apply app_nil_r).
    unfold keepalive_of. change k_connection with (bs "connection"). rewrite (D (bs "connection")) by (cbn; intuition discriminate). rewrite Ec. unfold bids_close.
    destruct (values (bs "connection") (k_fields c)) as [|v [|? ?]]; [| |cbn in Fc; lia]; cbn [dict_value].
    - exists true. rewrite R7. split; [reflexivity|]. split; [discriminate|]. intros (words & t & [] & _).
    - cbn [as_bytes bind]. eexists. split; [reflexivity|]. rewrite negb_false_iff, replace_space. change (lower (filter _ v)) with (norm_token v). change (bs ",close,") with (bs "," ++ bs "close" ++ bs ","). split.
      + intros H. exists (split (bs ",") v). assert (Forall (fun w => ~ In ","%char w) (split (bs ",") v)) as Fw by apply split_parts. assert (join (bs ",") (split (bs ",") v) = v) as Jv by apply join_split.
        rewrite <- Jv, norm_join in H. apply contains_tokens in H; [|cbn; intuition discriminate| |].
        * apply in_map_iff in H as (t & Et & It). exists t. rewrite Jv. split; [now left|]. now repeat split.
        * intros X. apply map_eq_nil in X. now apply (split_max_nonempty (bs ",") (List.length v) v).
        * apply Forall_map. eapply Forall_impl; [|exact Fw]. intros a. apply norm_nocomma.
      + intros (words & t & [Ev|[]] & Fw & It & Et). rewrite Ev, norm_join. apply contains_tokens; [cbn; intuition discriminate| | |].
        * destruct words; [destruct It|discriminate].
        * apply Forall_map. eapply Forall_impl; [|exact Fw]. intros a. apply norm_nocomma.
        * apply in_map_iff. now exists t. }
  assert (fst (fst (partition (bs "?") (k_url c))) = rq_path r) as Pa.
  { destruct (partition (bs "?") (k_url c)) as [[p x] q]. injection R6 as -> _. reflexivity. }
  assert (M_Parser.hget k_transfer_encoding (rq_headers r) = None) as Te by (apply (N0 (bs "transfer-encoding")); [cbn; tauto|reflexivity]).
  assert (M_Parser.hget k_expect (rq_headers r) = None) as Ex by (apply (N0 (bs "expect")); [cbn; tauto|reflexivity]).
  assert (rq_transfer_encoding r = bs "none" /\ rq_continue r = false) as [Tn Cn].
  { unfold request_init in Ir. rewrite HM, HU in Ir. cbn [as_bytes bind] in Ir. destruct (partition (bs "?") (k_url c)) as [[? ?] ?]. injection Ir as <-. split; reflexivity. }
  destruct (k_body c) as [x|] eqn:Kb.
  - assert (M_Parser.hget k_content_length (rq_headers r) = Some (One (AB (fmt_d (blen x))))) as Cl.
    { change k_content_length with (bs "content-length"). rewrite (D (bs "content-length")) by (apply NR; cbn; tauto). rewrite (framing_values c _ Fn) by (cbn; tauto). rewrite Kb. reflexivity. }
    assert (0 <= blen x)%Z as Bx by (unfold blen; lia).
    destruct (fmt_nat_canonical (Z.to_N (blen x))) as [Ca1 Ca2]. rewrite <- fmt_d_nonneg in Ca1, Ca2 by exact Bx.
    unfold body_of in Dg. rewrite Kb in Dg.
    destruct (c07_accept r _ ka Cl Ca1 Dg Te Tn Ka Ex) as (r' & Fr & Lr). rewrite Fr. exists r'.
    assert (rq_headers r' = rq_headers r /\ rq_is_valid r' = rq_is_valid r /\ rq_method r' = rq_method r /\ rq_url r' = rq_url r /\ rq_path r' = rq_path r /\ rq_version r' = rq_version r /\ rq_keepalive r' = ka /\ rq_continue r' = false) as (E1 & E2 & E3 & E4 & E5 & E6 & E7 & E8).
    { clear -Fr Ka Ex Cn. unfold frame in Fr. rewrite Ka in Fr. cbn [bind] in Fr. unfold continue_of in Fr. rewrite Ex in Fr. destruct (has_body r).
      - destruct (transfer_encoding_of r); [|discriminate]. cbn [bind] in Fr. destruct (content_length_of r a); [|discriminate]. cbn [bind] in Fr. injection Fr as <-. repeat (split; [reflexivity|]). reflexivity.
      - injection Fr as <-. repeat (split; [reflexivity|]). exact Cn. }
    split; [reflexivity|]. rewrite E1, E2, E3, E4, E5, E6, E7. repeat (split; [assumption|]). split; [congruence|]. split; [intros n N; rewrite (D n N); apply strings_values|].
    split; [|rewrite Lr, Ca2; lia]. unfold hmem, dmem. change (dget beqb k_content_length (rq_headers r)) with (M_Parser.hget k_content_length (rq_headers r)). now rewrite Cl.
  - assert (has_body r = false) as Hb.
    { unfold has_body, hmem, dmem. change (dget beqb k_content_length (rq_headers r)) with (M_Parser.hget k_content_length (rq_headers r)).
      change (dget beqb k_transfer_encoding (rq_headers r)) with (M_Parser.hget k_transfer_encoding (rq_headers r)). rewrite Te.
      change k_content_length with (bs "content-length"). rewrite (D (bs "content-length")) by (apply NR; cbn; tauto). rewrite (framing_values c _ Fn) by (cbn; tauto). rewrite Kb. reflexivity. }
    unfold frame. rewrite Ka. cbn [bind]. rewrite Hb. eexists. split; [reflexivity|]. cbn [rq_headers rq_is_valid rq_method rq_url rq_version rq_keepalive rq_continue rq_path].
    repeat (split; [congruence|]). split; [intros n N; rewrite (D n N); apply strings_values|]. exact Hb.
Qed.

Lemma blank_line o c : sound_call o c -> exists p, find (CRLF ++ CRLF) (m_head (msg_of c)) = Some p /\ List.length (m_head (msg_of c)) = p + 4 /\ (blen (m_head (msg_of c)) - 2 = Z.of_nat p + 2)%Z.
Proof.
  intros ((F1 & F2 & F3 & F4 & _) & _). cbn [m_head msg_of].
  pose proof (find_head (request_line (k_method c) (k_url c) (bs "1.1") :: map field_bytes (sent_fields c)) [] ltac:(discriminate) (head_lines_ok _ _ _ _ F1 F2 F4)) as X.
  rewrite app_nil_r in X. pose proof (head_len (k_method c) (k_url c) (bs "1.1") (sent_fields c) F3) as L.
  eexists. split; [exact X|]. split; [exact L|]. unfold blen. lia.
Qed.
Lemma call_ok o c : sound_call o c -> msg_ok o (msg_of c).
Proof.
  intros G. destruct (call_framed o c G) as (r & Fr & _ & _ & _ & _ & _ & _ & _ & _ & B). destruct (blank_line o c G) as (p & P1 & P2 & P3).
  exists p, r. split; [exact P1|]. split; [exact P2|]. split; [destruct G as (_ & _ & _ & _ & G & _); cbn [m_head msg_of] in P3; lia|].
  rewrite <- P3. split; [exact Fr|]. cbn [m_has m_body msg_of]. unfold body_of. destruct (k_body c); [destruct B as [B1 B2]; now rewrite B1|]. now split.
Qed.
Lemma call_counted o c : sound_call o c -> m_has (msg_of c) = true -> counted (msg_of c) = true.
Proof.
  intros G. destruct (call_framed o c G) as (r & Fr & _ & _ & _ & _ & _ & _ & _ & _ & B). destruct (blank_line o c G) as (p & P1 & _ & P3).
  unfold counted, parsed. rewrite P1, <- P3, Fr. cbn [m_has msg_of]. destruct (k_body c); [intros _; apply B|discriminate].
Qed.
Lemma call_expects o c : sound_call o c -> expects (msg_of c) = false.
Proof.
  intros G. destruct (call_framed o c G) as (r & Fr & _ & _ & _ & _ & _ & X & _). destruct (blank_line o c G) as (p & P1 & _ & P3).
  unfold expects, parsed. rewrite P1, <- P3, Fr. exact X.
Qed.
