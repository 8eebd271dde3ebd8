From Verif Require Import PyBytes PyBytesFacts PyDictFacts PyInt PyIntFacts PyExn PyUrl S_Num M_Response S_Response S_Calls S_Chunked
  P_Response P_Response2 P_Response3 P_Response4 P_Response5 P_Response6 P_Response7 S_Range S_Sendfile P_Sendfile P_Sendfile2 P_Sendfile3
  M_Sse S_EventSource S_Sse.
From Coq Require Import ZifyBool ZifyNat ZifyN.

(** ** The stream as lines *)
Definition plain_line (l : bytes) : Prop := ~ In CR l /\ ~ In LF l.
Definition lf_lines (ls : list bytes) : bytes := concat (map (fun l => l ++ [LF]) ls).

Lemma es_lines_line l : plain_line l -> forall cur rest, es_lines cur (l ++ LF :: rest) = (cur ++ l) :: es_lines [] rest.
Proof.
  intros [C L]. induction l as [|c l IH]; intros cur rest; cbn [app es_lines].
  - rewrite Ascii.eqb_refl. now rewrite app_nil_r.
  - assert (Ascii.eqb c LF = false) as -> by (apply Ascii.eqb_neq; intros ->; apply L; now left).
    assert (Ascii.eqb c CR = false) as -> by (apply Ascii.eqb_neq; intros ->; apply C; now left).
    rewrite IH by (intros H; first [apply C; now right | apply L; now right]). now rewrite <- app_assoc.
Qed.
Lemma es_lines_app ls : Forall plain_line ls -> forall rest, es_lines [] (lf_lines ls ++ rest) = ls ++ es_lines [] rest.
Proof.
  induction 1 as [|l ls P F IH]; intros rest; [reflexivity|]. unfold lf_lines in *. cbn [map concat].
  rewrite <- !app_assoc. cbn [app]. rewrite es_lines_line by exact P. cbn [app]. now rewrite IH.
Qed.

(** The lines of one message. *)
Definition opt_line (name value : bytes) : list bytes := match value with [] => [] | _ => [name ++ bs ": " ++ value] end.
Definition retry_line (z : Z) : list bytes := if (z =? 0)%Z then [] else [bs "retry: " ++ fmt_d z].
Definition msg_lines (m : sse_msg) : list bytes :=
  map (app (bs "data: ")) (split [LF] (strip [LF] (m_data m))) ++ opt_line (bs "event") (m_event m) ++ opt_line (bs "id") (m_id m)
  ++ retry_line (m_retry m) ++ [[]].

Lemma join_prefix p parts : parts <> [] -> p ++ join (LF :: p) parts = join [LF] (map (app p) parts).
Proof.
  induction parts as [|a parts IH]; intros N; [easy|]. destruct parts as [|b parts]; [reflexivity|].
  change (map (app p) (a :: b :: parts)) with ((p ++ a) :: map (app p) (b :: parts)). rewrite (join_cons _ a), (join_cons _ (p ++ a)) by discriminate.
  rewrite <- app_assoc. change (LF :: p) with ([LF] ++ p). rewrite <- (app_assoc [LF] p). do 3 f_equal. apply IH. discriminate.
Qed.
Lemma join_lf ls : ls <> [] -> join [LF] ls ++ [LF] = lf_lines ls.
Proof.
  induction ls as [|a ls IH]; intros N; [easy|]. destruct ls as [|b ls]; [cbn; now rewrite app_nil_r|].
  rewrite join_cons by discriminate. change (lf_lines (a :: b :: ls)) with ((a ++ [LF]) ++ lf_lines (b :: ls)). rewrite <- IH by discriminate. now rewrite <- !app_assoc.
Qed.
Lemma split_nonempty sep l : split sep l <> [].
Proof. apply split_max_nonempty. Qed.
Lemma lf_lines_app a b : lf_lines (a ++ b) = lf_lines a ++ lf_lines b.
Proof. unfold lf_lines. now rewrite map_app, concat_app. Qed.

Lemma replace_lf d : (if memb LF d then replace [LF] (LF :: bs "data: ") d else d) = join (LF :: bs "data: ") (split [LF] d).
Proof.
  destruct (memb LF d) eqn:M; [reflexivity|]. apply memb_notIn in M. unfold split.
  destruct d as [|c d]; [reflexivity|]. cbn [List.length split_max]. apply find1_none in M. now rewrite M.
Qed.
Lemma sse_field_ok name value data : ~ In LF value -> sse_field name value data = Ok (data ++ match value with [] => [] | _ => LF :: name ++ bs ": " ++ value end).
Proof.
  intros N. unfold sse_field. destruct value as [|c v]; [now rewrite app_nil_r|]. apply memb_notIn in N. now rewrite N.
Qed.

Lemma sse_text_lines m : ~ In LF (m_event m) -> ~ In LF (m_id m) -> sse_text m = Ok (lf_lines (msg_lines m)).
Proof.
  intros E I. unfold sse_text. rewrite replace_lf, sse_field_ok by exact E. cbn [bind]. rewrite sse_field_ok by exact I. cbn [bind]. f_equal.
  unfold msg_lines. rewrite !lf_lines_app. rewrite <- (join_lf (map _ _)) by (intros X; apply map_eq_nil in X; revert X; apply split_nonempty).
  rewrite <- join_prefix by apply split_nonempty.
  set (J := join _ _). set (A := match m_event m with [] => [] | _ => _ end). set (B := match m_id m with [] => [] | _ => _ end).
  assert (forall name value, [LF] ++ lf_lines (opt_line name value) = match value with [] => [] | _ => LF :: name ++ bs ": " ++ value end ++ [LF]) as O.
  { intros name value. destruct value; [reflexivity|]. unfold opt_line, lf_lines. cbn [map concat app]. now rewrite app_nil_r. }
  transitivity (bs "data: " ++ J ++ A ++ B ++ (if (m_retry m =? 0)%Z then [] else LF :: bs "retry: " ++ fmt_d (m_retry m)) ++ [LF; LF]).
  { destruct (m_retry m =? 0)%Z; rewrite <- !app_assoc; reflexivity. }
  rewrite <- !app_assoc. do 2 f_equal.
  rewrite (app_assoc [LF]), (O (bs "event") (m_event m)). fold A. rewrite <- !app_assoc. f_equal.
  rewrite (app_assoc [LF]), (O (bs "id") (m_id m)). fold B. rewrite <- !app_assoc. f_equal.
  unfold retry_line. destruct (m_retry m =? 0)%Z; [reflexivity|]. unfold lf_lines. cbn [map concat]. rewrite app_nil_r. cbn [app]. f_equal. now rewrite <- !app_assoc.
Qed.

Lemma strip_sub p l x : In x (strip_by p l) -> In x l.
Proof.
  assert (forall p l x, In x (lstrip_by p l) -> In x l) as L.
  { clear. intros p l x. induction l as [|c l IH]; [easy|]. cbn [lstrip_by]. destruct (p c); [right; auto|auto]. }
  unfold strip_by, rstrip_by. rewrite <- in_rev. intros H. apply L in H. rewrite <- in_rev in H. now apply L in H.
Qed.
Lemma split_sub x sep l p : sep <> [] -> In p (split sep l) -> In x p -> In x l.
Proof.
  intros N. unfold split. generalize (List.length l) as n. intros n. revert l. induction n as [|n IH]; intros l Hp Hx; cbn [split_max] in Hp.
  - destruct Hp as [<-|[]]. exact Hx.
  - destruct (find sep l) as [i|] eqn:F; [|destruct Hp as [<-|[]]; exact Hx]. pose proof (find_split _ _ _ F) as E. rewrite E.
    destruct Hp as [<-|Hp]; apply in_or_app; [now left|right; apply in_or_app; right]. now apply IH.
Qed.

Lemma fmt_d_digits z : (0 <= z)%Z -> Forall (fun c => is_digit c = true) (fmt_d z) /\ fmt_d z <> [].
Proof.
  intros H. rewrite fmt_d_nonneg by exact H. split.
  - apply fmt_nat_forall; [lia|]. intros d Hd. unfold is_digit. rewrite digit_char_N by lia. destruct (d <? 10)%N eqn:X; lia.
  - intros X. pose proof (fmt_nat_length_pos 10 (Z.to_N z) ltac:(lia)) as L. rewrite X in L. cbn in L. lia.
Qed.
Lemma digit_plain l : Forall (fun c => is_digit c = true) l -> plain_line l.
Proof. intros F. split; intros I; rewrite Forall_forall in F; apply F in I; discriminate. Qed.
Lemma plain_app a b : plain_line a -> plain_line b -> plain_line (a ++ b).
Proof. intros [A B] [C D]. split; intros I; apply in_app_or in I as [I|I]; auto. Qed.
Ltac pl := split; apply memb_notIn; vm_compute; reflexivity.

Lemma msg_lines_plain m : sse_ok m -> Forall plain_line (msg_lines m).
Proof.
  intros (D & E & I & E2 & I2 & Z & R). unfold msg_lines. repeat (apply Forall_app; split).
  - apply Forall_forall. intros x X. apply in_map_iff in X as (p & <- & X). apply plain_app; [pl|]. split; intros Y.
    + apply D. apply (strip_sub (fun x => memb x [LF])). eapply split_sub; [|exact X|exact Y]. discriminate.
    + pose proof (split_parts LF (strip [LF] (m_data m))) as F. rewrite Forall_forall in F. now apply (F p).
  - destruct (m_event m) as [|c v]; constructor; [|constructor]. apply plain_app; [pl|]. apply plain_app; [pl|]. now split.
  - destruct (m_id m) as [|c v]; constructor; [|constructor]. apply plain_app; [pl|]. apply plain_app; [pl|]. now split.
  - unfold retry_line. destruct (m_retry m =? 0)%Z; constructor; [|constructor]. apply plain_app; [pl|]. apply digit_plain. now apply fmt_d_digits.
  - constructor; [pl|constructor].
Qed.

(** ** Reading them *)
Lemma line_data st p : es_line st (bs "data: " ++ p) = mkEs (es_data st ++ p ++ [LF]) (es_type st) (es_id st) (es_retry st) (es_out st).
Proof. reflexivity. Qed.
Lemma line_event st p : es_line st (bs "event" ++ bs ": " ++ p) = mkEs (es_data st) p (es_id st) (es_retry st) (es_out st).
Proof. reflexivity. Qed.
Lemma line_id st p : ~ In (ascii_of_nat 0) p -> es_line st (bs "id" ++ bs ": " ++ p) = mkEs (es_data st) (es_type st) p (es_retry st) (es_out st).
Proof. intros N. apply memb_notIn in N. transitivity (es_field st (bs "id") p); [reflexivity|]. unfold es_field. cbn [beqb bs list_ascii_of_string Ascii.eqb Bool.eqb andb]. now rewrite N. Qed.
Lemma dec_value_digits ds : forall acc, Forall (fun d => d < 10)%N ds -> dec_value (Z.of_N acc) (map digit_char ds) = Z.of_N (dval 10 acc ds).
Proof.
  induction ds as [|d ds IH]; intros acc F; [reflexivity|]. inversion_clear F as [|? ? Hd F']. cbn [map dec_value].
  rewrite digit_char_N by lia. replace (d <? 10)%N with true by lia. rewrite dval_cons, <- IH by exact F'. f_equal. lia.
Qed.
Lemma dec_value_fmt z : (0 <= z)%Z -> dec_value 0 (fmt_d z) = z.
Proof.
  intros H. rewrite fmt_d_nonneg by exact H. unfold fmt_nat. change 0%Z with (Z.of_N 0).
  rewrite dec_value_digits by (apply digits_range; lia). rewrite digits_value by lia. lia.
Qed.
Lemma line_retry st z : (0 <= z)%Z -> es_line st (bs "retry: " ++ fmt_d z) = mkEs (es_data st) (es_type st) (es_id st) (Some z) (es_out st).
Proof.
  intros H. transitivity (es_field st (bs "retry") (fmt_d z)); [reflexivity|]. unfold es_field. cbn [beqb bs list_ascii_of_string Ascii.eqb Bool.eqb andb].
  destruct (fmt_d_digits z H) as [F N]. assert (forallb is_digit (fmt_d z) = true) as F' by (apply forallb_forall; now apply Forall_forall).
  rewrite F'. destruct (beqb (fmt_d z) []) eqn:B; [apply beqb_eq in B; easy|]. cbn [negb andb]. now rewrite dec_value_fmt.
Qed.
Lemma fold_data parts : forall st, fold_left es_line (map (app (bs "data: ")) parts) st =
  mkEs (es_data st ++ lf_lines parts) (es_type st) (es_id st) (es_retry st) (es_out st).
Proof.
  induction parts as [|p parts IH]; intros st; cbn [map fold_left].
  - cbn. rewrite app_nil_r. now destruct st.
  - rewrite line_data, IH. cbn [es_data es_type es_id es_retry es_out]. unfold lf_lines. cbn [map concat]. now rewrite <- !app_assoc.
Qed.
Lemma chomp_lf d : chomp (d ++ [LF]) = d.
Proof. unfold chomp. rewrite rev_app_distr. cbn [rev app]. rewrite Ascii.eqb_refl. apply rev_involutive. Qed.
Lemma dispatch_data d t i r o : es_dispatch (mkEs (d ++ [LF]) t i r o) = mkEs [] [] i r (o ++ [mkEvent (match t with [] => bs "message" | x => x end) d i]).
Proof.
  unfold es_dispatch. cbn [es_data es_type es_id es_retry es_out]. pose proof (chomp_lf d) as C.
  destruct (d ++ [LF]) as [|c x] eqn:E; [now destruct d|]. rewrite C. now destruct t.
Qed.

Lemma msg_run m id rt out : sse_ok m ->
  fold_left es_line (msg_lines m) (mkEs [] [] id rt out) =
  (let '(id', rt', out') := receive (id, rt, out) m in mkEs [] [] id' rt' out').
Proof.
  intros (D & E & I & E2 & I2 & Z & R). unfold msg_lines. rewrite !fold_left_app, fold_data. cbn [es_data es_type es_id es_retry es_out app].
  rewrite <- join_lf by apply split_nonempty. rewrite join_split. set (d := strip [LF] (m_data m)).
  assert (fold_left es_line (opt_line (bs "event") (m_event m)) (mkEs (d ++ [LF]) [] id rt out) = mkEs (d ++ [LF]) (m_event m) id rt out) as ->.
  { destruct (m_event m); [reflexivity|]. cbn [opt_line fold_left]. apply line_event. }
  assert (fold_left es_line (opt_line (bs "id") (m_id m)) (mkEs (d ++ [LF]) (m_event m) id rt out) = mkEs (d ++ [LF]) (m_event m) (match m_id m with [] => id | x => x end) rt out) as ->.
  { destruct (m_id m) eqn:X; [reflexivity|]. cbn [opt_line fold_left]. now apply line_id. }
  set (id' := match m_id m with [] => id | x => x end).
  assert (fold_left es_line (retry_line (m_retry m)) (mkEs (d ++ [LF]) (m_event m) id' rt out)
    = mkEs (d ++ [LF]) (m_event m) id' (if (m_retry m =? 0)%Z then rt else Some (m_retry m)) out) as ->.
  { unfold retry_line. destruct (m_retry m =? 0)%Z; [reflexivity|]. cbn [fold_left]. now apply line_retry. }
  cbn [fold_left]. unfold receive. fold d id'. change (es_line ?st []) with (es_dispatch st). rewrite dispatch_data. unfold id'. destruct (m_event m), (m_id m); reflexivity.
Qed.

Definition ok_text (m : sse_msg) : bytes := match sse_text m with Ok t => t | Raise _ => [] end.
Lemma ok_text_lines m : sse_ok m -> ok_text m = lf_lines (msg_lines m).
Proof. intros (_ & _ & _ & E & I & _). unfold ok_text. now rewrite sse_text_lines. Qed.

Lemma stream_run ms : Forall sse_ok ms -> forall id rt out,
  fold_left es_line (es_lines [] (concat (map ok_text ms))) (mkEs [] [] id rt out) =
  (let '(id', rt', out') := fold_left receive ms (id, rt, out) in mkEs [] [] id' rt' out').
Proof.
  induction 1 as [|m ms M F IH]; intros id rt out; [reflexivity|]. cbn [map concat fold_left]. rewrite (ok_text_lines m M).
  rewrite es_lines_app by now apply msg_lines_plain. rewrite fold_left_app, msg_run by exact M.
  destruct (receive (id, rt, out) m) as [[id1 rt1] out1]. apply IH.
Qed.
Lemma c36_stream ms : Forall sse_ok ms -> es_run (concat (map ok_text ms)) = received ms.
Proof. intros F. unfold es_run, es0, received. now rewrite stream_run. Qed.

(** ** Through the response *)
Fixpoint wrk (e : renv) (c : option bool) (l : list (bytes * kw)) : call unit :=
  match l with [] => done tt | (d, k) :: l' => write e (Some d) c k ;; wrk e c l' end.
Lemma wrk_sent e c l : forall s, r_headers s = None ->
  wrk e c l s = (Ok tt, sends (map (fun dk => (enc (r_chunked s && negb (r_up s)) (fst dk), snd dk)) l) s).
Proof.
  induction l as [|[d k] l IH]; intros s H; [reflexivity|]. cbn [wrk map sends fst snd].
  set (b := r_chunked s && negb (r_up s)).
  assert (write e (Some d) c k s = (Ok tt, snd (send (Some (enc b d)) k s))) as W.
  { unfold write, headers_sent. rewrite H. unfold write_body, enc. fold b. destruct b; apply send_ok. }
  rewrite (seq_ok _ _ _ _ _ W).
  assert (forall x, let s2 := snd (send (Some x) k s) in r_headers s2 = None /\ r_chunked s2 = r_chunked s /\ r_up s2 = r_up s) as K.
  { intros x. unfold send. destruct (match k_min k with Some _ => _ | None => _ end); cbn; auto. }
  destruct (K (enc b d)) as (K1 & K2 & K3). rewrite (IH _ K1), K2, K3. reflexivity.
Qed.
Lemma wrk_close e ops keep stored c l : Forall appends_clean ops -> Forall name_ok ops -> Forall unreserved ops ->
  r_headers (start e ops keep) = Some stored -> stored <> [] -> ~ bodyless (e_method e) (fst (the_status ops)) ->
  Forall (fun dk => 1 <= k_bufsize (snd dk))%Z l -> l <> [] ->
  let ch := chunk_choice e c false in
  exists s' sent items, (wrk e c l ;; close true) (start e ops keep) = (Ok tt, s') /\
    r_out s' = Some (head_of (status_line e (the_status ops) :: lines_of sent)) :: map Some items ++ [None] /\
    sent_ok e ops keep ch stored sent /\ concat items = concat (map (fun dk => enc ch (fst dk)) l) /\
    r_keep s' = keep && (ch || hmem (bs "content-length") stored).
Proof.
  intros A N U H Ne NB Hb Nl ch. destruct l as [|[d k] l]; [easy|].
  destruct (first_write e ops keep stored (Some d) c k A N U H Ne) as (sent & st' & ct' & kp & up & E & SO & _ & K & Up).
  assert (is_head e || no_content (fst (the_status ops)) = false) as NB'.
  { destruct (is_head e || _) eqn:X; [|reflexivity]. apply bodyless_iff in X. easy. }
  assert ((fst (the_status ops) =? 101)%Z = false) as N1.
  { destruct (fst (the_status ops) =? 101)%Z eqn:X; [|reflexivity]. exfalso. apply NB. unfold bodyless. lia. }
  rewrite NB' in *. pose proof NB' as NC. apply orb_false_iff in NC as [_ NC]. rewrite NC in *. fold ch in E, SO, K.
  rewrite (K eq_refl N1) in E. rewrite (Up N1) in E.
  set (s1 := mkRsp _ _ _ _ _ _ _ _) in E.
  assert (wrk e c ((d, k) :: l) (start e ops keep) = wrk e c ((d, k) :: l) s1) as W by (cbn [wrk]; unfold seq; rewrite E; reflexivity).
  unfold seq. rewrite W, wrk_sent by reflexivity. cbn [s1 r_chunked r_up negb]. rewrite andb_true_r.
  set (l2 := map (fun dk => (enc ch (fst dk), snd dk)) ((d, k) :: l)).
  assert (Forall (fun x => 1 <= k_bufsize (snd x))%Z l2) as F2.
  { apply Forall_forall. intros x I. apply in_map_iff in I as (y & <- & I). rewrite Forall_forall in Hb. exact (Hb y I). }
  destruct (c33_main l2 s1 F2) as (items & O & _ & C). unfold close, update. exists (flush_close (sends l2 s1)), sent, items.
  split; [reflexivity|]. split; [exact O|]. split; [exact SO|]. split.
  - rewrite C. cbn [s1 r_buf app]. unfold l2. rewrite map_map. reflexivity.
  - destruct (sends_run l2 s1 F2) as (i & bf & -> & _). reflexivity.
Qed.

Definition k_sse : kw := mkKw true 16384 None.
Lemma refused_text m : refused m = true -> sse_text m = Raise InternalServerError.
Proof.
  intros R. unfold refused in R. unfold sse_text. set (d := if memb LF _ then _ else _).
  unfold sse_field at 1. destruct (m_event m) as [|c v] eqn:E.
  - cbn [bind memb existsb orb] in *. unfold sse_field. destruct (m_id m) as [|c v]; [discriminate|]. now rewrite R.
  - destruct (memb LF (c :: v)); [reflexivity|]. cbn [orb bind] in *. unfold sse_field.
    destruct (m_id m) as [|c' v']; [discriminate|]. now rewrite R.
Qed.
Lemma refused_send e m s : refused m = true -> sse_send e m s = (Raise InternalServerError, s).
Proof. intros R. unfold sse_send. now rewrite refused_text. Qed.
Lemma session_filter e ms : forall s, sse_session e ms s = sse_session e (filter (fun m => negb (refused m)) ms) s.
Proof.
  induction ms as [|m ms IH]; intros s; [reflexivity|]. cbn [filter]. destruct (refused m) eqn:R; cbn [negb sse_session]; [|apply IH].
  unfold sse_send. rewrite (refused_text m R). apply IH.
Qed.
Definition texts (ms : list sse_msg) : list (bytes * kw) := map (fun m => (ok_text m, k_sse)) ms.
Lemma session_wrk e ms : Forall sse_ok ms -> forall s,
  (r_headers s = None \/ forall d k, exists s1, write e (Some d) None k s = (Ok tt, s1) /\ r_headers s1 = None) ->
  sse_session e ms s = (wrk e None (texts ms ++ [([], kw_now)]) ;; close true) s.
Proof.
  induction 1 as [|m ms M F IH]; intros s H.
  - cbn [sse_session texts map app wrk]. unfold sse_close. rewrite seq_assoc'. apply seq_ext'. intros []. reflexivity.
  - assert (exists s1, write e (Some (ok_text m)) None k_sse s = (Ok tt, s1) /\ r_headers s1 = None) as (s1 & W & N).
    { destruct H as [H|H]; [|apply H]. unfold write, headers_sent. rewrite H. unfold write_body.
      destruct (_ && _); rewrite send_ok; eexists; (split; [reflexivity|]); unfold send; cbn; exact H. }
    cbn [sse_session texts map app wrk]. unfold sse_send. 
    assert (sse_text m = Ok (ok_text m)) as T. { destruct M as (_ & _ & _ & E & I & _). unfold ok_text. now rewrite sse_text_lines. }
    rewrite T. change (mkKw true 16384 None) with k_sse. rewrite W. cbn [snd]. rewrite seq_assoc', (seq_ok _ _ _ _ _ W). apply IH. now left.
Qed.

Lemma base_noop e ops post keep stored : r_headers (start e ops keep) = Some stored -> stored <> [] ->
  start e (ops ++ HBase :: post) keep = start e (ops ++ post) keep.
Proof.
  intros H N. unfold start in *. rewrite !do_hops_app. cbn [do_hops do_hop]. unfold set_base_header. rewrite H. now destruct stored.
Qed.


Section Session.
Context (e : renv) (pre : list hop) (post : list (bytes * bytes)) (keep : bool).
Context (HA : Forall appends_clean pre) (HN : Forall name_ok (pre ++ sets post)) (HU : Forall unreserved (pre ++ sets post)).
Context (HC : Forall (fun nv => lower (fst nv) <> k_ctype) post).
Context (NB : ~ bodyless (e_method e) (fst (the_status pre))).
Local Notation ops := (pre ++ sse_hops ++ HBase :: sets post).

Lemma sse_status : the_status ops = the_status pre.
Proof.
  unfold the_status. rewrite !final_app. generalize (final_status pre (200%Z, bs "OK")). intros st. cbn [sse_hops final_status].
  clear. unfold sets. induction post as [|[n v] l IH]; [reflexivity|exact IH].
Qed.
Lemma sse_ops : Forall appends_clean ops /\ Forall name_ok ops /\ Forall unreserved ops.
Proof.
  apply Forall_app in HN as [N1 N2]. apply Forall_app in HU as [U1 U2]. repeat split; (apply Forall_app; split; [assumption|]); (apply Forall_app; split).
  - lists; exact I.
  - constructor; [exact I|]. clear. unfold sets. induction post; constructor; [exact I|assumption].
  - lists; try exact I; now apply memb_notIn.
  - constructor; [exact I|exact N2].
  - lists; cbn [unreserved]; try exact I; discriminate.
  - constructor; [exact I|exact U2].
Qed.
Lemma sse_stored : exists stored, r_headers (start e ops keep) = Some stored /\ stored <> [] /\ ctype_of (start e ops keep) = bs "text/event-stream".
Proof.
  assert (lines_at (bs "expires") (start e (pre ++ sse_hops) keep) <> None) as L.
  { unfold sse_hops. change [?a; ?b; ?c] with ([a; b] ++ [c]). rewrite app_assoc. change (bs "expires") with (lower (bs "Expires")).
    rewrite start_set; [discriminate|ol|ol|discriminate|discriminate|constructor]. }
  destruct (start_some e (pre ++ sse_hops) keep) as (d0 & H0). pose proof (stored_ne _ _ _ _ _ H0 L) as N0.
  assert (start e ops keep = do_hops e (sets post) (start e (pre ++ sse_hops) keep)) as E.
  { rewrite (app_assoc pre). rewrite (base_noop e (pre ++ sse_hops) (sets post) keep d0 H0 N0). unfold start. now rewrite do_hops_app. }
  destruct (start_some e ops keep) as (d & H). exists d. split; [exact H|]. split.
  - intros ->. rewrite E in H. assert (forall s, lines_at (bs "expires") s <> None -> lines_at (bs "expires") (do_hops e (sets post) s) <> None) as K.
    { clear. induction post as [|[n v] l IH]; intros s L; [exact L|]. cbn [sets map do_hops]. apply IH. cbn [do_hop fst snd]. unfold set_header.
      destruct (_ || _); [exact L|]. unfold seq, get_headers. unfold lines_at in *. destruct (r_headers s) as [d|] eqn:H; [|now destruct L].
      cbn -[hget hset bs]. unfold hget, hset. rewrite dget_dset. destruct (beqb _ _); [discriminate|exact L]. }
    apply (K _ L). unfold lines_at. now rewrite H.
  - rewrite E. unfold sets. rewrite ctype_sets by exact HC. unfold start. rewrite do_hops_app. unfold sse_hops. cbn [do_hops].
    rewrite !ctype_keep by discriminate. apply ctype_set; [apply start_sent|ol|reflexivity].
Qed.

Lemma session_main ms : Forall (fun m => refused m = true \/ sse_ok m) ms ->
  exists s' lines items stream, sse_session e ms (start e ops keep) = (Ok tt, s') /\
    r_out s' = Some (head_of (status_line e (the_status pre) :: lines)) :: map Some items ++ [None] /\
    only_line (bs "content-type") (bs "Content-Type: text/event-stream") lines /\
    (if e_11 e then only_line (bs "transfer-encoding") (bs "Transfer-Encoding: chunked") lines /\
                    exists cs, concat items = chunked_body cs (bs "0") [] CRLF /\ Forall good_chunk cs /\ chunks_data cs = stream
     else concat items = stream) /\
    es_run stream = received (filter (fun m => negb (refused m)) ms).
Proof.
  intros F. set (ms' := filter (fun m => negb (refused m)) ms).
  assert (Forall sse_ok ms') as F'.
  { apply Forall_forall. intros m I. apply filter_In in I as [I R]. rewrite Forall_forall in F. destruct (F m I) as [X|X]; [rewrite X in R; discriminate|exact X]. }
  destruct sse_stored as (stored & H & Ne & CT). destruct sse_ops as (A & N & U).
  assert (~ bodyless (e_method e) (fst (the_status ops))) as NB' by (rewrite sse_status; exact NB).
  destruct (wrk_close e ops keep stored None (texts ms' ++ [([], kw_now)]) A N U H Ne NB') as (s' & sent & items & E & O & S & C & _).
  { apply Forall_app. split; [|constructor; [now compute|constructor]]. apply Forall_forall. intros x I. apply in_map_iff in I as (m & <- & _). now compute. }
  { intros X. now apply app_eq_nil in X. }
  exists s', (lines_of sent), items, (concat (map ok_text ms')). split; [|split; [|split; [|split]]].
  - rewrite session_filter. fold ms'. rewrite session_wrk; [exact E|exact F'|]. right. intros d k.
    destruct (first_write e ops keep stored (Some d) None k A N U H Ne) as (sent2 & st' & ct' & kp & up & -> & _).
    destruct (is_head e || _).
    + eexists. split; [reflexivity|]. reflexivity.
    + unfold write_body. destruct (_ && _); rewrite send_ok; eexists; (split; [reflexivity|]); unfold send; cbn [r_buf]; destruct (match k_min k with Some _ => _ | None => _ end); reflexivity.
  - now rewrite sse_status in O.
  - apply (sent_only _ _ _ _ _ _ _ _ S); [discriminate|]. pose proof (so_ct _ _ _ _ _ _ S) as X. rewrite CT in X. apply X. rewrite sse_status.
    destruct (no_content (fst (the_status pre))) eqn:Y; [|reflexivity]. exfalso. apply NB. apply bodyless_iff. rewrite Y. apply orb_true_r.
  - assert (concat (map (fun dk => enc (chunk_choice e None false) (fst dk)) (texts ms' ++ [([], kw_now)])) =
            concat (map (enc (e_11 e)) (filter nonempty (map ok_text ms') ++ [[]]))) as X.
    { unfold texts. unfold chunk_choice. rewrite andb_true_r. rewrite !map_app, map_map. cbn [map fst]. do 2 f_equal.
      rewrite <- map_map. do 1 f_equal. clear - F'. clearbody ms'. induction F' as [|m ms0 M F0 IH]; [reflexivity|]. cbn [map filter].
      rewrite (ok_text_lines m M). rewrite IH at 1. destruct (lf_lines (msg_lines m)) eqn:Z; [|reflexivity]. exfalso.
      revert Z. unfold msg_lines, lf_lines. rewrite !app_assoc, map_app, concat_app. intros Z. now apply app_eq_nil in Z as [_ Z]. }
    rewrite C, X. destruct (e_11 e) eqn:V.
    + split; [|exists (map chunk_of (filter nonempty (map ok_text ms'))); split; [apply enc_chunks|split; [apply enc_chunks_good|apply chunks_data_of]]].
      apply (sent_only _ _ _ _ _ _ _ _ S); [discriminate|]. apply (so_te _ _ _ _ _ _ S). unfold chunk_choice. now rewrite V.
    + apply enc_plain.
  - now apply c36_stream.
Qed.
End Session.
