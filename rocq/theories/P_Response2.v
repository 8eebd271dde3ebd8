From Verif Require Import PyBytes PyBytesFacts PyDictFacts PyInt PyIntFacts PyExn PyUrl M_Response S_Response S_Calls P_Response.

(** ** Runs of the calls *)
Lemma seq_ok {A B} (m : call A) (f : A -> call B) s a s' : m s = (Ok a, s') -> seq m f s = f a s'.
Proof. unfold seq. now intros ->. Qed.

(** Lines are single lines; when [N] they also start with the name they are stored under. *)
Definition named (k x : bytes) : Prop := exists n v, x = n ++ bs ": " ++ v /\ lower n = k /\ ~ In ":"%char n.
Definition P1 (N : Prop) (k x : bytes) : Prop := one_line x /\ (N -> k <> k_line -> named k x).
Section WithN.
Context (Nm : Prop).

Lemma one_line_app a b : one_line a -> one_line b -> one_line (a ++ b).
Proof. unfold one_line. intros A B I. apply in_app_or in I. tauto. Qed.
Lemma one_line_bs_dec a : memb LF a = false -> one_line a.
Proof. apply memb_notIn. Qed.
Lemma one_line_fmt_nat base n : (2 <= base <= 36)%N -> one_line (fmt_nat base n).
Proof.
  intros H I. assert (Forall (fun c => c <> LF) (fmt_nat base n)) as F.
  { apply fmt_nat_forall; [exact H|]. intros d Hd E. apply (f_equal is_space) in E. rewrite digit_char_not_space in E by lia. discriminate. }
  rewrite Forall_forall in F. now apply (F LF).
Qed.
Lemma one_line_fmt_d z : one_line (fmt_d z).
Proof.
  unfold fmt_d. destruct z; [apply one_line_fmt_nat; lia..|].
  intros [E|I]; [discriminate|]. revert I. apply one_line_fmt_nat. lia.
Qed.
Lemma one_line_header n v : one_line n -> one_line v -> one_line (header_line n v).
Proof. intros A B. apply one_line_app; [exact A|]. apply one_line_app; [now apply one_line_bs_dec|exact B]. Qed.
Lemma one_line_skipn n a : one_line a -> one_line (skipn n a).
Proof. intros H I. apply H. rewrite <- (firstn_skipn n a). apply in_or_app. now right. Qed.
Lemma one_line_lstrip a : one_line a -> one_line (lstrip_ws a).
Proof.
  unfold lstrip_ws. induction a as [|c a IH]; intros H; [exact H|]. cbn [lstrip_by].
  destruct (is_space c); [|exact H]. apply IH. intros I. apply H. now right.
Qed.

Lemma with_headers_id s d : r_headers s = Some d -> with_headers s d = s.
Proof. destruct s. cbn. now intros ->. Qed.
Lemma with_headers_2 s d d' : with_headers (with_headers s d) d' = with_headers s d'.
Proof. reflexivity. Qed.

Lemma set_header_run n v s d : r_headers s = Some d -> one_line n -> one_line v ->
  set_header n v s = (Ok tt, with_headers s (hset (lower n) [header_line n v] d)).
Proof.
  intros H A B. unfold set_header. apply memb_notIn in A, B. rewrite A, B. cbn [orb].
  unfold seq, get_headers. now rewrite H.
Qed.

(** The status and content type in force. *)
Definition status_of (s : rsp) : Z * bytes := match r_status s with x :: _ => x | [] => (200%Z, bs "OK") end.
Lemma get_status_run s d : r_headers s = Some d -> hmem k_line d = false ->
  get_status s = (Ok (status_of s), with_status s (tl (r_status s))).
Proof.
  intros H N. unfold get_status, seq, get_headers. rewrite H. unfold hmem, dmem in N. unfold hget.
  destruct (dget beqb k_line d); [discriminate|]. unfold status_of. destruct (r_status s) eqn:E; [|reflexivity].
  destruct s. cbn in *. now subst.
Qed.
Lemma status_of_line P s : goodS P s -> one_line (snd (status_of s)).
Proof.
  intros (_ & F & _). unfold status_of. destruct (r_status s); [now apply one_line_bs_dec|]. now inversion F.
Qed.

Definition ctype_of (s : rsp) : bytes :=
  match lines_at k_ctype s with
  | Some (v :: _) => lstrip_ws (skipn 13 v)
  | _ => match r_ctype s with c :: _ => c | [] => bs "text/html; charset=utf-8" end
  end.
Lemma get_ct_run s d : r_headers s = Some d -> goodS (P1 Nm) s ->
  exists ct l, one_line ct /\ get_content_type s = (Ok ct, with_ctype (with_headers s (hdel k_ctype d)) l) /\ Forall one_line l /\ ct = ctype_of s.
Proof.
  intros H G. unfold get_content_type, seq, get_headers, ctype_of, lines_at. rewrite H.
  destruct (hget k_ctype d) as [l|] eqn:E.
  - destruct (good_get (P1 Nm) _ _ _ (proj1 G _ H) E) as [N F]. destruct l as [|v l]; [easy|].
    inversion_clear F as [|? ? [Hv _] _]. exists (lstrip_ws (skipn 13 v)), (r_ctype s). split; [|split; [reflexivity|split; [apply G|reflexivity]]].
    now apply one_line_lstrip, one_line_skipn.
  - assert (hdel k_ctype d = d) as ->.
    { unfold hget in E. unfold hdel. clear -E. induction d as [|[k v] d IH]; [reflexivity|]. cbn [dget ddel] in *.
      destruct (beqb k_ctype k); [discriminate|]. now rewrite IH. }
    rewrite (with_headers_id _ _ H). destruct G as (_ & _ & F). destruct (r_ctype s) as [|c l] eqn:C.
    + exists (bs "text/html; charset=utf-8"), []. split; [now apply one_line_bs_dec|]. split; [|split; [constructor|reflexivity]].
      destruct s. cbn in *. now subst.
    + inversion_clear F. exists c, l. split; [assumption|]. split; [reflexivity|split; [assumption|reflexivity]].
Qed.

(** ** Heads *)
Lemma join_crlf v : v <> [] -> join CRLF v ++ CRLF = concat (map (fun l => l ++ CRLF) v).
Proof.
  induction v as [|x v IH]; intros N; [easy|]. destruct v as [|y v].
  - cbn. now rewrite app_nil_r.
  - rewrite join_cons by easy. specialize (IH ltac:(easy)). set (w := y :: v) in *. cbn [map concat].
    rewrite <- IH. now rewrite <- !app_assoc.
Qed.
Lemma join_lines_concat vs : vs <> [] -> Forall (fun v => v <> []) vs ->
  join_lines vs ++ CRLF = concat (map (fun l => l ++ CRLF) (concat vs)).
Proof.
  intros N F. unfold join_lines. rewrite join_crlf by (now destruct vs).
  clear N. induction F as [|v vs Hv F IH]; [reflexivity|]. cbn [map concat]. rewrite IH, join_crlf by exact Hv.
  now rewrite map_app, concat_app.
Qed.
Lemma join_lines_head first vs : vs <> [] -> Forall (fun v => v <> []) vs ->
  first ++ CRLF ++ join_lines vs ++ CRLF ++ CRLF = head_of (first :: concat vs).
Proof.
  intros N F. unfold head_of. cbn [map concat]. rewrite <- join_lines_concat by assumption. now rewrite <- !app_assoc.
Qed.

Lemma head_of_app a b : head_of (a ++ b) = concat (map (fun l => l ++ CRLF) a) ++ head_of b.
Proof. unfold head_of. now rewrite map_app, concat_app, app_assoc. Qed.

(** The end of a head is where a client looks for it. *)
Lemma head_find lines rest : lines <> [] -> Forall (fun l => l <> [] /\ one_line l) lines ->
  exists n, find (CRLF ++ CRLF) (head_of lines ++ rest) = Some n /\ n + 4 = List.length (head_of lines).
Proof.
  induction lines as [|l lines IH]; intros N F; [easy|]. clear N.
  inversion_clear F as [|? ? [Hl Ho] F']. rename F' into F.
  assert (forall tl j, j < List.length l -> startswith (CRLF ++ CRLF) (skipn j (l ++ CRLF ++ tl)) = false) as Before.
  { intros tl j Hj. destruct (startswith _ _) eqn:E; [|reflexivity]. exfalso.
    pose proof (find_crlf_line l tl Ho) as Fd. apply find_some in Fd as (_ & _ & Fd).
    apply startswith_spec in E as (r & E). rewrite <- app_assoc in E.
    specialize (Fd j Hj). rewrite E, startswith_app in Fd. discriminate. }
  destruct lines as [|l2 lines].
  - exists (List.length l). split.
    + unfold head_of. cbn [map concat]. rewrite app_nil_r. rewrite <- !app_assoc. apply find_intro.
      * rewrite skipn_app, skipn_all, Nat.sub_diag. apply (startswith_app (CRLF ++ CRLF) rest).
      * rewrite !app_length. lia.
      * apply Before.
    + unfold head_of. cbn [map concat]. rewrite !app_length. cbn. lia.
  - destruct (IH ltac:(easy) F) as (n & Fn & Ln).
    assert (l2 <> []) as N2 by (inversion F; tauto).
    change (head_of (l :: l2 :: lines)) with (head_of ([l] ++ l2 :: lines)). rewrite head_of_app. cbn [map concat].
    rewrite app_nil_r, <- !app_assoc. set (R := head_of (l2 :: lines) ++ rest) in *.
    exists (List.length l + 2 + n). split; [|rewrite !app_length; cbn [List.length CRLF]; lia].
    apply find_some in Fn as (F1 & F2 & F3). apply find_intro.
    + replace (List.length l + 2 + n) with (List.length (l ++ CRLF) + n) by (rewrite app_length; cbn; lia).
      rewrite app_assoc, skipn_add, skipn_app, skipn_all, Nat.sub_diag. exact F2.
    + rewrite !app_length. cbn [List.length CRLF]. lia.
    + intros j Hj. destruct (Nat.lt_ge_cases j (List.length l)) as [C|C]; [now apply Before|].
      destruct (Nat.eq_dec j (List.length l)) as [->|C2].
      * rewrite skipn_app, skipn_all, Nat.sub_diag. cbn [skipn app].
        unfold R, head_of. cbn [map concat]. inversion_clear F as [|? ? [_ O2] _]. destruct l2 as [|c l2]; [easy|].
        cbn [app CRLF startswith]. rewrite Ascii.eqb_refl. cbn [andb].
        destruct (Ascii.eqb LF LF); [|reflexivity]. cbn [andb].
        destruct (Ascii.eqb CR c) eqn:E; [|reflexivity]. cbn [andb].
        destruct l2 as [|c2 l2]; cbn [app]; [reflexivity|].
        destruct (Ascii.eqb LF c2) eqn:E2; [|reflexivity]. apply Ascii.eqb_eq in E2 as <-. destruct O2. right. now left.
      * destruct (Nat.eq_dec j (S (List.length l))) as [->|C3].
        -- replace (S (List.length l)) with (List.length l + 1) by lia. rewrite skipn_add, skipn_app, skipn_all, Nat.sub_diag. reflexivity.
        -- replace j with (List.length (l ++ CRLF) + (j - List.length l - 2)) by (rewrite app_length; cbn; lia).
           rewrite app_assoc, skipn_add, skipn_app, skipn_all, Nat.sub_diag. apply F3. lia.
Qed.
Lemma head_client lines rest : lines <> [] -> Forall (fun l => l <> [] /\ one_line l) lines ->
  client_body (head_of lines ++ rest) = Some rest.
Proof.
  intros N F. destruct (head_find lines rest N F) as (n & E & L). unfold client_body. rewrite E, L.
  now rewrite skipn_app, skipn_all, Nat.sub_diag.
Qed.
End WithN.
