(** Checkers, for the examples. *)
From Verif Require Import PyBytes PyBytesFacts PyInt PyExn M_Parser M_Framing M_Conn S_Conn P_Conn2.

Definition at_each {A} (tr : list cev) (f : list cev -> cev -> list cev -> A) : list A :=
  map (fun n => f (firstn n tr) (nth n tr Abort) (skipn (S n) tr)) (seq 0 (List.length tr)).
Lemma at_each_in {A} tr (f : list cev -> cev -> list cev -> A) pre e post : tr = pre ++ e :: post -> In (f pre e post) (at_each tr f).
Proof.
  intros ->. unfold at_each. apply in_map_iff. exists (List.length pre). split.
  - rewrite firstn_app, Nat.sub_diag, firstn_all, app_nil_r. rewrite app_nth2, Nat.sub_diag by lia. cbn [nth]. rewrite skipn_app, skipn_all2 by lia. replace (S (List.length pre) - List.length pre) with 1 by lia. reflexivity.
  - apply in_seq. rewrite app_length. cbn [List.length]. lia.
Qed.
Definition prefix_b (a b : bytes) : bool := startswith a b.
Lemma prefix_b_ok a b : prefix_b a b = true -> is_prefix a b.
Proof. intros H. apply startswith_spec in H as (r & ->). now exists r. Qed.

Definition waits_b (o : copts) (M : list msg) (tr : list cev) : bool :=
  forallb id (at_each tr (fun pre e _ => match e, conn_run o conn_new pre with
    | Data d, Some (_, b) => existsb (fun j => prefix_b (input pre ++ d) (upto_msg M j) && (j <=? S (ended b))) (seq 0 (S (List.length M))) | _, _ => true end)).
Lemma waits_b_ok o M tr : waits_b o M tr = true -> client_waits o M tr.
Proof.
  intros H pre d post s b E R. apply (at_each_in tr (fun pre e _ => match e, conn_run o conn_new pre with
    | Data d, Some (_, b) => existsb (fun j => prefix_b (input pre ++ d) (upto_msg M j) && (j <=? S (ended b))) (seq 0 (S (List.length M))) | _, _ => true end)) in E.
  apply (proj1 (forallb_forall _ _) H) in E. unfold id in E. rewrite R in E. apply existsb_exists in E as (j & _ & E). apply andb_prop in E as [E1 E2]. exists j. split; [now apply prefix_b_ok|now apply Nat.leb_le].
Qed.
Definition pipes_b (o : copts) (M : list msg) (tr : list cev) : bool :=
  forallb id (at_each tr (fun pre e _ => match e, conn_run o conn_new pre with
    | Data d, Some (_, b) => existsb (fun j => prefix_b (input pre ++ d) (upto_msg M j) && forallb (fun i => match nth_error M i with Some m => negb (m_has m) | None => true end) (seq (ended b) (j - 1 - ended b))) (seq 0 (S (List.length M))) | _, _ => true end)).
Lemma pipes_b_ok o M tr : pipes_b o M tr = true -> client_ok o M tr.
Proof.
  intros H pre d post s b E R. apply (at_each_in tr (fun pre e _ => match e, conn_run o conn_new pre with
    | Data d, Some (_, b) => existsb (fun j => prefix_b (input pre ++ d) (upto_msg M j) && forallb (fun i => match nth_error M i with Some m => negb (m_has m) | None => true end) (seq (ended b) (j - 1 - ended b))) (seq 0 (S (List.length M))) | _, _ => true end)) in E.
  apply (proj1 (forallb_forall _ _) H) in E. unfold id in E. rewrite R in E. apply existsb_exists in E as (j & _ & E). apply andb_prop in E as [E1 E2]. exists j. split; [now apply prefix_b_ok|].
  intros i m L1 L2 Em. assert (In i (seq (ended b) (j - 1 - ended b))) as Hi by (apply in_seq; lia). apply (proj1 (forallb_forall _ _) E2) in Hi. rewrite Em in Hi. now apply negb_true_iff.
Qed.
Definition settled_b (o : copts) (tr : list cev) : bool :=
  forallb id (at_each tr (fun pre e _ => match e, conn_run o conn_new pre with
    | RunSend k, Some (s, _) => match conn_step o s (RunSend k) with Some (_, bx) => negb (existsb (fun x => match x with Ended => true | _ => false end) bx) || forallb (fun t => match t with ROver => true | _ => false end) (c_rcv s) | None => true end | _, _ => true end)).
Lemma settled_b_ok o tr : settled_b o tr = true -> settled o tr.
Proof.
  intros H pre kicked post s b s' bx E R St Hen. apply (at_each_in tr (fun pre e _ => match e, conn_run o conn_new pre with
    | RunSend k, Some (s, _) => match conn_step o s (RunSend k) with Some (_, bx) => negb (existsb (fun x => match x with Ended => true | _ => false end) bx) || forallb (fun t => match t with ROver => true | _ => false end) (c_rcv s) | None => true end | _, _ => true end)) in E.
  apply (proj1 (forallb_forall _ _) H) in E. unfold id in E. rewrite R, St in E. assert (existsb (fun x => match x with Ended => true | _ => false end) bx = true) as X by (apply existsb_exists; exists Ended; split; [exact Hen|reflexivity]). rewrite X in E. cbn [negb orb] in E. apply Forall_forall. intros t Ht. apply (proj1 (forallb_forall _ _) E) in Ht. now destruct t.
Qed.
Lemma settled_calm o M tr : settled o tr -> calm o M tr.
Proof. intros H pre kicked post s b s' bx m E R St Hen _ _ _. now apply (H pre kicked post s b s' bx). Qed.
Definition calm_b (o : copts) (M : list msg) (tr : list cev) : bool :=
  forallb id (at_each tr (fun pre e _ => match e, conn_run o conn_new pre with
    | RunSend k, Some (s, b) => match conn_step o s (RunSend k) with
        | Some (_, bx) => negb (existsb (fun x => match x with Ended => true | _ => false end) bx) || match nth_error M (ended b) with Some m => negb (m_has m) || counted m | None => true end || forallb (fun t => match t with ROver => true | _ => false end) (c_rcv s)
        | None => true end | _, _ => true end)).
Lemma calm_b_ok o M tr : calm_b o M tr = true -> calm o M tr.
Proof.
  intros H pre kicked post s b s' bx m E R St Hen Em Hm Cm. apply (at_each_in tr (fun pre e _ => match e, conn_run o conn_new pre with
    | RunSend k, Some (s, b) => match conn_step o s (RunSend k) with
        | Some (_, bx) => negb (existsb (fun x => match x with Ended => true | _ => false end) bx) || match nth_error M (ended b) with Some m => negb (m_has m) || counted m | None => true end || forallb (fun t => match t with ROver => true | _ => false end) (c_rcv s)
        | None => true end | _, _ => true end)) in E.
  apply (proj1 (forallb_forall _ _) H) in E. unfold id in E. rewrite R, St, Em, Hm, Cm in E. assert (existsb (fun x => match x with Ended => true | _ => false end) bx = true) as X by (apply existsb_exists; exists Ended; split; [exact Hen|reflexivity]). rewrite X in E. cbn [negb orb] in E. apply Forall_forall. intros t Ht. apply (proj1 (forallb_forall _ _) E) in Ht. now destruct t.
Qed.
(** Nothing to say about requests without chunked bodies. *)
Lemma counted_calm o M tr : Forall (fun m => m_has m = true -> counted m = true) M -> calm o M tr.
Proof. intros H pre kicked post s b s' bx m _ _ _ _ Em Hm Cm. apply nth_error_In in Em. pose proof (proj1 (Forall_forall _ _) H m Em Hm). congruence. Qed.
Definition counted_b (M : list msg) : bool := forallb (fun m => negb (m_has m) || counted m) M.
Lemma counted_b_ok o M tr : counted_b M = true -> calm o M tr.
Proof. intros H. apply counted_calm, Forall_forall. intros m Hm X. apply (proj1 (forallb_forall _ _) H) in Hm. now rewrite X in Hm. Qed.
Fixpoint nodup_b (l : list nat) : bool := match l with [] => true | x :: l' => negb (existsb (Nat.eqb x) l') && nodup_b l' end.
Lemma nodup_b_ok l : nodup_b l = true -> NoDup l.
Proof.
  induction l as [|x l IH]; intros H; constructor; cbn in H; apply andb_prop in H as [H1 H2]; [|now apply IH]. intros Hi. apply negb_true_iff in H1. rewrite <- not_true_iff_false in H1. apply H1. apply existsb_exists. exists x. split; [exact Hi|apply Nat.eqb_refl].
Qed.
Definition read_all_b (i : nat) (m : msg) (b : list obs) : bool := if counted m then existsb (fun x => match x with Got j None => (i =? j)%nat | _ => false end) b else beqb (got i b) (m_body m).
Lemma read_all_b_ok i m b : read_all_b i m b = true -> read_all i m b.
Proof.
  unfold read_all_b, read_all. destruct (counted m); [|now intros H; apply beqb_eq]. intros E. apply existsb_exists in E as (x & Hx & E). destruct x as [| j [|] | | |]; try discriminate. apply Nat.eqb_eq in E. now subst j.
Qed.
Definition handlers_b (o : copts) (M : list msg) (tr : list cev) : bool :=
  nodup_b (closers tr) &&
  forallb id (at_each tr (fun pre e _ => match e, conn_run o conn_new pre with
    | HClose i _, Some (_, b) => match nth_error M i with Some m => negb (m_has m) || read_all_b i m b | None => true end | _, _ => true end)) &&
  forallb id (at_each tr (fun pre e _ => match e, conn_run o conn_new pre with
    | HRead i, Some (_, b) | HContinue i, Some (_, b) => negb (existsb (Nat.eqb i) (askers pre)) || match nth_error M i with Some m => negb (expects m) || existsb (fun x => match x with Interim j => (i =? j)%nat | _ => false end) b | None => true end
    | _, _ => true end)) &&
  forallb id (at_each tr (fun pre e _ => match e, conn_run o conn_new pre with
    | HTake i, Some (_, b) => match nth_error M i with Some m => if m_has m then counted m || negb (beqb (got i b) (m_body m)) else ((ended b <=? i)%nat && negb (existsb (fun x => match x with Got j (Some []) => (i =? j)%nat | _ => false end) b)) | None => true end
    | HUpgrade _, _ => false | _, _ => true end)).
Lemma handlers_b_ok o M tr : handlers_b o M tr = true -> handlers_ok o M tr.
Proof.
  intros H. apply andb_prop in H as [H H3]. apply andb_prop in H as [H H4]. apply andb_prop in H as [H1 H2]. split; [now apply nodup_b_ok|]. split; [|split; [|split]].
  - intros pre i keep post s b m E R Em Cm. apply (at_each_in tr (fun pre e _ => match e, conn_run o conn_new pre with
      | HClose i _, Some (_, b) => match nth_error M i with Some m => negb (m_has m) || read_all_b i m b | None => true end | _, _ => true end)) in E.
    apply (proj1 (forallb_forall _ _) H2) in E. unfold id in E. rewrite R, Em, Cm in E. cbn [negb orb] in E. now apply read_all_b_ok.
  - intros pre i post s b m E R Em. apply (at_each_in tr (fun pre e _ => match e, conn_run o conn_new pre with
    | HTake i, Some (_, b) => match nth_error M i with Some m => if m_has m then counted m || negb (beqb (got i b) (m_body m)) else ((ended b <=? i)%nat && negb (existsb (fun x => match x with Got j (Some []) => (i =? j)%nat | _ => false end) b)) | None => true end
    | HUpgrade _, _ => false | _, _ => true end)) in E.
    apply (proj1 (forallb_forall _ _) H3) in E. unfold id in E. rewrite R, Em in E. destruct (m_has m); [apply orb_prop in E as [E|E]; [now left|right]; intros X; apply negb_true_iff in E; rewrite X in E; assert (beqb (m_body m) (m_body m) = true) as Y by (now apply beqb_eq); congruence|]. apply andb_prop in E as [E1 E2]. split; [now apply Nat.leb_le|]. intros Hi. apply negb_true_iff in E2.
    assert (existsb (fun x => match x with Got j (Some []) => (i =? j)%nat | _ => false end) b = true) as X by (apply existsb_exists; exists (Got i (Some [])); split; [exact Hi|apply Nat.eqb_refl]). congruence.
  - intros i Hi. apply in_split in Hi as (pre & post & E). apply (at_each_in tr (fun pre e _ => match e, conn_run o conn_new pre with
    | HTake i, Some (_, b) => match nth_error M i with Some m => if m_has m then counted m || negb (beqb (got i b) (m_body m)) else ((ended b <=? i)%nat && negb (existsb (fun x => match x with Got j (Some []) => (i =? j)%nat | _ => false end) b)) | None => true end
    | HUpgrade _, _ => false | _, _ => true end)) in E.
    apply (proj1 (forallb_forall _ _) H3) in E. discriminate.
  - intros pre e i post s b m E R He Ha Em Hx. apply (at_each_in tr (fun pre e _ => match e, conn_run o conn_new pre with
    | HRead i, Some (_, b) | HContinue i, Some (_, b) => negb (existsb (Nat.eqb i) (askers pre)) || match nth_error M i with Some m => negb (expects m) || existsb (fun x => match x with Interim j => (i =? j)%nat | _ => false end) b | None => true end
    | _, _ => true end)) in E.
    apply (proj1 (forallb_forall _ _) H4) in E. unfold id in E. rewrite R in E. assert (existsb (Nat.eqb i) (askers pre) = true) as X by (apply existsb_exists; exists i; split; [exact Ha|apply Nat.eqb_refl]).
    assert (existsb (fun x => match x with Interim j => (i =? j)%nat | _ => false end) b = true) as Y by (destruct He as [-> | ->]; rewrite X, Em, Hx in E; exact E).
    apply existsb_exists in Y as (x & Hi & Y). destruct x; try discriminate. apply Nat.eqb_eq in Y. now subst.
Qed.
Definition msg_b (o : copts) (m : msg) : bool :=
  match find (CRLF ++ CRLF) (m_head m) with
  | Some p => (List.length (m_head m) =? p + 4)%nat && (Z.of_nat p + 2 <=? o_head o)%Z &&
      match frame_head (m_head m) (Z.of_nat p + 2) with
      | Framed r => (if m_has m then if hmem k_content_length (rq_headers r) then (rq_content_length r =? blen (m_body m))%Z else has_body r && match m_body m with [] => false | _ => true end else negb (has_body r) && match m_body m with [] => true | _ => false end)
      | _ => false
      end
  | None => false
  end.
Lemma msg_b_ok o m : msg_b o m = true -> msg_ok o m.
Proof.
  unfold msg_b, msg_ok. destruct (find (CRLF ++ CRLF) (m_head m)) as [p|]; [|discriminate]. intros H. apply andb_prop in H as [H H3]. apply andb_prop in H as [H1 H2]. destruct (frame_head (m_head m) (Z.of_nat p + 2)) as [| | |r] eqn:F; try discriminate. rename H3 into H4.
  exists p, r. apply Nat.eqb_eq in H1. apply Z.leb_le in H2. repeat split; try assumption. destruct (m_has m); [destruct (hmem k_content_length (rq_headers r)); [now apply Z.eqb_eq|]|]; apply andb_prop in H4 as [H4 H5].
  - split; [exact H4|]. now destruct (m_body m).
  - split; [now apply negb_true_iff|]. now destruct (m_body m).
Qed.
Lemma msgs_b_ok o M : forallb (msg_b o) M = true -> Forall (msg_ok o) M.
Proof. intros H. apply Forall_forall. intros m Hm. apply msg_b_ok. now apply (proj1 (forallb_forall _ _) H). Qed.
Definition tidy_b (tr : list cev) : bool := forallb id (at_each tr (fun pre e _ => match e with HPut i _ => negb (existsb (Nat.eqb i) (closers pre)) | _ => true end)).
Lemma tidy_b_ok tr : tidy_b tr = true -> tidy tr.
Proof.
  intros H pre i d post E. apply (at_each_in tr (fun pre e _ => match e with HPut i _ => negb (existsb (Nat.eqb i) (closers pre)) | _ => true end)) in E. apply (proj1 (forallb_forall _ _) H) in E. unfold id in E. apply negb_true_iff in E.
  intros Hi. assert (existsb (Nat.eqb i) (closers pre) = true) as X by (apply existsb_exists; exists i; split; [exact Hi|apply Nat.eqb_refl]). congruence.
Qed.
Definition idle_b (s : conn) : bool :=
  forallb (fun t => match t with HOver => true | _ => false end) (c_hrs s) && forallb (fun t => match t with ROver => true | _ => false end) (c_rcv s) && match c_q1 s with [] => true | _ => false end.
Lemma idle_b_ok o s : idle_b s = true -> idle o s.
Proof.
  intros H. apply andb_prop in H as [H H3]. apply andb_prop in H as [H1 H2]. split; [|split].
  - intros j. unfold conn_step. destruct (c_lost s); [reflexivity|]. destruct (nth_error (c_hrs s) j) as [t|] eqn:E; [|reflexivity]. apply nth_error_In in E. apply (proj1 (forallb_forall _ _) H1) in E. now destruct t.
  - intros j. unfold conn_step. destruct (c_lost s); [reflexivity|]. destruct (nth_error (c_rcv s) j) as [t|] eqn:E; [|reflexivity]. apply nth_error_In in E. apply (proj1 (forallb_forall _ _) H2) in E. now destruct t.
  - intros kicked. unfold conn_step, run_send. destruct (c_lost s); [reflexivity|]. destruct (c_sending s); [|reflexivity]. now destruct (c_q1 s).
Qed.
