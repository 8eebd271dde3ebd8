From Verif Require Import PyBytes PyBytesFacts PyDictFacts PyInt PyIntFacts PyExn PyUrl M_Response S_Response.

(** ** Stored headers *)
Definition good (P : bytes -> bytes -> Prop) (d : hdict) : Prop :=
  NoDup (map fst d) /\ forall k l, In (k, l) d -> l <> [] /\ Forall (P k) l.

Lemma good_nil P : good P [].
Proof. split; [constructor|easy]. Qed.
Lemma good_set P k l d : good P d -> l <> [] -> Forall (P k) l -> good P (hset k l d).
Proof.
  intros [ND G] N F. split; [now apply dset_nodup|]. intros k' l' I.
  apply dset_in in I as [[= -> ->]|I]; auto.
Qed.
Lemma good_del P k d : good P d -> good P (hdel k d).
Proof. intros [ND G]. split; [now apply ddel_nodup|]. intros k' l' I. apply ddel_in in I. auto. Qed.
Lemma good_get P k l d : good P d -> hget k d = Some l -> l <> [] /\ Forall (P k) l.
Proof. intros [_ G] H. apply G. now apply dget_some_in. Qed.

Definition goodS (P : bytes -> bytes -> Prop) (s : rsp) : Prop :=
  (forall d, r_headers s = Some d -> good P d) /\
  Forall (fun x => one_line (snd x)) (r_status s) /\ Forall one_line (r_ctype s).

(** What a header call must satisfy for [P] to hold of the lines it stores. *)
Definition hop_P (P : bytes -> bytes -> Prop) (e : renv) (h : hop) : Prop :=
  match h with
  | HSet n v => one_line n -> one_line v -> P (lower n) (header_line n v)
  | HAppend n v => P (lower n) (header_line n v)
  | HCookie n v dt x p dm ss se ho =>
      let c := cookie_text n v dt x p dm ss se ho in
      one_line c -> P (bs "set-cookie") (header_line (bs "Set-Cookie") c)
  | HStatus z m => one_line m -> P k_line (fmt_d z) /\ P k_line m
  | HCtype c => one_line c -> P k_ctype (bs "Content-Type: " ++ c)
  | HBase => (one_line (e_date e) -> P (bs "date") (header_line (bs "Date") (e_date e))) /\
             (one_line (e_server e) -> P (bs "server") (header_line (bs "Server") (e_server e)))
  end.

Lemma list_set_forall {A} (Q : A -> Prop) l : forall i x l', list_set l i x = Some l' -> Forall Q l -> Q x -> Forall Q l' /\ l' <> [].
Proof.
  induction l as [|y l IH]; intros [|i] x l' E F HQ; cbn [list_set] in E; try easy.
  - injection E as <-. inversion_clear F. split; [now constructor|easy].
  - destruct (list_set l i x) as [l2|] eqn:L; [|easy]. injection E as <-. inversion_clear F.
    destruct (IH _ _ _ L H0 HQ). split; [now constructor|easy].
Qed.

Lemma goodS_with_headers (P : bytes -> bytes -> Prop) s d : goodS P s -> good P d -> goodS P (with_headers s d).
Proof. intros (A & B & C) G. split; [|split; assumption]. intros d' E. injection E as <-. exact G. Qed.

Lemma append_good (P : bytes -> bytes -> Prop) n v s : P (lower n) (header_line n v) -> goodS P s -> goodS P (snd (append_header n v s)).
Proof.
  intros HP G. unfold append_header, seq, get_headers. destruct (r_headers s) as [d|] eqn:H; [|exact G].
  assert (good P d) as GD by (apply G; exact H). cbn -[hget hset].
  destruct (hget (lower n) d) as [l|] eqn:HG; apply goodS_with_headers; try exact G; apply good_set; try exact GD; try easy.
  - now destruct l.
  - apply Forall_app. split; [exact (proj2 (good_get _ _ _ _ GD HG))|]. now constructor.
  - now constructor.
Qed.
Lemma lf_or a b : memb LF a || memb LF b = false -> one_line a /\ one_line b.
Proof. intros E. apply orb_false_iff in E as [A B]. now split; apply memb_notIn. Qed.
Lemma set_good (P : bytes -> bytes -> Prop) n v s : (one_line n -> one_line v -> P (lower n) (header_line n v)) -> goodS P s -> goodS P (snd (set_header n v s)).
Proof.
  intros HP G. unfold set_header. destruct (memb LF n || memb LF v) eqn:E; [exact G|].
  apply lf_or in E as [E1 E2]. unfold seq, get_headers. destruct (r_headers s) as [d|] eqn:H; [|exact G].
  apply goodS_with_headers; [exact G|]. apply good_set; [apply G; exact H|easy|]. constructor; [auto|constructor].
Qed.

Lemma seq_snd {A B} (Q : rsp -> Prop) (m : call A) (f : A -> call B) s :
  Q (snd (m s)) -> (forall a s', Q s' -> Q (snd (f a s'))) -> Q (snd (seq m f s)).
Proof. unfold seq. destruct (m s) as [[a|x] s']; cbn [snd]; auto. Qed.

Lemma do_hop_good (P : bytes -> bytes -> Prop) e h s : hop_P P e h -> goodS P s -> goodS P (snd (do_hop e h s)).
Proof.
  intros HP G. destruct h as [n v|n v|n v dt x p dm ss se ho|z m|c|]; cbn [do_hop hop_P] in *.
  - now apply set_good.
  - now apply append_good.
  - unfold set_cookie. destruct (memb LF _) eqn:E; [exact G|]. apply append_good; [|exact G].
    apply HP. now apply memb_notIn.
  - unfold set_status. destruct (memb LF m) eqn:E; [exact G|]. apply memb_notIn in E. destruct (HP E) as [P1 P2].
    unfold seq at 1. unfold get_headers. destruct (r_headers s) as [d|] eqn:H; [|exact G].
    assert (good P d) as GD by (apply G; exact H).
    destruct (hget k_line d) as [l|] eqn:HG.
    + pose proof (good_get _ _ _ _ GD HG) as [_ F].
      destruct (list_set l 1 (fmt_d z)) as [l1|] eqn:L1; [|exact G].
      destruct (list_set_forall _ _ _ _ _ L1 F P1) as [F1 N1].
      destruct (list_set l1 2 m) as [l2|] eqn:L2.
      * destruct (list_set_forall _ _ _ _ _ L2 F1 P2) as [F2 N2]. apply goodS_with_headers; [exact G|]. now apply good_set.
      * apply goodS_with_headers; [exact G|]. now apply good_set.
    + destruct G as (A & B & C). split; [exact A|]. split; [|exact C]. cbn [snd update with_status r_status]. constructor; [exact E|exact B].
  - unfold set_content_type. destruct (memb LF c) eqn:E; [exact G|]. apply memb_notIn in E. pose proof (HP E) as HP'.
    unfold seq, get_headers. destruct (r_headers s) as [d|] eqn:H; [|exact G].
    destruct (hmem k_ctype d).
    + apply goodS_with_headers; [exact G|]. apply good_set; [apply G; exact H|easy|]. constructor; [exact HP'|constructor].
    + destruct G as (A & B & C). split; [exact A|]. split; [exact B|]. cbn [snd update with_ctype r_ctype]. constructor; [exact E|exact C].
  - unfold set_base_header. destruct (r_headers s) as [[|? ?]|] eqn:H; [|exact G|exact G].
    destruct HP as [P1 P2]. apply seq_snd; [|intros _ s' G']; apply set_good; auto.
Qed.

Lemma do_hops_good (P : bytes -> bytes -> Prop) e ops : forall s, Forall (hop_P P e) ops -> goodS P s -> goodS P (do_hops e ops s).
Proof.
  induction ops as [|h ops IH]; intros s F G; cbn [do_hops]; [exact G|]. inversion_clear F.
  apply IH; [assumption|]. now apply do_hop_good.
Qed.
Lemma goodS_new (P : bytes -> bytes -> Prop) keep : goodS P (new_rsp keep).
Proof. split; [|split; constructor]. intros d E. injection E as <-. apply good_nil. Qed.
