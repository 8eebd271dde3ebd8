(** Header calls and the lines they make, name by name. *)
From Verif Require Import PyBytes PyBytesFacts PyDictFacts PyInt PyExn PyUrl M_Response S_Response S_Calls P_Response P_Response2 P_Response3 P_Response4 P_Response5 P_Response6.

Definition at_key (key : bytes) (s : rsp) : list bytes := match lines_at key s with Some l => l | None => [] end.
Lemma at_get key s d : r_headers s = Some d -> at_key key s = match hget key d with Some l => l | None => [] end.
Proof. intros H. unfold at_key, lines_at. now rewrite H. Qed.

Lemma said_hop e key h s : ~ In key added -> key <> k_line -> r_headers s <> None ->
  at_key key (snd (do_hop e h s)) = said key [h] (at_key key s).
Proof.
  intros N NL Hs. destruct (r_headers s) as [d|] eqn:H; [|easy].
  assert (~ In key (names h) -> at_key key (snd (do_hop e h s)) = at_key key s) as K.
  { intros I. unfold at_key. rewrite do_hop_at; [reflexivity|exact I|exact NL|]. intros ->. apply N. cbn. tauto. }
  destruct h as [n v|n v|n v dt x p dm ss se ho|z m|c|]; cbn [said]; try solve [apply K; intros []].
  - destruct (beqb (lower n) key) eqn:E; cbn [andb].
    + apply beqb_eq in E as <-. cbn [do_hop]. unfold set_header. destruct (memb LF n || memb LF v); [reflexivity|]. cbn [negb].
      unfold seq, get_headers. rewrite H. cbn [snd put_headers update]. unfold at_key, lines_at. cbn [with_headers r_headers]. unfold hget, hset. now rewrite dget_dset_same.
    + apply K. cbn [names In]. apply beqb_neq in E. intuition.
  - destruct (beqb (lower n) key) eqn:E.
    + apply beqb_eq in E as <-. cbn [do_hop]. unfold append_header, seq, get_headers. rewrite H. cbn [snd put_headers update]. unfold at_key, lines_at. cbn [with_headers r_headers].
      rewrite H. unfold hget, hset. destruct (dget beqb (lower n) d); now rewrite dget_dset_same.
    + apply K. cbn [names In]. apply beqb_neq in E. intuition.
  - cbv zeta. destruct (beqb (bs "set-cookie") key) eqn:E; cbn [andb].
    + apply beqb_eq in E as <-. cbn [do_hop]. unfold set_cookie. destruct (memb LF _); [reflexivity|]. cbn [negb].
      unfold append_header, seq, get_headers. rewrite H. cbn [snd put_headers update]. unfold at_key, lines_at. cbn [with_headers r_headers].
      rewrite H. change (lower (bs "Set-Cookie")) with (bs "set-cookie"). unfold hget, hset. destruct (dget beqb (bs "set-cookie") d); now rewrite dget_dset_same.
    + apply K. cbn [names In]. apply beqb_neq in E. intuition.
  - apply K. cbn [names In]. intros [X|[X|[]]]; apply N; rewrite <- X; cbn; tauto.
Qed.
Lemma said_app key a b now : said key (a ++ b) now = said key b (said key a now).
Proof. revert now. induction a as [|h a IH]; intros now; [reflexivity|]. cbn [app said]. apply IH. Qed.
Lemma said_hops e key ops : ~ In key added -> key <> k_line -> forall s, r_headers s <> None -> at_key key (do_hops e ops s) = said key ops (at_key key s).
Proof.
  intros N NL. induction ops as [|h ops IH]; intros s H; [reflexivity|]. cbn [do_hops]. rewrite IH.
  - rewrite (said_hop e key h s N NL H). now rewrite <- said_app.
  - pose proof (do_hop_io e h s) as (_ & _ & _ & _ & _ & X). unfold headers_sent in X. destruct (r_headers s); [|easy]. now destruct (r_headers (snd (do_hop e h s))).
Qed.
(** A name that no call uses. *)
Lemma said_none key ops : Forall (fun h => ~ In key (names h)) ops -> said key ops [] = [].
Proof.
  assert (forall now, Forall (fun h => ~ In key (names h)) ops -> said key ops now = now) as K; [|apply K].
  induction ops as [|h ops IH]; intros now F; [reflexivity|]. inversion_clear F as [|? ? A B]. cbn [said]. rewrite IH by exact B.
  destruct h; cbn [names In] in A; try reflexivity.
  - rewrite (proj2 (beqb_neq _ _)) by intuition. reflexivity.
  - rewrite (proj2 (beqb_neq _ _)) by intuition. reflexivity.
  - rewrite (proj2 (beqb_neq _ _)) by intuition. reflexivity.
Qed.

(** The lines of a dict of header lines. *)
Lemma named_lines (Nm : Prop) key d : Nm -> good (P1 Nm) d -> hmem k_line d = false -> lines_named key (lines_of d) = match hget key d with Some l => l | None => [] end.
Proof.
  intros HN [ND G]. unfold hget, hmem, dmem, lines_named, lines_of. induction d as [|[k l] d IH]; intros M; [reflexivity|]. cbn [map fst] in ND. inversion_clear ND as [|? ? Nk ND'].
  cbn [dget] in M |- *. cbn [map snd List.concat]. rewrite filter_app. destruct (beqb k_line k) eqn:E0; [discriminate|]. apply beqb_neq in E0.
  specialize (IH ND' (fun k0 l0 I => G k0 l0 (or_intror I)) M). rewrite IH.
  destruct (G k l (or_introl eq_refl)) as [_ F].
  assert (filter (fun x => beqb (field_name x) key) l = if beqb key k then l else []) as ->.
  { clear -F E0 HN. induction F as [|x l [_ P] F IH]; [now destruct (beqb key k)|]. cbn [filter]. rewrite IH. rewrite (field_name_named k x (P HN ltac:(congruence))), (beqb_sym k key). now destruct (beqb key k). }
  destruct (beqb key k) eqn:E; [|reflexivity]. apply beqb_eq in E as ->.
  destruct (dget beqb k d) as [l'|] eqn:D; [|apply app_nil_r]. apply dget_some_in in D. exfalso. apply Nk. apply in_map_iff. now exists (k, l').
Qed.
Lemma named_lines_del (Nm : Prop) key d : Nm -> good (P1 Nm) d -> key <> k_line -> lines_named key (lines_of (hdel k_line d)) = match hget key d with Some l => l | None => [] end.
Proof.
  intros HN G N. rewrite (named_lines Nm); [|exact HN|now apply good_del|].
  - unfold hget, hdel. rewrite dget_ddel by apply G. apply beqb_neq in N. now rewrite N.
  - unfold hmem, dmem, hdel. rewrite dget_ddel by apply G. now rewrite beqb_refl.
Qed.
