From Verif Require Import PyBytes PyBytesFacts PyDictFacts PyInt PyExn M_Utils S_Utils.
From Coq Require Import ZifyBool ZifyNat ZifyN Sorting.Sorted.

(** ** html_escape *)
Definition esc1 (c : byte) : bytes :=
  if Ascii.eqb c "&" then bs "&amp;" else if Ascii.eqb c "<" then bs "&lt;" else if Ascii.eqb c ">" then bs "&gt;"
  else if Ascii.eqb c """" then bs "&quot;" else [c].
Definition esc1s (c : byte) : bytes := if Ascii.eqb c "'" then bs "&#x27;" else esc1 c.
Lemma escape_cons c l : html_escape (c :: l) = esc1 c ++ html_escape l.
Proof.
  unfold html_escape, bs. cbn [list_ascii_of_string]. rewrite !replace1_flat_map. cbn [flat_map]. rewrite !flat_map_app. f_equal. unfold esc1.
  rewrite (Ascii.eqb_sym "&" c). destruct (Ascii.eqb c "&"); [reflexivity|]. cbn [flat_map]. rewrite !app_nil_r.
  rewrite (Ascii.eqb_sym "<" c). destruct (Ascii.eqb c "<"); [reflexivity|]. cbn [flat_map]. rewrite !app_nil_r.
  rewrite (Ascii.eqb_sym ">" c). destruct (Ascii.eqb c ">"); [reflexivity|]. cbn [flat_map]. rewrite !app_nil_r.
  rewrite (Ascii.eqb_sym """" c). destruct (Ascii.eqb c """"); reflexivity.
Qed.
Lemma escape_str_cons c l : html_escape_str (c :: l) = esc1s c ++ html_escape_str l.
Proof.
  unfold html_escape_str. rewrite escape_cons. unfold bs. cbn [list_ascii_of_string]. rewrite !replace1_flat_map, flat_map_app. f_equal. unfold esc1s, esc1.
  destruct (Ascii.eqb c "'") eqn:Q; [apply Ascii.eqb_eq in Q as ->; reflexivity|].
  destruct (Ascii.eqb c "&"); [reflexivity|]. destruct (Ascii.eqb c "<"); [reflexivity|]. destruct (Ascii.eqb c ">"); [reflexivity|].
  destruct (Ascii.eqb c """"); [reflexivity|]. cbn [flat_map]. rewrite (Ascii.eqb_sym "'" c), Q. reflexivity.
Qed.

(** An escaping: characters one by one, each left alone or turned into a reference. *)
Section Esc.
Context (table : list (bytes * byte)) (f : byte -> bytes) (g : bytes -> bytes).
Context (g_nil : g [] = []) (g_cons : forall c l, g (c :: l) = f c ++ g l).
Context (f_ok : forall c, (f c = [c] /\ c <> "&"%char /\ ~ In c (map snd table)) \/
  (exists name, In (name, c) table /\ f c = name /\ exists t, name = "&"%char :: t /\ ~ In "&"%char t /\ Forall (fun x => ~ In x (map snd table)) t)).
Context (ref_app : forall name c l, In (name, c) table -> reference table (name ++ l) = Some (name, c)).
Context (ref_amp : forall c l, c <> "&"%char -> reference table (c :: l) = None).
Context (amp_in : In "&"%char (map snd table)).

Lemma esc_no c l : c <> "&"%char -> In c (map snd table) -> ~ In c (g l).
Proof.
  intros Na Ic. induction l as [|x l IH]; [now rewrite g_nil|]. rewrite g_cons. intros I. apply in_app_or in I as [I|I]; [|now apply IH].
  destruct (f_ok x) as [(E & _ & N)|(name & _ & E & t & -> & _ & F)]; rewrite E in I.
  - destruct I as [<-|[]]. easy.
  - destruct I as [<-|I]; [easy|]. rewrite Forall_forall in F. now apply (F c I).
Qed.
Lemma esc_amp l : forall a r, g l = a ++ "&"%char :: r -> exists name c, In (name, c) table /\ startswith name ("&"%char :: r) = true.
Proof.
  induction l as [|x l IH]; intros a r E; [rewrite g_nil in E; now destruct a|]. rewrite g_cons in E.
  destruct (f_ok x) as [(Ef & Nx & _)|(name & I & Ef & t & -> & Nt & _)]; rewrite Ef in E.
  - destruct a as [|y a]; cbn [app] in E; [injection E as E _; easy|]. injection E as _ E. now apply (IH a).
  - destruct a as [|y a]; cbn [app] in E.
    + injection E as E. exists ("&"%char :: t), x. split; [exact I|]. rewrite <- E. apply (startswith_app ("&"%char :: t)).
    + injection E as _ E. revert a E Nt. clear I Ef. induction t as [|z t IHt]; intros a E Nt; [now apply (IH a)|]. cbn [app] in E.
      destruct a as [|w a]; cbn [app] in E; [injection E as -> _; exfalso; apply Nt; now left|]. injection E as _ E.
      apply (IHt a E). intros X. apply Nt. now right.
Qed.
Lemma esc_back l : forall fuel, List.length (g l) <= fuel -> unescape_fuel fuel table (g l) = l.
Proof.
  induction l as [|x l IH]; intros fuel L; [rewrite g_nil; now destruct fuel|]. rewrite g_cons in *. rewrite app_length in L.
  destruct (f_ok x) as [(Ef & Nx & _)|(name & I & Ef & t & Et & _ & _)]; rewrite Ef in *.
  - cbn [List.length app] in *. destruct fuel as [|fuel]; [lia|]. cbn [unescape_fuel]. rewrite ref_amp by exact Nx. f_equal. apply IH. lia.
  - rewrite Et in L. cbn [List.length] in L. destruct fuel as [|fuel]; [lia|]. 
    assert (exists z zs, name ++ g l = z :: zs) as (z & zs & Ez) by (rewrite Et; eexists _, _; reflexivity).
    rewrite Ez. cbn [unescape_fuel]. rewrite <- Ez. rewrite (ref_app _ _ _ I). f_equal.
    rewrite skipn_app, skipn_all, Nat.sub_diag. cbn [skipn app]. apply IH. lia.
Qed.
End Esc.

Lemma escape_facts data :
  (~ In "<"%char (html_escape data) /\ ~ In ">"%char (html_escape data) /\ ~ In """"%char (html_escape data)) /\
  (forall a r, html_escape data = a ++ "&"%char :: r -> exists name c, In (name, c) entities /\ startswith name ("&"%char :: r) = true) /\
  unescape entities (html_escape data) = data.
Proof.
  assert (forall c, (esc1 c = [c] /\ c <> "&"%char /\ ~ In c (map snd entities)) \/
    (exists name, In (name, c) entities /\ esc1 c = name /\ exists t, name = "&"%char :: t /\ ~ In "&"%char t /\ Forall (fun x => ~ In x (map snd entities)) t)) as K.
  { intros c. unfold esc1.
    assert (forall name, match name with [] => False | x :: t => x = "&"%char /\ memb "&" t = false /\ forallb (fun x => negb (memb x (map snd entities))) t = true end ->
      exists t, name = "&"%char :: t /\ ~ In "&"%char t /\ Forall (fun x => ~ In x (map snd entities)) t) as Q.
    { intros [|x t]; [easy|]. intros (-> & M & F). exists t. split; [reflexivity|]. split; [now apply memb_notIn|].
      apply Forall_forall. intros y Y. rewrite forallb_forall in F. apply F in Y. apply memb_notIn. now destruct (memb y _). }
    destruct (Ascii.eqb c "&") eqn:E1; [apply Ascii.eqb_eq in E1 as ->; right; eexists; split; [left; reflexivity|]; split; [reflexivity|]; apply Q; now vm_compute|].
    destruct (Ascii.eqb c "<") eqn:E2; [apply Ascii.eqb_eq in E2 as ->; right; eexists; split; [right; left; reflexivity|]; split; [reflexivity|]; apply Q; now vm_compute|].
    destruct (Ascii.eqb c ">") eqn:E3; [apply Ascii.eqb_eq in E3 as ->; right; eexists; split; [right; right; left; reflexivity|]; split; [reflexivity|]; apply Q; now vm_compute|].
    destruct (Ascii.eqb c """") eqn:E4; [apply Ascii.eqb_eq in E4 as ->; right; eexists; split; [right; right; right; left; reflexivity|]; split; [reflexivity|]; apply Q; now vm_compute|].
    left. apply Ascii.eqb_neq in E1, E2, E3, E4. split; [reflexivity|]. split; [exact E1|]. cbn. intuition congruence. }
  assert (html_escape [] = []) as N by reflexivity.
  split; [repeat split; (apply (esc_no entities esc1 html_escape N escape_cons K); [discriminate|vm_compute; intuition])|]. split.
  - apply (esc_amp entities esc1 html_escape N escape_cons K).
  - apply (esc_back entities esc1 html_escape N escape_cons K); [| |lia].
    + intros name c l I. cbn in I. intuition (match goal with H : (_, _) = (_, _) |- _ => injection H as <- <- end; reflexivity).
    + intros c l Nc. unfold reference, entities. cbn [bs list_ascii_of_string startswith]. apply not_eq_sym, Ascii.eqb_neq in Nc. now rewrite !Nc.
Qed.
Lemma escape_str_facts data :
  (~ In "<"%char (html_escape_str data) /\ ~ In ">"%char (html_escape_str data) /\ ~ In """"%char (html_escape_str data) /\ ~ In "'"%char (html_escape_str data)) /\
  (forall a r, html_escape_str data = a ++ "&"%char :: r -> exists name c, In (name, c) entities_str /\ startswith name ("&"%char :: r) = true) /\
  unescape entities_str (html_escape_str data) = data.
Proof.
  assert (forall c, (esc1s c = [c] /\ c <> "&"%char /\ ~ In c (map snd entities_str)) \/
    (exists name, In (name, c) entities_str /\ esc1s c = name /\ exists t, name = "&"%char :: t /\ ~ In "&"%char t /\ Forall (fun x => ~ In x (map snd entities_str)) t)) as K.
  { intros c. unfold esc1s, esc1.
    assert (forall name, match name with [] => False | x :: t => x = "&"%char /\ memb "&" t = false /\ forallb (fun x => negb (memb x (map snd entities_str))) t = true end ->
      exists t, name = "&"%char :: t /\ ~ In "&"%char t /\ Forall (fun x => ~ In x (map snd entities_str)) t) as Q.
    { intros [|x t]; [easy|]. intros (-> & M & F). exists t. split; [reflexivity|]. split; [now apply memb_notIn|].
      apply Forall_forall. intros y Y. rewrite forallb_forall in F. apply F in Y. apply memb_notIn. now destruct (memb y _). }
    destruct (Ascii.eqb c "'") eqn:E5; [apply Ascii.eqb_eq in E5 as ->; right; eexists; split; [right; right; right; right; left; reflexivity|]; split; [reflexivity|]; apply Q; now vm_compute|].
    destruct (Ascii.eqb c "&") eqn:E1; [apply Ascii.eqb_eq in E1 as ->; right; eexists; split; [left; reflexivity|]; split; [reflexivity|]; apply Q; now vm_compute|].
    destruct (Ascii.eqb c "<") eqn:E2; [apply Ascii.eqb_eq in E2 as ->; right; eexists; split; [right; left; reflexivity|]; split; [reflexivity|]; apply Q; now vm_compute|].
    destruct (Ascii.eqb c ">") eqn:E3; [apply Ascii.eqb_eq in E3 as ->; right; eexists; split; [right; right; left; reflexivity|]; split; [reflexivity|]; apply Q; now vm_compute|].
    destruct (Ascii.eqb c """") eqn:E4; [apply Ascii.eqb_eq in E4 as ->; right; eexists; split; [right; right; right; left; reflexivity|]; split; [reflexivity|]; apply Q; now vm_compute|].
    left. apply Ascii.eqb_neq in E1, E2, E3, E4, E5. split; [reflexivity|]. split; [exact E1|]. cbn. intuition congruence. }
  assert (html_escape_str [] = []) as N by reflexivity.
  split; [repeat split; (apply (esc_no entities_str esc1s html_escape_str N escape_str_cons K); [discriminate|vm_compute; intuition])|]. split.
  - apply (esc_amp entities_str esc1s html_escape_str N escape_str_cons K).
  - apply (esc_back entities_str esc1s html_escape_str N escape_str_cons K); [| |lia].
    + intros name c l I. cbn in I. intuition (match goal with H : (_, _) = (_, _) |- _ => injection H as <- <- end; reflexivity).
    + intros c l Nc. unfold reference, entities_str, entities. cbn [bs list_ascii_of_string startswith app]. apply not_eq_sym, Ascii.eqb_neq in Nc. now rewrite !Nc.
Qed.

(** ** The registry *)
Definition keys (d : conns unit) : list nat := map fst d.
Lemma dset_keys_nat k (d : conns unit) : keys (dset Nat.eqb k tt d) = if existsb (Nat.eqb k) (keys d) then keys d else keys d ++ [k].
Proof.
  unfold keys. induction d as [|[k' []] d IH]; cbn [dset map fst existsb]; [reflexivity|]. destruct (Nat.eqb k k') eqn:E; [reflexivity|].
  cbn [map fst orb]. rewrite IH. now destruct (existsb _ _).
Qed.
Lemma dset_present k (d : conns unit) : In k (keys d) -> dset Nat.eqb k tt d = d.
Proof.
  unfold keys. induction d as [|[k' []] d IH]; cbn [dset map fst]; [easy|]. intros I. destruct (Nat.eqb_spec k k') as [->|N]; [reflexivity|].
  rewrite IH; [reflexivity|]. destruct I; [congruence|assumption].
Qed.
Lemma ddel_keys_nat k (d : conns unit) : NoDup (keys d) -> keys (ddel Nat.eqb k d) = filter (fun x => negb (Nat.eqb k x)) (keys d).
Proof.
  unfold keys. induction d as [|[k' []] d IH]; cbn [ddel map fst filter]; [reflexivity|]. intros ND. inversion_clear ND as [|? ? N ND'].
  destruct (Nat.eqb_spec k k') as [->|E]; cbn [negb map fst]; [|now rewrite IH].
  clear - N. induction (map fst d) as [|x l IH]; [reflexivity|]. cbn [filter]. destruct (Nat.eqb_spec k' x) as [->|E]; [destruct N; now left|]. cbn [negb].
  f_equal. apply IH. intros I. apply N. now right.
Qed.
Lemma existsb_In k l : existsb (Nat.eqb k) l = true <-> In k l.
Proof. rewrite existsb_exists. split; [intros (x & I & E); apply Nat.eqb_eq in E as ->; exact I|intros I; exists k; split; [exact I|apply Nat.eqb_refl]]. Qed.
Lemma keys_length d : List.length d = List.length (keys d).
Proof. symmetry. apply map_length. Qed.

(** What one step does to the keys. *)
Lemma step_add_present maxlen d k : In k (keys d) -> List.length d <= maxlen -> conns_step maxlen d (Add k) = d.
Proof. intros I L. unfold conns_step, conns_set. rewrite dset_present by exact I. now replace (Nat.ltb maxlen (List.length d)) with false by lia. Qed.
Lemma step_add_new maxlen d k : ~ In k (keys d) -> NoDup (keys d) ->
  keys (conns_step maxlen d (Add k)) = if Nat.ltb maxlen (S (List.length d)) then tl (keys d ++ [k]) else keys d ++ [k].
Proof.
  intros N ND. unfold conns_step, conns_set. pose proof (dset_keys_nat k d) as K.
  destruct (existsb (Nat.eqb k) (keys d)) eqn:E; [apply existsb_In in E; easy|].
  assert (List.length (dset Nat.eqb k tt d) = S (List.length d)) as L. { rewrite !keys_length, K, app_length. cbn. lia. }
  rewrite L. destruct (Nat.ltb maxlen (S (List.length d))); [|exact K].
  destruct (dset Nat.eqb k tt d) as [|[k0 u] d'] eqn:D; [discriminate|]. rewrite <- K. cbn [ddel]. rewrite Nat.eqb_refl. reflexivity.
Qed.
Lemma keys_nodup_snoc (l : list nat) k : NoDup l -> ~ In k l -> NoDup (l ++ [k]).
Proof. apply NoDup_snoc. Qed.

Section Registry.
Context (maxlen : nat) (Hm : 1 <= maxlen).
Definition present (ops : list conn_op) (k : nat) : Prop := In k (keys (conns_run maxlen ops)).
Local Notation reg := (registered_at present).

Lemma run_snoc ops o : conns_run maxlen (ops ++ [o]) = conns_step maxlen (conns_run maxlen ops) o.
Proof. unfold conns_run. now rewrite fold_left_app. Qed.

Lemma nodup_filter {A} (f : A -> bool) l : NoDup l -> NoDup (filter f l).
Proof. apply NoDup_filter. Qed.
Lemma registry_bounded ops : List.length (conns_run maxlen ops) <= maxlen /\ NoDup (keys (conns_run maxlen ops)).
Proof.
  induction ops as [|o ops IH] using rev_ind; [split; [cbn; lia|constructor]|]. rewrite run_snoc. destruct IH as [L ND].
  destruct o as [k|k].
  - destruct (in_dec Nat.eq_dec k (keys (conns_run maxlen ops))) as [I|I]; [now rewrite step_add_present|].
    pose proof (step_add_new maxlen _ k I ND) as K. pose proof (NoDup_snoc _ _ ND I) as ND'.
    rewrite (keys_length (conns_step _ _ _)), K. destruct (Nat.ltb_spec maxlen (S (List.length (conns_run maxlen ops)))).
    + assert (List.length (tl (keys (conns_run maxlen ops) ++ [k])) = List.length (keys (conns_run maxlen ops))) as E.
      { destruct (keys (conns_run maxlen ops)); [reflexivity|]. cbn [app tl List.length]. rewrite app_length. cbn. lia. }
      rewrite E, <- keys_length. split; [exact L|]. destruct (keys (conns_run maxlen ops) ++ [k]); [constructor|]. now inversion ND'.
    + split; [|exact ND']. rewrite app_length, <- keys_length. cbn. lia.
  - cbn [conns_step]. unfold conns_pop. rewrite (keys_length (ddel _ _ _)), ddel_keys_nat by exact ND. split; [|now apply NoDup_filter].
    rewrite keys_length in L. clear - L. revert L. generalize (keys (conns_run maxlen ops)). intros l.
    assert (List.length (filter (fun x => negb (Nat.eqb k x)) l) <= List.length l); [|lia].
    induction l as [|x l IH]; [cbn; lia|]. cbn [filter]. destruct (negb (Nat.eqb k x)); cbn [List.length]; lia.
Qed.

Lemma reg_extend ops o k t : reg ops k t -> present (ops ++ [o]) k -> reg (ops ++ [o]) k t.
Proof.
  intros (p & q & -> & L & N & K) P. exists p, (q ++ [o]). split; [now rewrite <- app_assoc|]. split; [exact L|]. split; [exact N|].
  intros q1 q2 E. destruct q2 as [|x q2] using rev_ind; [rewrite app_nil_r in E; subst q1; now rewrite <- app_assoc in P|].
  clear IHq2. rewrite app_assoc in E. apply app_inj_tail in E as [E _]. now apply (K q1 q2).
Qed.
Lemma reg_shrink ops o k t : reg (ops ++ [o]) k t -> present ops k -> reg ops k t.
Proof.
  intros (p & q & E & L & N & K) P. destruct q as [|x q] using rev_ind.
  - apply app_inj_tail in E as [-> _]. easy.
  - clear IHq. change (p ++ Add k :: q ++ [x]) with (p ++ (Add k :: q) ++ [x]) in E. rewrite app_assoc in E. apply app_inj_tail in E as [-> _].
    exists p, q. repeat split; [exact L|exact N|]. intros q1 q2 ->. apply (K q1 (q2 ++ [x])). now rewrite app_assoc.
Qed.
Lemma reg_new ops k : ~ present ops k -> present (ops ++ [Add k]) k -> reg (ops ++ [Add k]) k (List.length ops).
Proof.
  intros N P. exists ops, []. repeat split; [exact N|]. intros q1 q2 E. symmetry in E. apply app_eq_nil in E as [-> ->]. exact P.
Qed.
Lemma reg_new_only ops o k t : ~ present ops k -> reg (ops ++ [o]) k t -> t = List.length ops.
Proof.
  intros N (p & q & E & L & _ & K). destruct q as [|x q] using rev_ind.
  - apply app_inj_tail in E as [-> _]. congruence.
  - clear IHq. exfalso. apply N. change (p ++ Add k :: q ++ [x]) with (p ++ (Add k :: q) ++ [x]) in E. rewrite app_assoc in E. apply app_inj_tail in E as [-> _].
    apply (K q [x]). reflexivity.
Qed.
Lemma reg_lt ops k t : reg ops k t -> t < List.length ops.
Proof. intros (p & q & -> & <- & _). rewrite app_length. cbn. lia. Qed.

Definition older (ops : list conn_op) (x y : nat) : Prop := forall tx ty, reg ops x tx -> reg ops y ty -> tx < ty.
Lemma FOP_sub {A} (R : A -> A -> Prop) l f : ForallOrdPairs R l -> ForallOrdPairs R (filter f l).
Proof.
  induction 1 as [|x l F FO IH]; [constructor|]. cbn [filter]. destruct (f x); [|exact IH]. constructor; [|exact IH].
  apply Forall_forall. intros y I. apply filter_In in I as [I _]. rewrite Forall_forall in F. auto.
Qed.
Lemma FOP_snoc {A} (R : A -> A -> Prop) l x : ForallOrdPairs R l -> Forall (fun y => R y x) l -> ForallOrdPairs R (l ++ [x]).
Proof.
  induction 1 as [|y l F FO IH]; intros G; cbn [app]; [repeat constructor|]. inversion_clear G as [|? ? Gy Gl]. constructor; [|auto].
  apply Forall_app. split; [exact F|]. now constructor.
Qed.
Lemma FOP_impl {A} (R R' : A -> A -> Prop) l : (forall x y, In x l -> In y l -> R x y -> R' x y) -> ForallOrdPairs R l -> ForallOrdPairs R' l.
Proof.
  intros H F. induction F as [|x l F FO IH]; [constructor|]. constructor.
  - apply Forall_forall. intros y I. rewrite Forall_forall in F. apply H; [now left|now right|auto].
  - apply IH. intros a b Ia Ib. apply H; now right.
Qed.

Lemma registry_ordered ops : (forall k, present ops k -> exists t, reg ops k t) /\ ForallOrdPairs (older ops) (keys (conns_run maxlen ops)).
Proof.
  induction ops as [|o ops IH] using rev_ind; [split; [intros k []|constructor]|]. destruct IH as [Ex Or].
  destruct (registry_bounded ops) as [L ND].
  assert (forall k, present ops k -> present (ops ++ [o]) k -> exists t, reg (ops ++ [o]) k t) as Ex1.
  { intros k P P'. destruct (Ex k P) as (t & R). exists t. now apply reg_extend. }
  assert (ForallOrdPairs (older (ops ++ [o])) (keys (conns_run maxlen ops))) as Or1.
  { revert Or. apply FOP_impl. intros x y Ix Iy O tx ty Rx Ry. apply O; eapply reg_shrink; eassumption. }
  destruct o as [k|k].
  - destruct (in_dec Nat.eq_dec k (keys (conns_run maxlen ops))) as [I|I].
    + pose proof (run_snoc ops (Add k)) as E. rewrite (step_add_present maxlen _ k I L) in E. split.
      * intros x P. apply Ex1; [|exact P]. unfold present in *. now rewrite E in P.
      * now rewrite E.
    + pose proof (step_add_new maxlen _ k I ND) as K. rewrite <- run_snoc in K.
      assert (ForallOrdPairs (older (ops ++ [Add k])) (keys (conns_run maxlen ops) ++ [k])) as F.
      { apply FOP_snoc; [exact Or1|]. apply Forall_forall. intros y Iy tx ty Rx Ry. apply reg_new_only in Ry; [|exact I].
        apply (reg_shrink ops) in Rx; [|exact Iy]. apply reg_lt in Rx. lia. }
      split.
      * intros x P. destruct (in_dec Nat.eq_dec x (keys (conns_run maxlen ops))) as [Ix|Ix]; [now apply Ex1|].
        assert (x = k) as ->.
        { unfold present in P. rewrite K in P. destruct (Nat.ltb _ _).
          - destruct (keys (conns_run maxlen ops)) as [|y l] eqn:E; [destruct P|]. cbn [app tl] in P. apply in_app_or in P as [P|[P|[]]]; [destruct Ix; now right|congruence].
          - apply in_app_or in P as [P|[P|[]]]; [easy|congruence]. }
        exists (List.length ops). now apply reg_new.
      * rewrite K. destruct (Nat.ltb _ _); [|exact F]. destruct (keys (conns_run maxlen ops) ++ [k]); [constructor|]. now inversion F.
  - assert (keys (conns_run maxlen (ops ++ [Drop k])) = filter (fun x => negb (Nat.eqb k x)) (keys (conns_run maxlen ops))) as K.
    { rewrite run_snoc. apply ddel_keys_nat, ND. }
    split.
    + intros x P. apply Ex1; [|exact P]. unfold present in *. rewrite K in P. now apply filter_In in P.
    + rewrite K. now apply FOP_sub.
Qed.

Lemma registered ops k : present ops k -> exists t, reg ops k t.
Proof. apply registry_ordered. Qed.

(** Adding a new connection. *)
Lemma add_new ops k : ~ present ops k ->
  present (ops ++ [Add k]) k /\
  (List.length (conns_run maxlen ops) < maxlen -> forall x, present (ops ++ [Add k]) x <-> present ops x \/ x = k) /\
  (List.length (conns_run maxlen ops) = maxlen -> exists old t, present ops old /\ reg ops old t /\
     (forall y ty, present ops y -> y <> old -> reg ops y ty -> t < ty) /\
     forall x, present (ops ++ [Add k]) x <-> (present ops x /\ x <> old) \/ x = k).
Proof.
  intros N. destruct (registry_bounded ops) as [L ND]. pose proof (step_add_new maxlen _ k N ND) as K. rewrite <- run_snoc in K.
  destruct (registry_ordered ops) as [Ex Or]. unfold present in *. set (l := keys (conns_run maxlen ops)) in *.
  assert (List.length (conns_run maxlen ops) = List.length l) as Ll by apply keys_length. rewrite Ll in *. split; [|split].
  - rewrite K. destruct (Nat.ltb_spec maxlen (S (List.length l))); [|apply in_or_app; right; now left].
    destruct l as [|y l']; [cbn in *; lia|]. cbn [app tl]. apply in_or_app; right; now left.
  - intros Lt x. rewrite K. replace (Nat.ltb maxlen (S (List.length l))) with false by lia. rewrite in_app_iff. cbn [In]. intuition.
  - intros Le. rewrite K. replace (Nat.ltb maxlen (S (List.length l))) with true by lia.
    destruct l as [|old l'] eqn:El; [cbn in *; lia|]. destruct (Ex old ltac:(now left)) as (t & R). exists old, t.
    split; [now left|]. split; [exact R|]. inversion_clear Or as [|? ? F _]. split.
    + intros y ty [->|I] Ny Ry; [easy|]. rewrite Forall_forall in F. exact (F y I t ty R Ry).
    + intros x. cbn [app tl]. rewrite in_app_iff. cbn [In]. inversion_clear ND as [|? ? Nold _]. split.
      * intros [I|[<-|[]]]; [left; split; [now right|intros ->; easy]|now right].
      * intros [[[<-|I] Nx]| ->]; [easy|now left|right; now left].
Qed.
Lemma add_present ops k : present ops k -> conns_run maxlen (ops ++ [Add k]) = conns_run maxlen ops.
Proof. intros P. rewrite run_snoc. apply step_add_present; [exact P|]. apply registry_bounded. Qed.
Lemma drop_key ops k x : present (ops ++ [Drop k]) x <-> present ops x /\ x <> k.
Proof.
  unfold present. rewrite run_snoc. cbn [conns_step]. unfold conns_pop. rewrite ddel_keys_nat by apply registry_bounded. rewrite filter_In.
  destruct (Nat.eqb_spec k x) as [->|Nx]; cbn [negb]; intuition congruence.
Qed.
End Registry.

(** ** parse_args *)
Definition result (o : popts) (x : setting) : popts :=
  match x with
  | NoWs => oset (bs "ws") (OBool false) o
  | Flag _ k => oset k (OBool true) o
  | Text _ k v => oset k (OStr v) o
  | Number _ k _ n => oset k (OInt n) o
  | Cert p => sset (bs "cert") p o
  | Key p => sset (bs "key") p o
  end.
Lemma inb_In a l : inb a l = true <-> In a l.
Proof. unfold inb. rewrite existsb_exists. split; [intros (x & I & E); apply beqb_eq in E as ->; exact I|intros I; exists a; split; [exact I|apply beqb_refl]]. Qed.
Lemma no_dash_step cb a v o : no_dash a -> arg_step cb a v o = Some o.
Proof.
  intros N. assert (forall d t, beqb a ("-"%char :: d) = t -> t = false) as B.
  { intros d t <-. apply beqb_neq. intros ->. now apply N. }
  assert (forall l, Forall (fun x => hd SP x = "-"%char) l -> inb a l = false) as I.
  { intros l F. destruct (inb a l) eqn:E; [|reflexivity]. apply inb_In in E. rewrite Forall_forall in F. apply F in E. destruct a as [|c a]; [discriminate|]. cbn in E. easy. }
  unfold arg_step. rewrite (B _ (beqb a (bs "--no-ws")) eq_refl). rewrite !I by (repeat constructor).
  rewrite (B _ (beqb a (bs "--ssl-cert")) eq_refl), (B _ (beqb a (bs "--ssl-key")) eq_refl).
  destruct a as [|c a]; [reflexivity|]. cbn [no_dash bs list_ascii_of_string startswith] in *. apply not_eq_sym, Ascii.eqb_neq in N. now rewrite N.
Qed.
Lemma last_default {A} (l : list A) d d' : l <> [] -> last l d = last l d'.
Proof. induction l as [|x l IH]; [easy|]. intros _. destruct l as [|y l]; [reflexivity|]. apply IH. discriminate. Qed.
Lemma args_app cb a : forall prev b o, args_loop cb prev (a ++ b) o =
  match args_loop cb prev a o with Some o' => args_loop cb (last a prev) b o' | None => None end.
Proof.
  induction a as [|v a IH]; intros prev b o; [reflexivity|]. cbn [app args_loop]. destruct (arg_step cb prev v o) as [o'|]; [|reflexivity].
  rewrite IH. destruct (args_loop cb v a o'); [|reflexivity]. f_equal. clear. destruct a as [|w a]; [reflexivity|].
  change (last (v :: w :: a) prev) with (last (w :: a) prev). apply last_default. discriminate.
Qed.
Lemma flag_step cb opt k v o : In (opt, k) flags -> arg_step cb opt v o = Some (oset k (OBool true) o).
Proof. intros I. cbn in I. intuition (match goal with H : (_, _) = (_, _) |- _ => injection H as <- <- end; reflexivity). Qed.
Lemma text_step cb opt k v o : In (opt, k) textual -> arg_step cb opt v o = Some (oset k (OStr v) o).
Proof. intros I. cbn in I. intuition (match goal with H : (_, _) = (_, _) |- _ => injection H as <- <- end; reflexivity). Qed.
Lemma number_step cb opt k v n o : In (opt, k) numeric -> py_int v = Some n -> arg_step cb opt v o = Some (oset k (OInt n) o).
Proof.
  intros I P. assert (arg_step cb opt v o = match py_int v with Some n => Some (oset k (OInt n) o) | None => None end) as ->; [|now rewrite P].
  cbn in I. repeat (destruct I as [I|I]; [injection I as <- <-; reflexivity|]). destruct I.
Qed.
(** One setting, between a word that is none and a next word. *)
Lemma settings_loop cb xs : forall prev next o, Forall setting_ok xs -> (forall v o, arg_step cb prev v o = Some o) ->
  args_loop cb prev (flat_map words xs ++ [next]) o = Some (fold_left result xs o).
Proof.
  (* after a flag the previous word is the flag itself *)
  assert (forall xs, Forall setting_ok xs -> forall prev next o o', (forall v, arg_step cb prev v o = Some o') ->
    args_loop cb prev (flat_map words xs ++ [next]) o = Some (fold_left result xs o')) as G.
  { clear xs. induction 1 as [|x xs X F IH]; intros prev next o o' P; cbn [flat_map app fold_left].
    - cbn [args_loop]. now rewrite P.
    - destruct x as [|op k|op k v|op k t n|p|p]; cbn [words app args_loop result setting_ok] in *.
      + rewrite P. apply IH. reflexivity.
      + rewrite P. apply IH. intros v. now apply flag_step.
      + rewrite P. destruct X as [X N]. rewrite (text_step cb op k v o' X). apply IH. intros w. now apply no_dash_step.
      + rewrite P. destruct X as (X & N & Y). rewrite (number_step cb op k t n o' X Y). apply IH. intros w. now apply no_dash_step.
      + rewrite P. change (arg_step cb (bs "--ssl-cert") p o') with (Some (sset (bs "cert") p o')). apply IH. intros w. now apply no_dash_step.
      + rewrite P. change (arg_step cb (bs "--ssl-key") p o') with (Some (sset (bs "key") p o')). apply IH. intros w. now apply no_dash_step. }
  intros prev next o F P. now apply G.
Qed.
Lemma parse_args_main cb prog xs app : no_dash prog -> no_dash app -> Forall setting_ok xs ->
  parse_args cb (prog :: flat_map words xs ++ [app]) = Some (fold_left result xs defaults).
Proof.
  intros P A F. unfold parse_args. assert (last (prog :: flat_map words xs ++ [app]) [] = app) as ->.
  { rewrite app_comm_cons. apply last_last. }
  cbn [args_loop]. rewrite no_dash_step by exact A. apply settings_loop; [exact F|]. intros v o. now apply no_dash_step.
Qed.

(** An unknown option before the last word ends the program. *)
Lemma parse_args_unknown cb prog xs opt rest : no_dash prog -> Forall setting_ok xs -> startswith (bs "-") opt = true ->
  ~ In opt (bs "--no-ws" :: bs "--ssl-cert" :: bs "--ssl-key" :: map fst flags ++ map fst textual ++ map fst numeric) -> cb (opt_name opt) = None ->
  rest <> [] -> no_dash (last rest []) -> parse_args cb (prog :: flat_map words xs ++ opt :: rest) = None.
Proof.
  intros P F D N C Nr A. unfold parse_args. assert (last (prog :: flat_map words xs ++ opt :: rest) [] = last rest []) as ->.
  { rewrite app_comm_cons. destruct rest as [|r rest]; [easy|]. clear. generalize (prog :: flat_map words xs). intros l. induction l as [|x l IH]; [reflexivity|].
    rewrite <- IH. cbn [app]. destruct (l ++ opt :: r :: rest) eqn:E; [now destruct l|reflexivity]. }
  cbn [args_loop]. rewrite no_dash_step by exact A.
  change (opt :: rest) with ([opt] ++ rest). rewrite app_assoc, args_app, (settings_loop cb xs prog opt defaults F) by (intros; now apply no_dash_step).
  rewrite last_last. destruct rest as [|r rest]; [easy|]. cbn [args_loop].
  assert (arg_step cb opt r (fold_left result xs defaults) = None) as ->; [|reflexivity].
  unfold arg_step. assert (forall a, In a (bs "--no-ws" :: bs "--ssl-cert" :: bs "--ssl-key" :: map fst flags ++ map fst textual ++ map fst numeric) -> beqb opt a = false) as B.
  { intros a I. apply beqb_neq. intros ->. easy. }
  assert (forall l, (forall a, In a l -> In a (bs "--no-ws" :: bs "--ssl-cert" :: bs "--ssl-key" :: map fst flags ++ map fst textual ++ map fst numeric)) -> inb opt l = false) as B2.
  { intros l S. destruct (inb opt l) eqn:E; [|reflexivity]. apply inb_In in E. apply S in E. easy. }
  rewrite (B (bs "--no-ws")) by (now left). rewrite (B (bs "--ssl-cert")) by (right; now left). rewrite (B (bs "--ssl-key")) by (do 2 right; now left).
  rewrite (B2 flag_opts). 2: { intros a I. do 3 right. apply in_or_app. now left. }
  rewrite (B2 str_opts). 2: { intros a I. do 3 right. apply in_or_app. right. apply in_or_app. now left. }
  rewrite (B2 int_opts). 2: { intros a I. do 3 right. apply in_or_app. right. apply in_or_app. now right. }
  now rewrite D, C.
Qed.

Lemma result_opts k xs : forall o, dget beqb k (o_opts (fold_left result xs o)) = last_of (says k) xs (dget beqb k (o_opts o)).
Proof.
  induction xs as [|x xs IH]; intros o; [reflexivity|]. unfold last_of in *. cbn [fold_left]. rewrite IH. f_equal.
  destruct x; cbn [result says oset sset o_opts]; try reflexivity; rewrite PyDictFacts.dget_dset; now destruct (beqb k _).
Qed.
Lemma result_ssl k xs : forall o, dget beqb k (o_ssl (fold_left result xs o)) = last_of (says_ssl k) xs (dget beqb k (o_ssl o)).
Proof.
  induction xs as [|x xs IH]; intros o; [reflexivity|]. unfold last_of in *. cbn [fold_left]. rewrite IH. f_equal.
  destruct x; cbn [result says_ssl oset sset o_ssl]; try reflexivity; rewrite PyDictFacts.dget_dset; now destruct (beqb k _).
Qed.
Lemma parse_args_result cb prog xs app : no_dash prog -> no_dash app -> Forall setting_ok xs ->
  exists o, parse_args cb (prog :: flat_map words xs ++ [app]) = Some o /\
    (forall k, dget beqb k (o_opts o) = last_of (says k) xs (default_option k)) /\
    (forall k, dget beqb k (o_ssl o) = last_of (says_ssl k) xs None).
Proof.
  intros P A F. exists (fold_left result xs defaults). split; [now apply parse_args_main|]. split; intros k; [rewrite result_opts|now rewrite result_ssl].
  f_equal.
Qed.
