(** Proofs about sized reads (C16, C17) and resumption of a blocked reader. *)
From Verif Require Import PyBytes PyBytesFacts PyInt PyExn M_Stream S_Chunked S_Read P_Parser P_Parser2 P_Stream.
From Coq Require Import ZifyBool ZifyNat.
Local Open Scope Z_scope.

(** The answers of a sequence of read calls. A call that raises anything but the end of
    the body, or waits, has no answer. *)
Definition size_of (c : option nat) : Z := match c with Some n => Z.of_nat n | None => -1 end.
Definition to_answer (x : rout) : option answer :=
  match x with
  | RRet d => Some (Got d)
  | RRaise StopAsyncIteration => Some Ended
  | _ => None
  end.
Fixpoint reads (o : opts) (r : reader) (calls : list (option nat)) : option (list answer * reader) :=
  match calls with
  | [] => Some ([], r)
  | c :: calls' =>
      let '(x, r') := read o r (size_of c) in
      match to_answer x, reads o r' calls' with
      | Some a, Some (l, r2) => Some (a :: l, r2)
      | _, _ => None
      end
  end.

(** [s, g] will deliver the pieces [ys] and end. *)
Definition ends (o : opts) (s : rstate) (g : gen) (ys : list bytes) : Prop :=
  exists s' g', drain (work s g) o s g = (ys, FStop, s', g').

Lemma gen_stop_done o s g s' g' : gen_next o s g = (OStop, s', g') -> g' = GDone.
Proof.
  assert (forall s p buf ad, after_pass s p buf ad = (OStop, s', g') -> g' = GDone) as AP.
  { intros s0 [] b ad; cbn [after_pass]; congruence. }
  assert (forall l s buf u, chunk_read o l s buf u = (OStop, s', g') -> g' = GDone) as CR.
  { induction l as [|[d| |] l IH]; intros s0 buf u; cbn [chunk_read]; [easy| | |easy].
    - destruct (chunk_pass o (buf ++ d) u) eqn:E; try apply AP. apply IH.
    - destruct (contains _ _); [apply AP|easy]. }
  assert (forall s buf p u ad, chunk_next o s buf p u ad = (OStop, s', g') -> g' = GDone) as CN.
  { intros s0 buf p u ad. unfold chunk_next, chunk_over.
    assert ((if ad then if contains (CRLF ++ CRLF) buf then after_pass s0 (chunk_pass o buf u) buf true else (ORaise BadRequest, s0, GDone)
             else chunk_read o (items s0) s0 buf u) = (OStop, s', g') -> g' = GDone) as R.
    { destruct ad; [destruct (contains _ _); [apply AP|easy]|apply CR]. }
    destruct p; [|exact R]. destruct (chunk_pass o buf u) eqn:E; try apply AP. exact R. }
  assert (forall s, plain_next s = (OStop, s', g') -> g' = GDone) as PN.
  { intros s0. unfold plain_next. destruct (items s0) as [|[]]; try easy; [destruct (_ && _); easy|congruence]. }
  destruct g as [raw|buf p u ad| |]; cbn [gen_next].
  - destruct (eof_ s); [congruence|]. destruct (send_continue o s); [|easy]. destruct (_ && _); [apply CN|]. destruct (_ <? _); [easy|apply PN].
  - apply CN.
  - apply PN.
  - congruence.
Qed.

(** The end of the body is recorded only by ending. *)
Lemma gen_next_eof o s g x s' g' : gen_next o s g = (x, s', g') -> eof_ s' = true -> eof_ s = true \/ x = OStop.
Proof.
  assert (forall s p buf ad, after_pass s p buf ad = (x, s', g') -> eof_ s' = true -> eof_ s = true \/ x = OStop) as AP.
  { intros s0 [] b ad; cbn [after_pass]; intros E H; injection E as <- <- <-; auto. }
  assert (forall l s buf u, chunk_read o l s buf u = (x, s', g') -> eof_ s' = true -> eof_ s = true \/ x = OStop) as CR.
  { induction l as [|[d| |] l IH]; intros s0 buf u; cbn [chunk_read].
    - intros E H; injection E as <- <- <-; auto.
    - destruct (chunk_pass o (buf ++ d) u) eqn:E; try (intros E1 H; destruct (AP _ _ _ _ E1 H); auto; fail).
      intros E1 H. destruct (IH _ _ _ E1 H); auto.
    - destruct (contains _ _).
      + intros E1 H; destruct (AP _ _ _ _ E1 H); auto.
      + intros E H; injection E as <- <- <-; auto.
    - intros E H; injection E as <- <- <-; auto. }
  assert (forall s buf p u ad, chunk_next o s buf p u ad = (x, s', g') -> eof_ s' = true -> eof_ s = true \/ x = OStop) as CN.
  { intros s0 buf p u ad. unfold chunk_next, chunk_over.
    assert ((if ad then if contains (CRLF ++ CRLF) buf then after_pass s0 (chunk_pass o buf u) buf true else (ORaise BadRequest, s0, GDone)
             else chunk_read o (items s0) s0 buf u) = (x, s', g') -> eof_ s' = true -> eof_ s0 = true \/ x = OStop) as R.
    { destruct ad; [destruct (contains _ _); [apply AP|]|apply CR]. intros E H; injection E as <- <- <-; auto. }
    destruct p; [|exact R]. destruct (chunk_pass o buf u) eqn:E; try apply AP. exact R. }
  assert (forall s, plain_next s = (x, s', g') -> eof_ s' = true -> eof_ s = true \/ x = OStop) as PN.
  { intros s0. unfold plain_next. destruct (items s0) as [|[]]; try (intros E H; injection E as <- <- <-; auto; fail).
    destruct (_ && _); intros E H; injection E as <- <- <-; auto. }
  destruct g as [raw|buf p u ad| |]; cbn [gen_next].
  - destruct (eof_ s) eqn:Z; [auto|].
    assert (forall s0, eof_ s0 = false ->
      (if negb raw && chunked s0 then chunk_next o s0 [] false 0 false
       else if o_max_body o <? clen s0 then (ORaise PayloadTooLarge, s0, GDone) else plain_next s0) = (x, s', g') ->
      eof_ s' = true -> false = true \/ x = OStop) as G.
    { intros s0 Z0. destruct (_ && _); [intros E H; destruct (CN _ _ _ _ _ E H); [congruence|auto]|].
      destruct (_ <? _); [intros E H; injection E as <- <- <-; congruence|intros E H; destruct (PN _ E H); [congruence|auto]]. }
    unfold send_continue. destruct (cont s); [|now apply G].
    destruct (_ <? _); [intros E H; injection E as <- <- <-; congruence|]. now apply (G (sent s)).
  - apply CN.
  - apply PN.
  - intros E H; injection E as <- <- <-; auto.
Qed.

Lemma ends_done o s : ends o s GDone [].
Proof. exists s, GDone. reflexivity. Qed.

Lemma ends_step o s g ys : wf g -> ends o s g ys ->
  match gen_next o s g with
  | (OYield d, s', g') => wf g' /\ exists ys', ys = d :: ys' /\ ends o s' g' ys'
  | (OStop, s', g') => ys = [] /\ g' = GDone
  | _ => False
  end.
Proof.
  intros W (s2 & g2 & E). unfold work in E. cbn [drain] in E. fold (work s g) in E.
  destruct (gen_next o s g) as [[[d| |e|] s1] g1] eqn:N; [| |discriminate E|discriminate E].
  - pose proof (gen_next_work _ _ _ _ _ _ W N) as (W1 & L1). split; [exact W1|].
    pose proof (drain_fuel o (work s1 g1) s1 g1 W1 (le_n _)) as NF.
    destruct (drain (work s1 g1) o s1 g1) as [[[ys1 r1] s3] g3] eqn:D1.
    pose proof (drain_more o _ _ _ _ _ _ _ D1 NF (items_work (items s) + gen_work g)%nat ltac:(unfold work in *; lia)) as D2.
    rewrite D2 in E. injection E as <- -> <- <-. exists ys1. split; [reflexivity|]. now exists s3, g3.
  - split; [congruence|]. eapply gen_stop_done. exact N.
Qed.

(** A finished reader has nothing left. *)
Definition fresh_ok (s : rstate) (g : gen) : Prop := wf g /\ (eof_ s = true -> g = GDone \/ exists raw, g = GInit raw).

Lemma ok_step o s g x s' g' : fresh_ok s g -> gen_next o s g = (x, s', g') -> (forall d, x = OYield d -> wf g') -> x <> OBlock ->
  (forall e, x <> ORaise e) -> fresh_ok s' g'.
Proof.
  intros [W He] N Wy Nb Nr. destruct x as [d| |e|]; [| |now specialize (Nr e)|easy].
  - split; [now apply (Wy d)|]. intros H. destruct (gen_next_eof _ _ _ _ _ _ N H) as [Z|Z]; [|discriminate Z].
    destruct (He Z) as [->|[raw ->]]; cbn [gen_next] in N; [|rewrite Z in N]; discriminate N.
  - apply gen_stop_done in N as ->. split; [exact I|now left].
Qed.

Lemma fill_ends o size : forall fuel s g buf ys, fresh_ok s g -> (work s g <= fuel)%nat -> ends o s g ys -> blen buf < size ->
  exists s' g' buf' ys1 ys2, fill fuel o size s g buf = (None, s', g', buf') /\ ys = ys1 ++ ys2 /\
    buf' = buf ++ concat ys1 /\ ends o s' g' ys2 /\ fresh_ok s' g' /\
    ((size <= blen buf' /\ exists z l, ys1 = l ++ [z] /\ blen (buf ++ concat l) < size) \/ (ys2 = [] /\ blen buf' < size)).
Proof.
  induction fuel as [|f IH]; intros s g buf ys W L E H; [unfold work in L; lia|]. cbn [fill].
  pose proof (ends_step _ _ _ _ (proj1 W) E) as ST. pose proof (ok_step o s g) as OK.
  destruct (gen_next o s g) as [[[d| |e|] s1] g1] eqn:N; [| |easy|easy].
  - destruct ST as (W1 & ys' & -> & E1).
    specialize (OK _ _ _ W eq_refl ltac:(auto) ltac:(discriminate) ltac:(discriminate)).
    pose proof (gen_next_work _ _ _ _ _ _ (proj1 W) N) as (_ & L1).
    destruct (Z.leb_spec size (blen (buf ++ d))) as [B|B].
    + exists s1, g1, (buf ++ d), [d], ys'. cbn [concat app]. rewrite app_nil_r. repeat (split; [reflexivity || assumption|]).
      left. split; [lia|]. exists d, []. cbn [app concat]. rewrite app_nil_r. split; [reflexivity|lia].
    + destruct (IH s1 g1 (buf ++ d) ys' OK ltac:(lia) E1 B) as (s' & g' & buf' & ys1 & ys2 & EF & EY & EB & E2 & OK2 & C).
      exists s', g', buf', (d :: ys1), ys2. split; [exact EF|]. split; [now rewrite EY|]. split; [rewrite EB; cbn [concat]; now rewrite app_assoc|].
      split; [exact E2|]. split; [exact OK2|]. destruct C as [(C1 & z & l & -> & C2)|C]; [left|now right].
      split; [exact C1|]. exists z, (d :: l). split; [reflexivity|]. cbn [concat]. now rewrite app_assoc.
  - destruct ST as (-> & ->). specialize (OK _ _ _ W eq_refl ltac:(discriminate) ltac:(discriminate) ltac:(discriminate)).
    exists s1, GDone, buf, [], []. cbn [concat app]. rewrite app_nil_r. repeat (split; [reflexivity || assumption || apply ends_done|]). right. now split.
Qed.

(** The reader: generator, pieces still to come, buffer. *)
Definition rgen (r : reader) : gen := match inst r with Some g => g | None => GInit false end.
Definition inv (o : opts) (r : reader) (ys : list bytes) : Prop :=
  ends o (rs r) (rgen r) ys /\ fresh_ok (rs r) (rgen r).

Lemma inv_eof o r ys : inv o r ys -> eof r = true -> rbuf r = [] /\ ys = [].
Proof.
  intros [E [W He]] H. unfold eof in H. apply andb_prop in H as [H1 H2]. apply beqb_eq in H2. split; [exact H2|].
  pose proof (ends_step _ _ _ _ W E) as ST. destruct (He H1) as [G|[raw G]]; rewrite G in ST; cbn [gen_next] in ST; [easy|]. now rewrite H1 in ST.
Qed.

(** Every byte held back is the end of the piece last taken. *)
Lemma read_sized o r ys n : inv o r ys -> exists ys1 ys2 d r', ys = ys1 ++ ys2 /\
  read o r (Z.of_nat n) = (RRet d, r') /\ inv o r' ys2 /\ d ++ rbuf r' = rbuf r ++ concat ys1 /\
  List.length d = Nat.min n (List.length (rbuf r ++ concat ys)) /\
  (rbuf r' <> [] -> ys1 <> [] -> exists l z, ys1 = l ++ [z] /\ (List.length (rbuf r' ) < List.length z)%nat) /\
  (ys1 = [] -> d ++ rbuf r' = rbuf r).
Proof.
  intros IV. unfold read, recv. destruct (_ || eof r) eqn:B.
  - exists [], ys, [], r. cbn [app concat List.length]. rewrite app_nil_r. repeat (split; [reflexivity || assumption|]).
    split; [|now split]. apply orb_prop in B as [B|B].
    + replace n with 0%nat by lia. reflexivity.
    + destruct (inv_eof _ _ _ IV B) as [-> ->]. cbn. lia.
  - fold (rgen r). replace (Z.of_nat n =? -1) with false by lia. destruct IV as [E OK].
    assert (n <> 0%nat) as Nn by lia.
    destruct (Z.ltb_spec (blen (rbuf r)) (Z.of_nat n)) as [L|L].
    + destruct (fill_ends o (Z.of_nat n) (work (rs r) (rgen r)) (rs r) (rgen r) (rbuf r) ys OK (le_n _) E L) as
        (s' & g' & buf' & ys1 & ys2 & -> & -> & EB & E2 & OK2 & C).
      exists ys1, ys2. do 2 eexists. split; [reflexivity|]. split; [reflexivity|]. split; [split; assumption|]. cbn [rbuf].
      rewrite upto_nonneg, from_nonneg, !Nat2Z.id by lia. rewrite firstn_skipn. split; [exact EB|].
      split; [|split].
      * rewrite concat_app, app_assoc, <- EB, firstn_length, app_length. destruct C as [[C _]|[-> _]]; [unfold blen in C; lia|]. cbn [concat List.length]. lia.
      * intros Hn Hy. destruct C as [(C & z & l & -> & C2)|(-> & Eg)]; cycle 1.
        { exfalso. apply Hn. apply skipn_all2. unfold blen in Eg. lia. }
        -- exists l, z. split; [reflexivity|]. rewrite EB. rewrite concat_app, app_assoc in EB. cbn [concat] in EB. rewrite app_nil_r in EB.
           apply (f_equal (@List.length _)) in EB. rewrite app_length in EB. rewrite skipn_length, concat_app, app_assoc. cbn [concat]. rewrite app_nil_r, app_length.
           unfold blen in *. lia.
      * intros ->. cbn [concat] in EB. now rewrite app_nil_r in EB.
    + exists [], ys. do 2 eexists. split; [reflexivity|]. split; [reflexivity|]. split; [split; assumption|]. cbn [rbuf concat app].
      rewrite upto_nonneg, from_nonneg, !Nat2Z.id by lia. rewrite firstn_skipn, app_nil_r. split; [reflexivity|].
      split; [|now split]. rewrite firstn_length, app_length. unfold blen in L. lia.
Qed.

Lemma read_piece o r ys : inv o r ys -> rbuf r = [] ->
  (ys = [] /\ exists r', rbuf r' = [] /\ inv o r' [] /\
     (read o r (-1) = (RRaise StopAsyncIteration, r') \/ read o r (-1) = (RRet [], r'))) \/
  exists d ys' r', ys = d :: ys' /\ read o r (-1) = (RRet d, r') /\ inv o r' ys' /\ rbuf r' = [].
Proof.
  intros IV Hb. unfold read, recv. change (-1 =? 0) with false. change (-1 =? -1) with true. cbv iota. cbn [orb].
  destruct (eof r) eqn:B.
  - left. destruct (inv_eof _ _ _ IV B) as [_ ->]. split; [reflexivity|]. exists r. auto.
  - fold (rgen r). destruct IV as [E OK]. pose proof (ends_step _ _ _ _ (proj1 OK) E) as ST. pose proof (ok_step o (rs r) (rgen r)) as OS.
    destruct (gen_next o (rs r) (rgen r)) as [[[d| |e|] s1] g1] eqn:N; [| |easy|easy].
    + right. destruct ST as (W1 & ys' & -> & E1). specialize (OS _ _ _ OK eq_refl ltac:(auto) ltac:(discriminate) ltac:(discriminate)).
      exists d, ys'. eexists. split; [reflexivity|]. split; [reflexivity|]. split; [split; assumption|]. exact Hb.
    + left. destruct ST as (-> & ->). specialize (OS _ _ _ OK eq_refl ltac:(discriminate) ltac:(discriminate) ltac:(discriminate)).
      split; [reflexivity|]. exists (mkReader s1 (Some GDone) (rbuf r)). split; [exact Hb|]. split; [split; [apply ends_done|exact OS]|now left].
Qed.

Lemma inv_fresh o s ys s' g' : stream o s false = (ys, FStop, s', g') -> inv o (fresh_reader s) ys.
Proof. intros E. split; [now exists s', g'|]. split; [exact I|]. intros _. right. now exists false. Qed.

(** ** C16 *)
Lemma c16_inv o : forall sizes r ys, inv o r ys -> exists r' ys',
  reads o r (map Some sizes) = Some (map Got (slices (rbuf r ++ concat ys) sizes), r') /\ inv o r' ys' /\
  rbuf r ++ concat ys = concat (slices (rbuf r ++ concat ys) sizes) ++ rbuf r' ++ concat ys'.
Proof.
  induction sizes as [|n sizes IH]; intros r ys IV; cbn [map reads slices concat size_of].
  - exists r, ys. now split.
  - destruct (read_sized o r ys n IV) as (ys1 & ys2 & d & r1 & -> & E & IV1 & ED & EL & _). rewrite E. cbn [to_answer].
    destruct (IH r1 ys2 IV1) as (r' & ys' & E2 & IV2 & EC). rewrite E2. exists r', ys'.
    rewrite concat_app, app_assoc in EL. rewrite concat_app, app_assoc. set (B := (rbuf r ++ concat ys1) ++ concat ys2) in *.
    assert (B = d ++ rbuf r1 ++ concat ys2) as EB by (unfold B; now rewrite <- ED, <- app_assoc).
    assert (d = firstn n B) as Ed.
    { rewrite EB, app_length in EL. rewrite EB, firstn_app. destruct (Nat.le_gt_cases n (List.length d)) as [L|L].
      - rewrite firstn_all2 by lia. replace (n - List.length d)%nat with 0%nat by lia. cbn [firstn]. now rewrite app_nil_r.
      - destruct (rbuf r1 ++ concat ys2); [now rewrite firstn_nil, app_nil_r, firstn_all2 by lia|]. cbn [List.length] in EL. lia. }
    assert (rbuf r1 ++ concat ys2 = skipn n B) as Es.
    { apply (app_inv_head d). rewrite <- EB, Ed. symmetry. apply firstn_skipn. }
    rewrite <- Ed, <- Es. split; [reflexivity|]. split; [exact IV2|]. rewrite EB at 1. rewrite EC at 1. now rewrite app_assoc.
Qed.

Lemma c16_main o s ys s' g' sizes : stream o s false = (ys, FStop, s', g') -> exists r',
  reads o (fresh_reader s) (map Some sizes) = Some (map Got (slices (concat ys) sizes), r') /\
  (eof r' = true -> concat (slices (concat ys) sizes) = concat ys).
Proof.
  intros E. destruct (c16_inv o sizes _ _ (inv_fresh _ _ _ _ _ E)) as (r' & ys' & E2 & IV & EC). cbn [fresh_reader rbuf app] in *.
  exists r'. split; [exact E2|]. intros H. destruct (inv_eof _ _ _ IV H) as [R1 R2]. rewrite R1, R2 in EC. cbn [concat] in EC. now rewrite !app_nil_r in EC.
Qed.

(** ** C17 *)
(** [l ++ [z]]: pieces taken, the last one holding the buffer. *)
Definition held (ys0 ys : list bytes) (off : nat) (buf : bytes) : Prop :=
  exists taken, ys0 = taken ++ ys /\ (off + List.length buf = List.length (concat taken))%nat /\
    (buf <> [] -> exists l z, taken = l ++ [z] /\ (List.length buf < List.length z)%nat).

Lemma held_aligned ys0 ys off buf k : held ys0 ys off buf -> off = List.length (concat (firstn k ys0)) -> buf = [].
Proof.
  intros (taken & -> & EL & H) Ek. destruct buf as [|b buf]; [reflexivity|]. exfalso.
  destruct (H ltac:(discriminate)) as (l & z & -> & Lz). rewrite <- app_assoc in Ek. rewrite concat_app, app_length in EL. cbn [concat app] in *. rewrite app_nil_r in EL.
  cbn [List.length] in *. destruct (Nat.le_gt_cases k (List.length l)) as [K|K].
  - rewrite firstn_app in Ek. replace (k - List.length l)%nat with 0%nat in Ek by lia. cbn [firstn] in Ek. rewrite app_nil_r in Ek.
    rewrite <- (firstn_skipn k l), concat_app, app_length in EL. lia.
  - rewrite firstn_app, (firstn_all2 l) in Ek by lia. replace (k - List.length l)%nat with (S (k - List.length l - 1)) in Ek by lia.
    cbn [firstn] in Ek. rewrite concat_app, app_length in Ek. cbn [concat] in Ek. rewrite app_length in Ek. lia.
Qed.

Lemma c17_inv o ys0 : forall calls r ys off answers r', inv o r ys -> held ys0 ys off (rbuf r) ->
  reads o r calls = Some (answers, r') ->
  (forall i, nth_error calls i = Some None -> exists k, (off + given (firstn i answers))%nat = List.length (concat (firstn k ys0))) ->
  in_order (rbuf r ++ concat ys) calls answers.
Proof.
  induction calls as [|c calls IH]; intros r ys off answers r' IV HD ER AL; cbn [reads] in ER; [injection ER as <- <-; exact I|].
  destruct c as [n|]; cbn [size_of] in ER.
  - destruct (read_sized o r ys n IV) as (ys1 & ys2 & d & r1 & -> & E & IV1 & ED & EL & H1 & H2). rewrite E in ER. cbn [to_answer] in ER.
    destruct (reads o r1 calls) as [[l r2]|] eqn:ER1; [|easy]. injection ER as <- <-. cbn [in_order].
    exists (rbuf r1 ++ concat ys2). split; [rewrite concat_app, !app_assoc, ED; reflexivity|]. split; [intros m Em; injection Em as <-; exact EL|].
    apply (IH r1 ys2 (off + List.length d)%nat l r2 IV1); [|exact ER1|].
    + destruct HD as (taken & -> & EO & HB). exists (taken ++ ys1). split; [now rewrite app_assoc|].
      assert (List.length d + List.length (rbuf r1) = List.length (rbuf r) + List.length (concat ys1))%nat as EE by (rewrite <- !app_length; now rewrite ED).
      split; [rewrite concat_app, app_length; lia|]. intros Nb. destruct ys1 as [|y ys1].
      * rewrite app_nil_r. cbn [concat List.length] in EE. assert (rbuf r <> []) as Nr by (intros Z; rewrite Z in EE; cbn [List.length] in EE; destruct (rbuf r1); [easy|cbn [List.length] in EE; lia]).
        destruct (HB Nr) as (l0 & z & -> & L). exists l0, z. split; [reflexivity|lia].
      * destruct (H1 Nb ltac:(discriminate)) as (l0 & z & E0 & L). exists (taken ++ l0), z. rewrite E0, app_assoc. now split.
    + intros i Hi. destruct (AL (S i) Hi) as (k & Ek). exists k. cbn [firstn] in Ek. unfold given in *. cbn [map list_sum fold_right] in Ek.
      rewrite <- Ek. unfold list_sum. lia.
  - destruct (AL 0%nat eq_refl) as (k & Ek). cbn [firstn given map list_sum fold_right] in Ek. rewrite Nat.add_0_r in Ek.
    pose proof (held_aligned _ _ _ _ _ HD Ek) as Hb.
    assert (forall d ys1 ys2 r1 l, ys = ys1 ++ ys2 -> concat ys1 = d -> rbuf r1 = [] -> inv o r1 ys2 -> reads o r1 calls = Some (l, r') ->
              answers = Got d :: l -> in_order (rbuf r ++ concat ys) (None :: calls) answers) as STEP.
    { intros d ys1 ys2 r1 l -> Ed Hr1 IV1 ER1 ->. rewrite Hb. cbn [app in_order]. exists (concat ys2). split; [rewrite concat_app; now rewrite Ed|].
      split; [discriminate|]. specialize (IH r1 ys2 (off + List.length d)%nat l r' IV1). rewrite Hr1 in IH. apply IH; [|exact ER1|].
      - destruct HD as (taken & -> & EO & _). exists (taken ++ ys1). split; [now rewrite app_assoc|]. split; [|easy].
        rewrite Hb in EO. rewrite concat_app, app_length, Ed. cbn [List.length] in *. lia.
      - intros i Hi. destruct (AL (S i) Hi) as (k' & Ek'). exists k'. cbn [firstn] in Ek'. unfold given in *. cbn [map list_sum fold_right] in Ek'.
        rewrite <- Ek'. unfold list_sum. lia. }
    destruct (read_piece o r ys IV Hb) as [(-> & r1 & Hr1 & IV1 & [E|E])|(d & ys2 & r1 & -> & E & IV1 & Hr1)]; rewrite E in ER; cbn [to_answer] in ER;
      (destruct (reads o r1 calls) as [[l r2]|] eqn:ER1; [|easy]); injection ER as <- <-.
    + rewrite Hb. cbn [concat app in_order]. split; [reflexivity|]. split; [reflexivity|]. specialize (IH r1 [] off l r2 IV1). rewrite Hr1 in IH. apply IH; [|exact ER1|].
      * rewrite Hb in HD. exact HD.
      * intros i Hi. destruct (AL (S i) Hi) as (k' & Ek'). exists k'. exact Ek'.
    + apply (STEP [] [] [] r1 l); auto.
    + apply (STEP d [d] ys2 r1 l); auto. cbn [concat]. now rewrite app_nil_r.
Qed.

(** Calls on a body that ends normally all have an answer. *)
Lemma reads_total o : forall calls r ys, inv o r ys -> exists a r', reads o r calls = Some (a, r').
Proof.
  induction calls as [|c calls IH]; intros r ys IV; cbn [reads]; [now exists [], r|].
  destruct c as [n|]; cbn [size_of].
  - destruct (read_sized o r ys n IV) as (ys1 & ys2 & d & r1 & _ & E & IV1 & _). rewrite E. cbn [to_answer]. destruct (IH r1 ys2 IV1) as (a & r' & ->). eauto.
  - assert (exists x r1 ys1, read o r (-1) = (x, r1) /\ inv o r1 ys1 /\ to_answer x <> None) as (x & r1 & ys1 & -> & IV1 & N).
    { unfold read, recv. change (-1 =? 0) with false. change (-1 =? -1) with true. cbv iota. cbn [orb].
      destruct (eof r) eqn:B; [exists (RRet []), r, ys; now repeat split; try apply IV|].
      fold (rgen r). destruct IV as [E OK]. pose proof (ends_step _ _ _ _ (proj1 OK) E) as ST. pose proof (ok_step o (rs r) (rgen r)) as OS.
      destruct (gen_next o (rs r) (rgen r)) as [[[d| |e|] s1] g1] eqn:N; [| |easy|easy].
      - destruct ST as (W1 & ys' & -> & E1). specialize (OS _ _ _ OK eq_refl ltac:(auto) ltac:(discriminate) ltac:(discriminate)).
        do 2 eexists. exists ys'. split; [reflexivity|]. split; [split; assumption|discriminate].
      - destruct ST as (-> & ->). specialize (OS _ _ _ OK eq_refl ltac:(discriminate) ltac:(discriminate) ltac:(discriminate)).
        exists (RRaise StopAsyncIteration), (mkReader s1 (Some GDone) (rbuf r)), []. split; [reflexivity|]. split; [split; [apply ends_done|exact OS]|discriminate]. }
    destruct (to_answer x); [|easy]. destruct (IH r1 ys1 IV1) as (a' & r' & ->). eauto.
Qed.

Lemma c17_main o s ys s' g' calls : stream o s false = (ys, FStop, s', g') -> exists answers r',
  reads o (fresh_reader s) calls = Some (answers, r') /\
  (aligned ys calls answers -> in_order (concat ys) calls answers).
Proof.
  intros E. pose proof (inv_fresh _ _ _ _ _ E) as IV. destruct (reads_total o calls _ _ IV) as (a & r' & ER). exists a, r'. split; [exact ER|].
  intros AL. apply (c17_inv o ys calls (fresh_reader s) ys 0 a r' IV); [|exact ER|exact AL].
  exists []. now repeat split.
Qed.

(** ** Resuming a blocked reader
    When the reader finds the queue empty it waits; what it does when more items come is what
    it would have done had they been there from the start. *)
Definition more (s : rstate) (l : list inp) : rstate := set_items s (items s ++ l).

Definition resumes (l : list inp) (now later : out * rstate * gen) (again : rstate -> gen -> out * rstate * gen) : Prop :=
  match now with
  | (OBlock, s', g') => items s' = [] /\ later = again (set_items s' l) g'
  | (x, s', g') => later = (x, more s' l, g')
  end.

Lemma after_pass_resumes s p buf ad l again : p <> PNeed ->
  resumes l (after_pass s p buf ad) (after_pass (more s l) p buf ad) again.
Proof. intros N. destruct p; try reflexivity. easy. Qed.

Lemma pass_need o buf unread : chunk_pass o buf unread = PNeed -> find CRLF buf = None.
Proof.
  unfold chunk_pass. destruct (0 <? unread); [destruct (_ <? _); easy|]. destruct (find CRLF buf); [|easy].
  destruct (chunk_line_size _); [|easy]. destruct (_ <? _); [easy|]. destruct (_ <? _); easy.
Qed.

Lemma contains_crlf2 buf : contains (CRLF ++ CRLF) buf = true -> find CRLF buf <> None.
Proof.
  intros C. apply contains_spec in C as (a & c & ->). assert (contains CRLF (a ++ (CRLF ++ CRLF) ++ c) = true) as D.
  { apply contains_spec. exists a, (CRLF ++ c). now rewrite <- app_assoc. }
  unfold contains in D. destruct (find CRLF _); easy.
Qed.

Lemma chunk_read_resumes o l2 : forall l s m buf u,
  resumes l2 (chunk_read o l s buf u) (chunk_read o (l ++ l2) (set_items s m) buf u) (gen_next o).
Proof.
  induction l as [|i l IH]; intros s m buf u; cbn [chunk_read app].
  - cbn [resumes gen_next chunk_next]. split; [reflexivity|]. unfold chunk_next. cbn [set_items items].
    destruct l2 as [|[d| |] l2]; cbn [chunk_read]; try reflexivity.
  - destruct i as [d| |].
    + destruct (chunk_pass o (buf ++ d) u) eqn:E; try reflexivity. apply (IH (took s d l) (l ++ l2)).
    + destruct (contains _ buf) eqn:C; [|reflexivity].
      destruct (chunk_pass o buf u) eqn:E; try reflexivity.
      apply pass_need in E. now apply contains_crlf2 in C.
    + reflexivity.
Qed.

Lemma chunk_next_resumes o l2 s buf p u ad :
  resumes l2 (chunk_next o s buf p u ad) (chunk_next o (more s l2) buf p u ad) (gen_next o).
Proof.
  unfold chunk_next.
  assert (resumes l2 (if ad then chunk_over o s buf u else chunk_read o (items s) s buf u)
     (if ad then chunk_over o (more s l2) buf u else chunk_read o (items (more s l2)) (more s l2) buf u) (gen_next o)) as R.
  { destruct ad; [|apply chunk_read_resumes]. unfold chunk_over. destruct (contains _ buf) eqn:C; [|reflexivity].
    destruct (chunk_pass o buf u) eqn:E; try reflexivity. apply pass_need in E. now apply contains_crlf2 in C. }
  destruct p; [|exact R]. destruct (chunk_pass o buf u) eqn:E; try reflexivity. exact R.
Qed.

Lemma plain_next_resumes o l2 s : resumes l2 (plain_next s) (plain_next (more s l2)) (gen_next o).
Proof.
  unfold plain_next. change (clen (more s l2)) with (clen s). destruct s as [it c e k n ch st]. cbn [items more set_items].
  destruct it as [|[d| |] l]; cbn [app]; try reflexivity.
  - split; reflexivity.
  - cbn. destruct (_ && _); reflexivity.
Qed.

Lemma gen_next_resumes o l2 s g : resumes l2 (gen_next o s g) (gen_next o (more s l2) g) (gen_next o).
Proof.
  destruct g as [raw|buf p u ad| |]; cbn [gen_next].
  - change (eof_ (more s l2)) with (eof_ s). destruct (eof_ s); [reflexivity|].
    assert (forall s0, resumes l2
      (if negb raw && chunked s0 then chunk_next o s0 [] false 0 false
       else if o_max_body o <? clen s0 then (ORaise PayloadTooLarge, s0, GDone) else plain_next s0)
      (if negb raw && chunked (more s0 l2) then chunk_next o (more s0 l2) [] false 0 false
       else if o_max_body o <? clen (more s0 l2) then (ORaise PayloadTooLarge, (more s0 l2), GDone) else plain_next (more s0 l2)) (gen_next o)) as G.
    { intros s0. change (chunked (more s0 l2)) with (chunked s0). change (clen (more s0 l2)) with (clen s0).
      destruct (_ && _); [apply chunk_next_resumes|]. destruct (_ <? _); [reflexivity|apply plain_next_resumes]. }
    unfold send_continue. change (cont (more s l2)) with (cont s). change (clen (more s l2)) with (clen s).
    destruct (cont s); [|apply G]. destruct (_ <? _); [reflexivity|]. apply (G (sent s)).
  - apply chunk_next_resumes.
  - apply plain_next_resumes.
  - reflexivity.
Qed.

(** The whole loop: draining what is there, waiting, and draining what comes later. *)
Lemma drain_resumes o l2 : forall f1 f2 s g ys1 s1 g1 ys2 r2 s2 g2,
  drain f1 o s g = (ys1, FBlock, s1, g1) -> drain f2 o (set_items s1 l2) g1 = (ys2, r2, s2, g2) -> r2 <> FFuel ->
  items s1 = [] /\ drain (f1 + f2) o (more s l2) g = (ys1 ++ ys2, r2, s2, g2).
Proof.
  induction f1 as [|f1 IH]; intros f2 s g ys1 s1 g1 ys2 r2 s2 g2 E1 E2 N; [discriminate E1|]. cbn [drain] in E1.
  cbn [Nat.add drain]. pose proof (gen_next_resumes o l2 s g) as R. destruct (gen_next o s g) as [[x s'] g'] eqn:G. unfold resumes in R.
  destruct x as [d| |e|]; [|discriminate E1|discriminate E1|].
  - rewrite R. destruct (drain f1 o s' g') as [[[ys r] s3] g3] eqn:D. injection E1 as <- -> <- <-.
    destruct (IH f2 _ _ _ _ _ _ _ _ _ D E2 N) as (I1 & I2). split; [exact I1|]. now rewrite I2.
  - injection E1 as <- <- <-. destruct R as (I1 & R). split; [exact I1|]. rewrite R. destruct f2 as [|f2]; [cbn in E2; congruence|].
    cbn [app]. apply (drain_more o (S f2) _ _ _ _ _ _ E2 N (S (f1 + S f2)) ltac:(lia)).
Qed.

Lemma block_wf o s g s' g' : gen_next o s g = (OBlock, s', g') -> wf g'.
Proof.
  assert (forall s p b ad, after_pass s p b ad = (OBlock, s', g') -> wf g') as AP.
  { intros s0 [] b ad; cbn [after_pass]; try easy. intros E. injection E as <- <-. exact I. }
  assert (forall l s b u, chunk_read o l s b u = (OBlock, s', g') -> wf g') as CR.
  { induction l as [|[d| |] l IH]; intros s0 b u; cbn [chunk_read]; [intros E; injection E as <- <-; exact I| | |easy].
    - destruct (chunk_pass o (b ++ d) u) eqn:E; try apply AP. apply IH.
    - destruct (contains _ _); [apply AP|easy]. }
  assert (forall s b p u ad, chunk_next o s b p u ad = (OBlock, s', g') -> wf g') as CN.
  { intros s0 b p u ad. unfold chunk_next, chunk_over.
    assert ((if ad then if contains (CRLF ++ CRLF) b then after_pass s0 (chunk_pass o b u) b true else (ORaise BadRequest, s0, GDone)
             else chunk_read o (items s0) s0 b u) = (OBlock, s', g') -> wf g') as R.
    { destruct ad; [destruct (contains _ _); [apply AP|easy]|apply CR]. }
    destruct p; [|exact R]. destruct (chunk_pass o b u) eqn:E; try apply AP. exact R. }
  assert (forall s, plain_next s = (OBlock, s', g') -> wf g') as PN.
  { intros s0. unfold plain_next. destruct (items s0) as [|[]]; try easy; [intros E; injection E as <- <-; exact I|destruct (_ && _); easy]. }
  destruct g as [raw|b p u ad| |]; cbn [gen_next].
  - destruct (eof_ s); [easy|]. destruct (send_continue o s); [|easy]. destruct (_ && _); [apply CN|]. destruct (_ <? _); [easy|apply PN].
  - apply CN.
  - apply PN.
  - easy.
Qed.

Lemma drain_block_wf o : forall f s g ys s' g', drain f o s g = (ys, FBlock, s', g') -> wf g'.
Proof.
  induction f as [|f IH]; intros s g ys s' g' E; [discriminate E|]. cbn [drain] in E.
  destruct (gen_next o s g) as [[[d| |e|] s1] g1] eqn:G; [|discriminate E|discriminate E|].
  - destruct (drain f o s1 g1) as [[[ys1 r1] s2] g2] eqn:D. injection E as <- -> <- <-. eapply IH. exact D.
  - injection E as <- <- <-. eapply block_wf. exact G.
Qed.

Lemma stream_resumes o s raw l ys1 s1 g1 ys2 r2 s2 g2 :
  stream o s raw = (ys1, FBlock, s1, g1) ->
  drain (work (set_items s1 l) g1) o (set_items s1 l) g1 = (ys2, r2, s2, g2) ->
  stream o (set_items s (items s ++ l)) raw = (ys1 ++ ys2, r2, s2, g2).
Proof.
  intros E1 E2. pose proof (drain_block_wf _ _ _ _ _ _ _ E1) as W1.
  pose proof (drain_fuel o _ _ _ W1 (le_n (work (set_items s1 l) g1))) as N. rewrite E2 in N.
  destruct (drain_resumes o l _ _ _ _ _ _ _ _ _ _ _ E1 E2 N) as (_ & D). fold (more s l). unfold stream.
  pose proof (drain_fuel o _ (more s l) (GInit raw) I (le_n _)) as N2.
  destruct (drain (work (more s l) (GInit raw)) o (more s l) (GInit raw)) as [[[y r] s3] g3] eqn:D2.
  pose proof (drain_more o _ _ _ _ _ _ _ D2 N2 _ (Nat.le_max_l _ (work s (GInit raw) + work (set_items s1 l) g1))) as X.
  rewrite (drain_more o _ _ _ _ _ _ _ D N _ (Nat.le_max_r _ _)) in X. congruence.
Qed.
