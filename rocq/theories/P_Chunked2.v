(** Soundness of the chunked decoder (C14, C15). *)
From Verif Require Import PyBytes PyBytesFacts PyInt PyIntFacts PyExn M_Stream S_Chunked P_Parser P_Parser2 P_Stream P_Chunked.
From Coq Require Import ZifyBool ZifyNat ZifyN.
Local Open Scope Z_scope.

(** What follows the data items decides how an exhausted reader ends. *)
Definition tail_ok (tl : list inp) : Prop := match tl with Data _ :: _ => False | _ => True end.
Definition tail_out (tl : list inp) (r : out) : Prop :=
  match tl with [] => r = OBlock | End :: _ => r = ORaise BadRequest | _ => r = ORaise TimeoutError end.
Definition tail_fin (tl : list inp) (r : fin) : Prop :=
  match tl with [] => r = FBlock | End :: _ => r = FRaise BadRequest | _ => r = FRaise TimeoutError end.

Lemma crlf2_crlf buf : find CRLF buf = None -> contains (CRLF ++ CRLF) buf = false.
Proof.
  intros N. destruct (contains (CRLF ++ CRLF) buf) eqn:C; [|reflexivity].
  apply contains_spec in C as (a & c & E). assert (contains CRLF buf = true) as C2.
  { apply contains_spec. exists a, (CRLF ++ c). now rewrite E, <- app_assoc. }
  unfold contains in C2. now rewrite N in C2.
Qed.

Lemma pass_need o buf : chunk_pass o buf 0 = PNeed -> find CRLF buf = None.
Proof.
  unfold chunk_pass. change (0 <? 0) with false. cbv iota. destruct (find CRLF buf) as [i|]; [|reflexivity].
  destruct (chunk_line_size _) as [n|]; [|easy]. destruct (n <? 1); [easy|]. now destruct (0 <? _).
Qed.

Lemma read_any o tl : tail_ok tl -> forall segs s buf, find CRLF buf = None ->
  (exists segs1 segs2 s', segs = segs1 ++ segs2 /\ items s' = map Data segs2 ++ tl /\
     chunk_pass o (buf ++ concat segs1) 0 <> PNeed /\
     chunk_read o (map Data segs ++ tl) s buf 0 =
       after_pass s' (chunk_pass o (buf ++ concat segs1) 0) (buf ++ concat segs1) false) \/
  (exists r s' g', chunk_read o (map Data segs ++ tl) s buf 0 = (r, s', g') /\ tail_out tl r).
Proof.
  intros Ht. induction segs as [|d segs IH]; intros s buf N; cbn [map app chunk_read concat].
  - right. destruct tl as [|[x| |] tl]; cbn [chunk_read]; [|easy| |].
    + do 3 eexists. now split.
    + rewrite (crlf2_crlf _ N). do 3 eexists. now split.
    + do 3 eexists. now split.
  - destruct (chunk_pass o (buf ++ d) 0) eqn:P;
      try (left; exists [d], segs, (took s d (map Data segs ++ tl)); cbn [concat]; rewrite app_nil_r, P; repeat split; discriminate).
    apply pass_need in P.
    destruct (IH (took s d (map Data segs ++ tl)) (buf ++ d) P) as [(s1 & s2 & s' & E1 & E2 & E3 & E4)|R].
    + left. exists (d :: s1), s2, s'. subst segs. cbn [concat]. rewrite app_assoc. now repeat split.
    + right. exact R.
Qed.

Lemma next_any o tl s buf paused segs : tail_ok tl -> items s = map Data segs ++ tl ->
  (paused = false -> find CRLF buf = None) ->
  (exists segs1 segs2 s', segs = segs1 ++ segs2 /\ items s' = map Data segs2 ++ tl /\
     chunk_pass o (buf ++ concat segs1) 0 <> PNeed /\
     chunk_next o s buf paused 0 false =
       after_pass s' (chunk_pass o (buf ++ concat segs1) 0) (buf ++ concat segs1) false) \/
  (exists r s' g', chunk_next o s buf paused 0 false = (r, s', g') /\ tail_out tl r).
Proof.
  intros Ht Hi Hp. unfold chunk_next. destruct paused.
  - destruct (chunk_pass o buf 0) eqn:P;
      try (left; exists [], segs, s; cbn [concat app]; rewrite app_nil_r, P; repeat split; (assumption || discriminate)).
    rewrite Hi. apply read_any; [exact Ht|]. now apply pass_need in P.
  - rewrite Hi. apply read_any; [exact Ht|]. now apply Hp.
Qed.

Definition cls (l : bytes) (n : Z) : Prop := chunk_line_size l = Some n.

(** Decoding from inside the data of a chunk with [u] bytes still to come. *)
Definition decodes_in (cut : nat -> Prop) (u : Z) (off : nat) (P D : bytes) : Prop :=
  exists data term rest D', P = data ++ term ++ rest /\ D = data ++ D' /\ blen data = u /\
    (List.length term = 2%nat \/ ((List.length term < 2)%nat /\ cut (off + List.length (data ++ term))%nat)) /\
    decodes cls cut (off + List.length (data ++ term)) rest D'.

Lemma chunk_line_nonneg line n : chunk_line_size line = Some n -> 0 <= n.
Proof.
  unfold chunk_line_size. destruct (split_max _ _ _) as [|p ps]; [easy|]. unfold py_int16.
  assert (exists q, strip_ws (bs "0x" ++ p) = "0"%char :: q) as (q & ->).
  { unfold strip_ws, strip_by. cbn [bs list_ascii_of_string app lstrip_by]. change (is_space "0") with false. cbv iota.
    unfold rstrip_by. cbn [rev]. rewrite <- !app_assoc. cbn [app].
    assert (forall l, exists q, rev (lstrip_by is_space (l ++ ["x"%char; "0"%char])) = "0"%char :: q) as G.
    { induction l as [|c l IH]; cbn [app lstrip_by].
      - change (is_space "x") with false. cbv iota. cbn [rev app]. eexists. reflexivity.
      - destruct (is_space c); [exact IH|]. cbn [rev]. rewrite rev_app_distr. cbn [rev app]. eexists. reflexivity. }
    apply G. }
  cbn [int_sign]. change (Ascii.eqb "0" "-") with false. change (Ascii.eqb "0" "+") with false. cbv iota.
  destruct (int_digits _ _ _ _ _) as [[m c]|]; [|easy]. intros E. assert (n = 1 * Z.of_N m) by congruence. lia.
Qed.

Lemma pass_cases o buf : chunk_pass o buf 0 <> PNeed ->
  (chunk_pass o buf 0 = PRaise) \/
  (exists line Y n, buf = line ++ CRLF ++ Y /\ line_ok line /\ chunk_line_size line = Some n /\
     ((n = 0 /\ chunk_pass o buf 0 = PStop) \/ 0 < n)).
Proof.
  intros N. destruct (find CRLF buf) as [i|] eqn:F.
  - pose proof (find_split _ _ _ F) as E. pose proof (find_line_ok _ _ F) as L. cbn [List.length CRLF] in E.
    destruct (chunk_line_size (firstn i buf)) as [n|] eqn:S1.
    + right. exists (firstn i buf), (skipn (i + 2) buf), n. split; [exact E|]. split; [exact L|]. split; [exact S1|].
      pose proof (chunk_line_nonneg _ _ S1). destruct (Z.ltb_spec n 1) as [G|G].
      * left. split; [lia|]. unfold chunk_pass. change (0 <? 0) with false. cbv iota. rewrite F, S1. now replace (n <? 1) with true by lia.
      * right. lia.
    + left. unfold chunk_pass. change (0 <? 0) with false. cbv iota. now rewrite F, S1.
  - left. unfold chunk_pass in *. change (0 <? 0) with false in *. cbv iota in *. rewrite F in *. now destruct (_ <? _).
Qed.

Definition cut_at (off : nat) (segs : list bytes) (n : nat) : Prop :=
  exists k, (k <= List.length segs)%nat /\ n = (off + List.length (concat (firstn k segs)))%nat.

Lemma cut_at_app off (s1 s2 : list bytes) n : cut_at (off + List.length (concat s1)) s2 n -> cut_at off (s1 ++ s2) n.
Proof.
  intros (k & Hk & ->). exists (List.length s1 + k)%nat. rewrite app_length. split; [now apply Nat.add_le_mono_l|].
  rewrite firstn_app_2, concat_app, app_length. symmetry. apply Nat.add_assoc.
Qed.
Lemma cut_at_here off segs : cut_at off segs off.
Proof. exists 0%nat. cbn. split; lia. Qed.
Lemma cut_at_eq off off' segs n : off = off' -> cut_at off segs n -> cut_at off' segs n.
Proof. now intros ->. Qed.

Lemma decodes_weaken size (c1 c2 : nat -> Prop) off P D : (forall n, c1 n -> c2 n) ->
  decodes size c1 off P D -> decodes size c2 off P D.
Proof.
  intros H. induction 1 as [off line A B|off line data term rest D A B C E _ IH]; [now constructor|].
  apply dec_chunk; try assumption. destruct E as [E|[E E']]; [now left|right; split; [exact E|now apply H]].
Qed.

(** What a run of the decoder says about the bytes. [off] is the position of [buf]. *)
Definition sound (tl : list inp) (r : fin) (ys : list bytes) (s' : rstate) (total : bytes)
                 (dec : bytes -> bytes -> Prop) : Prop :=
  match r with
  | FStop => exists P rest, total = P ++ rest /\ dec P (concat ys) /\ eof_ s' = true
  | FRaise e => e = BadRequest \/ tail_fin tl r
  | FBlock => tl = []
  | FFuel => True
  end.

Lemma sound_step tl r ys s' d total total' dec dec' : 
  sound tl r ys s' total' dec' ->
  (forall P rest D, total' = P ++ rest -> dec' P D -> exists Q, total = Q ++ rest /\ dec Q (d ++ D)) ->
  sound tl r (d :: ys) s' total dec.
Proof.
  intros S1 H. destruct r; cbn [sound] in *; try exact S1. destruct S1 as (P & rest & E & Hd & He).
  destruct (H P rest (concat ys) E Hd) as (Q & E2 & Hd2). exists Q, rest. now repeat split.
Qed.

Lemma c15_both o tl : tail_ok tl -> forall fuel,
  (forall s buf segs paused off ys r s' g',
     items s = map Data segs ++ tl -> (paused = false -> find CRLF buf = None) ->
     drain fuel o s (GChunk buf paused 0 false) = (ys, r, s', g') ->
     sound tl r ys s' (buf ++ concat segs) (decodes cls (cut_at (off + List.length buf) segs) off)) /\
  (forall s u segs off ys r s' g', 0 < u ->
     items s = map Data segs ++ tl ->
     drain fuel o s (GChunk [] false u false) = (ys, r, s', g') ->
     sound tl r ys s' (concat segs) (decodes_in (cut_at off segs) u off)).
Proof.
  intros Ht. induction fuel as [|fuel [IHA IHB]]; split; intros.
  1,2: cbn [drain] in *; match goal with H : _ = (_, _, _, _) |- _ => injection H as <- <- <- <- end; exact I.
  - rename H into Hi, H0 into Hp, H1 into E. cbn [drain gen_next] in E.
    destruct (next_any o tl s buf paused segs Ht Hi Hp) as [(s1 & s2 & st & E1 & E2 & NP & EN)|(r0 & st & g0 & EN & TO)].
    2:{ rewrite EN in E. destruct tl as [|[x| |] tl]; cbn [tail_out] in TO; [|easy| |]; subst r0; injection E as <- <- <- <-; cbn [sound tail_fin];
        first [reflexivity | left; reflexivity | right; reflexivity]. }
    rewrite EN in E. clear EN.
    destruct (pass_cases o _ NP) as [P|(line & Y & n & EB & Hl & Hs & [[-> P]|Hn])].
    + rewrite P in E. injection E as <- <- <- <-. now left.
    + rewrite P in E. cbn [after_pass] in E. injection E as <- <- <- <-. cbn [sound].
      exists (line ++ CRLF), (Y ++ concat s2). split; [|split; [now constructor|reflexivity]].
      subst segs. rewrite concat_app, app_assoc, EB, <- !app_assoc. reflexivity.
    + rewrite EB in E. rewrite (pass_chunk o line Y n Hl Hs Hn) in E.
      assert (buf ++ concat segs = line ++ CRLF ++ Y ++ concat s2) as ET by (subst segs; rewrite concat_app, app_assoc, EB, <- !app_assoc; reflexivity).
      assert (List.length buf + List.length (concat s1) = List.length line + 2 + List.length Y)%nat as LB.
      { rewrite <- app_length, EB, !app_length. cbn [List.length CRLF]. lia. }
      destruct (Z.ltb_spec (blen Y) n) as [L|L]; cbn [after_pass] in E.
      * destruct (drain fuel o st _) as [[[ys1 r1] s3] g3] eqn:ED. injection E as <- <- <- <-.
        eapply sound_step; [eapply (IHB _ (n - blen Y) _ (off + List.length line + 2 + List.length Y)%nat _ _ _ _ ltac:(lia) E2 ED)|].
        intros P rest D EP (data & term & rest' & D' & -> & -> & Hu & Hterm & Hdec).
        exists (line ++ CRLF ++ (Y ++ data) ++ term ++ rest'). split; [rewrite ET, EP, <- !app_assoc; reflexivity|].
        rewrite (app_assoc Y data D'). pose proof (blen_nonneg Y).
        assert (off + List.length line + 2 + List.length Y + List.length (data ++ term) = off + List.length (line ++ CRLF ++ (Y ++ data) ++ term))%nat as LO
          by (rewrite !app_length; cbn [List.length CRLF]; lia).
        assert (forall m, cut_at (off + List.length line + 2 + List.length Y) s2 m -> cut_at (off + List.length buf) segs m) as CW.
        { intros m Hm. subst segs. apply cut_at_app. eapply cut_at_eq; [|exact Hm]. lia. }
        apply dec_chunk.
        -- exact Hl.
        -- unfold cls. rewrite blen_app, Hu, Hs. f_equal. lia.
        -- intros Z0. apply app_eq_nil in Z0 as [_ ->]. unfold blen in *. cbn in Hu. lia.
        -- rewrite <- LO. destruct Hterm as [Q|[Q Q2]]; [now left|right; split; [exact Q|now apply CW]].
        -- rewrite <- LO. eapply decodes_weaken; [exact CW|exact Hdec].
      * destruct (drain fuel o st _) as [[[ys1 r1] s3] g3] eqn:ED. injection E as <- <- <- <-.
        unfold blen in L. set (k := Z.to_nat n) in *. set (term := firstn 2 (skipn k Y)).
        assert (Y = firstn k Y ++ term ++ skipn (k + 2) Y) as EY.
        { unfold term. rewrite skipn_add, firstn_skipn, firstn_skipn. reflexivity. }
        assert (List.length (firstn k Y) = k) as Lk by (rewrite firstn_length; lia).
        eapply sound_step; [eapply (IHA st (skipn (k + 2) Y) s2 true (off + List.length (line ++ CRLF ++ firstn k Y ++ term))%nat _ _ _ _ E2 ltac:(discriminate) ED)|].
        intros P rest D EP Hdec.
        exists (line ++ CRLF ++ firstn k Y ++ term ++ P). split.
        { rewrite ET. rewrite EY at 1. rewrite <- !app_assoc. now rewrite EP. }
        assert (forall m, cut_at (off + List.length (line ++ CRLF ++ firstn k Y ++ term) + List.length (skipn (k + 2) Y)) s2 m -> cut_at (off + List.length buf) segs m) as CW.
        { intros m Hm. subst segs. apply cut_at_app. eapply cut_at_eq; [|exact Hm].
          assert (List.length Y = List.length (firstn k Y) + (List.length term + List.length (skipn (k + 2) Y)))%nat as LY
            by (rewrite EY at 1; rewrite !app_length; reflexivity).
          rewrite !app_length. cbn [List.length CRLF]. lia. }
        apply dec_chunk.
        -- exact Hl.
        -- unfold cls. rewrite Hs. unfold blen. rewrite Lk. f_equal. lia.
        -- intros Z0. rewrite Z0 in Lk. cbn in Lk. lia.
        -- assert (List.length term = Nat.min 2 (List.length Y - k)) as LT by (unfold term; rewrite firstn_length, skipn_length; reflexivity).
           destruct (Nat.le_gt_cases (k + 2) (List.length Y)); [left; lia|right]. split; [lia|].
           apply CW. rewrite (skipn_all2 Y) by lia. cbn [List.length]. rewrite Nat.add_0_r. apply cut_at_here.
        -- eapply decodes_weaken; [exact CW|exact Hdec].
  - rename H into Hu, H0 into Hi, H1 into E. cbn [drain gen_next] in E. unfold chunk_next in E. rewrite Hi in E.
    destruct segs as [|d segs].
    { cbn [map app chunk_read] in E. destruct tl as [|[x| |] tl]; cbn [chunk_read] in E; [|easy| |].
      - injection E as <- <- <- <-. reflexivity.
      - cbn in E. injection E as <- <- <- <-. now left.
      - injection E as <- <- <- <-. now right. }
    cbn [map app chunk_read] in E. rewrite (pass_unread o d u Hu) in E. cbn [concat].
    set (st := took s d (map Data segs ++ tl)) in *.
    assert (forall m, cut_at (off + List.length d) segs m -> cut_at off (d :: segs) m) as CW.
    { intros m Hm. apply (cut_at_app off [d] segs). cbn [concat]. now rewrite app_nil_r. }
    destruct (Z.ltb_spec (blen d) u) as [L|L]; cbn [after_pass] in E.
    + destruct (drain fuel o st _) as [[[ys1 r1] s3] g3] eqn:ED. injection E as <- <- <- <-.
      eapply sound_step; [eapply (IHB st (u - blen d) segs (off + List.length d)%nat _ _ _ _ ltac:(lia) eq_refl ED)|].
      intros P rest D EP (data & term & rest' & D' & -> & -> & Hd & Hterm & Hdec).
      exists ((d ++ data) ++ term ++ rest'). split; [rewrite EP, <- !app_assoc; reflexivity|].
      exists (d ++ data), term, rest', D'. split; [reflexivity|]. split; [now rewrite <- app_assoc|]. split; [rewrite blen_app; lia|].
      assert (off + List.length d + List.length (data ++ term) = off + List.length ((d ++ data) ++ term))%nat as LO by (rewrite !app_length; lia).
      rewrite <- LO. split; [destruct Hterm as [Q|[Q Q2]]; [now left|right; split; [exact Q|now apply CW]]|].
      eapply decodes_weaken; [exact CW|exact Hdec].
    + destruct (drain fuel o st _) as [[[ys1 r1] s3] g3] eqn:ED. injection E as <- <- <- <-.
      unfold blen in L. set (k := Z.to_nat u) in *. set (term := firstn 2 (skipn k d)).
      assert (d = firstn k d ++ term ++ skipn (k + 2) d) as EY.
      { unfold term. rewrite skipn_add, firstn_skipn, firstn_skipn. reflexivity. }
      assert (List.length (firstn k d) = k) as Lk by (rewrite firstn_length; lia).
      eapply sound_step; [eapply (IHA st (skipn (k + 2) d) segs true (off + List.length (firstn k d ++ term))%nat _ _ _ _ eq_refl ltac:(discriminate) ED)|].
      intros P rest D EP Hdec.
      exists (firstn k d ++ term ++ P). split.
      { rewrite EY at 1. rewrite <- !app_assoc. now rewrite EP. }
      assert (List.length d = List.length (firstn k d) + (List.length term + List.length (skipn (k + 2) d)))%nat as LD
          by (rewrite EY at 1; rewrite !app_length; reflexivity).
      assert (forall m, cut_at (off + List.length (firstn k d ++ term) + List.length (skipn (k + 2) d)) segs m -> cut_at off (d :: segs) m) as CW2.
      { intros m Hm. apply CW. eapply cut_at_eq; [|exact Hm]. rewrite !app_length. lia. }
      exists (firstn k d), term, P, D. split; [reflexivity|]. split; [reflexivity|]. split; [unfold blen; rewrite Lk; lia|].
      split; [|eapply decodes_weaken; [exact CW2|exact Hdec]].
      assert (List.length term = Nat.min 2 (List.length d - k)) as LT by (unfold term; rewrite firstn_length, skipn_length; reflexivity).
      destruct (Nat.le_gt_cases (k + 2) (List.length d)); [left; lia|right]. split; [lia|].
      apply CW2. rewrite (skipn_all2 d) by lia. cbn [List.length]. rewrite Nat.add_0_r. apply cut_at_here.
Qed.

Lemma stream_chunked o s ys r s' g' : chunked s = true -> eof_ s = false ->
  (cont s = false \/ clen s <= o_max_body o) ->
  stream o s false = (ys, r, s', g') ->
  exists s0 fuel, items s0 = items s /\ drain fuel o s0 (GChunk [] false 0 false) = (ys, r, s', g') /\ r <> FFuel.
Proof.
  intros Hc He Hk E. pose proof (drain_fuel o (work s (GInit false)) s (GInit false) I ltac:(lia)) as NF.
  unfold stream in E. rewrite E in NF. revert E.
  assert (exists s0, send_continue o s = Some s0 /\ items s0 = items s /\ chunked s0 = true) as (s0 & C0 & I0 & K0).
  { unfold send_continue. destruct (cont s).
    - destruct Hk as [Hk|Hk]; [discriminate|]. replace (o_max_body o <? clen s) with false by lia. exists (sent s). now repeat split.
    - exists s. now repeat split. }
  unfold work. intros E. exists s0, (S (items_work (items s) + 0)). split; [exact I0|]. split; [|exact NF].
  rewrite <- E. cbn [drain gen_next gen_work]. now rewrite He, C0, K0.
Qed.

Lemma decodes_line (size size' : bytes -> Z -> Prop) cut off P D : (forall l n, size l n -> size' l n) ->
  decodes size cut off P D -> decodes size' cut off P D.
Proof. intros H. induction 1; [constructor|apply dec_chunk]; auto. Qed.

Lemma c15_main o s segs tl ys s' g' : chunked s = true -> eof_ s = false ->
  (cont s = false \/ clen s <= o_max_body o) ->
  items s = map Data segs ++ tl -> tail_ok tl ->
  stream o s false = (ys, FStop, s', g') ->
  exists P rest, concat segs = P ++ rest /\ decodes cls (boundary segs) 0 P (concat ys).
Proof.
  intros Hc He Hk Hi Ht E. destruct (stream_chunked o s ys _ s' g' Hc He Hk E) as (s0 & fuel & I0 & ED & _).
  rewrite Hi in I0. pose proof (proj1 (c15_both o tl Ht fuel) s0 [] segs false 0%nat _ _ _ _ I0 ltac:(reflexivity) ED) as (P & rest & EP & Hd & _).
  exists P, rest. split; [exact EP|]. eapply decodes_weaken; [|exact Hd]. intros n (k & A & B). now exists k.
Qed.

(** ** C14 *)
Lemma c14_end o s segs tl : chunked s = true -> eof_ s = false ->
  (cont s = false \/ clen s <= o_max_body o) ->
  items s = map Data segs ++ End :: tl ->
  exists ys r s' g', stream o s false = (ys, r, s', g') /\
    ((r = FRaise BadRequest) \/
     (r = FStop /\ exists P rest, concat segs = P ++ rest /\ decodes cls (boundary segs) 0 P (concat ys))).
Proof.
  intros Hc He Hk Hi. destruct (stream o s false) as [[[ys r] s'] g'] eqn:E. exists ys, r, s', g'. split; [reflexivity|].
  destruct (stream_chunked o s ys r s' g' Hc He Hk E) as (s0 & fuel & I0 & ED & NF).
  rewrite Hi in I0. pose proof (proj1 (c15_both o (End :: tl) I fuel) s0 [] segs false 0%nat _ _ _ _ I0 ltac:(reflexivity) ED) as S1.
  destruct r as [|e| |]; cbn [sound tail_fin] in S1; [|left; intuition congruence|discriminate S1|easy].
  right. split; [reflexivity|]. eapply c15_main; [exact Hc|exact He|exact Hk|exact Hi|exact I|exact E].
Qed.

(** Size lines starting with LF, or empty ones, are not size lines. *)
Lemma line_lf l : chunk_line_size (LF :: l) = None.
Proof.
  unfold chunk_line_size.
  assert (exists p ps, split_max (bs ";") 1 (LF :: l) = (LF :: p) :: ps) as (p & ps & ->).
  { cbn [split_max]. rewrite find_unfold. change (bs ";") with [";"%char]. cbn [startswith]. change (Ascii.eqb ";" LF) with false.
    cbn [andb]. destruct (find [";"%char] l) as [i|]; cbn [option_map]; [cbn [firstn]|]; eauto. }
  unfold py_int16.
  assert (strip_ws (bs "0x" ++ LF :: p) = bs "0x" \/ exists q, strip_ws (bs "0x" ++ LF :: p) = bs "0x" ++ LF :: q) as S1.
  { unfold strip_ws, strip_by. cbn [bs list_ascii_of_string app lstrip_by]. change (is_space "0") with false. cbv iota.
    unfold rstrip_by. cbn [rev]. rewrite <- !app_assoc. cbn [app].
    assert (forall m, rev (lstrip_by is_space (m ++ [LF; "x"%char; "0"%char])) = ["0"; "x"]%char \/
              exists q, rev (lstrip_by is_space (m ++ [LF; "x"%char; "0"%char])) = "0"%char :: "x"%char :: LF :: q) as G.
    { induction m as [|c m IH]; cbn [app lstrip_by].
      - change (is_space LF) with true. change (is_space "x") with false. cbv iota. left. reflexivity.
      - destruct (is_space c); [exact IH|]. right. cbn [rev]. rewrite rev_app_distr. cbn [rev app]. eexists. reflexivity. }
    apply G. }
  destruct S1 as [-> | (q & ->)]; reflexivity.
Qed.

Lemma decodes_first size cut off P D : decodes size cut off P D ->
  exists line n X, P = line ++ CRLF ++ X /\ line_ok line /\ size line n.
Proof.
  destruct 1 as [off line A B|off line data term rest D A B C E _].
  - exists line, 0, []. now rewrite app_nil_r.
  - exists line, (blen data), (data ++ term ++ rest). now repeat split.
Qed.

Lemma chunks_bytes_cons c cs : chunks_bytes (c :: cs) = chunk_bytes c ++ chunks_bytes cs.
Proof. reflexivity. Qed.

Lemma line_eq l1 l2 X Y : line_ok l1 -> line_ok l2 -> l1 ++ CRLF ++ X = l2 ++ CRLF ++ Y -> l1 = l2 /\ X = Y.
Proof.
  intros A B E. pose proof (find_line l1 X A) as F1. rewrite E, (find_line l2 Y B) in F1. injection F1 as F1.
  assert (l1 = l2) as <-.
  { rewrite <- (firstn_app_len l1 (CRLF ++ X)), E, <- F1. apply firstn_app_len. }
  split; [reflexivity|]. now do 2 apply app_inv_head in E.
Qed.

(** A lenient decoding of bytes that start like a well-formed encoding is that encoding. *)
Lemma decodes_prefix cut zero zext (Hz : good_size zero zext 0) P D : forall off,
  decodes cls cut off P D -> forall cs rest tail, Forall good_chunk cs ->
  P ++ rest = chunks_bytes cs ++ size_line zero zext ++ CRLF ++ tail ->
  D = chunks_data cs /\ P = chunks_bytes cs ++ size_line zero zext ++ CRLF.
Proof.
  pose proof (good_size_size _ _ _ Hz) as Zs. pose proof (line_ok_nolf _ (good_size_nolf _ _ _ Hz)) as Zl.
  generalize dependent (size_line zero zext). intros zl Zs Zl. change (Z.of_N 0) with 0 in Zs.
  intros off H. induction H as [off line A B|off line data term rest0 D A B C E Hd IH]; intros cs rest tail Hg EP; unfold cls in B.
  - destruct cs as [|c cs].
    + cbn [chunks_bytes map concat app] in EP. rewrite <- app_assoc in EP.
      destruct (line_eq _ _ _ _ A Zl EP) as [-> _]. now split.
    + exfalso. inversion Hg as [|? ? (Hnd & Hgl) _]; subst. rewrite chunks_bytes_cons in EP. unfold chunk_bytes in EP.
      pose proof (good_size_size _ _ _ Hgl) as Cs. pose proof (line_ok_nolf _ (good_size_nolf _ _ _ Hgl)) as Cl.
      generalize dependent (size_line (c_size c) (c_ext c)). intros cl EP Cs Cl. rewrite <- !app_assoc in EP.
      destruct (line_eq _ _ _ _ A Cl EP) as [-> _]. rewrite B in Cs.
      destruct (c_data c); [easy|]. cbn [List.length] in Cs. injection Cs as Cs. lia.
  - rewrite <- !app_assoc in EP. destruct cs as [|c cs].
    + exfalso. cbn [chunks_bytes map concat app] in EP.
      destruct (line_eq _ _ _ _ A Zl EP) as [-> _]. rewrite Zs in B. injection B as B. unfold blen in B. destruct data; [easy|]. cbn [List.length] in B. lia.
    + inversion Hg as [|? ? (Hnd & Hgl) Hgs]; subst. rewrite chunks_bytes_cons in EP |- *. unfold chunk_bytes in EP |- *.
      pose proof (good_size_size _ _ _ Hgl) as Cs. pose proof (line_ok_nolf _ (good_size_nolf _ _ _ Hgl)) as Cl.
      generalize dependent (size_line (c_size c) (c_ext c)). intros cl EP Cs Cl. rewrite <- !app_assoc in EP.
      destruct (line_eq _ _ _ _ A Cl EP) as [-> EP2]. clear EP. rename EP2 into EP.
      rewrite Cs in B. injection B as B. unfold blen in B.
      assert (data = c_data c) as ->.
      { rewrite <- (firstn_app_len data (term ++ rest0 ++ rest)), EP. replace (List.length data) with (List.length (c_data c)) by lia. apply firstn_app_len. }
      apply app_inv_head in EP.
      destruct (decodes_first _ _ _ _ _ Hd) as (line2 & n2 & X & E2 & L2 & S2). unfold cls in S2.
      assert (term = CRLF) as ->.
      { destruct E as [E|[E _]].
        - destruct term as [|t1 [|t2 [|]]]; try discriminate E. cbn [app CRLF] in EP. injection EP as -> -> _. reflexivity.
        - exfalso. rewrite E2 in EP. rewrite <- !app_assoc in EP. destruct term as [|t1 [|]]; [| |cbn in E; lia].
          + cbn [app] in EP. destruct line2 as [|c1 l2]; [discriminate S2|].
            destruct l2 as [|c2 l2].
            * cbn [app CRLF] in EP. injection EP as _ EP. discriminate EP.
            * (* line contains CRLF *) cbn [app CRLF] in EP. injection EP as -> -> _.
              unfold line_ok in L2. cbn [app] in L2. rewrite find_unfold in L2. cbn [startswith CRLF] in L2.
              rewrite !Ascii.eqb_refl in L2. discriminate L2.
          + cbn [app CRLF] in EP. destruct line2 as [|c1 l2]; [discriminate S2|]. cbn [app] in EP. injection EP as _ -> _.
            rewrite line_lf in S2. discriminate S2. }
      apply app_inv_head in EP.
      destruct (IH cs rest tail Hgs EP) as [-> ->]. split; [reflexivity|]. now rewrite <- !app_assoc.
Qed.

Lemma c14_main o s cs zero zext segs tl cutoff : chunked s = true -> eof_ s = false ->
  (cont s = false \/ clen s <= o_max_body o) ->
  Forall good_chunk cs -> good_size zero zext 0 ->
  cutoff <> [] -> concat segs ++ cutoff = chunks_bytes cs ++ size_line zero zext ++ CRLF ->
  items s = map Data segs ++ End :: tl ->
  exists ys s' g', stream o s false = (ys, FRaise BadRequest, s', g').
Proof.
  intros Hc He Hk Hg Hz Hn E Hi.
  destruct (c14_end o s segs tl Hc He Hk Hi) as (ys & r & s' & g' & ES & [-> | (-> & P & rest & EP & Hd)]); [now exists ys, s', g'|].
  exfalso. destruct (decodes_prefix _ _ _ Hz _ _ _ Hd cs (rest ++ cutoff) [] Hg) as [_ EQ].
  - rewrite app_assoc, <- EP, E, app_nil_r. reflexivity.
  - rewrite EQ in EP. rewrite EP in E. rewrite <- app_assoc in E.
    assert (rest ++ cutoff = []) as Z0 by (apply (app_inv_head (chunks_bytes cs ++ size_line zero zext ++ CRLF)); rewrite app_nil_r; exact E).
    apply app_eq_nil in Z0 as [_ Z0]. contradiction.
Qed.

(** ** Size lines accepted *)
Lemma digit_hex c d : digit_val c = Some d -> (d < 16)%N -> hex_digit c = Some d.
Proof.
  unfold digit_val, hex_digit. intros H L.
  destruct ((48 <=? N_of_ascii c) && (N_of_ascii c <=? 57))%N; [exact H|].
  destruct ((97 <=? N_of_ascii c) && (N_of_ascii c <=? 122))%N eqn:B.
  - injection H as <-. now replace ((97 <=? N_of_ascii c) && (N_of_ascii c <=? 102))%N with true by lia.
  - replace ((97 <=? N_of_ascii c) && (N_of_ascii c <=? 102))%N with false by lia.
    destruct ((65 <=? N_of_ascii c) && (N_of_ascii c <=? 90))%N eqn:C; [|easy]. injection H as <-.
    now replace ((65 <=? N_of_ascii c) && (N_of_ascii c <=? 70))%N with true by lia.
Qed.

Lemma int_digits_groups l : forall prev acc cnt n c, int_digits 16 prev l acc cnt = Some (n, c) ->
  exists g0 groups, l = join (bs "_") (g0 :: groups) /\ Forall (fun g => g <> []) groups /\ (prev = false -> g0 <> []) /\
    hex_value acc (g0 ++ concat groups) = Some n.
Proof.
  induction l as [|x l IH]; intros prev acc cnt n c H; cbn [int_digits] in H.
  - destruct prev; [|easy]. injection H as <- <-. exists [], []. repeat split; [constructor|easy].
  - destruct (Ascii.eqb_spec x "_") as [->|Nx].
    + destruct prev; [|easy]. destruct (IH _ _ _ _ _ H) as (g0 & gs & E & F & Hg & V).
      exists [], (g0 :: gs). split; [rewrite join_cons by discriminate; rewrite <- E; reflexivity|].
      split; [constructor; [now apply Hg|exact F]|]. split; [easy|exact V].
    + destruct (digit_val x) as [d|] eqn:D; [|easy]. destruct (N.ltb_spec d 16) as [L|L]; [|easy].
      destruct (IH _ _ _ _ _ H) as (g0 & gs & E & F & Hg & V).
      exists (x :: g0), gs. split; [rewrite E; destruct gs; reflexivity|]. split; [exact F|]. split; [easy|].
      cbn [app hex_value]. rewrite (digit_hex _ _ D L). now replace (16 * acc + d)%N with (acc * 16 + d)%N by lia.
Qed.

Lemma rstrip_split p l : exists ws, l = rstrip_by p l ++ ws /\ Forall (fun c => p c = true) ws.
Proof.
  unfold rstrip_by. assert (forall m, exists ws, m = ws ++ lstrip_by p m /\ Forall (fun c => p c = true) ws) as G.
  { induction m as [|x m (ws & E & F)]; [exists []; now split|]. cbn [lstrip_by]. destruct (p x) eqn:P.
    - exists (x :: ws). split; [cbn [app]; now rewrite <- E|now constructor].
    - exists []. now split. }
  destruct (G (rev l)) as (ws & E & F). exists (rev ws). split; [|now apply Forall_rev].
  rewrite <- rev_app_distr, <- E. now rewrite rev_involutive.
Qed.

Lemma rstrip_keep p a x l : p x = false -> rstrip_by p (a ++ x :: l) = a ++ x :: rstrip_by p l.
Proof.
  intros P. unfold rstrip_by. rewrite rev_app_distr. cbn [rev]. rewrite <- app_assoc. cbn [app].
  assert (forall m b, lstrip_by p (m ++ x :: b) = lstrip_by p m ++ x :: b) as G.
  { induction m as [|y m IH]; intros b; cbn [app lstrip_by]; [now rewrite P|]. destruct (p y); [apply IH|reflexivity]. }
  rewrite G, rev_app_distr. cbn [rev]. rewrite rev_involutive, <- app_assoc. reflexivity.
Qed.

Lemma chunk_line_lenient line n : chunk_line_size line = Some n -> lenient_line line (Z.to_N n).
Proof.
  unfold chunk_line_size.
  assert (exists p rest ps, split_max (bs ";") 1 line = p :: ps /\ line = p ++ rest /\ (rest = [] \/ hd SP rest = ";"%char)) as
    (p & rest & ps & -> & -> & Hr).
  { cbn [split_max]. change (bs ";") with [";"%char]. destruct (find [";"%char] line) as [i|] eqn:F.
    - apply find_split in F. exists (firstn i line), (";"%char :: skipn (i + 1) line). eexists. split; [reflexivity|]. split; [exact F|now right].
    - exists line, []. eexists. rewrite app_nil_r. repeat split. now left. }
  unfold py_int16, strip_ws, strip_by. cbn [bs list_ascii_of_string app lstrip_by]. change (is_space "0") with false. cbv iota.
  change ("0"%char :: "x"%char :: p) with (["0"%char] ++ "x"%char :: p). rewrite rstrip_keep by reflexivity.
  destruct (rstrip_split is_space p) as (ws & Ep & Fw). set (q := rstrip_by is_space p) in *. clearbody q.
  cbn [app int_sign]. change (Ascii.eqb "0" "-") with false. change (Ascii.eqb "0" "+") with false. cbv iota.
  assert (exists us q', q = us ++ q' /\ (us = [] \/ us = bs "_") /\ hex_prefix ("0"%char :: "x"%char :: q) = q') as (us & q' & Eq & Hu & Eh).
  { destruct q as [|c q]; [exists [], []; auto|]. destruct (Ascii.eqb_spec c "_") as [->|N]; [exists (bs "_"), q; auto|exists [], (c :: q)].
    repeat split; auto. cbn [hex_prefix]. destruct (Ascii.eqb_spec c "_"); [contradiction|reflexivity]. }
  rewrite Eh.
  destruct (int_digits 16 false q' 0 0) as [[m k]|] eqn:E; [|easy]. intros H. assert (Z.to_N n = m) as -> by (assert (n = 1 * Z.of_N m) by congruence; lia).
  destruct (int_digits_groups _ _ _ _ _ _ E) as (g0 & gs & Ej & Fg & Hg & V).
  exists us, (g0 :: gs), ws, rest. split; [rewrite Ep, Eq, Ej, <- !app_assoc; reflexivity|]. split; [exact Hu|]. split; [discriminate|].
  split; [constructor; [now apply Hg|exact Fg]|]. split; [exact V|]. now split.
Qed.

Definition lenient (l : bytes) (n : Z) : Prop := lenient_line l (Z.to_N n).

Lemma c15_final o s segs tl ys s' g' : chunked s = true -> eof_ s = false ->
  (cont s = false \/ clen s <= o_max_body o) ->
  items s = map Data segs ++ tl -> match tl with Data _ :: _ => False | _ => True end ->
  stream o s false = (ys, FStop, s', g') ->
  exists P rest, concat segs = P ++ rest /\
    decodes (fun line n => lenient_line line (Z.to_N n)) (boundary segs) 0 P (concat ys).
Proof.
  intros Hc He Hk Hi Ht E. destruct (c15_main o s segs tl ys s' g' Hc He Hk Hi Ht E) as (P & rest & EP & Hd).
  exists P, rest. split; [exact EP|]. eapply decodes_line; [|exact Hd]. intros l n. apply chunk_line_lenient.
Qed.

Lemma lenient_head x l n : lenient_line (x :: l) n -> x <> "_"%char ->
  exists g gs ws rest, x :: l = join (bs "_") ((x :: g) :: gs) ++ ws ++ rest /\ hex_value 0 (x :: g ++ concat gs) = Some n.
Proof.
  intros (us & groups & ws & rest & E & Hu & Hn & F & V & _) Nx. destruct Hu as [->| ->]; [|cbn in E; congruence].
  destruct groups as [|g gs]; [easy|]. inversion F as [|? ? Hg _]; subst. destruct g as [|y g]; [easy|].
  assert (y = x) as -> by (destruct gs; cbn in E; congruence).
  exists g, gs, ws, rest. split; [exact E|exact V].
Qed.

Lemma lenient_five n : lenient_line (bs "5") n -> n = 5%N.
Proof.
  intros H. destruct (lenient_head _ _ _ H ltac:(discriminate)) as (g & gs & ws & rest & E & V).
  destruct gs as [|g2 gs]; [|exfalso; rewrite join_cons in E by discriminate; destruct g; discriminate E].
  destruct g as [|y g]; [|discriminate E]. cbn [concat app] in V. vm_compute in V. congruence.
Qed.

Lemma lenient_lf l n : ~ lenient_line (LF :: l) n.
Proof. intros H. destruct (lenient_head _ _ _ H ltac:(discriminate)) as (g & gs & ws & rest & E & V). discriminate V. Qed.

Definition no_term := [bs "5" ++ CRLF ++ bs "hello"; bs "0" ++ CRLF ++ CRLF].
Lemma c15_refuted_main : exists o s segs ys s' g', chunked s = true /\ eof_ s = false /\ cont s = false /\
  items s = map Data segs /\ stream o s false = (ys, FStop, s', g') /\ concat ys = bs "hello" /\
  ~ exists P rest, concat segs = P ++ rest /\
      decodes (fun line n => lenient_line line (Z.to_N n)) (fun _ => False) 0 P (concat ys).
Proof.
  exists (mkOpts 16384 100), (mkR (map Data no_term) 0 false false (-1) true 0), no_term. do 3 eexists.
  split; [reflexivity|]. split; [reflexivity|]. split; [reflexivity|]. split; [reflexivity|]. split; [vm_compute; reflexivity|]. split; [reflexivity|].
  intros (P & rest & E & D). cbn [concat app no_term] in E.
  change (concat _) with (bs "hello") in D. remember (bs "hello") as H eqn:EH in D. destruct D as [off line Hl Hs|off line data term rest1 D1 Hl Hs Hn Ht HD]; [discriminate EH|].
  destruct Ht as [Ht|[_ []]]. rewrite <- !app_assoc in E.
  change ((bs "5" ++ CRLF ++ bs "hello") ++ (bs "0" ++ CRLF ++ CRLF) ++ []) with (bs "5" ++ CRLF ++ bs "hello0" ++ CRLF ++ CRLF) in E.
  apply line_eq in E as (<- & E); [|reflexivity|exact Hl].
  apply lenient_five in Hs. assert (List.length data = 5%nat) as Ld by (unfold blen in Hs; lia).
  assert (data = bs "hello") as ->.
  { clear - E Ld. do 5 (destruct data as [|? data]; [discriminate Ld|]). destruct data; [|discriminate Ld]. injection E as <- <- <- <- <- _. reflexivity. }
  change (bs "hello0" ++ CRLF ++ CRLF) with (bs "hello" ++ bs "0" ++ CRLF ++ CRLF) in E. apply app_inv_head in E.
  destruct term as [|t1 [|t2 [|]]]; try discriminate Ht. cbn [app bs list_ascii_of_string CRLF] in E. injection E as <- <- E.
  rewrite <- (app_nil_r (bs "hello")) in EH at 2. apply app_inv_head in EH as ->.
  remember (@nil ascii) as N eqn:EN in HD. destruct HD as [off2 line Hl2 Hs2|off2 line data term rest2 D2 Hl2 Hs2 Hn2 Ht2 HD2]; [|destruct data; [easy|discriminate EN]].
  change (LF :: CR :: [LF]) with ([LF] ++ CRLF ++ []) in E. rewrite <- app_assoc in E. apply line_eq in E as (<- & _); [|reflexivity|exact Hl2].
  now apply lenient_lf in Hs2.
Qed.
