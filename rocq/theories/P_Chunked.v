(** Proofs about chunked bodies (C13, C14, C15). *)
From Verif Require Import PyBytes PyBytesFacts PyInt PyIntFacts PyExn M_Stream S_Chunked P_Parser P_Parser2 P_Stream.
From Coq Require Import ZifyBool ZifyNat ZifyN.
Local Open Scope Z_scope.

(** ** Size lines *)

Lemma hex_digit_val c d : hex_digit c = Some d -> digit_val c = Some d /\ (d < 16)%N /\ is_space c = false /\
  Ascii.eqb c "_" = false /\ c <> ";"%char /\ c <> LF /\ c <> "+"%char /\ c <> "-"%char.
Proof.
  unfold hex_digit, digit_val, is_space. intros H.
  assert (forall x, N_of_ascii c <> N_of_ascii x -> c <> x) as NE by (intros x N ->; now apply N).
  destruct ((48 <=? N_of_ascii c) && (N_of_ascii c <=? 57))%N eqn:A.
  - injection H as <-. split; [reflexivity|]. split; [lia|]. split; [lia|]. split; [apply ascii_N_neq; vm_compute (N_of_ascii "_"); lia|].
    repeat split; apply NE; cbn; lia.
  - destruct ((97 <=? N_of_ascii c) && (N_of_ascii c <=? 102))%N eqn:B.
    + injection H as <-. replace ((97 <=? N_of_ascii c) && (N_of_ascii c <=? 122))%N with true by lia.
      split; [reflexivity|]. split; [lia|]. split; [lia|]. split; [apply ascii_N_neq; vm_compute (N_of_ascii "_"); lia|].
      repeat split; apply NE; cbn; lia.
    + destruct ((65 <=? N_of_ascii c) && (N_of_ascii c <=? 70))%N eqn:C; [|easy].
      injection H as <-. replace ((97 <=? N_of_ascii c) && (N_of_ascii c <=? 122))%N with false by lia.
      replace ((65 <=? N_of_ascii c) && (N_of_ascii c <=? 90))%N with true by lia.
      split; [reflexivity|]. split; [lia|]. split; [lia|]. split; [apply ascii_N_neq; vm_compute (N_of_ascii "_"); lia|].
      repeat split; apply NE; cbn; lia.
Qed.

Definition hex_char (c : byte) : Prop := exists d, hex_digit c = Some d.

Lemma hex_value_chars s : forall acc n, hex_value acc s = Some n -> Forall hex_char s.
Proof.
  induction s as [|c s IH]; intros acc n H; [constructor|]. cbn [hex_value] in H.
  destruct (hex_digit c) eqn:E; [|easy]. constructor; [eexists; exact E|]. eapply IH. exact H.
Qed.

Lemma int_digits_hex s : forall acc cnt n prev, hex_value acc s = Some n -> (s <> [] \/ prev = true) ->
  exists c, int_digits 16 prev s acc cnt = Some (n, c).
Proof.
  induction s as [|c s IH]; intros acc cnt n prev H P; cbn [hex_value int_digits] in *.
  - destruct P as [P| ->]; [easy|]. injection H as ->. now exists cnt.
  - destruct (hex_digit c) as [d|] eqn:E; [|easy]. destruct (hex_digit_val _ _ E) as (V & L & _ & U & _).
    rewrite U, V. replace (d <? 16)%N with true by lia. replace (acc * 16 + d)%N with (16 * acc + d)%N by lia.
    apply IH; [exact H|now right].
Qed.

Lemma py_int16_hex s n : s <> [] -> hex_value 0 s = Some n -> py_int16 (bs "0x" ++ s) = Some (Z.of_N n).
Proof.
  intros Hs H. pose proof (hex_value_chars _ _ _ H) as F.
  unfold py_int16. unfold strip_ws. rewrite strip_by_id.
  - destruct (int_digits_hex s 0 0 n false H (or_introl Hs)) as (c & E).
    destruct s as [|c0 s]; [easy|]. inversion F as [|? ? (d0 & D0) _]; subst.
    destruct (hex_digit_val _ _ D0) as (_ & _ & _ & U & _).
    cbn [bs list_ascii_of_string app int_sign]. change (Ascii.eqb "0" "-") with false. change (Ascii.eqb "0" "+") with false. cbv iota.
    cbn [hex_prefix]. change (Ascii.eqb "0" "0" && (Ascii.eqb "x" "x" || Ascii.eqb "x" "X")) with true. cbv iota.
    rewrite U. rewrite E. f_equal. lia.
  - apply Forall_app. split; [repeat constructor|]. eapply Forall_impl; [|exact F].
    intros c (d & D). now destruct (hex_digit_val _ _ D) as (_ & _ & S1 & _).
Qed.

Lemma good_size_size digits ext n : good_size digits ext n ->
  chunk_line_size (size_line digits ext) = Some (Z.of_N n).
Proof.
  intros (Hd & Hv & He & _). unfold chunk_line_size, size_line.
  pose proof (hex_value_chars _ _ _ Hv) as F.
  assert (~ In ";"%char digits) as N.
  { intros Hi. rewrite Forall_forall in F. destruct (F _ Hi) as (d & D). apply hex_digit_val in D. now destruct D as (_ & _ & _ & _ & X & _). }
  destruct He as [-> | He].
  - rewrite app_nil_r. cbn [split_max]. change (bs ";") with [";"%char]. rewrite (proj2 (find1_none _ _) N). now apply py_int16_hex.
  - destruct ext as [|c ext]; [discriminate He|]. cbn in He. subst c.
    change (bs ";") with [";"%char]. rewrite split1 by exact N. now apply py_int16_hex.
Qed.

Lemma good_size_nolf digits ext n : good_size digits ext n -> ~ In LF (size_line digits ext).
Proof.
  intros (_ & Hv & _ & Hl) Hi. unfold size_line in Hi. apply in_app_iff in Hi as [Hi|Hi]; [|easy].
  pose proof (hex_value_chars _ _ _ Hv) as F. rewrite Forall_forall in F. destruct (F _ Hi) as (d & D).
  apply hex_digit_val in D. now destruct D as (_ & _ & _ & _ & _ & X & _).
Qed.

(** ** One pass at a size line *)

Lemma line_find line X buf more : line_ok line -> buf ++ more = line ++ CRLF ++ X ->
  (find CRLF buf = Some (List.length line) /\ exists Y, buf = line ++ CRLF ++ Y /\ Y ++ more = X) \/
  (find CRLF buf = None /\ (List.length buf <= List.length line + 1)%nat).
Proof.
  intros Hl E. pose proof (find_line line X Hl) as F. rewrite <- E in F.
  destruct (Nat.le_gt_cases (List.length line + 2) (List.length buf)) as [L|L].
  - left. split.
    + pose proof (find_upto _ _ _ (List.length buf) F ltac:(cbn [List.length CRLF]; lia)) as F2. now rewrite firstn_app_len in F2.
    + assert (buf = (line ++ CRLF) ++ skipn (List.length (line ++ CRLF)) buf) as B.
      { rewrite <- (firstn_skipn (List.length (line ++ CRLF)) buf) at 1. f_equal.
        assert (firstn (List.length (line ++ CRLF)) (buf ++ more) = line ++ CRLF) as Q.
        { rewrite E, app_assoc. apply firstn_app_len. }
        rewrite firstn_app in Q. replace (List.length (line ++ CRLF) - List.length buf)%nat with 0%nat in Q
          by (rewrite app_length; cbn [List.length CRLF]; lia). cbn [firstn] in Q. now rewrite app_nil_r in Q. }
      exists (skipn (List.length (line ++ CRLF)) buf). split; [now rewrite app_assoc|].
      rewrite B in E at 1. rewrite <- !app_assoc in E. do 2 apply app_inv_head in E. exact E.
  - right. split; [|lia]. destruct (find CRLF buf) as [i|] eqn:G; [|reflexivity].
    pose proof (find_app_ext _ _ more _ G) as G2. rewrite F in G2. injection G2 as <-.
    apply find_some in G as [G _]. cbn [List.length CRLF] in G. lia.
Qed.

Lemma pass_chunk o line Y n : line_ok line -> chunk_line_size line = Some n -> 0 < n ->
  chunk_pass o (line ++ CRLF ++ Y) 0 =
  if blen Y <? n then PYield Y [] false (n - blen Y)
  else PYield (firstn (Z.to_nat n) Y) (skipn (Z.to_nat n + 2) Y) true 0.
Proof.
  intros Hl Hs Hn. unfold chunk_pass. change (0 <? 0) with false. cbv iota.
  rewrite (find_line line Y Hl). rewrite firstn_app_len, Hs. replace (n <? 1) with false by lia.
  rewrite slice_nonneg by lia.
  assert (skipn (Z.to_nat (Z.of_nat (List.length line) + 2)) (line ++ CRLF ++ Y) = Y) as ->.
  { replace (Z.to_nat (Z.of_nat (List.length line) + 2)) with (List.length line + 2)%nat by lia.
    rewrite skipn_app_len_plus. reflexivity. }
  replace (Z.of_nat (List.length line) + 2 + n - (Z.of_nat (List.length line) + 2)) with n by lia.
  unfold blen in *. rewrite firstn_length. destruct (Z.ltb_spec (Z.of_nat (List.length Y)) n) as [L|L].
  - replace (0 <? n - Z.of_nat (Nat.min (Z.to_nat n) (List.length Y))) with true by lia.
    rewrite firstn_all2 by lia. f_equal. lia.
  - replace (n - Z.of_nat (Nat.min (Z.to_nat n) (List.length Y))) with 0 by lia. cbn [Z.ltb Z.compare].
    rewrite from_nonneg by lia.
    replace (Z.to_nat (n + Z.of_nat (List.length line) + 4)) with (List.length line + (2 + (Z.to_nat n + 2)))%nat by lia.
    rewrite skipn_app_len_plus, skipn_add. reflexivity.
Qed.

Lemma pass_unread o d u : 0 < u ->
  chunk_pass o d u =
  if blen d <? u then PYield d [] false (u - blen d)
  else PYield (firstn (Z.to_nat u) d) (skipn (Z.to_nat u + 2) d) true 0.
Proof.
  intros Hu. unfold chunk_pass. replace (0 <? u) with true by lia.
  rewrite upto_nonneg, from_nonneg by lia. rewrite from_nonneg by lia. unfold blen. rewrite firstn_length.
  destruct (Z.ltb_spec (Z.of_nat (List.length d)) u) as [L|L].
  - replace (0 <? u - Z.of_nat (Nat.min (Z.to_nat u) (List.length d))) with true by lia.
    rewrite firstn_all2 by lia. rewrite skipn_all2 by lia. f_equal. lia.
  - replace (u - Z.of_nat (Nat.min (Z.to_nat u) (List.length d))) with 0 by lia. cbn [Z.ltb Z.compare].
    rewrite skipn_add. reflexivity.
Qed.

(** ** C13: completeness *)

(** Reading on until the size line is complete. *)
Lemma read_line o line n X tail : line_ok line -> chunk_line_size line = Some n ->
  (Z.of_nat (List.length line) + 1 <= o_buffer_size o * 4) ->
  forall segs s buf, find CRLF buf = None -> buf ++ concat segs = line ++ CRLF ++ X ->
  exists segs1 segs2 s' Y, segs = segs1 ++ segs2 /\ segs1 <> [] /\ buf ++ concat segs1 = line ++ CRLF ++ Y /\
    Y ++ concat segs2 = X /\ items s' = map Data segs2 ++ tail /\
    chunk_read o (map Data segs ++ tail) s buf 0 =
      after_pass s' (chunk_pass o (line ++ CRLF ++ Y) 0) (line ++ CRLF ++ Y) false.
Proof.
  intros Hl Hs Hb. induction segs as [|d segs IH]; intros s buf N E.
  - cbn [concat] in E. rewrite app_nil_r in E. rewrite E, (find_line line X Hl) in N. discriminate N.
  - cbn [map app chunk_read concat] in *. rewrite app_assoc in E.
    destruct (line_find line X (buf ++ d) (concat segs) Hl E) as [(F & Y & B & EY)|(F & L)].
    + exists [d], segs, (took s d (map Data segs ++ tail)), Y.
      split; [reflexivity|]. split; [discriminate|]. split; [cbn [concat]; rewrite app_nil_r; exact B|].
      split; [exact EY|]. split; [reflexivity|]. rewrite B.
      assert (chunk_pass o (line ++ CRLF ++ Y) 0 <> PNeed) as NP.
      { unfold chunk_pass. change (0 <? 0) with false. cbv iota. rewrite (find_line line Y Hl), firstn_app_len, Hs.
        destruct (n <? 1); [discriminate|]. destruct (0 <? _); discriminate. }
      destruct (chunk_pass o (line ++ CRLF ++ Y) 0); [reflexivity|now destruct NP|reflexivity|reflexivity].
    + assert (chunk_pass o (buf ++ d) 0 = PNeed) as ->.
      { unfold chunk_pass. change (0 <? 0) with false. cbv iota. rewrite F.
        unfold blen. now replace (o_buffer_size o * 4 <? Z.of_nat (List.length (buf ++ d))) with false by lia. }
      destruct (IH (took s d (map Data segs ++ tail)) (buf ++ d) F E) as (s1 & s2 & s' & Y & E1 & E2 & E3 & E4 & E5 & E6).
      exists (d :: s1), s2, s', Y. subst segs. split; [reflexivity|]. split; [discriminate|].
      split; [cbn [concat]; rewrite app_assoc; exact E3|]. split; [exact E4|]. split; [exact E5|]. exact E6.
Qed.

(** The segment boundaries avoid the offsets in [F]; [off] bytes are already buffered. *)
Definition avoids (F : nat -> Prop) (off : nat) (segs : list bytes) : Prop :=
  forall k, (k <= List.length segs)%nat -> ~ F (off + List.length (concat (firstn k segs)))%nat.

Lemma avoids_here F off segs : avoids F off segs -> ~ F off.
Proof. intros H. specialize (H 0%nat ltac:(lia)). cbn [firstn concat List.length] in H. now rewrite Nat.add_0_r in H. Qed.

Lemma avoids_app F off s1 s2 : avoids F off (s1 ++ s2) -> avoids F (off + List.length (concat s1)) s2.
Proof.
  intros H k Hk. specialize (H (List.length s1 + k)%nat). rewrite app_length in H. specialize (H ltac:(lia)).
  rewrite firstn_app_2, concat_app, app_length in H. now rewrite <- Nat.add_assoc.
Qed.

Lemma avoids_shift F off segs n (F' : nat -> Prop) : (n <= off)%nat -> avoids F off segs ->
  (forall x, F' x -> F (n + x)%nat) -> avoids F' (off - n) segs.
Proof. intros Hn H HF k Hk C. apply (H k Hk). apply HF in C. now replace (n + (off - n + List.length (concat (firstn k segs))))%nat with (off + List.length (concat (firstn k segs)))%nat in C by lia. Qed.

(** Offsets to avoid when [r] bytes of the current chunk's data are still to come. *)
Definition after_data_in (r : nat) (cs : list chunk) (n : nat) : Prop :=
  n = r \/ n = S r \/ exists m, n = (r + 2 + m)%nat /\ after_data cs m.

Lemma chunk_bytes_len c : List.length (chunk_bytes c) = (List.length (size_line (c_size c) (c_ext c)) + 2 + List.length (c_data c) + 2)%nat.
Proof. unfold chunk_bytes. rewrite !app_length. cbn [List.length CRLF]. lia. Qed.

Lemma after_data_cons c cs m : after_data_in (List.length (c_data c)) cs m ->
  after_data (c :: cs) (List.length (size_line (c_size c) (c_ext c)) + 2 + m).
Proof.
  intros [-> |[-> |(k & -> & cs1 & c' & cs2 & -> & H)]].
  - exists [], c, cs. split; [reflexivity|]. left. cbn. rewrite !app_length. cbn [List.length CRLF]. lia.
  - exists [], c, cs. split; [reflexivity|]. right. cbn. rewrite !app_length. cbn [List.length CRLF]. lia.
  - exists (c :: cs1), c', cs2. split; [reflexivity|]. unfold chunks_bytes. cbn [map concat].
    rewrite <- app_assoc. rewrite (app_length (chunk_bytes c)). fold (chunks_bytes cs1). rewrite chunk_bytes_len. lia.
Qed.

Section C13.
  Context (o : opts) (zero zext trailer : bytes) (tail : list inp).
  Definition line_fits (digits ext : bytes) : Prop :=
    blen (size_line digits ext) + 1 <= o_buffer_size o * 4.
  Context (Hz : good_size zero zext 0) (Hzf : line_fits zero zext).

  Definition good_fit (c : chunk) : Prop := good_chunk c /\ line_fits (c_size c) (c_ext c).
  Definition rest_bytes (cs : list chunk) := chunked_body cs zero zext trailer.

  Definition done_with (fuel : nat) (s : rstate) (g : gen) (D : bytes) : Prop :=
    exists ys s' g', drain fuel o s g = (ys, FStop, s', g') /\ concat ys = D /\ eof_ s' = true.

  Lemma done_step fuel s g d s1 g1 D : gen_next o s g = (OYield d, s1, g1) ->
    done_with fuel s1 g1 D -> done_with (S fuel) s g (d ++ D).
  Proof.
    intros E (ys & s' & g' & E1 & E2 & E3). exists (d :: ys), s', g'. cbn [drain]. rewrite E, E1.
    split; [reflexivity|]. split; [cbn [concat]; now rewrite E2|exact E3].
  Qed.

  Lemma c13_both : forall fuel,
    (forall cs s buf segs paused, (work s (GChunk buf paused 0 false) <= fuel)%nat ->
       items s = map Data segs ++ tail -> Forall good_fit cs ->
       buf ++ concat segs = rest_bytes cs -> avoids (after_data cs) (List.length buf) segs ->
       (paused = false -> find CRLF buf = None) ->
       done_with fuel s (GChunk buf paused 0 false) (chunks_data cs)) /\
    (forall cs s dr segs, (work s (GChunk [] false (blen dr) false) <= fuel)%nat -> dr <> [] ->
       items s = map Data segs ++ tail -> Forall good_fit cs ->
       concat segs = dr ++ CRLF ++ rest_bytes cs -> avoids (after_data_in (List.length dr) cs) 0 segs ->
       done_with fuel s (GChunk [] false (blen dr) false) (dr ++ chunks_data cs)).
  Proof using Hz Hzf.
    induction fuel as [|fuel [IHA IHB]]; (split; [intros cs s buf segs paused Hw|intros cs s dr segs Hw Hdr]); try (unfold work in Hw; lia).
    - (* at a size line *)
      intros Hi Hg E Hav Hp.
      (* the line and what follows it *)
      assert (exists line n X, rest_bytes cs = line ++ CRLF ++ X /\ line_ok line /\ chunk_line_size line = Some n /\
         Z.of_nat (List.length line) + 1 <= o_buffer_size o * 4 /\
         match cs with
         | [] => n = 0
         | c :: cs' => n = blen (c_data c) /\ 0 < n /\ line = size_line (c_size c) (c_ext c) /\ X = c_data c ++ CRLF ++ rest_bytes cs'
         end) as (line & n & X & ER & Hl & Hs & Hb & Hcs).
      { destruct cs as [|c cs].
        - exists (size_line zero zext), 0, trailer. split; [reflexivity|]. split; [apply line_ok_nolf; eapply good_size_nolf; exact Hz|].
          split; [rewrite (good_size_size _ _ _ Hz); reflexivity|]. split; [exact Hzf|reflexivity].
        - inversion Hg as [|? ? [(Hd & Hgl) Hf] _]; subst.
          exists (size_line (c_size c) (c_ext c)), (blen (c_data c)), (c_data c ++ CRLF ++ rest_bytes cs).
          split; [unfold rest_bytes, chunked_body, chunks_bytes; cbn [map concat]; unfold chunk_bytes; now rewrite <- !app_assoc|].
          split; [apply line_ok_nolf; eapply good_size_nolf; exact Hgl|].
          split; [rewrite (good_size_size _ _ _ Hgl); unfold blen; f_equal; lia|]. split; [exact Hf|].
          split; [reflexivity|]. split; [|now split]. unfold blen. destruct (c_data c); [easy|cbn [List.length]; lia]. }
      rewrite ER in E.
      (* run the generator up to the pass *)
      assert (exists segs1 segs2 s' Y, segs = segs1 ++ segs2 /\ buf ++ concat segs1 = line ++ CRLF ++ Y /\
                Y ++ concat segs2 = X /\ items s' = map Data segs2 ++ tail /\
                chunk_next o s buf paused 0 false = after_pass s' (chunk_pass o (line ++ CRLF ++ Y) 0) (line ++ CRLF ++ Y) false)
        as (segs1 & segs2 & s' & Y & Es & EB & EY & Hi' & EN).
      { destruct (line_find line X buf (concat segs) Hl E) as [(F & Y & B & EY)|(F & L)].
        - exists [], segs, s, Y. split; [reflexivity|]. split; [cbn [concat]; now rewrite app_nil_r|]. split; [exact EY|]. split; [exact Hi|].
          destruct paused; [|rewrite (Hp eq_refl) in F; discriminate F]. unfold chunk_next. rewrite <- B.
          assert (chunk_pass o buf 0 <> PNeed) as NP.
          { unfold chunk_pass. change (0 <? 0) with false. cbv iota. rewrite F, B, firstn_app_len, Hs.
            destruct (n <? 1); [discriminate|]. destruct (0 <? _); discriminate. }
          destruct (chunk_pass o buf 0); [reflexivity|now destruct NP|reflexivity|reflexivity].
        - destruct (read_line o line n X tail Hl Hs Hb segs s buf F E) as (s1 & s2 & s' & Y & A1 & _ & A3 & A4 & A5 & A6).
          exists s1, s2, s', Y. split; [exact A1|]. split; [exact A3|]. split; [exact A4|]. split; [exact A5|].
          unfold chunk_next. rewrite Hi. destruct paused; [|exact A6].
          assert (chunk_pass o buf 0 = PNeed) as ->; [|exact A6].
          unfold chunk_pass. change (0 <? 0) with false. cbv iota. rewrite F. unfold blen.
          now replace (o_buffer_size o * 4 <? Z.of_nat (List.length buf)) with false by lia. }
      destruct cs as [|c cs].
      + (* the zero-size line *)
        subst n. assert (chunk_pass o (line ++ CRLF ++ Y) 0 = PStop) as P.
        { unfold chunk_pass. change (0 <? 0) with false. cbv iota. now rewrite (find_line line Y Hl), firstn_app_len, Hs. }
        rewrite P in EN. cbn [after_pass] in EN. exists [], (set_eof s'), GDone. cbn [drain gen_next]. rewrite EN. now repeat split.
      + destruct Hcs as (Hn & Hn0 & Eline & EX). subst n X.
        inversion Hg as [|? ? Hgc Hgs]; subst.
        rewrite (pass_chunk o _ Y _ Hl Hs Hn0) in EN.
        unfold chunks_data. cbn [map concat]. fold (chunks_data cs).
        assert (avoids (after_data_in (List.length (c_data c)) cs) (List.length Y) segs2) as Hav2.
        { assert (List.length buf + List.length (concat segs1) = List.length (size_line (c_size c) (c_ext c)) + 2 + List.length Y)%nat as Lb.
          { rewrite <- app_length, EB, !app_length. cbn [List.length CRLF]. lia. }
          replace (List.length Y) with (List.length buf + List.length (concat segs1) - (List.length (size_line (c_size c) (c_ext c)) + 2))%nat by lia.
          eapply avoids_shift; [lia|apply avoids_app; exact Hav|]. intros x. apply after_data_cons. }
        destruct (Z.ltb_spec (blen Y) (blen (c_data c))) as [L|L]; cbn [after_pass] in EN.
        * (* data incomplete *)
          assert (c_data c = Y ++ skipn (List.length Y) (c_data c)) as Ed.
          { rewrite <- (firstn_skipn (List.length Y) (c_data c)) at 1. f_equal.
            assert (firstn (List.length Y) (Y ++ concat segs2) = Y) as Q by apply firstn_app_len.
            rewrite EY, firstn_app in Q. unfold blen in L. replace (List.length Y - List.length (c_data c))%nat with 0%nat in Q by lia.
            cbn [firstn] in Q. now rewrite app_nil_r in Q. }
          set (dr := skipn (List.length Y) (c_data c)) in *.
          assert (blen dr = blen (c_data c) - blen Y) as Ldr by (unfold blen, dr; rewrite skipn_length; unfold blen in L; lia).
          rewrite <- Ldr in EN. pose proof EN as EN'. apply gen_next_work with (g := GChunk buf paused 0 false) in EN' as [_ W]; [|destruct paused; cbn; lia].
          assert (forall D, c_data c ++ D = Y ++ (dr ++ D)) as -> by (intros D; rewrite app_assoc, <- Ed; reflexivity).
          eapply done_step; [exact EN|]. apply (IHB cs s' dr segs2).
          -- lia.
          -- intros Z0. rewrite Z0 in Ldr. unfold blen in *. cbn in Ldr. lia.
          -- exact Hi'.
          -- exact Hgs.
          -- rewrite Ed in EY. rewrite <- app_assoc in EY. apply app_inv_head in EY. exact EY.
          -- replace 0%nat with (List.length Y - List.length Y)%nat by lia. eapply avoids_shift; [|exact Hav2|]; [lia|].
             assert (List.length Y + List.length dr = List.length (c_data c))%nat as Ll by (rewrite <- app_length, <- Ed; reflexivity).
             intros x [-> |[-> |(m & -> & Hm)]]; unfold after_data_in; [left; lia|right; left; lia|right; right; exists m; split; [lia|exact Hm]].
        * (* data complete: the terminator is there too *)
          unfold blen in L. 
          assert (List.length (c_data c) + 2 <= List.length Y)%nat as LY.
          { pose proof (avoids_here _ _ _ Hav2) as Hh. unfold after_data_in in Hh.
            destruct (Nat.eq_dec (List.length Y) (List.length (c_data c))); [destruct Hh; left; assumption|].
            destruct (Nat.eq_dec (List.length Y) (S (List.length (c_data c)))); [destruct Hh; right; left; assumption|]. lia. }
          assert (firstn (Z.to_nat (blen (c_data c))) Y = c_data c /\ skipn (Z.to_nat (blen (c_data c)) + 2) Y ++ concat segs2 = rest_bytes cs) as [E1 E2].
          { unfold blen. rewrite Nat2Z.id. set (k := List.length (c_data c)) in *.
            assert (firstn k (Y ++ concat segs2) = c_data c) as Q1 by (rewrite EY; apply firstn_app_len).
            rewrite firstn_app in Q1. replace (k - List.length Y)%nat with 0%nat in Q1 by lia. cbn [firstn] in Q1. rewrite app_nil_r in Q1.
            split; [exact Q1|].
            assert (skipn (k + 2) (Y ++ concat segs2) = rest_bytes cs) as Q2 by (rewrite EY; unfold k; rewrite skipn_app_len_plus; reflexivity).
            rewrite skipn_app in Q2. replace (k + 2 - List.length Y)%nat with 0%nat in Q2 by lia. exact Q2. }
          rewrite E1 in EN. pose proof EN as EN'. apply gen_next_work with (g := GChunk buf paused 0 false) in EN' as [_ W]; [|destruct paused; cbn; lia].
          eapply done_step; [exact EN|]. apply (IHA cs s' (skipn (Z.to_nat (blen (c_data c)) + 2) Y) segs2 true).
          -- lia.
          -- exact Hi'.
          -- exact Hgs.
          -- exact E2.
          -- rewrite skipn_length. replace (Z.to_nat (blen (c_data c)) + 2)%nat with (List.length (c_data c) + 2)%nat by (unfold blen; lia).
             eapply avoids_shift; [lia|exact Hav2|]. intros x Hx. right. right. exists x. split; [lia|exact Hx].
          -- discriminate.
    - (* inside chunk data *)
      intros Hi Hg E Hav. destruct segs as [|d segs].
      { cbn in E. destruct dr; [easy|discriminate E]. }
      cbn [map app concat] in *.
      assert (0 < blen dr) as Ln by (unfold blen; destruct dr; [easy|cbn [List.length]; lia]).
      set (s1 := took s d (map Data segs ++ tail)).
      pose proof (avoids_app _ _ [d] segs Hav) as Hav1. cbn [concat] in Hav1. rewrite app_nil_r in Hav1. cbn [Nat.add] in Hav1.
      assert (gen_next o s (GChunk [] false (blen dr) false) =
              if blen d <? blen dr then (OYield d, s1, GChunk [] false (blen dr - blen d) false)
              else (OYield (firstn (List.length dr) d), s1, GChunk (skipn (List.length dr + 2) d) true 0 false)) as EN.
      { cbn [gen_next]. unfold chunk_next. rewrite Hi. cbn [chunk_read app]. rewrite (pass_unread o d _ Ln).
        destruct (blen d <? blen dr); [reflexivity|]. cbn [after_pass]. unfold blen. now rewrite Nat2Z.id. }
      destruct (Z.ltb_spec (blen d) (blen dr)) as [L|L].
      + assert (dr = d ++ skipn (List.length d) dr) as Ed.
        { rewrite <- (firstn_skipn (List.length d) dr) at 1. f_equal.
          assert (firstn (List.length d) (d ++ concat segs) = d) as Q by apply firstn_app_len.
          rewrite E, firstn_app in Q. unfold blen in L. replace (List.length d - List.length dr)%nat with 0%nat in Q by lia.
          cbn [firstn] in Q. now rewrite app_nil_r in Q. }
        set (dr2 := skipn (List.length d) dr) in *.
        assert (blen dr2 = blen dr - blen d) as Ldr by (unfold blen, dr2; rewrite skipn_length; unfold blen in L; lia).
        rewrite <- Ldr in EN. pose proof EN as EN'. apply gen_next_work in EN' as [_ W]; [|exact I].
        assert (forall D, dr ++ D = d ++ (dr2 ++ D)) as -> by (intros D; rewrite app_assoc, <- Ed; reflexivity).
        eapply done_step; [exact EN|]. apply (IHB cs s1 dr2 segs).
        * lia.
        * intros Z0. rewrite Z0 in Ldr. unfold blen in *. cbn in Ldr. lia.
        * reflexivity.
        * exact Hg.
        * rewrite Ed, <- app_assoc in E. apply app_inv_head in E. exact E.
        * replace 0%nat with (List.length d - List.length d)%nat by lia. eapply avoids_shift; [|exact Hav1|]; [lia|].
          assert (List.length d + List.length dr2 = List.length dr)%nat as Ll by (rewrite <- app_length, <- Ed; reflexivity).
          intros x [-> |[-> |(m & -> & Hm)]]; unfold after_data_in; [left; lia|right; left; lia|right; right; exists m; split; [lia|exact Hm]].
      + unfold blen in L. assert (List.length dr + 2 <= List.length d)%nat as LY.
        { pose proof (avoids_here _ _ _ Hav1) as Hh. unfold after_data_in in Hh.
          destruct (Nat.eq_dec (List.length d) (List.length dr)); [destruct Hh; left; assumption|].
          destruct (Nat.eq_dec (List.length d) (S (List.length dr))); [destruct Hh; right; left; assumption|]. lia. }
        assert (firstn (List.length dr) d = dr /\ skipn (List.length dr + 2) d ++ concat segs = rest_bytes cs) as [E1 E2].
        { set (k := List.length dr) in *.
          assert (firstn k (d ++ concat segs) = dr) as Q1 by (rewrite E; apply firstn_app_len).
          rewrite firstn_app in Q1. replace (k - List.length d)%nat with 0%nat in Q1 by lia. cbn [firstn] in Q1. rewrite app_nil_r in Q1.
          split; [exact Q1|].
          assert (skipn (k + 2) (d ++ concat segs) = rest_bytes cs) as Q2 by (rewrite E; unfold k; rewrite skipn_app_len_plus; reflexivity).
          rewrite skipn_app in Q2. replace (k + 2 - List.length d)%nat with 0%nat in Q2 by lia. exact Q2. }
        rewrite E1 in EN. pose proof EN as EN'. apply gen_next_work in EN' as [_ W]; [|exact I].
        eapply done_step; [exact EN|]. apply (IHA cs s1 (skipn (List.length dr + 2) d) segs true).
        * lia.
        * reflexivity.
        * exact Hg.
        * exact E2.
        * rewrite skipn_length. eapply avoids_shift; [lia|exact Hav1|]. intros x Hx. right. right. exists x. split; [lia|exact Hx].
        * discriminate.
  Qed.
End C13.

Lemma c13_main o s cs zero zext trailer segs tail :
  chunked s = true -> eof_ s = false -> (cont s = false \/ clen s <= o_max_body o) ->
  Forall good_chunk cs -> good_size zero zext 0 ->
  Forall (fun c => blen (size_line (c_size c) (c_ext c)) + 1 <= o_buffer_size o * 4) cs ->
  blen (size_line zero zext) + 1 <= o_buffer_size o * 4 ->
  items s = map Data segs ++ tail -> concat segs = chunked_body cs zero zext trailer ->
  (forall n, boundary segs n -> ~ after_data cs n) ->
  exists ys s' g', stream o s false = (ys, FStop, s', g') /\ concat ys = chunks_data cs /\ eof_ s' = true.
Proof.
  intros Hc He Hk Hg Hz Hf Hzf Hi E Hb. unfold stream.
  assert (exists s0, send_continue o s = Some s0 /\ items s0 = items s /\ chunked s0 = true) as (s0 & C0 & I0 & K0).
  { unfold send_continue. destruct (cont s).
    - destruct Hk as [Hk|Hk]; [discriminate|]. replace (o_max_body o <? clen s) with false by lia. exists (sent s). now repeat split.
    - exists s. now repeat split. }
  assert (forall f, drain (S f) o s (GInit false) = drain (S f) o s0 (GChunk [] false 0 false)) as D.
  { intros f. cbn [drain gen_next]. now rewrite He, C0, K0. }
  unfold work. rewrite D. cbn [gen_work].
  apply (proj1 (c13_both o zero zext trailer tail Hz Hzf (S (items_work (items s) + 0))) cs s0 [] segs false).
  - unfold work. cbn [gen_work List.length]. rewrite I0. lia.
  - congruence.
  - rewrite Forall_forall in *. intros c Hin. split; [now apply Hg|now apply Hf].
  - exact E.
  - intros k Hk' HA. apply (Hb _ (ex_intro _ k (conj Hk' eq_refl))). exact HA.
  - reflexivity.
Qed.
