(** Proofs about WebSocket frames (C22-C27). *)
From Verif Require Import PyBytes PyBytesFacts PyInt PyExn PyUtf8 M_Stream M_WebSocket S_WebSocket P_Parser2 P_Stream.
From Coq Require Import ZifyBool ZifyNat ZifyN.
Local Open Scope N_scope.
Ltac Zify.zify_post_hook ::= Z.div_mod_to_equations.

(** ** Bytes *)
Definition all_bytes : bytes := map ascii_of_nat (seq 0 256).
Lemma all_bytes_In a : In a all_bytes.
Proof.
  unfold all_bytes. apply in_map_iff. exists (nat_of_ascii a). split; [apply ascii_nat_embedding|].
  apply in_seq. split; [lia|]. apply nat_ascii_bounded.
Qed.
Lemma lxor_byte a b : ascii_of_N (N.lxor (N_of_ascii a) (N_of_ascii b)) = xor_byte a b.
Proof.
  assert (forallb (fun a => forallb (fun b => Ascii.eqb (ascii_of_N (N.lxor (N_of_ascii a) (N_of_ascii b))) (xor_byte a b)) all_bytes) all_bytes = true) as H by (vm_compute; reflexivity).
  rewrite forallb_forall in H. specialize (H a (all_bytes_In a)). rewrite forallb_forall in H. specialize (H b (all_bytes_In b)).
  now apply Ascii.eqb_eq in H.
Qed.
Lemma xor_twice a b : xor_byte (xor_byte a b) b = a.
Proof. destruct a, b. cbn [xor_byte]. now rewrite !xorb_assoc, !xorb_nilpotent, !xorb_false_r. Qed.

Definition masked_at (i : nat) (key p : bytes) : bytes :=
  map (fun ic => xor_byte (snd ic) (nth (Nat.modulo (fst ic) 4) key Ascii.zero)) (combine (seq i (List.length p)) p).
Lemma mask_from_ok key : List.length key = 4%nat -> forall p i, mask_from key i p = Ok (masked_at i key p).
Proof.
  intros K. induction p as [|c p IH]; intros i; cbn [mask_from]; [reflexivity|].
  assert (nth_error key (Nat.modulo i 4) = Some (nth (Nat.modulo i 4) key Ascii.zero)) as ->.
  { apply nth_error_nth'. rewrite K. apply Nat.mod_upper_bound. lia. }
  rewrite IH. cbn [bind masked_at List.length seq combine map fst snd]. now rewrite lxor_byte.
Qed.
Lemma masked_at_length i key p : List.length (masked_at i key p) = List.length p.
Proof. unfold masked_at. now rewrite map_length, combine_length, seq_length, Nat.min_id. Qed.
Lemma masked_at_twice key p : forall i, masked_at i key (masked_at i key p) = p.
Proof.
  induction p as [|c p IH]; intros i; [reflexivity|]. specialize (IH (S i)).
  unfold masked_at at 1. rewrite masked_at_length.
  change (masked_at i key (c :: p)) with (xor_byte c (nth (Nat.modulo i 4) key Ascii.zero) :: masked_at (S i) key p).
  cbn [List.length seq combine map fst snd]. rewrite xor_twice. f_equal.
  unfold masked_at at 1 in IH. now rewrite masked_at_length in IH.
Qed.
Lemma masked_twice key p : masked_at 0 key (masked key p) = p.
Proof. apply (masked_at_twice key p 0). Qed.

(** ** Numbers in network order *)
Lemma network_acc k : forall n acc, to_big_digits k n acc = network k n ++ acc.
Proof.
  induction k as [|k IH]; intros n acc; [reflexivity|]. cbn [to_big_digits]. rewrite IH.
  assert (forall k n, network (S k) n = network k (n / 256) ++ [ascii_of_N (n mod 256)]) as N.
  { clear. induction k as [|k IH]; intros n.
    - cbn [network app]. now rewrite N.pow_0_r, N.div_1_r.
    - change (network (S (S k)) n) with (ascii_of_N (n / 256 ^ N.of_nat (S k) mod 256) :: network (S k) n).
      rewrite IH. cbn [network app]. f_equal. f_equal. f_equal.
      rewrite N.div_div by (try apply N.pow_nonzero; lia).
      rewrite <- N.pow_succ_r'. f_equal. f_equal. lia. }
  rewrite N, <- app_assoc. reflexivity.
Qed.
Lemma to_big_network k n : n < 256 ^ N.of_nat k -> to_big k n = Ok (network k n).
Proof. intros H. unfold to_big. apply N.ltb_lt in H. rewrite H, network_acc, app_nil_r. reflexivity. Qed.
Lemma network_length k n : List.length (network k n) = k.
Proof. induction k; cbn [network List.length]; congruence. Qed.

Lemma from_big_app a b acc : fold_left (fun a c => a * 256 + N_of_ascii c) (a ++ b) acc =
  fold_left (fun a c => a * 256 + N_of_ascii c) b (fold_left (fun a c => a * 256 + N_of_ascii c) a acc).
Proof. apply fold_left_app. Qed.
Lemma from_network k : forall n acc,
  fold_left (fun a c => a * 256 + N_of_ascii c) (network k n) acc = acc * 256 ^ N.of_nat k + n mod 256 ^ N.of_nat k.
Proof.
  induction k as [|k IH]; intros n acc.
  - cbn [network fold_left]. change (256 ^ N.of_nat 0) with 1. rewrite N.mod_1_r. lia.
  - cbn [network fold_left]. rewrite IH. rewrite N_ascii by (apply N.mod_lt; lia).
    replace (N.of_nat (S k)) with (N.succ (N.of_nat k)) by lia. rewrite N.pow_succ_r'.
    set (m := 256 ^ N.of_nat k). assert (m <> 0) by (subst m; apply N.pow_nonzero; lia).
    replace (n mod (256 * m)) with (n mod m + m * (n / m mod 256)); [nia|].
    rewrite (N.mul_comm 256 m). symmetry. apply N.mod_mul_r; lia.
Qed.
Lemma from_big_network k n : n < 256 ^ N.of_nat k -> from_big (network k n) = n.
Proof. intros H. unfold from_big. rewrite from_network. rewrite N.mod_small by exact H. lia. Qed.

(** ** The two first bytes *)
Lemma byte0 (b : bool) op : op < 16 -> N.land (N_of_ascii (ascii_of_N (flag b + op))) 0x0f = op.
Proof.
  intros H. rewrite N_ascii by (unfold flag; destruct b; lia). change 15 with (N.ones 4). rewrite N.land_ones.
  change (2 ^ 4) with 16. unfold flag. destruct b; lia.
Qed.
Lemma below n (P : N -> bool) : forallb P (map N.of_nat (seq 0 n)) = true -> forall k, k < N.of_nat n -> P k = true.
Proof.
  intros F k H. rewrite forallb_forall in F. apply F. apply in_map_iff. exists (N.to_nat k). split; [lia|]. apply in_seq. lia.
Qed.
Lemma byte1 (b : bool) n : n < 128 ->
  N.land (N_of_ascii (ascii_of_N (flag b + n))) 0x7f = n /\ (N.shiftr (N.land (N_of_ascii (ascii_of_N (flag b + n))) 0x80) 7 =? 0) = negb b.
Proof.
  intros H.
  assert ((N.land (N_of_ascii (ascii_of_N (flag b + n))) 0x7f =? n) &&
    Bool.eqb (N.shiftr (N.land (N_of_ascii (ascii_of_N (flag b + n))) 0x80) 7 =? 0) (negb b) = true) as E.
  { revert n H. apply (below 128 (fun n => (N.land (N_of_ascii (ascii_of_N (flag b + n))) 127 =? n) &&
     Bool.eqb (N.shiftr (N.land (N_of_ascii (ascii_of_N (flag b + n))) 128) 7 =? 0) (negb b))). destruct b; vm_compute; reflexivity. }
  apply andb_prop in E as [E1 E2]. split; [now apply N.eqb_eq|now apply eqb_prop].
Qed.
Lemma first_byte (b : bool) op : op < 16 -> N.lor (N.shiftl (if b then 1 else 0) 7) op = flag b + op.
Proof.
  intros H. apply N.eqb_eq. revert op H.
  apply (below 16 (fun op => N.lor (N.shiftl (if b then 1 else 0) 7) op =? flag b + op)). destruct b; vm_compute; reflexivity.
Qed.
Lemma second_byte n : n < 128 -> N.lor n (N.shiftl 1 7) = 128 + n.
Proof.
  intros H. apply N.eqb_eq. revert n H. apply (below 128 (fun n => N.lor n (N.shiftl 1 7) =? 128 + n)). vm_compute; reflexivity.
Qed.

(** ** Frames written *)
Definition payload_of (v : pyval) : option bytes := match v with VStr s => utf8_encode s | VBytes b => Some b end.
Definition op_for (v : pyval) (opcode : option N) : N :=
  match opcode with Some n => n | None => match v with VStr _ => 1 | VBytes _ => 2 end end.

Lemma create_frame_wire v (b : bool) opcode (mask : bool) key p :
  (match v with VStr _ => op_for v opcode = 1 | VBytes _ => op_for v opcode <> 1 end) -> op_for v opcode < 16 ->
  payload_of v = Some p -> N.of_nat (List.length p) < 2 ^ 64 -> (mask = true -> List.length key = 4%nat) ->
  create_frame v (if b then 1 else 0) opcode mask key =
    Ok (wire (shortest (N.of_nat (List.length p))) (mkFrame b (op_for v opcode) (if mask then Some key else None) p)).
Proof.
  intros T O P L K. unfold create_frame. change (match opcode with Some n => n | None => match v with VStr _ => 1 | VBytes _ => 2 end end) with (op_for v opcode).
  set (op := op_for v opcode) in *.
  assert ((if op =? 1 then match v with VStr s => match utf8_encode s with Some b => Ok b | None => Raise ValueError end | VBytes _ => Raise AttributeError end
           else match v with VBytes b => Ok b | VStr _ => Raise TypeError end) = Ok p) as ->.
  { destruct v as [s|c]; cbn [payload_of] in P.
    - rewrite T. cbn [N.eqb Pos.eqb]. now rewrite P.
    - destruct (N.eqb_spec op 1); [easy|]. now injection P as ->. }
  cbn [bind]. set (n := N.of_nat (List.length p)) in *. rewrite first_byte by exact O.
  assert (exists l7 ext, len_field (shortest n) n = (l7, ext) /\ l7 < 128 /\
     (if n <? 126 then Ok (n, []) else if n <? 65536 then bind (to_big 2 n) (fun l => Ok (126, l)) else bind (to_big 8 n) (fun l => Ok (127, l))) = Ok (l7, ext)) as (l7 & ext & E & B & ->).
  { unfold shortest. destruct (N.ltb_spec n 126).
    - replace (n <=? 125) with true by lia. exists n, []. repeat split. lia.
    - replace (n <=? 125) with false by lia. destruct (N.ltb_spec n 65536).
      + replace (n <=? 65535) with true by lia. exists 126, (network 2 n). repeat split; try lia. rewrite to_big_network by exact H0. reflexivity.
      + replace (n <=? 65535) with false by lia. exists 127, (network 8 n). repeat split; try lia. rewrite to_big_network by exact L. reflexivity. }
  cbn [bind]. unfold wire, wire_head, announce, wire_payload. cbn [f_payload f_fin f_op f_key]. fold n. rewrite E.
  unfold two_bytes. assert (flag b + op <? 256 = true) as F1 by (unfold flag; destruct b; lia). destruct mask.
  - rewrite second_byte by exact B. rewrite F1. replace (128 + l7 <? 256) with true by lia. cbn [andb bind].
    rewrite mask_from_ok by (now apply K). cbn [bind flag app]. rewrite <- !app_assoc. reflexivity.
  - rewrite F1. replace (l7 <? 256) with true by lia. cbn [andb bind flag app]. rewrite N.add_0_l, app_nil_r. reflexivity.
Qed.

(** ** Reading from an upgraded request *)
Local Open Scope Z_scope.
Definition holds (r : reader) (B : bytes) (tl : list inp) : Prop :=
  exists segs, upgraded r segs tl /\ rbuf r ++ concat segs = B.

Definition ended (r : reader) : Prop := eof_ (rs r) = true /\ rbuf r = [].

Definition plain_state (s : rstate) : Prop := eof_ s = false /\ cont s = false /\ clen s = -1.

Lemma gen_next_plain o s g : 0 <= o_max_body o -> plain_state s -> In g [GInit true; GPlain] -> gen_next o s g = plain_next s.
Proof.
  intros M (E & C & L) [<-|[<-|[]]]; [|reflexivity]. cbn [gen_next]. rewrite E. unfold send_continue. rewrite C. cbn [negb andb].
  rewrite L. now replace (o_max_body o <? -1) with false by lia.
Qed.

Definition not_data (tl : list inp) : Prop := match tl with Data _ :: _ => False | _ => True end.

Lemma fill_plain o size tl : 0 <= o_max_body o -> not_data tl ->
  forall segs fuel s g buf, plain_state s -> In g [GInit true; GPlain] -> items s = map Data segs ++ tl -> (work s g <= fuel)%nat ->
  blen buf < size ->
  if size <=? blen (buf ++ concat segs) then
    exists segs1 segs2 s', segs = segs1 ++ segs2 /\ fill fuel o size s g buf = (None, s', GPlain, buf ++ concat segs1) /\
      size <= blen (buf ++ concat segs1) /\ plain_state s' /\ items s' = map Data segs2 ++ tl
  else exists s', match tl with
    | [] => fill fuel o size s g buf = (Some RBlock, s', GPlain, buf ++ concat segs) /\ plain_state s' /\ items s' = []
    | End :: tl' => fill fuel o size s g buf = (None, s', GDone, buf ++ concat segs) /\ eof_ s' = true /\ items s' = tl'
    | _ => fill fuel o size s g buf = (Some (RRaise TimeoutError), s', GDone, buf ++ concat segs)
    end.
Proof.
  intros M T. induction segs as [|d segs IH]; intros fuel s g buf P G I F B; (destruct fuel as [|f]; [unfold work in F; lia|]); cbn [fill].
  - rewrite (gen_next_plain o s g M P G). cbn [concat]. rewrite app_nil_r. replace (size <=? blen buf) with false by lia.
    unfold plain_next. rewrite I. cbn [map app]. destruct tl as [|[dd| |] tl0]; [|easy| |]; eexists; repeat split; try reflexivity; apply P || assumption.
  - rewrite (gen_next_plain o s g M P G). unfold plain_next. rewrite I. cbn [map app concat].
    set (s1 := took s d (map Data segs ++ tl)). destruct P as (P1 & P2 & P3). rewrite P3. change (-1 <? -1) with false. cbn [andb].
    destruct (Z.leb_spec size (blen (buf ++ d))) as [L|L].
    + replace (size <=? blen (buf ++ d ++ concat segs)) with true by (rewrite app_assoc, blen_app; pose proof (blen_nonneg (concat segs)); lia).
      exists [d], segs, s1. cbn [concat]. rewrite app_nil_r. repeat split; try assumption; reflexivity.
    + assert (work s1 GPlain <= f)%nat as Hf.
      { unfold work in *. rewrite I in F. cbn [map app] in F. rewrite items_work_cons in F. cbn [inp_work] in F. subst s1. cbn [took items]. unfold gen_work in *. lia. }
      specialize (IH f s1 GPlain (buf ++ d) ltac:(repeat split; assumption) ltac:(right; now left) eq_refl Hf L).
      rewrite <- app_assoc in IH. destruct (size <=? blen (buf ++ d ++ concat segs)).
      * destruct IH as (a & b & s' & -> & E & L2 & P' & I'). exists (d :: a), b, s'. cbn [concat]. rewrite <- app_assoc in E, L2. repeat split; try assumption; reflexivity || apply P'.
      * exact IH.
Qed.

Lemma holds_gen r B tl : holds r B tl -> In (match inst r with Some g => g | None => GInit true end) [GInit true; GPlain].
Proof. intros (segs & (_ & _ & _ & I & _) & _). destruct I as [<-|[<-|[<-|[]]]]; cbn; auto. Qed.

(** Enough bytes are there: they come in order, the rest stays. *)
Lemma recv_enough o r B tl n : 0 <= o_max_body o -> holds r B tl -> 0 <= n <= blen B ->
  exists r', recv o r n true = (RRet (firstn (Z.to_nat n) B), r') /\ holds r' (skipn (Z.to_nat n) B) tl.
Proof.
  intros M H L. pose proof (holds_gen _ _ _ H) as G. destruct H as (segs & (E1 & E2 & E3 & I & It & T) & EB). unfold recv.
  destruct (Z.eqb_spec n 0) as [->|N0].
  - cbn [orb Z.to_nat firstn skipn]. exists r. split; [reflexivity|]. exists segs. repeat split; assumption.
  - unfold eof. rewrite E1. cbn [andb orb]. replace (n =? -1) with false by lia. set (g := match inst r with Some g => g | None => GInit true end) in *.
    destruct (Z.ltb_spec (blen (rbuf r)) n) as [S|S].
    + pose proof (fill_plain o n tl M T segs (work (rs r) g) (rs r) g (rbuf r) ltac:(repeat split; assumption) G It (le_n _) S) as F.
      rewrite EB in F. replace (n <=? blen B) with true in F by lia. destruct F as (a & b & s' & -> & -> & L2 & P' & I').
      eexists. rewrite upto_nonneg, from_nonneg by lia. rewrite concat_app, app_assoc in EB. unfold blen in L2. split.
      * rewrite <- EB, (firstn_app _ (rbuf r ++ concat a) (concat b)). replace (Z.to_nat n - List.length (rbuf r ++ concat a))%nat with 0%nat by lia. cbn [firstn]. now rewrite app_nil_r.
      * exists b. cbn [rs inst rbuf]. split; [repeat split; try apply P'; try assumption; cbn; auto|].
        rewrite <- EB, (skipn_app _ (rbuf r ++ concat a)). replace (Z.to_nat n - List.length (rbuf r ++ concat a))%nat with 0%nat by lia. reflexivity.
    + eexists. rewrite upto_nonneg, from_nonneg by lia. unfold blen in S. split.
      * rewrite <- EB, (firstn_app _ (rbuf r) (concat segs)). replace (Z.to_nat n - List.length (rbuf r))%nat with 0%nat by lia. cbn [firstn]. now rewrite app_nil_r.
      * exists segs. cbn [rs inst rbuf]. split; [repeat split; try assumption|].
        -- subst g. destruct I as [<-|[<-|[<-|[]]]]; cbn; auto.
        -- rewrite <- EB, (skipn_app _ (rbuf r)). replace (Z.to_nat n - List.length (rbuf r))%nat with 0%nat by lia. reflexivity.
Qed.

(** Not enough bytes. *)
Lemma recv_short o r B tl n : 0 <= o_max_body o -> holds r B tl -> blen B < n ->
  exists r', match tl with
    | [] => recv o r n true = (RBlock, r') /\ holds r' B []
    | End :: _ => recv o r n true = (RRet B, r') /\ ended r'
    | _ => recv o r n true = (RRaise TimeoutError, r')
    end.
Proof.
  intros M H L. pose proof (holds_gen _ _ _ H) as G. destruct H as (segs & (E1 & E2 & E3 & I & It & T) & EB). unfold recv.
  pose proof (blen_nonneg B). replace (n =? 0) with false by lia. unfold eof. rewrite E1. cbn [andb orb]. replace (n =? -1) with false by lia.
  set (g := match inst r with Some g => g | None => GInit true end) in *.
  assert (blen (rbuf r) < n) as S by (rewrite <- EB, blen_app in L; pose proof (blen_nonneg (concat segs)); lia).
  replace (blen (rbuf r) <? n) with true by lia.
  pose proof (fill_plain o n tl M T segs (work (rs r) g) (rs r) g (rbuf r) ltac:(repeat split; assumption) G It (le_n _) S) as F.
  rewrite EB in F. replace (n <=? blen B) with false in F by lia. destruct F as (s' & F). destruct tl as [|[dd| |] tl0]; [|easy| |].
  - destruct F as (-> & P' & I'). eexists. split; [reflexivity|]. exists []. cbn [rs inst rbuf concat]. rewrite app_nil_r. repeat split; try apply P'; cbn; auto.
  - destruct F as (-> & P' & I'). eexists. rewrite upto_nonneg, from_nonneg by lia. unfold blen in L. rewrite firstn_all2, skipn_all2 by lia. split; [reflexivity|]. now split.
  - rewrite F. eexists. reflexivity.
Qed.

Lemma recv_ended o r n : ended r -> recv o r n true = (RRet [], r).
Proof. intros [E1 E2]. unfold recv, eof. rewrite E1, E2. cbn [beqb andb]. now rewrite orb_true_r. Qed.

(** ** Receiving a frame *)
Lemma rd_enough o r d B tl n : 0 <= o_max_body o -> holds r (d ++ B) tl -> List.length d = N.to_nat n ->
  exists r', rd o n r = (WRet d, r', []) /\ holds r' B tl.
Proof.
  intros M H L. destruct (recv_enough o r (d ++ B) tl (Z.of_N n) M H) as (r' & E & H').
  { rewrite blen_app. unfold blen at 1. pose proof (blen_nonneg B). lia. }
  unfold rd. rewrite E. replace (Z.to_nat (Z.of_N n)) with (List.length d) in * by lia.
  exists r'. rewrite firstn_app, skipn_app, Nat.sub_diag, firstn_all, skipn_all in *. cbn [firstn skipn app] in *. rewrite app_nil_r in *. now split.
Qed.

Lemma bindio_ret {A B} (m : io A) (f : A -> io B) r a r' : m r = (WRet a, r', []) -> bindio m f r = f a r'.
Proof. intros E. unfold bindio. rewrite E. destruct (f a r') as [[x r2] out]. reflexivity. Qed.
Lemma bindio_raise {A B} (m : io A) (f : A -> io B) r e r' l : m r = (WRaise e, r', l) -> bindio m f r = (WRaise e, r', l).
Proof. intros E. unfold bindio. now rewrite E. Qed.

(** Up to the payload length. *)
Definition after_length (o : opts) (opcode : N) (mask : bool) (n : N) : io pyval :=
  do! data <- (if mask then do! key <- rd o 4 in do! payload <- rd o n in lift (mask_from key 0 payload) else rd o n) in
  handle_frame opcode n data.

Lemma ws_recv_announce o max form fin op mask n r B tl : 0 <= o_max_body o -> (op < 16)%N -> fits form n ->
  holds r (announce form fin op mask n ++ B) tl ->
  exists r', holds r' B tl /\ ws_recv o max r =
    match form with
    | L64 => if max <? Z.of_N n then (WRaise (WSServerClosed 1009), r', []) else after_length o op mask n r'
    | _ => after_length o op mask n r'
    end.
Proof.
  intros M O F H. unfold announce in H.
  assert (exists l7 ext, len_field form n = (l7, ext) /\ (l7 < 128)%N) as (l7 & ext & E & L7b).
  { destruct form; cbn [len_field fits] in *; eexists _, _; (split; [reflexivity|]); lia. }
  rewrite E in H. cbn [app] in H.
  destruct (rd_enough o r [ascii_of_N (flag fin + op); ascii_of_N (flag mask + l7)] (ext ++ B) tl 2 M H eq_refl) as (r1 & E1 & H1).
  unfold ws_recv. rewrite (bindio_ret _ _ _ _ _ E1). cbv beta iota zeta. rewrite byte0 by exact O. destruct (byte1 mask l7 L7b) as [-> ->]. rewrite negb_involutive.
  destruct form; cbn [len_field fits] in E, F; injection E as <- <-.
  - replace (n =? 126)%N with false by lia. replace (n =? 127)%N with false by lia. cbn [app] in H1. exists r1. split; [exact H1|].
    rewrite (bindio_ret _ _ _ n r1) by reflexivity. reflexivity.
  - destruct (rd_enough o r1 (network 2 n) B tl 2 M H1 (network_length 2 n)) as (r2 & E2 & H2). exists r2. split; [exact H2|].
    change (126 =? 126)%N with true. cbv iota. rewrite (bindio_ret _ _ _ n r2).
    + reflexivity.
    + rewrite (bindio_ret _ _ _ _ _ E2). rewrite from_big_network by exact F. reflexivity.
  - destruct (rd_enough o r1 (network 8 n) B tl 8 M H1 (network_length 8 n)) as (r2 & E2 & H2). exists r2. split; [exact H2|].
    change (127 =? 126)%N with false. change (127 =? 127)%N with true. cbv iota. destruct (max <? Z.of_N n) eqn:X.
    + apply (bindio_raise _ _ r1). rewrite (bindio_ret _ _ _ _ _ E2). rewrite from_big_network by exact F. rewrite X. reflexivity.
    + rewrite (bindio_ret _ _ _ n r2).
      * reflexivity.
      * rewrite (bindio_ret _ _ _ _ _ E2). rewrite from_big_network by exact F. rewrite X. reflexivity.
Qed.

Lemma ws_recv_frame o max form f r B tl : 0 <= o_max_body o -> frame_ok form f ->
  (form = L64 -> Z.of_nat (List.length (f_payload f)) <= max) -> holds r (wire form f ++ B) tl ->
  exists r', holds r' B tl /\ ws_recv o max r = handle_frame (f_op f) (N.of_nat (List.length (f_payload f))) (f_payload f) r'.
Proof.
  intros M (O & F & K) X H. unfold wire, wire_head, wire_payload in H. rewrite <- !app_assoc in H. set (n := N.of_nat (List.length (f_payload f))) in *.
  destruct (ws_recv_announce o max _ _ _ _ _ _ _ _ M O F H) as (r1 & H1 & E).
  assert (ws_recv o max r = after_length o (f_op f) (match f_key f with Some _ => true | None => false end) n r1) as E'.
  { rewrite E. destruct form; try reflexivity. specialize (X eq_refl). now replace (max <? Z.of_N n) with false by lia. }
  rewrite E'. clear E E'. unfold after_length. destruct (f_key f) as [k|].
  - destruct (rd_enough o r1 k _ tl 4 M H1 K) as (r2 & E2 & H2).
    destruct (rd_enough o r2 (masked k (f_payload f)) B tl n M H2) as (r3 & E3 & H3).
    { change (masked k (f_payload f)) with (masked_at 0 k (f_payload f)). rewrite masked_at_length. lia. }
    exists r3. split; [exact H3|]. rewrite (bindio_ret _ _ _ (f_payload f) r3); [reflexivity|].
    rewrite (bindio_ret _ _ _ _ _ E2), (bindio_ret _ _ _ _ _ E3). rewrite mask_from_ok by exact K. rewrite masked_twice. reflexivity.
  - cbn [app] in H1. destruct (rd_enough o r1 (f_payload f) B tl n M H1 ltac:(lia)) as (r3 & E3 & H3).
    exists r3. split; [exact H3|]. now rewrite (bindio_ret _ _ _ _ _ E3).
Qed.

(** ** The properties *)
Lemma shortest_fits n : (n < 2 ^ 64)%N -> fits (shortest n) n.
Proof. intros H. unfold shortest. destruct (N.leb_spec n 125); [cbn [fits]; lia|]. destruct (N.leb_spec n 65535); cbn [fits]; lia. Qed.

Lemma c23_main o max v mask key B frame r segs tl : 0 <= o_max_body o ->
  create_frame v 1 None mask key = Ok frame -> (mask = true -> List.length key = 4%nat) ->
  (forall p, payload_of v = Some p -> (65536 <= blen p -> blen p <= max) /\ blen p < 2 ^ 64) ->
  upgraded r segs tl -> rbuf r ++ concat segs = frame ++ B ->
  exists r' segs', ws_recv o max r = (WRet v, r', []) /\ upgraded r' segs' tl /\ rbuf r' ++ concat segs' = B.
Proof.
  intros M C K L U E.
  assert (exists p, payload_of v = Some p) as (p & P).
  { destruct v as [s|b]; cbn [payload_of]; [|now exists b]. unfold create_frame in C. cbn [N.eqb Pos.eqb] in C.
    destruct (utf8_encode s); [now eexists|discriminate]. }
  destruct (L p P) as [L1 L2]. unfold blen in L1, L2.
  rewrite (create_frame_wire v true None mask key p) in C; cycle 1.
  { destruct v; cbn; [reflexivity|discriminate]. } { destruct v; cbn; lia. } { exact P. } { lia. } { exact K. }
  injection C as <-. set (f := mkFrame true (op_for v None) (if mask then Some key else None) p) in *.
  destruct (ws_recv_frame o max (shortest (N.of_nat (List.length p))) f r B tl M) as (r' & (segs' & U' & E') & R).
  { repeat split; cbn [f f_op f_payload f_key]; [destruct v; cbn; lia|apply shortest_fits; lia|]. destruct mask; [now apply K|exact I]. }
  { unfold shortest. cbn [f f_payload]. destruct (_ <=? 125)%N; [discriminate|]. destruct (N.leb_spec (N.of_nat (List.length p)) 65535); [discriminate|]. intros _. lia. }
  { exists segs. now split. }
  exists r', segs'. split; [|now split]. rewrite R. cbn [f f_op f_payload]. destruct v as [s|b]; cbn [op_for handle_frame].
  - unfold handle_frame. cbn [N.eqb Pos.eqb]. cbn [payload_of] in P. rewrite (utf8_roundtrip s p P). reflexivity.
  - unfold handle_frame. cbn [N.eqb Pos.eqb]. cbn [payload_of] in P. injection P as <-. reflexivity.
Qed.

Lemma c24_main o max fin op mask n B r segs tl : 0 <= o_max_body o -> (op < 16)%N -> (n < 2 ^ 64)%N -> max < Z.of_N n ->
  upgraded r segs tl -> rbuf r ++ concat segs = announce L64 fin op mask n ++ B ->
  exists r' segs', ws_recv o max r = (WRaise (WSServerClosed 1009), r', []) /\ upgraded r' segs' tl /\ rbuf r' ++ concat segs' = B.
Proof.
  intros M O F X U E. destruct (ws_recv_announce o max L64 fin op mask n r B tl M O F) as (r' & (segs' & U' & E') & R).
  { exists segs. now split. }
  exists r', segs'. rewrite R. replace (max <? Z.of_N n) with true by lia. auto.
Qed.

(** C25 *)
Lemma handle_keeps op n d r x r' out : handle_frame op n d r = (x, r', out) -> r' = r.
Proof.
  unfold handle_frame.
  destruct (op =? 1)%N; [destruct (utf8_decode d); intros E; now injection E as <- <- <-|].
  destruct (op =? 2)%N; [intros E; now injection E as <- <- <-|].
  destruct ((op =? 9)%N && _); [unfold lift; destruct (create_frame _ _ _ _ _); cbn; intros E; now injection E as <- <- <-|].
  destruct ((op =? 10)%N && _); [intros E; now injection E as <- <- <-|].
  destruct (op =? 8)%N; intros E; now injection E as <- <- <-.
Qed.

Definition whole (o : opts) (max : Z) (form : lenform) (f : frame) (r : reader) (B : bytes) (tl : list inp) : Prop :=
  0 <= o_max_body o /\ frame_ok form f /\ (form = L64 -> Z.of_nat (List.length (f_payload f)) <= max) /\
  exists segs, upgraded r segs tl /\ rbuf r ++ concat segs = wire form f ++ B.
Definition left (r : reader) (B : bytes) (tl : list inp) : Prop :=
  exists segs, upgraded r segs tl /\ rbuf r ++ concat segs = B.

Lemma whole_frame o max form f r B tl : whole o max form f r B tl ->
  exists r', left r' B tl /\ ws_recv o max r = handle_frame (f_op f) (N.of_nat (List.length (f_payload f))) (f_payload f) r'.
Proof. intros (M & K & X & H). exact (ws_recv_frame o max form f r B tl M K X H). Qed.

Definition pong_of (f : frame) : bytes := wire L7 (mkFrame true 10 None (f_payload f)).
Lemma pong_frame p : (List.length p < 126)%nat -> create_frame (VBytes p) 1 (Some 10%N) false [] = Ok (wire L7 (mkFrame true 10 None p)).
Proof.
  intros H. rewrite (create_frame_wire (VBytes p) true (Some 10%N) false [] p); cbn [op_for]; try easy; try lia.
  unfold shortest. now replace (N.of_nat (List.length p) <=? 125)%N with true by lia.
Qed.

Lemma c25_ping_l o max form f r B tl : whole o max form f r B tl -> f_op f = 9%N -> (List.length (f_payload f) < 126)%nat ->
  exists r', left r' B tl /\ ws_recv o max r = (WRet (VBytes []), r', [pong_of f]).
Proof.
  intros W O L. destruct (whole_frame _ _ _ _ _ _ _ W) as (r' & H & ->). exists r'. split; [exact H|]. rewrite O. unfold handle_frame.
  replace (N.of_nat (List.length (f_payload f)) <? 126)%N with true by lia. cbn [N.eqb Pos.eqb andb]. rewrite pong_frame by exact L. reflexivity.
Qed.
Lemma c25_pong_l o max form f r B tl : whole o max form f r B tl -> f_op f = 10%N -> (List.length (f_payload f) < 126)%nat ->
  exists r', left r' B tl /\ ws_recv o max r = (WRet (VBytes []), r', []).
Proof.
  intros W O L. destruct (whole_frame _ _ _ _ _ _ _ W) as (r' & H & ->). exists r'. split; [exact H|]. rewrite O. unfold handle_frame.
  now replace (N.of_nat (List.length (f_payload f)) <? 126)%N with true by lia.
Qed.
Lemma c25_close_l o max form f r B tl : whole o max form f r B tl -> f_op f = 8%N ->
  exists r', left r' B tl /\ ws_recv o max r =
    (WRaise (WSClientClosed (match f_payload f with [] => 1005 | [a] => Z.of_N (N_of_ascii a)
       | a :: b :: _ => 256 * Z.of_N (N_of_ascii a) + Z.of_N (N_of_ascii b) end)), r', []).
Proof.
  intros W O. destruct (whole_frame _ _ _ _ _ _ _ W) as (r' & H & ->). exists r'. split; [exact H|]. rewrite O. unfold handle_frame. cbn [N.eqb Pos.eqb andb].
  destruct (f_payload f) as [|a [|b p]]; cbn [firstn from_big fold_left]; try reflexivity. unfold from_big. cbn [fold_left].
  unfold fail. do 4 f_equal. lia.
Qed.
Lemma c25_other_l o max form f r B tl : whole o max form f r B tl -> ~ In (f_op f) [1; 2; 8]%N ->
  (In (f_op f) [9; 10]%N -> (126 <= List.length (f_payload f))%nat) ->
  exists r', left r' B tl /\ ws_recv o max r = (WRaise (WSServerClosed 1008), r', []).
Proof.
  intros W O L. destruct (whole_frame _ _ _ _ _ _ _ W) as (r' & H & ->). exists r'. split; [exact H|]. unfold handle_frame. cbn [In] in *.
  set (op := f_op f) in *. destruct (N.eqb_spec op 1); [exfalso; lia|]. destruct (N.eqb_spec op 2); [exfalso; lia|].
  destruct (N.eqb_spec op 9).
  - replace (N.of_nat (List.length (f_payload f)) <? 126)%N with false by lia. rewrite !andb_false_r. destruct (N.eqb_spec op 8); [exfalso; lia|reflexivity].
  - cbn [andb]. destruct (N.eqb_spec op 10).
    + replace (N.of_nat (List.length (f_payload f)) <? 126)%N with false by lia. cbn [andb]. destruct (N.eqb_spec op 8); [exfalso; lia|reflexivity].
    + cbn [andb]. destruct (N.eqb_spec op 8); [exfalso; lia|reflexivity].
Qed.

(** C26 *)
Lemma rd_short o r B tl n : 0 <= o_max_body o -> holds r B (End :: tl) -> (List.length B < N.to_nat n)%nat ->
  exists r', rd o n r = (WRet B, r', []) /\ ended r'.
Proof.
  intros M H L. destruct (recv_short o r B (End :: tl) (Z.of_N n) M H) as (r' & E & D); [unfold blen; lia|].
  exists r'. unfold rd. rewrite E. now split.
Qed.
Lemma rd_ended o r n : ended r -> rd o n r = (WRet [], r, []).
Proof. intros D. unfold rd. now rewrite recv_ended by exact D. Qed.

Lemma ws_recv_ended o max r : ended r -> ws_recv o max r = (WRaise (WSClientClosed 1005), r, []).
Proof. intros D. unfold ws_recv. rewrite (bindio_ret _ _ _ _ _ (rd_ended o r 2 D)). reflexivity. Qed.

Lemma after_length_ended o op mask n r : ended r -> after_length o op mask n r = handle_frame op n [] r.
Proof.
  intros D. unfold after_length. rewrite (bindio_ret _ _ r ([] : bytes) r); [reflexivity|]. destruct mask.
  - rewrite (bindio_ret _ _ _ _ _ (rd_ended o r 4 D)), (bindio_ret _ _ _ _ _ (rd_ended o r n D)). reflexivity.
  - apply rd_ended, D.
Qed.

Lemma masked_firstn k i key p : firstn k (masked_at i key p) = masked_at i key (firstn k p).
Proof.
  revert i p. induction k as [|k IH]; intros i p; [reflexivity|]. destruct p as [|c p]; [reflexivity|].
  change (masked_at i key (c :: p)) with (xor_byte c (nth (Nat.modulo i 4) key Ascii.zero) :: masked_at (S i) key p).
  cbn [firstn]. rewrite IH. reflexivity.
Qed.

Lemma prefix_split {A} (k : nat) (a b : list A) : (List.length a <= k)%nat -> firstn k (a ++ b) = a ++ firstn (k - List.length a) b.
Proof. intros H. rewrite firstn_app. now rewrite firstn_all2 by exact H. Qed.

(** The head is whole, the payload is cut. *)
Lemma after_length_cut o op mask key p r tl k : 0 <= o_max_body o -> (mask = true -> List.length key = 4%nat) ->
  holds r (firstn k (if mask then key ++ masked key p else p)) (End :: tl) ->
  (k < List.length (if mask then key ++ masked key p else p))%nat ->
  exists r', ended r' /\ after_length o op mask (N.of_nat (List.length p)) r =
    handle_frame op (N.of_nat (List.length p)) (firstn (k - (if mask then 4 else 0)) p) r'.
Proof.
  intros M K H L. unfold after_length. destruct mask.
  - specialize (K eq_refl). destruct (Nat.ltb_spec k 4) as [S|S].
    + destruct (rd_short o r _ tl 4 M H) as (r' & E & D); [rewrite firstn_length; lia|].
      exists r'. split; [exact D|]. rewrite (bindio_ret _ _ _ ([] : bytes) r').
      * now replace (k - 4)%nat with 0%nat by lia.
      * rewrite (bindio_ret _ _ _ _ _ E), (bindio_ret _ _ _ _ _ (rd_ended o r' _ D)). reflexivity.
    + rewrite prefix_split in H by lia. rewrite K in H. destruct (rd_enough o r key _ _ 4 M H K) as (r1 & E1 & H1).
      change (masked key p) with (masked_at 0 key p) in *.
      destruct (rd_short o r1 _ tl (N.of_nat (List.length p)) M H1) as (r' & E & D).
      { rewrite firstn_length. rewrite app_length, masked_at_length in L. lia. }
      exists r'. split; [exact D|]. rewrite (bindio_ret _ _ _ (firstn (k - 4) p) r').
      * reflexivity.
      * rewrite (bindio_ret _ _ _ _ _ E1), (bindio_ret _ _ _ _ _ E). rewrite masked_firstn, mask_from_ok by exact K. rewrite masked_at_twice. reflexivity.
  - destruct (rd_short o r _ tl (N.of_nat (List.length p)) M H) as (r' & E & D); [rewrite firstn_length; lia|].
    exists r'. split; [exact D|]. rewrite (bindio_ret _ _ _ _ _ E). now rewrite Nat.sub_0_r.
Qed.

Lemma from_big_le l : forall a b, (a <= b)%N -> forall m, (fold_left (fun a c => a * 256 + N_of_ascii c) l a <= fold_left (fun a c => a * 256 + N_of_ascii c) (l ++ m) b)%N.
Proof.
  induction l as [|c l IH]; intros a b H m; cbn [fold_left app].
  - revert b H. induction m as [|c m IH]; intros b H; cbn [fold_left]; [exact H|]. apply IH. lia.
  - apply IH. lia.
Qed.


Lemma c26_ended o max form f r segs tl k : 0 <= o_max_body o -> frame_ok form f ->
  (form = L64 -> Z.of_nat (List.length (f_payload f)) <= max) -> (k < List.length (wire form f))%nat ->
  upgraded r segs (End :: tl) -> rbuf r ++ concat segs = firstn k (wire form f) ->
  exists x r' out, ws_recv o max r = (x, r', out) /\ ended r' /\ ((k < 2)%nat -> x = WRaise (WSClientClosed 1005)) /\
   ((List.length (wire_head form f) <= k)%nat -> f_op f = 2%N -> x = WRet (VBytes (firstn (k - List.length (wire_head form f)) (f_payload f)))).
Proof.
  intros M (O & F & K) X L U E. set (n := N.of_nat (List.length (f_payload f))) in *.
  set (mask := match f_key f with Some _ => true | None => false end).
  set (key := match f_key f with Some k => k | None => [] end).
  assert (holds r (firstn k (wire form f)) (End :: tl)) as H by (exists segs; now split).
  assert (wire form f = announce form (f_fin f) (f_op f) mask n ++ (if mask then key ++ masked key (f_payload f) else f_payload f)) as W.
  { unfold wire, wire_head, wire_payload, mask, key. rewrite <- app_assoc. destruct (f_key f); reflexivity. }
  assert (List.length (wire_head form f) = List.length (announce form (f_fin f) (f_op f) mask n) + (if mask then 4 else 0))%nat as WH.
  { unfold wire_head. fold mask n. rewrite app_length. unfold mask. destruct (f_key f); [rewrite K|]; reflexivity. }
  set (A := announce form (f_fin f) (f_op f) mask n) in *.
  destruct (Nat.ltb_spec k (List.length A)) as [S|S].
  - (* in the head *)
    assert (exists l7 ext, len_field form n = (l7, ext) /\ (l7 < 128)%N) as (l7 & ext & El & L7b).
    { destruct form; cbn [len_field fits] in *; eexists _, _; (split; [reflexivity|]); lia. }
    assert (A = [ascii_of_N (flag (f_fin f) + f_op f); ascii_of_N (flag mask + l7)] ++ ext) as EA by (unfold A, announce; now rewrite El).
    rewrite W, firstn_app in H. replace (k - List.length A)%nat with 0%nat in H by lia. cbn [firstn] in H. rewrite app_nil_r in H.
    destruct (Nat.ltb_spec k 2) as [S2|S2].
    + destruct (rd_short o r _ tl 2 M H) as (r' & E2 & D); [rewrite firstn_length; lia|].
      exists (WRaise (WSClientClosed 1005)), r', []. split; [|split; [exact D|split; [reflexivity|lia]]].
      unfold ws_recv. rewrite (bindio_ret _ _ _ _ _ E2). assert (List.length (firstn k A) < 2)%nat as LL by (rewrite firstn_length; lia).
      destruct (firstn k A) as [|a [|b [|c l]]]; cbn [List.length] in LL; try lia; reflexivity.
    + rewrite EA in H. rewrite prefix_split in H by exact S2. cbn [List.length] in H.
      destruct (rd_enough o r _ _ _ 2 M H eq_refl) as (r1 & E1 & H1).
      assert (forall m, (List.length ext = N.to_nat m) -> exists r', rd o m r1 = (WRet (firstn (k - 2) ext), r', []) /\ ended r') as RS.
      { intros m Hm. apply (rd_short o r1 _ tl m M H1). rewrite firstn_length. rewrite EA, app_length in S. cbn [List.length] in S. lia. }
      unfold ws_recv. rewrite (bindio_ret _ _ _ _ _ E1). cbv beta iota zeta. rewrite byte0 by exact O. destruct (byte1 mask l7 L7b) as [-> ->]. rewrite negb_involutive.
      assert (forall op n' r', ended r' -> exists x out, after_length o op mask n' r' = (x, r', out)) as AL.
      { intros op n' r' D. rewrite after_length_ended by exact D. destruct (handle_frame op n' [] r') as [[x r2] out] eqn:Q.
        rewrite (handle_keeps _ _ _ _ _ _ _ Q). now eexists _, _. }
      destruct form; cbn [len_field fits] in El, F; pose proof (f_equal fst El) as El1; pose proof (f_equal snd El) as El2; cbn [fst snd] in El1, El2; subst l7 ext.
      * exfalso. rewrite EA in S. cbn [app List.length] in S. lia.
      * destruct (RS 2%N eq_refl) as (r' & E2 & D). change (126 =? 126)%N with true. cbv iota.
        rewrite (bindio_ret _ _ _ (from_big (firstn (k - 2) (network 2 n))) r') by (now rewrite (bindio_ret _ _ _ _ _ E2)).
        destruct (AL (f_op f) (from_big (firstn (k - 2) (network 2 n))) r' D) as (x & out & Q). exists x, r', out. split; [exact Q|]. split; [exact D|]. lia.
      * destruct (RS 8%N eq_refl) as (r' & E2 & D). change (127 =? 126)%N with false. change (127 =? 127)%N with true. cbv iota.
        assert (max <? Z.of_N (from_big (firstn (k - 2) (network 8 n))) = false) as Q1.
        { apply Z.ltb_ge. specialize (X eq_refl). pose proof (from_big_le (firstn (k - 2) (network 8 n)) 0%N 0%N ltac:(lia) (skipn (k - 2) (network 8 n))) as Le.
          rewrite firstn_skipn in Le. fold (from_big (network 8 n)) in Le. rewrite from_big_network in Le by exact F. unfold from_big. lia. }
        rewrite (bindio_ret _ _ _ (from_big (firstn (k - 2) (network 8 n))) r') by (rewrite (bindio_ret _ _ _ _ _ E2); cbv beta; now rewrite Q1).
        destruct (AL (f_op f) (from_big (firstn (k - 2) (network 8 n))) r' D) as (x & out & Q). exists x, r', out. split; [exact Q|]. split; [exact D|]. lia.
  - rewrite W, prefix_split in H by exact S.
    destruct (ws_recv_announce o max _ _ _ _ _ _ _ _ M O F H) as (r1 & H1 & E1).
    assert (ws_recv o max r = after_length o (f_op f) mask n r1) as E1'.
    { rewrite E1. destruct form; try reflexivity. specialize (X eq_refl). now replace (max <? Z.of_N n) with false by lia. }
    destruct (after_length_cut o (f_op f) mask key (f_payload f) r1 tl (k - List.length A) M) as (r' & D & Q).
    { unfold mask, key. destruct (f_key f); [intros _; exact K|discriminate]. } { exact H1. }
    { rewrite W, app_length in L. lia. }
    fold n in Q. destruct (handle_frame (f_op f) n (firstn (k - List.length A - (if mask then 4 else 0)) (f_payload f)) r') as [[x r2] out] eqn:Q2.
    pose proof (handle_keeps _ _ _ _ _ _ _ Q2) as ->. exists x, r', out. split; [congruence|]. split; [exact D|]. split.
    + intros k2. assert (List.length A >= 2)%nat; [|lia]. unfold A, announce. destruct (len_field form n). cbn [List.length]. lia.
    + intros _ O2. rewrite O2 in Q2. rewrite WH, Nat.sub_add_distr. unfold handle_frame in Q2. cbn [N.eqb Pos.eqb] in Q2. injection Q2 as <- _. reflexivity.
Qed.

(** C27 *)
Definition skippable (max : Z) (c : lenform * frame) : Prop :=
  frame_ok (fst c) (snd c) /\ (fst c = L64 -> Z.of_nat (List.length (f_payload (snd c))) <= max) /\
  (f_op (snd c) = 9%N \/ f_op (snd c) = 10%N) /\ (List.length (f_payload (snd c)) < 126)%nat.
Definition message (f : frame) (v : pyval) : Prop :=
  match v with
  | VStr s => f_op f = 1%N /\ utf8_decode (f_payload f) = Some s
  | VBytes b => f_op f = 2%N /\ f_payload f = b
  end.
Definition pongs (cs : list (lenform * frame)) : list bytes :=
  map (fun c => pong_of (snd c)) (filter (fun c => (f_op (snd c) =? 9)%N) cs).

Lemma wire_two form f : (2 <= List.length (wire form f))%nat.
Proof. unfold wire, wire_head, announce. destruct (len_field _ _). cbn [app List.length]. lia. Qed.

Lemma c27_loop o max form f v B tl : 0 <= o_max_body o -> frame_ok form f ->
  (form = L64 -> Z.of_nat (List.length (f_payload f)) <= max) -> message f v -> v <> VBytes [] ->
  forall cs fuel r, Forall (skippable max) cs ->
  holds r (concat (map (fun c => wire (fst c) (snd c)) cs) ++ wire form f ++ B) tl -> (List.length cs < fuel)%nat ->
  exists r', holds r' B tl /\ receive_loop fuel o max r = (WRet v, r', pongs cs).
Proof.
  intros M K X V NE. induction cs as [|[cf c] cs IH]; intros fuel r Fa H L; (destruct fuel as [|fuel]; [easy|]); cbn [receive_loop].
  - cbn [map concat app] in H. destruct (ws_recv_frame o max form f r B tl M K X H) as (r' & H' & ->). exists r'. split; [exact H'|].
    unfold handle_frame. destruct v as [s|b]; cbn [message] in V; destruct V as [O P]; rewrite O; cbn [N.eqb Pos.eqb].
    + rewrite P. reflexivity.
    + rewrite P. destruct b; [easy|]. reflexivity.
  - inversion Fa as [|? ? (K1 & X1 & O1 & L1) Fa']; subst. cbn [map concat fst snd] in *. rewrite <- app_assoc in H. cbn [List.length] in L.
    assert (whole o max cf c r (concat (map (fun c => wire (fst c) (snd c)) cs) ++ wire form f ++ B) tl) as W by (repeat split; try assumption; apply K1).
    destruct O1 as [O1|O1].
    + destruct (c25_ping_l _ _ _ _ _ _ _ W O1 L1) as (r1 & H1 & ->). destruct (IH fuel r1 Fa' H1 ltac:(lia)) as (r' & H' & ->).
      exists r'. split; [exact H'|]. unfold pongs. cbn [filter snd]. rewrite O1. reflexivity.
    + destruct (c25_pong_l _ _ _ _ _ _ _ W O1 L1) as (r1 & H1 & ->). destruct (IH fuel r1 Fa' H1 ltac:(lia)) as (r' & H' & ->).
      exists r'. split; [exact H'|]. unfold pongs. cbn [filter snd]. rewrite O1. reflexivity.
Qed.

Lemma pending_ge r segs tl : upgraded r segs tl -> (List.length (rbuf r ++ concat segs) <= List.length (pending r))%nat.
Proof.
  intros (_ & _ & _ & _ & I & _). unfold pending. rewrite I, map_app, concat_app, map_map.
  rewrite (map_ext _ (fun x => x)) by reflexivity. rewrite map_id, !app_length. lia.
Qed.

Lemma frames_long cs : (2 * List.length cs <= List.length (concat (map (fun c : lenform * frame => wire (fst c) (snd c)) cs)))%nat.
Proof.
  induction cs as [|c cs IH]; [cbn; lia|]. cbn [map concat List.length]. rewrite app_length. pose proof (wire_two (fst c) (snd c)). lia.
Qed.

Lemma c27_main o max cs form f v B r segs tl : 0 <= o_max_body o -> Forall (skippable max) cs -> frame_ok form f ->
  (form = L64 -> Z.of_nat (List.length (f_payload f)) <= max) -> message f v -> v <> VBytes [] ->
  upgraded r segs tl -> rbuf r ++ concat segs = concat (map (fun c => wire (fst c) (snd c)) cs) ++ wire form f ++ B ->
  exists r' segs', receive o max r = (WRet v, r', pongs cs) /\ upgraded r' segs' tl /\ rbuf r' ++ concat segs' = B.
Proof.
  intros M Fa K X V NE U E. pose proof (pending_ge _ _ _ U) as P. rewrite E, !app_length in P. pose proof (frames_long cs) as FL.
  destruct (c27_loop o max form f v B tl M K X V NE cs (S (List.length (pending r))) r Fa) as (r' & (segs' & U' & E') & R).
  { exists segs. now split. } { lia. }
  exists r', segs'. auto.
Qed.

(** The fuel of [receive] always suffices. *)
Definition st (r : reader) (k : nat) (tl : list inp) : Prop := (exists B, holds r B tl /\ (List.length B <= k)%nat) \/ ended r.

Lemma rd_st o n r k tl : 0 <= o_max_body o -> st r k tl ->
  exists x r', rd o n r = (x, r', []) /\ x <> WFuel /\
   (forall d, x = WRet d -> st r' k tl /\ (List.length d = N.to_nat n -> n <> 0%N -> exists B', holds r' B' tl /\ (List.length B' + N.to_nat n <= k)%nat)).
Proof.
  intros M [(B & H & L)|D].
  - destruct (Nat.leb_spec (N.to_nat n) (List.length B)) as [Q|Q].
    + destruct (recv_enough o r B tl (Z.of_N n) M H) as (r' & E & H'); [unfold blen; lia|].
      replace (Z.to_nat (Z.of_N n)) with (N.to_nat n) in * by lia.
      unfold rd. rewrite E. do 2 eexists. split; [reflexivity|]. split; [discriminate|]. intros d Ed.
      assert (List.length (skipn (N.to_nat n) B) + N.to_nat n <= k)%nat as LL by (rewrite skipn_length; lia).
      split; [left; eexists; split; [exact H'|lia]|]. intros _ _. eexists. split; [exact H'|exact LL].
    + destruct (recv_short o r B tl (Z.of_N n) M H) as (r' & E); [unfold blen; lia|]. unfold rd. destruct tl as [|[d| |] tl].
      * destruct E as [E H']. rewrite E. do 2 eexists. split; [reflexivity|]. split; [discriminate|]. intros d Ed. discriminate.
      * rewrite E. do 2 eexists. split; [reflexivity|]. split; [discriminate|]. intros d' Ed. discriminate.
      * destruct E as [E D]. rewrite E. do 2 eexists. split; [reflexivity|]. split; [discriminate|]. intros d Ed. injection Ed as <-.
        split; [now right|]. lia.
      * rewrite E. do 2 eexists. split; [reflexivity|]. split; [discriminate|]. intros d Ed. discriminate.
  - rewrite rd_ended by exact D. do 2 eexists. split; [reflexivity|]. split; [discriminate|]. intros d Ed. injection Ed as <-.
    split; [now right|]. cbn [List.length]. lia.
Qed.

(** A computation that keeps the reader in order. *)
Definition safe {A} (k : nat) (tl : list inp) (m : io A) : Prop :=
  forall r, st r k tl -> exists x r' out, m r = (x, r', out) /\ x <> WFuel /\ (forall a, x = WRet a -> st r' k tl).
Lemma safe_bind {A B} k tl (m : io A) (f : A -> io B) : safe k tl m -> (forall a, safe k tl (f a)) -> safe k tl (bindio m f).
Proof.
  intros Sm Sf r H. destruct (Sm r H) as (x & r' & out & E & NF & K). unfold bindio. rewrite E. destruct x as [a|e| |].
  - destruct (Sf a r' (K a eq_refl)) as (y & r2 & out2 & -> & NF2 & K2). now exists y, r2, (out ++ out2).
  - do 3 eexists. split; [reflexivity|]. split; discriminate.
  - do 3 eexists. split; [reflexivity|]. split; discriminate.
  - easy.
Qed.
Lemma safe_ret {A} k tl (a : A) : safe k tl (ret a).
Proof. intros r H. do 3 eexists. split; [reflexivity|]. split; [discriminate|]. now intros. Qed.
Lemma safe_fail {A} k tl e : safe k tl (@fail A e).
Proof. intros r H. do 3 eexists. split; [reflexivity|]. split; discriminate. Qed.
Lemma safe_lift {A} k tl (x : res A) : safe k tl (lift x).
Proof. destruct x; [apply safe_ret|apply safe_fail]. Qed.
Lemma safe_rd o k tl n : 0 <= o_max_body o -> safe k tl (rd o n).
Proof. intros M r H. destruct (rd_st o n r k tl M H) as (x & r' & E & NF & K). exists x, r', []. split; [exact E|]. split; [exact NF|]. intros a Ea. now apply (K a). Qed.
Lemma safe_handle k tl op n d : safe k tl (handle_frame op n d).
Proof.
  unfold handle_frame.
  destruct (op =? 1)%N; [destruct (utf8_decode d); [apply safe_ret|apply safe_fail]|].
  destruct (op =? 2)%N; [apply safe_ret|].
  destruct ((op =? 9)%N && _).
  { apply safe_bind; [apply safe_lift|]. intros f. apply safe_bind; [|intros; apply safe_ret].
    intros r H. do 3 eexists. split; [reflexivity|]. split; [discriminate|]. now intros. }
  destruct ((op =? 10)%N && _); [apply safe_ret|]. destruct (op =? 8)%N; apply safe_fail.
Qed.

Lemma ws_recv_st o max k tl r : 0 <= o_max_body o -> st r k tl ->
  exists x r' out, ws_recv o max r = (x, r', out) /\ x <> WFuel /\ (forall a, x = WRet a -> (2 <= k)%nat /\ st r' (k - 2) tl).
Proof.
  intros M H. destruct (rd_st o 2 r k tl M H) as (x & r1 & E & NF & K). unfold ws_recv. destruct x as [two|e| |]; [| | |easy].
  2: rewrite (bindio_raise _ _ _ _ _ _ E); do 3 eexists; (split; [reflexivity|]); split; discriminate.
  2: unfold bindio at 1; rewrite E; do 3 eexists; (split; [reflexivity|]); split; discriminate.
  rewrite (bindio_ret _ _ _ _ _ E).
  destruct two as [|a [|b [|c two]]].
  1, 2, 4: do 3 eexists; (split; [reflexivity|]); split; discriminate.
  destruct (K _ eq_refl) as (_ & K2). destruct (K2 eq_refl ltac:(discriminate)) as (B' & H' & L). cbv beta iota zeta.
  match goal with |- exists x r' out, ?m r1 = _ /\ _ => set (mm := m) end.
  assert (safe (k - 2) tl mm) as S.
  { subst mm. apply safe_bind.
    - destruct (_ =? 126)%N; [apply safe_bind; [now apply safe_rd|intros; apply safe_ret]|]. destruct (_ =? 127)%N; [|apply safe_ret].
      apply safe_bind; [now apply safe_rd|]. intros l. destruct (_ <? _); [apply safe_fail|apply safe_ret].
    - intros n. apply safe_bind; [|intros; apply safe_handle]. destruct (negb _); [|now apply safe_rd].
      apply safe_bind; [now apply safe_rd|]. intros key. apply safe_bind; [now apply safe_rd|]. intros p. apply safe_lift. }
  destruct (S r1) as (x & r' & out & -> & NF2 & K3).
  { left. exists B'. split; [exact H'|lia]. }
  do 3 eexists. split; [reflexivity|]. split; [exact NF2|]. intros v Ev. split; [lia|]. now apply (K3 v).
Qed.

Lemma receive_fuel o max tl : 0 <= o_max_body o -> forall fuel k r, st r k tl -> (k < fuel)%nat ->
  forall x r' out, receive_loop fuel o max r = (x, r', out) -> x <> WFuel.
Proof.
  intros M. induction fuel as [|f IH]; intros k r H L x r' out; [easy|]. cbn [receive_loop].
  destruct (ws_recv_st o max k tl r M H) as (y & r1 & out1 & -> & NF & K). destruct y as [v|e| |]; [| | |easy].
  - destruct (K v eq_refl) as (K2 & K3). destruct v as [s|[|c b]]; [intros E; injection E as <- <- <-; discriminate| |intros E; injection E as <- <- <-; discriminate].
    destruct (receive_loop f o max r1) as [[y r2] out2] eqn:R. intros E. injection E as <- <- <-.
    apply (IH (k - 2)%nat r1 K3 ltac:(lia) _ _ _ R).
  - destruct e; intros E; injection E as <- <- <-; discriminate.
  - intros E; injection E as <- <- <-; discriminate.
Qed.

Lemma c27_fuel o max r segs tl x r' out : 0 <= o_max_body o -> upgraded r segs tl -> receive o max r = (x, r', out) -> x <> WFuel.
Proof.
  intros M U. apply (receive_fuel o max tl M _ (List.length (rbuf r ++ concat segs))).
  - left. eexists. split; [exists segs; split; [exact U|reflexivity]|lia].
  - pose proof (pending_ge _ _ _ U). lia.
Qed.

(** While part of a frame is missing and the connection is open, recv waits. *)
Lemma rd_waits o r B n : 0 <= o_max_body o -> holds r B [] -> (List.length B < N.to_nat n)%nat -> exists r', rd o n r = (WBlock, r', []).
Proof.
  intros M H L. destruct (recv_short o r B [] (Z.of_N n) M H) as (r' & E & _); [unfold blen; lia|]. exists r'. unfold rd. now rewrite E.
Qed.
Lemma bindio_block {A B} (m : io A) (f : A -> io B) r r' l : m r = (WBlock, r', l) -> bindio m f r = (WBlock, r', l).
Proof. intros E. unfold bindio. now rewrite E. Qed.

Lemma c23_waits_l o max form f r segs k : 0 <= o_max_body o -> frame_ok form f ->
  (form = L64 -> Z.of_nat (List.length (f_payload f)) <= max) -> (k < List.length (wire form f))%nat ->
  upgraded r segs [] -> rbuf r ++ concat segs = firstn k (wire form f) ->
  exists r', ws_recv o max r = (WBlock, r', []).
Proof.
  intros M (O & F & K) X L U E. set (n := N.of_nat (List.length (f_payload f))) in *.
  set (mask := match f_key f with Some _ => true | None => false end).
  set (key := match f_key f with Some k => k | None => [] end).
  assert (holds r (firstn k (wire form f)) []) as H by (exists segs; now split).
  assert (wire form f = announce form (f_fin f) (f_op f) mask n ++ (if mask then key ++ masked key (f_payload f) else f_payload f)) as W.
  { unfold wire, wire_head, wire_payload, mask, key. rewrite <- app_assoc. destruct (f_key f); reflexivity. }
  assert (mask = true -> List.length key = 4%nat) as KL by (unfold mask, key; destruct (f_key f); [intros _; exact K|discriminate]).
  set (A := announce form (f_fin f) (f_op f) mask n) in *.
  destruct (Nat.ltb_spec k (List.length A)) as [S|S].
  - assert (exists l7 ext, len_field form n = (l7, ext) /\ (l7 < 128)%N) as (l7 & ext & El & L7b).
    { destruct form; cbn [len_field fits] in *; eexists _, _; (split; [reflexivity|]); lia. }
    assert (A = [ascii_of_N (flag (f_fin f) + f_op f); ascii_of_N (flag mask + l7)] ++ ext) as EA by (unfold A, announce; now rewrite El).
    rewrite W, firstn_app in H. replace (k - List.length A)%nat with 0%nat in H by lia. cbn [firstn] in H. rewrite app_nil_r in H.
    destruct (Nat.ltb_spec k 2) as [S2|S2].
    + destruct (rd_waits o r _ 2 M H) as (r' & E2); [rewrite firstn_length; lia|]. exists r'. unfold ws_recv. now rewrite (bindio_block _ _ _ _ _ E2).
    + rewrite EA in H. rewrite prefix_split in H by exact S2. cbn [List.length] in H.
      destruct (rd_enough o r _ _ _ 2 M H eq_refl) as (r1 & E1 & H1).
      assert (forall m, (List.length ext = N.to_nat m) -> exists r', rd o m r1 = (WBlock, r', [])) as RS.
      { intros m Hm. apply (rd_waits o r1 _ m M H1). rewrite firstn_length. rewrite EA, app_length in S. cbn [List.length] in S. lia. }
      unfold ws_recv. rewrite (bindio_ret _ _ _ _ _ E1). cbv beta iota zeta. rewrite byte0 by exact O. destruct (byte1 mask l7 L7b) as [-> ->].
      destruct form; cbn [len_field fits] in El, F; pose proof (f_equal fst El) as El1; pose proof (f_equal snd El) as El2; cbn [fst snd] in El1, El2; subst l7 ext.
      * exfalso. rewrite EA in S. cbn [app List.length] in S. lia.
      * destruct (RS 2%N eq_refl) as (r' & E2). change (126 =? 126)%N with true. cbv iota. exists r'. apply bindio_block, bindio_block, E2.
      * destruct (RS 8%N eq_refl) as (r' & E2). change (127 =? 126)%N with false. change (127 =? 127)%N with true. cbv iota. exists r'. apply bindio_block, bindio_block, E2.
  - rewrite W, prefix_split in H by exact S.
    destruct (ws_recv_announce o max _ _ _ _ _ _ _ _ M O F H) as (r1 & H1 & E1).
    assert (ws_recv o max r = after_length o (f_op f) mask n r1) as E1'.
    { rewrite E1. destruct form; try reflexivity. specialize (X eq_refl). now replace (max <? Z.of_N n) with false by lia. }
    rewrite E1'. unfold after_length. rewrite W, app_length in L. destruct mask.
    + specialize (KL eq_refl). rewrite app_length, KL in L. change (masked key (f_payload f)) with (masked_at 0 key (f_payload f)) in *. rewrite masked_at_length in L.
      destruct (Nat.ltb_spec (k - List.length A) 4) as [S4|S4].
      * destruct (rd_waits o r1 _ 4 M H1) as (r' & E2); [rewrite firstn_length; lia|]. exists r'. apply bindio_block, bindio_block, E2.
      * rewrite prefix_split in H1 by lia. destruct (rd_enough o r1 key _ _ 4 M H1 KL) as (r2 & E2 & H2).
        destruct (rd_waits o r2 _ n M H2) as (r' & E3); [rewrite firstn_length; lia|]. exists r'. apply bindio_block. rewrite (bindio_ret _ _ _ _ _ E2). apply bindio_block, E3.
    + destruct (rd_waits o r1 _ n M H1) as (r' & E2); [rewrite firstn_length; lia|]. exists r'. apply bindio_block, E2.
Qed.

Lemma c25_all o max form f r B tl : whole o max form f r B tl ->
  exists r', left r' B tl /\
  let n := List.length (f_payload f) in
  (f_op f = 9%N -> (n < 126)%nat -> ws_recv o max r = (WRet (VBytes []), r', [pong_of f])) /\
  (f_op f = 10%N -> (n < 126)%nat -> ws_recv o max r = (WRet (VBytes []), r', [])) /\
  (f_op f = 8%N -> f_payload f = [] -> ws_recv o max r = (WRaise (WSClientClosed 1005), r', [])) /\
  (forall a b p, f_op f = 8%N -> f_payload f = a :: b :: p ->
     ws_recv o max r = (WRaise (WSClientClosed (256 * Z.of_N (N_of_ascii a) + Z.of_N (N_of_ascii b))), r', [])) /\
  (~ In (f_op f) [1; 2; 8; 9; 10]%N -> ws_recv o max r = (WRaise (WSServerClosed 1008), r', [])) /\
  (In (f_op f) [9; 10]%N -> (126 <= n)%nat -> ws_recv o max r = (WRaise (WSServerClosed 1008), r', [])).
Proof.
  intros W. destruct (whole_frame _ _ _ _ _ _ _ W) as (r' & H & E). exists r'. split; [exact H|]. cbv zeta.
  assert (forall x r2 out, ws_recv o max r = (x, r2, out) -> ws_recv o max r = (x, r', out)) as Same.
  { intros x r2 out E2. rewrite E2. rewrite E in E2. now rewrite (handle_keeps _ _ _ _ _ _ _ E2). }
  repeat split.
  - intros O L. destruct (c25_ping_l _ _ _ _ _ _ _ W O L) as (r2 & _ & E2). exact (Same _ _ _ E2).
  - intros O L. destruct (c25_pong_l _ _ _ _ _ _ _ W O L) as (r2 & _ & E2). exact (Same _ _ _ E2).
  - intros O P. destruct (c25_close_l _ _ _ _ _ _ _ W O) as (r2 & _ & E2). rewrite P in E2. exact (Same _ _ _ E2).
  - intros a b p O P. destruct (c25_close_l _ _ _ _ _ _ _ W O) as (r2 & _ & E2). rewrite P in E2. exact (Same _ _ _ E2).
  - intros O. destruct (c25_other_l _ _ _ _ _ _ _ W) as (r2 & _ & E2); [cbn [In] in *; lia|cbn [In] in *; lia|]. exact (Same _ _ _ E2).
  - intros O L. destruct (c25_other_l _ _ _ _ _ _ _ W) as (r2 & _ & E2); [cbn [In] in *; lia|now intros|]. exact (Same _ _ _ E2).
Qed.

Lemma c26_partial_l o max form f r segs tl k :
  0 <= o_max_body o -> frame_ok form f -> (form = L64 -> Z.of_nat (List.length (f_payload f)) <= max) ->
  (k < List.length (wire form f))%nat -> upgraded r segs (End :: tl) -> rbuf r ++ concat segs = firstn k (wire form f) ->
  exists x r' out, ws_recv o max r = (x, r', out) /\
    ((k < 2)%nat -> x = WRaise (WSClientClosed 1005)) /\
    ws_recv o max r' = (WRaise (WSClientClosed 1005), r', []).
Proof.
  intros M F X L U E. destruct (c26_ended o max form f r segs tl k M F X L U E) as (x & r' & out & Q & D & Q2 & _).
  exists x, r', out. split; [exact Q|]. split; [exact Q2|]. now apply ws_recv_ended.
Qed.

Lemma c26_returns o max form f r segs tl k :
  0 <= o_max_body o -> frame_ok form f -> (form = L64 -> Z.of_nat (List.length (f_payload f)) <= max) ->
  f_op f = 2%N -> (List.length (wire_head form f) <= k < List.length (wire form f))%nat ->
  upgraded r segs (End :: tl) -> rbuf r ++ concat segs = firstn k (wire form f) ->
  exists r' out, ws_recv o max r = (WRet (VBytes (firstn (k - List.length (wire_head form f)) (f_payload f))), r', out).
Proof.
  intros M F X O L U E. destruct (c26_ended o max form f r segs tl k M F X (proj2 L) U E) as (x & r' & out & Q & D & _ & Q3).
  exists r', out. rewrite Q. now rewrite (Q3 (proj1 L) O).
Qed.
