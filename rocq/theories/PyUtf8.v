(** Python's UTF-8 codec ([str.encode('utf-8')], [bytes.decode('utf-8')], errors='strict').
    A [str] is its list of code points. *)
From Verif Require Import PyBytes.
From Coq Require Import ZifyN ZifyBool ZifyNat.
Local Open Scope N_scope.

Definition pystr := list N.

(** A code point that UTF-8 can carry: below 0x110000 and not a surrogate. *)
Definition scalar (n : N) : bool := (n <? 0x110000) && negb ((0xD800 <=? n) && (n <? 0xE000)).

Definition utf8_char (n : N) : bytes :=
  map ascii_of_N
    (if n <? 0x80 then [n]
     else if n <? 0x800 then [0xC0 + n / 64; 0x80 + n mod 64]
     else if n <? 0x10000 then [0xE0 + n / 4096; 0x80 + n / 64 mod 64; 0x80 + n mod 64]
     else [0xF0 + n / 262144; 0x80 + n / 4096 mod 64; 0x80 + n / 64 mod 64; 0x80 + n mod 64]).

(** [None] is UnicodeEncodeError. *)
Fixpoint utf8_encode (s : pystr) : option bytes :=
  match s with
  | [] => Some []
  | n :: s' => if scalar n then option_map (app (utf8_char n)) (utf8_encode s') else None
  end.

Definition cont_byte (c : byte) : option N :=
  let n := N_of_ascii c in if (0x80 <=? n) && (n <? 0xC0) then Some (n - 0x80) else None.
(** A sequence of one length is accepted from its smallest code point on. *)
Definition check (lo n : N) : option N := if (lo <=? n) && scalar n then Some n else None.

(** [None] is UnicodeDecodeError. *)
Fixpoint utf8_decode (l : bytes) : option pystr :=
  match l with
  | [] => Some []
  | c0 :: l0 =>
      let n := N_of_ascii c0 in
      if n <? 0x80 then option_map (cons n) (utf8_decode l0)
      else if n <? 0xC0 then None
      else if n <? 0xE0 then
        match l0 with
        | c1 :: l1 =>
            match cont_byte c1 with
            | Some a => match check 0x80 ((n - 0xC0) * 64 + a) with
                        | Some v => option_map (cons v) (utf8_decode l1) | None => None end
            | None => None
            end
        | _ => None
        end
      else if n <? 0xF0 then
        match l0 with
        | c1 :: c2 :: l2 =>
            match cont_byte c1, cont_byte c2 with
            | Some a, Some b => match check 0x800 ((n - 0xE0) * 4096 + a * 64 + b) with
                        | Some v => option_map (cons v) (utf8_decode l2) | None => None end
            | _, _ => None
            end
        | _ => None
        end
      else if n <? 0xF8 then
        match l0 with
        | c1 :: c2 :: c3 :: l3 =>
            match cont_byte c1, cont_byte c2, cont_byte c3 with
            | Some a, Some b, Some c => match check 0x10000 ((n - 0xF0) * 262144 + a * 4096 + b * 64 + c) with
                        | Some v => option_map (cons v) (utf8_decode l3) | None => None end
            | _, _, _ => None
            end
        | _ => None
        end
      else None
  end.

Ltac Zify.zify_post_hook ::= Z.div_mod_to_equations.

Lemma N_ascii n : n < 256 -> N_of_ascii (ascii_of_N n) = n.
Proof. apply N_ascii_embedding. Qed.

Lemma cont_char n : n < 64 -> cont_byte (ascii_of_N (0x80 + n)) = Some n.
Proof.
  intros H. unfold cont_byte. rewrite N_ascii by lia. replace ((128 <=? 128 + n) && (128 + n <? 192)) with true by lia.
  f_equal. lia.
Qed.

Lemma decode_char n l : scalar n = true -> utf8_decode (utf8_char n ++ l) = option_map (cons n) (utf8_decode l).
Proof.
  intros S. assert (n < 0x110000) as B by (unfold scalar in S; lia). unfold utf8_char.
  destruct (N.ltb_spec n 0x80) as [H1|H1].
  { cbn [map app utf8_decode]. rewrite N_ascii by lia. now replace (n <? 128) with true by lia. }
  destruct (N.ltb_spec n 0x800) as [H2|H2].
  { cbn [map app utf8_decode]. rewrite N_ascii by lia. set (h := n / 64) in *. assert (2 <= h < 32) by (subst h; lia).
    replace (192 + h <? 128) with false by lia. replace (192 + h <? 192) with false by lia. replace (192 + h <? 224) with true by lia.
    rewrite cont_char by lia. unfold check. replace ((192 + h - 192) * 64 + n mod 64) with n by (subst h; lia). rewrite S, (proj2 (N.leb_le 128 n)) by assumption. reflexivity. }
  destruct (N.ltb_spec n 0x10000) as [H3|H3].
  { cbn [map app utf8_decode]. rewrite N_ascii by lia. set (h := n / 4096) in *. assert (h < 16) by (subst h; lia).
    replace (224 + h <? 128) with false by lia. replace (224 + h <? 192) with false by lia. replace (224 + h <? 224) with false by lia. replace (224 + h <? 240) with true by lia.
    rewrite !cont_char by lia. unfold check. replace ((224 + h - 224) * 4096 + n / 64 mod 64 * 64 + n mod 64) with n by (subst h; lia).
    rewrite S, (proj2 (N.leb_le 2048 n)) by assumption. reflexivity. }
  cbn [map app utf8_decode]. rewrite N_ascii by lia. set (h := n / 262144) in *. assert (h < 5) by (subst h; lia).
  replace (240 + h <? 128) with false by lia. replace (240 + h <? 192) with false by lia. replace (240 + h <? 224) with false by lia. replace (240 + h <? 240) with false by lia.
  replace (240 + h <? 248) with true by lia.
  rewrite !cont_char by lia. unfold check. replace ((240 + h - 240) * 262144 + n / 4096 mod 64 * 4096 + n / 64 mod 64 * 64 + n mod 64) with n by (subst h; lia).
  rewrite S, (proj2 (N.leb_le 65536 n)) by assumption. reflexivity.
Qed.

Lemma utf8_roundtrip s : forall b, utf8_encode s = Some b -> utf8_decode b = Some s.
Proof.
  induction s as [|n s IH]; intros b E; cbn [utf8_encode] in E; [injection E as <-; reflexivity|].
  destruct (scalar n) eqn:S; [|discriminate]. destruct (utf8_encode s) as [b'|] eqn:E'; [|discriminate]. injection E as <-.
  rewrite decode_char by exact S. now rewrite (IH b' eq_refl).
Qed.
