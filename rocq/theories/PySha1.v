(** hashlib.sha1 (FIPS 180-4) and base64.b64encode (RFC 4648), which websocket.py:27-30 calls. They are library functions: defined here from
    their standards and tested against published vectors below, not taken from CPython's source. *)
From Verif Require Import PyBytes.
Local Open Scope N_scope.

(** ** SHA-1. Words are numbers below 2^32. *)
Definition w32 (n : N) : N := n mod 2 ^ 32.
Definition rotl (k n : N) : N := N.lor (w32 (N.shiftl n k)) (N.shiftr n (32 - k)).
Definition wnot (n : N) : N := N.lxor n 0xFFFFFFFF.

(** Big-endian bytes of a number, and back. *)
Fixpoint be_bytes (k : nat) (n : N) (acc : bytes) : bytes :=
  match k with
  | O => acc
  | S k' => be_bytes k' (n / 256) (ascii_of_N (n mod 256) :: acc)
  end.
Definition be_word (l : bytes) : N := fold_left (fun a c => a * 256 + N_of_ascii c) l 0.

(** The message, a 1 bit, zeros, and the length in bits: whole blocks of 64 bytes. *)
Definition sha1_pad (m : bytes) : bytes :=
  m ++ ascii_of_N 128 :: repeat (ascii_of_N 0) (Nat.modulo (119 - Nat.modulo (List.length m) 64) 64)
    ++ be_bytes 8 (8 * N.of_nat (List.length m)) [].

Fixpoint words (n : nat) (b : bytes) : list N :=
  match n with O => [] | S n' => be_word (firstn 4 b) :: words n' (skipn 4 b) end.
(** The message schedule, the latest word first. *)
Fixpoint schedule (n : nat) (ws : list N) : list N :=
  match n with
  | O => ws
  | S n' => schedule n' (rotl 1 (N.lxor (N.lxor (nth 2 ws 0) (nth 7 ws 0)) (N.lxor (nth 13 ws 0) (nth 15 ws 0))) :: ws)
  end.

Record sha := mkSha { ha : N; hb : N; hc : N; hd : N; he : N }.
Definition sha_f (t : N) (b c d : N) : N * N :=
  if t <? 20 then (N.lor (N.land b c) (N.land (wnot b) d), 0x5A827999)
  else if t <? 40 then (N.lxor (N.lxor b c) d, 0x6ED9EBA1)
  else if t <? 60 then (N.lor (N.lor (N.land b c) (N.land b d)) (N.land c d), 0x8F1BBCDC)
  else (N.lxor (N.lxor b c) d, 0xCA62C1D6).
Fixpoint rounds (t : N) (ws : list N) (h : sha) : sha :=
  match ws with
  | [] => h
  | w :: ws' =>
      let '(f, k) := sha_f t (hb h) (hc h) (hd h) in
      rounds (t + 1) ws' (mkSha (w32 (rotl 5 (ha h) + f + he h + k + w)) (ha h) (rotl 30 (hb h)) (hc h) (hd h))
  end.
Definition sha_add (a b : sha) : sha :=
  mkSha (w32 (ha a + ha b)) (w32 (hb a + hb b)) (w32 (hc a + hc b)) (w32 (hd a + hd b)) (w32 (he a + he b)).
Fixpoint sha_blocks (n : nat) (b : bytes) (h : sha) : sha :=
  match n with
  | O => h
  | S n' => sha_blocks n' (skipn 64 b) (sha_add h (rounds 0 (rev (schedule 64 (rev (words 16 (firstn 64 b))))) h))
  end.
Definition sha1 (m : bytes) : bytes :=
  let p := sha1_pad m in
  let h := sha_blocks (Nat.div (List.length p) 64) p (mkSha 0x67452301 0xEFCDAB89 0x98BADCFE 0x10325476 0xC3D2E1F0) in
  be_bytes 4 (ha h) [] ++ be_bytes 4 (hb h) [] ++ be_bytes 4 (hc h) [] ++ be_bytes 4 (hd h) [] ++ be_bytes 4 (he h) [].

(** ** Base64: three bytes make four letters. *)
Definition b64_alphabet : bytes := bs "ABCDEFGHIJKLMNOPQRSTUVWXYZabcdefghijklmnopqrstuvwxyz0123456789+/".
Definition b64_digit (n : N) : byte := nth (N.to_nat (n mod 64)) b64_alphabet "="%char.
Fixpoint b64encode (l : bytes) : bytes :=
  match l with
  | a :: b :: c :: l' =>
      let n := N_of_ascii a * 65536 + N_of_ascii b * 256 + N_of_ascii c in
      b64_digit (n / 262144) :: b64_digit (n / 4096) :: b64_digit (n / 64) :: b64_digit n :: b64encode l'
  | [a; b] =>
      let n := N_of_ascii a * 1024 + N_of_ascii b * 4 in
      [b64_digit (n / 4096); b64_digit (n / 64); b64_digit n; "="%char]
  | [a] => let n := N_of_ascii a * 16 in [b64_digit (n / 64); b64_digit n; "="%char; "="%char]
  | [] => []
  end.

(** Published vectors: FIPS 180-4 / RFC 3174, RFC 4648 section 10, RFC 6455 section 1.3. *)
Definition hex (l : list N) : bytes := concat (map (fun n => be_bytes 4 n []) l).
Example sha1_abc : sha1 (bs "abc") = hex [0xA9993E36; 0x4706816A; 0xBA3E2571; 0x7850C26C; 0x9CD0D89D].
Proof. vm_compute. reflexivity. Qed.
Example sha1_empty : sha1 [] = hex [0xDA39A3EE; 0x5E6B4B0D; 0x3255BFEF; 0x95601890; 0xAFD80709].
Proof. vm_compute. reflexivity. Qed.
Example sha1_two_blocks : sha1 (bs "abcdbcdecdefdefgefghfghighijhijkijkljklmklmnlmnomnopnopq") =
  hex [0x84983E44; 0x1C3BD26E; 0xBAAE4AA1; 0xF95129E5; 0xE54670F1].
Proof. vm_compute. reflexivity. Qed.
Example b64_vectors : map b64encode [[]; bs "f"; bs "fo"; bs "foo"; bs "foob"; bs "fooba"; bs "foobar"] =
  [[]; bs "Zg=="; bs "Zm8="; bs "Zm9v"; bs "Zm9vYg=="; bs "Zm9vYmE="; bs "Zm9vYmFy"].
Proof. vm_compute. reflexivity. Qed.

(** ** Facts *)
Lemma b64_digit_ok n : In (b64_digit n) b64_alphabet.
Proof.
  unfold b64_digit. apply nth_In. change (List.length b64_alphabet) with (N.to_nat 64).
  assert (n mod 64 < 64) by now apply N.mod_upper_bound. lia.
Qed.
Lemma b64encode_chars l : forall c, In c (b64encode l) -> In c b64_alphabet \/ c = "="%char.
Proof.
  assert (forall n l, (List.length l <= n)%nat -> forall c, In c (b64encode l) -> In c b64_alphabet \/ c = "="%char) as H.
  2:{ exact (H _ l (le_n _)). }
  clear l. induction n as [|n IH]; intros [|a [|b [|c l]]] L x I; cbn [b64encode In] in I; try contradiction;
    cbn [List.length] in L; try lia;
    repeat match type of I with _ \/ _ => destruct I as [<-|I]; [auto using b64_digit_ok|] end; try contradiction.
  apply (IH l); [lia|exact I].
Qed.
Lemma be_bytes_length k : forall n acc, List.length (be_bytes k n acc) = (k + List.length acc)%nat.
Proof. induction k as [|k IH]; intros n acc; cbn [be_bytes]; [reflexivity|]. rewrite IH. cbn [List.length]. lia. Qed.
Lemma sha1_length m : List.length (sha1 m) = 20%nat.
Proof. unfold sha1. rewrite !app_length, !be_bytes_length. reflexivity. Qed.
