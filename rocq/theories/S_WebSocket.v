(** RFC 6455, section 5.2: what a frame looks like on the wire. *)
From Verif Require Import PyBytes PyUtf8.
Local Open Scope N_scope.

Record frame := mkFrame {
  f_fin : bool;
  f_op : N;
  f_key : option bytes;       (* masking key *)
  f_payload : bytes           (* application data, unmasked *)
}.

(** The three ways to write a payload length. *)
Inductive lenform := L7 | L16 | L64.

(** [k] bytes in network order. *)
Fixpoint network (k : nat) (n : N) : bytes :=
  match k with
  | O => []
  | S k' => ascii_of_N (n / 256 ^ N.of_nat k' mod 256) :: network k' n
  end.

(** 7-bit field and extension. *)
Definition len_field (form : lenform) (n : N) : N * bytes :=
  match form with
  | L7 => (n, [])
  | L16 => (126, network 2 n)
  | L64 => (127, network 8 n)
  end.
Definition fits (form : lenform) (n : N) : Prop :=
  match form with L7 => n < 126 | L16 => n < 65536 | L64 => n < 2 ^ 64 end.
(** The shortest form that fits. *)
Definition shortest (n : N) : lenform := if n <=? 125 then L7 else if n <=? 65535 then L16 else L64.

Definition xor_byte (a b : ascii) : ascii :=
  match a, b with
  | Ascii a0 a1 a2 a3 a4 a5 a6 a7, Ascii b0 b1 b2 b3 b4 b5 b6 b7 =>
      Ascii (xorb a0 b0) (xorb a1 b1) (xorb a2 b2) (xorb a3 b3)
            (xorb a4 b4) (xorb a5 b5) (xorb a6 b6) (xorb a7 b7)
  end.
(** transformed-octet-i = original-octet-i XOR masking-key-octet-(i mod 4) *)
Definition masked (key p : bytes) : bytes :=
  map (fun ic => xor_byte (snd ic) (nth (Nat.modulo (fst ic) 4) key Ascii.zero)) (combine (seq 0 (List.length p)) p).

Definition flag (b : bool) : N := if b then 128 else 0.

(** The start of a frame: FIN and opcode, mask bit, payload length. *)
Definition announce (form : lenform) (fin : bool) (op : N) (mask : bool) (n : N) : bytes :=
  let '(l7, ext) := len_field form n in
  ascii_of_N (flag fin + op) :: ascii_of_N (flag mask + l7) :: ext.
(** The bytes of a frame before its payload. *)
Definition wire_head (form : lenform) (f : frame) : bytes :=
  announce form (f_fin f) (f_op f) (match f_key f with Some _ => true | None => false end) (N.of_nat (List.length (f_payload f)))
  ++ match f_key f with Some k => k | None => [] end.
Definition wire_payload (f : frame) : bytes :=
  match f_key f with Some k => masked k (f_payload f) | None => f_payload f end.
Definition wire (form : lenform) (f : frame) : bytes := wire_head form f ++ wire_payload f.

(** A frame that can be written in the given form. *)
Definition frame_ok (form : lenform) (f : frame) : Prop :=
  f_op f < 16 /\ fits form (N.of_nat (List.length (f_payload f))) /\
  match f_key f with Some k => List.length k = 4%nat | None => True end.
