(** Byte ranges (RFC 9110, 14), independent of the model. *)
From Verif Require Import PyBytes PyInt.
Local Open Scope Z_scope.

(** A range-spec with its numbers in plain decimal. *)
Inductive rspec := Between (a b : N) | From (a : N) | Last (n : N).
Definition dec (n : N) : bytes := fmt_d (Z.of_N n).
Definition spec_text (r : rspec) : bytes :=
  match r with
  | Between a b => dec a ++ bs "-" ++ dec b
  | From a => dec a ++ bs "-"
  | Last n => bs "-" ++ dec n
  end.
Definition header_text (rs : list rspec) : bytes := bs "bytes=" ++ join (bs ",") (map spec_text rs).

(** First and last position it selects in a file of [size] bytes, when it lies in the file. *)
Definition resolve (size : Z) (r : rspec) : option (Z * Z) :=
  match r with
  | Between a b => if (a <=? b)%N && (Z.of_N b <? size) then Some (Z.of_N a, Z.of_N b) else None
  | From a => if Z.of_N a <? size then Some (Z.of_N a, size - 1) else None
  | Last n => if (0 <? n)%N && (Z.of_N n <=? size) then Some (size - Z.of_N n, size - 1) else None
  end.

(** A range inside the file. *)
Definition in_bounds (size : Z) (r : Z * Z) : Prop := 0 <= fst r <= snd r /\ snd r < size.

(** The bytes at positions [first] to [last] of the file. *)
Definition positions (file : bytes) (first last : Z) : bytes :=
  firstn (Z.to_nat (last - first + 1)) (skipn (Z.to_nat first) file).

Definition range_line (first last size : Z) : bytes :=
  bs "Content-Range: bytes " ++ fmt_d first ++ bs "-" ++ fmt_d last ++ bs "/" ++ fmt_d size.
(** multipart/byteranges *)
Definition range_part (boundary ctype file : bytes) (r : Z * Z) : bytes :=
  bs "--" ++ boundary ++ CRLF ++ bs "Content-Type: " ++ ctype ++ CRLF
  ++ range_line (fst r) (snd r) (blen file) ++ CRLF ++ CRLF ++ positions file (fst r) (snd r) ++ CRLF.
Definition byteranges (boundary ctype file : bytes) (rs : list (Z * Z)) : bytes :=
  concat (map (range_part boundary ctype file) rs) ++ bs "--" ++ boundary ++ bs "--" ++ CRLF.

(** The range-specs of a request whose Range headers are [values]. *)
Definition specs (values : list bytes) : list bytes :=
  split_max (bs ",") 100 (replace (bs "bytes=") [] (join (bs ",") values)).
(** A suffix range of length 0, as "-0". *)
Definition suffix0 (v : bytes) : Prop := startswith (bs "-") (strip_ws v) = true /\ py_int (strip_ws v) = Some 0.

(** Numbers that int() accepts. *)
Definition short (n : N) : Prop := (n < 10 ^ 4300)%N.
Definition spec_short (r : rspec) : Prop :=
  match r with Between a b => short a /\ short b | From a => short a | Last n => short n end.
(** The two forms that are not treated as the standard says. *)
Definition plain (r : rspec) : Prop :=
  match r with Between a b => (0 < a -> 0 < b)%N | From _ => True | Last n => (0 < n)%N end.
(** What a whole header asks for: None if one of its range-specs lies outside the file. *)
Fixpoint resolve_all (size : Z) (rs : list rspec) : option (list (Z * Z)) :=
  match rs with
  | [] => Some []
  | r :: rs' => match resolve size r, resolve_all size rs' with Some x, Some l => Some (x :: l) | _, _ => None end
  end.
