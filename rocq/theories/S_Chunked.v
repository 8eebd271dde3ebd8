(** Chunked transfer coding (RFC 9112, 7.1), independent of the model. *)
From Verif Require Import PyBytes.

Definition hex_digit (c : byte) : option N :=
  let n := N_of_ascii c in
  (if (48 <=? n) && (n <=? 57) then Some (n - 48)
   else if (97 <=? n) && (n <=? 102) then Some (n - 87)
   else if (65 <=? n) && (n <=? 70) then Some (n - 55)
   else None)%N.

(** Value of a string of hexadecimal digits (either case, leading zeros allowed). *)
Fixpoint hex_value (acc : N) (s : bytes) : option N :=
  match s with
  | [] => Some acc
  | c :: s' => match hex_digit c with
               | Some d => hex_value (16 * acc + d) s'
               | None => None
               end
  end.

(** A chunk as sent: size digits, extension (empty or starting with ';'), data. *)
Record chunk := mkChunk { c_size : bytes; c_ext : bytes; c_data : bytes }.

Definition size_line (digits ext : bytes) : bytes := digits ++ ext.
Definition good_size (digits ext : bytes) (n : N) : Prop :=
  digits <> [] /\ hex_value 0 digits = Some n /\
  (ext = [] \/ hd SP ext = ";"%char) /\ ~ In LF ext.
Definition good_chunk (c : chunk) : Prop :=
  c_data c <> [] /\ good_size (c_size c) (c_ext c) (N.of_nat (List.length (c_data c))).

Definition chunk_bytes (c : chunk) : bytes :=
  size_line (c_size c) (c_ext c) ++ CRLF ++ c_data c ++ CRLF.
Definition chunks_bytes (cs : list chunk) : bytes := concat (map chunk_bytes cs).
Definition chunks_data (cs : list chunk) : bytes := concat (map c_data cs).

(** A complete chunked body: chunks, the zero-size line, then trailer fields and blank line. *)
Definition chunked_body (cs : list chunk) (zero ext trailer : bytes) : bytes :=
  chunks_bytes cs ++ size_line zero ext ++ CRLF ++ trailer.

(** Offsets at which a network boundary would fall right after the data of a chunk or
    inside the CRLF that follows it. *)
Definition after_data (cs : list chunk) (n : nat) : Prop :=
  exists cs1 c cs2, cs = cs1 ++ c :: cs2 /\
    (n = List.length (chunks_bytes cs1 ++ size_line (c_size c) (c_ext c) ++ CRLF ++ c_data c) \/
     n = S (List.length (chunks_bytes cs1 ++ size_line (c_size c) (c_ext c) ++ CRLF ++ c_data c))).

(** Offsets where one segment ends and another begins. *)
Definition boundary (segs : list bytes) (n : nat) : Prop :=
  exists k, k <= List.length segs /\ n = List.length (concat (firstn k segs)).

(** A byte string read as chunks, leniently: [size line n] gives the meaning of a size
    line; the terminator after the data is two arbitrary bytes, or shorter where [cut] allows. *)
Inductive decodes (size : bytes -> Z -> Prop) (cut : nat -> Prop) : nat -> bytes -> bytes -> Prop :=
| dec_end off line : find CRLF (line ++ CRLF) = Some (List.length line) -> size line 0%Z ->
    decodes size cut off (line ++ CRLF) []
| dec_chunk off line data term rest D :
    find CRLF (line ++ CRLF) = Some (List.length line) ->
    size line (blen data) -> data <> [] ->
    List.length term = 2 \/
      (List.length term < 2 /\ cut (off + List.length (line ++ CRLF ++ data ++ term))) ->
    decodes size cut (off + List.length (line ++ CRLF ++ data ++ term)) rest D ->
    decodes size cut off (line ++ CRLF ++ data ++ term ++ rest) (data ++ D).

(** The size lines the decoder takes: what precedes the first ';' is an optional underscore,
    groups of hexadecimal digits separated by single underscores, and whitespace. *)
Definition lenient_line (line : bytes) (n : N) : Prop :=
  exists us groups ws rest,
    line = us ++ join (bs "_") groups ++ ws ++ rest /\
    (us = [] \/ us = bs "_") /\ groups <> [] /\ Forall (fun g => g <> []) groups /\
    hex_value 0 (concat groups) = Some n /\
    Forall (fun c => is_space c = true) ws /\ (rest = [] \/ hd SP rest = ";"%char).
