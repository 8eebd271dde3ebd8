(** Specification of HTTP/1.x message heads, independent of the parser model. *)
From Verif Require Import PyBytes.

(** A header field as sent: name, value. *)
Definition field := (bytes * bytes)%type.

(** The bytes of one field line, and of a whole head followed by a body. *)
Definition field_bytes (f : field) : bytes := fst f ++ bs ": " ++ snd f.
Definition lines_bytes (lines : list bytes) : bytes := concat (map (fun l => l ++ CRLF) lines).
Definition request_line (method url version : bytes) : bytes :=
  method ++ [SP] ++ url ++ [SP] ++ bs "HTTP/" ++ version.
Definition head_bytes (method url version : bytes) (fields : list field) : bytes :=
  lines_bytes (request_line method url version :: map field_bytes fields) ++ CRLF.

(** Names that clash with the parser's own entries for the first line. *)
Definition reserved : list bytes :=
  [bs "_method"; bs "_url"; bs "_version"; bs "_line"; bs "_status"; bs "_message"].

Definition good_name (n : bytes) : Prop :=
  n <> [] /\ ~ In ":"%char n /\ ~ In CR n /\ ~ In LF n /\ last n LF <> SP.
Definition good_value (v : bytes) : Prop := ~ In LF v.
Definition good_field (f : field) : Prop := good_name (fst f) /\ good_value (snd f).

(** All values sent for a (lower-case) name, in order. *)
Definition values (name : bytes) (fields : list field) : list bytes :=
  map snd (filter (fun f => beqb (lower (fst f)) name) fields).

(** ** The grammar that [is_valid_request] should decide (C03). *)

(** A line of the form "method SP target SP HTTP/version": the method has no space
    and the version is what follows the last "HTTP/". *)
Definition is_request_line (line method target version : bytes) : Prop :=
  line = request_line method target version /\ ~ In SP method /\
  contains (bs "HTTP/") version = false.

(** A field line: its first colon after the first byte exists and is not
    preceded by a space; [name] is what precedes it. *)
Definition is_field_line (line name : bytes) : Prop :=
  exists rest, line = name ++ ":"%char :: rest /\ name <> [] /\
               ~ In ":"%char (tl name) /\ last name LF <> SP.

(** Some of the lines is a field with this (lower-case) name. *)
Definition has_field (name : bytes) (lines : list bytes) : Prop :=
  exists l n, In l lines /\ is_field_line l n /\ lower n = name.

(** A request head (blank line included) within the limits, line by line. *)
Definition request_head (max_lines : nat) (max_line_size : Z) (head first : bytes) (rest : list bytes)
    (version : bytes) : Prop :=
  head = lines_bytes (first :: rest) ++ CRLF /\
  (exists method target, is_request_line first method target version) /\
  List.length (first :: rest) <= max_lines /\
  Forall (fun l => (blen l <= max_line_size)%Z /\ ~ In LF l) (first :: rest) /\
  Forall (fun l => exists name, is_field_line l name) rest.

(** Well-formed request head: also has a Host field when the version is 1.1. *)
Definition well_formed_request (max_lines : nat) (max_line_size : Z) (head : bytes) : Prop :=
  exists first rest version, request_head max_lines max_line_size head first rest version /\
    (version = bs "1.1" -> has_field (bs "host") rest).

(** A line of a head: it does not contain CRLF, nor does it with the CRLF that ends it. *)
Definition crlf_line (l : bytes) : Prop := find CRLF (l ++ CRLF) = Some (List.length l).

(** What a caller may pass as header_size / header_max_size when the first blank line
    starts (with its preceding CRLF) at offset [p]: the size already found, or -1 and a
    limit that does not cut the blank line off. *)
Definition size_args (hs hmax : Z) (p : nat) : Prop :=
  (hs = -1 /\ Z.of_nat p + 4 <= hmax)%Z \/ hs = (Z.of_nat p + 2)%Z.

(** ** Connection header (C09) *)

(** A header value cut at its commas. *)
Definition comma_parts (v : bytes) (parts : list bytes) : Prop :=
  parts <> [] /\ Forall (fun p => ~ In ","%char p) parts /\ join (bs ",") parts = v.

Definition delete_spaces (t : bytes) : bytes := filter (fun c => negb (Ascii.eqb SP c)) t.

(** Optional whitespace of RFC 9110: spaces and tabs at both ends. *)
Definition TAB : byte := ascii_of_nat 9.
Definition is_ows (c : byte) : bool := Ascii.eqb c SP || Ascii.eqb c TAB.
Definition trim_ows (t : bytes) : bytes := strip_by is_ows t.
