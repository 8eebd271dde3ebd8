(** urllib.parse.quote (CPython 3.11), as used by tremolo.
    Text is given by its UTF-8 bytes. *)
From Verif Require Import PyBytes PyInt PyExn.
Local Open Scope N_scope.

(** _ALWAYS_SAFE plus the default safe='/' of quote. *)
Definition url_safe (c : byte) : bool :=
  let n := N_of_ascii c in
  ((65 <=? n) && (n <=? 90)) || ((97 <=? n) && (n <=? 122)) || ((48 <=? n) && (n <=? 57))
  || memb c (bs "_.-~/").
Definition percent (c : byte) : bytes :=
  let n := N_of_ascii c in ["%"%char; digit_char (n / 16); digit_char (n mod 16)].
(** quote(text) / quote_from_bytes(data): '%' and two upper-case hexadecimal digits. *)
Definition quote (s : bytes) : bytes := flat_map (fun c => if url_safe c then [c] else percent c) s.
