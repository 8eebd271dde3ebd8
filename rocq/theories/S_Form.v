(** Percent-encoded fields, and fields grouped by name; independent of the model. *)
From Verif Require Import PyBytes PyInt PyUtf8.
Local Open Scope N_scope.

(** Hexadecimal digits. *)
Definition is_hex (c : byte) (v : N) : Prop :=
  let n := N_of_ascii c in
  (48 <= n <= 57 /\ v = n - 48) \/ (65 <= n <= 70 /\ v = n - 55) \/ (97 <= n <= 102 /\ v = n - 87).
(** How a byte may be written: as it is, if it is ASCII and none of % + and the [stop]
    characters; a space as +; any byte as % and two hexadecimal digits. *)
Definition enc_byte (stop : bytes) (c : byte) (e : bytes) : Prop :=
  (e = [c] /\ N_of_ascii c < 128 /\ ~ In c (bs "%+" ++ stop)) \/
  (c = SP /\ e = bs "+") \/
  (exists a b x y, e = ["%"%char; a; b] /\ is_hex a x /\ is_hex b y /\ N_of_ascii c = 16 * x + y).
(** [e] is the text [t] in UTF-8, written like that. *)
Definition encodes (stop : bytes) (t : pystr) (e : bytes) : Prop :=
  exists b parts, utf8_encode t = Some b /\ Forall2 (enc_byte stop) b parts /\ e = concat parts.
Definition field_text (f : bytes * bytes) : bytes := fst f ++ bs "=" ++ snd f.
(** The fields [fs] are written forms of the pairs. *)
Definition written (stop : bytes) (fs : list (bytes * bytes)) (pairs : list (pystr * pystr)) : Prop :=
  Forall2 (fun f p => encodes (bs "=" ++ stop) (fst p) (fst f) /\ encodes stop (snd p) (snd f)) fs pairs.

Definition same (a b : pystr) : bool := if list_eq_dec N.eq_dec a b then true else false.
Definition nonblank (pairs : list (pystr * pystr)) : list (pystr * pystr) :=
  filter (fun p => match snd p with [] => false | _ => true end) pairs.
Definition values (n : pystr) (pairs : list (pystr * pystr)) : list pystr := map snd (filter (fun p => same n (fst p)) pairs).
(** The different names in the order of their first appearance. *)
Fixpoint firsts (seen : list pystr) (l : list pystr) : list pystr :=
  match l with [] => [] | n :: l' => if existsb (same n) seen then firsts seen l' else n :: firsts (n :: seen) l' end.
(** [d] has the values of each name. *)
Definition groups (pairs : list (pystr * pystr)) (d : list (pystr * list pystr)) : Prop :=
  d = map (fun n => (n, values n pairs)) (firsts [] (map fst pairs)).
(** A Cookie header (RFC 6265 4.2.1). *)
Definition cookie_header (fs : list (bytes * bytes)) : bytes := join (bs "; ") (map field_text fs).
