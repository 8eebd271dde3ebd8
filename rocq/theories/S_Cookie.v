(** How a user agent reads a Set-Cookie header (RFC 6265, 5.2); independent of the model. *)
From Verif Require Import PyBytes PyUrl.

(** The parts of a text between the characters [x]. *)
Fixpoint parts_at (x : byte) (l : bytes) : bytes * list bytes :=
  match l with
  | [] => ([], [])
  | c :: l' => let '(h, t) := parts_at x l' in if Ascii.eqb c x then ([], h :: t) else (c :: h, t)
  end.
(** The text before the first [x], and the text after it. *)
Fixpoint cut_at (x : byte) (l : bytes) : bytes * option bytes :=
  match l with
  | [] => ([], None)
  | c :: l' => if Ascii.eqb c x then ([], Some l') else let '(h, t) := cut_at x l' in (c :: h, t)
  end.
(** Without the white space at the beginning and at the end. *)
Definition wsp (c : byte) : bool := Ascii.eqb c SP || Ascii.eqb c "009".
Fixpoint trim_left (l : bytes) : bytes := match l with c :: l' => if wsp c then trim_left l' else l | [] => [] end.
Definition trim (l : bytes) : bytes := rev (trim_left (rev (trim_left l))).
Record cookie := mkCookie { ck_name : bytes; ck_value : bytes; ck_attrs : list (bytes * bytes) }.
Definition attribute (l : bytes) : bytes * bytes :=
  let '(n, v) := cut_at "=" l in (trim n, match v with Some v => trim v | None => [] end).
(** The cookie, or None if the header is ignored. *)
Definition user_agent (l : bytes) : option cookie :=
  let '(first, rest) := parts_at ";" l in
  match cut_at "=" first with
  | (n, Some v) => match trim n with [] => None | n' => Some (mkCookie n' (trim v) (map attribute rest)) end
  | (_, None) => None
  end.
(** A name made of visible ASCII characters other than % + = ; and &. *)
Definition cookie_name (n : bytes) : Prop :=
  n <> [] /\ Forall (fun c => 33 <= N_of_ascii c <= 126)%N n /\ (forall c, In c n -> ~ In c (bs "%+=;&")).
(** Attributes that are given: with a value if it is not empty, and without one. *)
Definition opt_attr (n v : bytes) : list (bytes * bytes) := match v with [] => [] | _ => [(n, quote v)] end.
Definition opt_flag (n : bytes) (b : bool) : list (bytes * bytes) := if b then [(n, [])] else [].
