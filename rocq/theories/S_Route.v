(** Paths of URLs and of literal routes, independent of the model. *)
From Verif Require Import PyBytes.

Definition slashes (n : nat) : bytes := repeat "/"%char n.
(** A path without the slashes around it. *)
Definition bare (p : bytes) : Prop := ~ In "?"%char p /\ hd " "%char p <> "/"%char /\ last p " "%char <> "/"%char.
(** The URL has this path: slashes before it (at least one) and after it, and a query string or none. *)
Definition has_path (url p : bytes) : Prop :=
  bare p /\ exists a b q, url = slashes (S a) ++ p ++ slashes b ++ q /\ (q = [] \/ exists q', q = "?"%char :: q').
(** A route written as a literal path: slashes around it or none, and no characters that mean something else in
    a regular expression. *)
Definition special : bytes := bs "\^$.|?*+()[{".
Definition literal (w p : bytes) : Prop :=
  bare p /\ (forall c, In c p -> ~ In c special) /\ exists a b, w = slashes a ++ p ++ slashes b.
