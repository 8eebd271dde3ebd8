(** What values contexts should hold, in terms of what was done with them. *)
From Verif Require Import PyBytes M_Context.

(** The contexts made, in order. *)
Definition kinds (l : list op) : list kind := flat_map (fun o => match o with New k => [k] | _ => [] end) l.
(** The context that an operation is about. *)
Definition about (o : op) : option nat := match o with New _ => None | SetAttr i _ _ | SetItem i _ _ | DelAttr i _ => Some i end.
(** A context is made before it is used. *)
Definition made_first (l : list op) : Prop := forall pre o post i, l = pre ++ o :: post -> about o = Some i -> i < List.length (kinds pre).
(** What was done to the entry [n] of context [i]: values stored, as attribute or as item, and deletions. *)
Definition writes (i : nat) (n : bytes) (l : list op) : list (option N) :=
  flat_map (fun o => match o with
    | SetAttr j m v | SetItem j m v => if (j =? i) && beqb m n then [Some v] else []
    | DelAttr j m => if (j =? i) && beqb m n then [None] else []
    | New _ => []
    end) l.
Definition latest (i : nat) (n : bytes) (l : list op) : option N := last (writes i n l) None.
(** Names that are not taken by the class. *)
Definition free (k : kind) (n : bytes) : Prop := ~ In n (props k) /\ ~ In n slots /\ ~ In n methods.
