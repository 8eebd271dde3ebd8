(** Chains of middlewares and their options, independent of the model. *)
From Verif Require Import PyBytes.

(** Those of a list are called in turn, each with some outcome, up to and including the first that does not pass. The boolean: all passed. *)
Inductive stops_at_first {K O : Type} (pass : O -> Prop) : list K -> list (K * O) -> bool -> Prop :=
| stop_none : stops_at_first pass [] [] true
| stop_next k ks o calls b : pass o -> stops_at_first pass ks calls b -> stops_at_first pass (k :: ks) ((k, o) :: calls) b
| stop_here k ks o : ~ pass o -> stops_at_first pass (k :: ks) [(k, o)] false.

(** The value of a key in the first of the dicts that has it. *)
Fixpoint first_of {V : Type} (k : bytes) (dicts : list (list (bytes * V))) : option V :=
  match dicts with
  | [] => None
  | d :: ds => match dget beqb k d with Some v => Some v | None => first_of k ds end
  end.
