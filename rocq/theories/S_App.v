(** What registrations are good for; independent of the methods of the model. *)
From Verif Require Import PyBytes M_App.

Section S.
Context {V : Type}.
(** A function that Python can make: its parameters have different names and come first among its variables, at most as many defaults as parameters. *)
Definition py_function (f : pyfun V) (params : list bytes) (defaults : list V) : Prop :=
  NoDup params /\ (exists locals, f_vars f = params ++ locals) /\ f_argc f = Z.of_nat (List.length params) /\
  (f_defaults f = Some defaults \/ (f_defaults f = None /\ defaults = [])) /\ List.length defaults <= List.length params.
(** The parameters that have defaults are the last ones. *)
Definition default_of (params : list bytes) (defaults : list V) (name : bytes) (v : V) : Prop :=
  exists i, nth_error defaults i = Some v /\ nth_error params (List.length params - List.length defaults + i) = Some name.
(** The options have exactly the defaults of the function. *)
Definition has_defaults (f : pyfun V) (o : options V) : Prop :=
  exists params defaults, py_function f params defaults /\ forall name v, dget beqb name o = Some v <-> default_of params defaults name v.
(** Every function given is one of Python. *)
Definition ok_fun (f : pyfun V) : Prop := exists params defaults, py_function f params defaults.
Definition ok_call (c : call V) : Prop := match c with Listen _ _ _ => True | Error _ f | Middleware _ f | Event _ f => ok_fun f end.

(** The functions registered under a name, in order. *)
Definition middlewares_given (name : bytes) (cs : list (call V)) : list (pyfun V) :=
  flat_map (fun c => match c with Middleware n f => if beqb n name then [f] else [] | _ => [] end) cs.
Definition events_given (name : bytes) (cs : list (call V)) : list nat :=
  flat_map (fun c => match c with Event n f => if beqb n name then [f_id f] else [] | _ => [] end) cs.
(** The error handlers given for a code. *)
Definition errors_given (code : Z) (cs : list (call V)) : list (pyfun V) :=
  flat_map (fun c => match c with Error n f => if (n =? code)%Z then [f] else [] | _ => [] end) cs.
(** The value of an option after handlers with these options replaced each other: that of the last one that has it. *)
Inductive last_value (name : bytes) : options V -> list (options V) -> option V -> Prop :=
| lv_first o : last_value name o [] (dget beqb name o)
| lv_has o os o' v : dget beqb name o' = Some v -> last_value name o (os ++ [o']) (Some v)
| lv_has_not o os o' v : dget beqb name o' = None -> last_value name o os v -> last_value name o (os ++ [o']) v.
(** An address: a host (or none) with a port, or the path of a Unix socket (for which a host says nothing). *)
Definition address (p : port_arg) (host : option bytes) : (option bytes * Z) + bytes := match p with PInt n => inl (host, n) | PPath s => inr s end.
(** Nothing listens on this address. *)
Definition nobody_on (A : (option bytes * Z) + bytes) (cs : list (call V)) : Prop := forall p host o, In (Listen p host o) cs -> address p host <> A.
(** The options of the first listener on this address, if there is one. *)
Inductive first_on (A : (option bytes * Z) + bytes) : list (call V) -> option (options V) -> Prop :=
| fo_none cs : nobody_on A cs -> first_on A cs None
| fo_some cs1 p host o cs2 : nobody_on A cs1 -> address p host = A -> first_on A (cs1 ++ Listen p host o :: cs2) (Some o).
End S.
