(** The words of C90: the content type that the calls of a handler ask for. *)
From Verif Require Import PyBytes M_Response S_Response S_Calls.

(** The calls that concern it: set_content_type, and set_header or append_header with this name in any case. *)
Definition about_type (h : hop) : Prop :=
  match h with HCtype _ => True | HSet n _ | HAppend n _ => lower n = bs "content-type" | _ => False end.
(** A call that sets it to [t], which is one line and does not begin with white space; set_header adds a space. *)
Definition sets_type (h : hop) (t : bytes) : Prop :=
  one_line t /\ lstrip_ws t = t /\ match h with HCtype c => c = t | HSet n v => lower n = bs "content-type" /\ v = t | _ => False end.
(** The last call wins; without such a call it is the default. *)
Definition has_type (ops : list hop) (t : bytes) : Prop :=
  (exists a h b, ops = a ++ h :: b /\ sets_type h t /\ Forall (fun h => ~ about_type h) b) \/
  (Forall (fun h => ~ about_type h) ops /\ t = bs "text/html; charset=utf-8").
