(** Exceptions as values. *)
From Verif Require Import PyBytes.

(** Python and tremolo exceptions that the modelled code raises.
    [HTTPExc c] stands for any tremolo HTTPException with status code [c]
    (tremolo/lib/http_exceptions.py:9-98). *)
Inductive exn :=
| ValueError | TypeError | AttributeError | KeyError | IndexError | OverflowError
| TimeoutError | CancelledError | StopAsyncIteration | RuntimeError | OSError
| HTTPExc (code : Z)
| WSClientClosed (code : Z)
| WSServerClosed (code : Z).

Definition BadRequest := HTTPExc 400.
Definition PayloadTooLarge := HTTPExc 413.
Definition RangeNotSatisfiable := HTTPExc 416.
Definition ExpectationFailed := HTTPExc 417.
Definition InternalServerError := HTTPExc 500.

(** Result of a computation that may raise. *)
Inductive res (A : Type) := Ok (a : A) | Raise (e : exn).
Arguments Ok {A} a.
Arguments Raise {A} e.

Definition bind {A B} (r : res A) (f : A -> res B) : res B :=
  match r with Ok a => f a | Raise e => Raise e end.
Notation "'let!' x ':=' r 'in' k" := (bind r (fun x => k))
  (at level 200, x pattern, r at level 100, k at level 200).
