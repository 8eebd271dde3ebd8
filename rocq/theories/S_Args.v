(** What functions of the application are to be called with; independent of the methods of the model. *)
From Verif Require Import PyBytes PyExn M_Server M_Args.

(** All request middlewares pass, so that the handler is reached. *)
Definition reaches (r : areq) : Prop := Forall (fun m => snd m = Passes) (a_before r).
(** The options of the handler and of the middlewares before it: where several have the same, the first middleware decides, and the handler last. *)
Definition own_options (r : areq) : opts := concat (map fst (a_before r)) ++ fst (a_handler r).
(** The handler (or a middleware) has a parameter of this name with a default. *)
Definition asks (name : bytes) (r : areq) : Prop := In name (map fst (own_options r)).
(** The requests that are given a WebSocket, and an SSE. *)
Definition gets_websocket (r : areq) : Prop := reaches r /\ a_body r = false /\ asks (bs "websocket") r /\ a_offer r = Ok true.
Definition gets_sse (r : areq) : Prop :=
  reaches r /\ a_body r = false /\ asks (bs "sse") r /\ ~ (asks (bs "websocket") r /\ exists x, a_offer r = Raise x).
(** The last request with a property. *)
Inductive latest (P : areq -> Prop) : list areq -> option nat -> Prop :=
| latest_nil : latest P [] None
| latest_this rs r : P r -> latest P (rs ++ [r]) (Some (List.length rs))
| latest_before rs r x : ~ P r -> latest P rs x -> latest P (rs ++ [r]) x.
(** Whether a function is called before the handler of the request. *)
Definition is_before (r : role) : bool := match r with RequestMid _ => true | _ => false end.
