(** The words of C61: a session on an upgraded connection. See S_Conn.v for [input], [got], [starts], [puts], [ended] and [is_prefix]. *)
From Verif Require Import PyBytes PyInt PyExn M_Parser M_Framing M_Conn S_Conn.

(** What was handed to the transport. *)
Definition written (b : list obs) : bytes := List.concat (map (fun x => match x with Wrote d => d | _ => [] end) b).
(** The client sends the head of its handshake, and goes on when it has seen something of the answer. *)
Definition client_session (o : copts) (m : msg) (tr : list cev) : Prop :=
  forall pre d post s b, tr = pre ++ Data d :: post -> conn_run o conn_new pre = Some (s, b) ->
  is_prefix (input pre ++ d) (m_head m) \/ exists h, In (Wrote h) b.
(** The handler ends its response only when it has upgraded the request (accept() does: C60). *)
Definition handler_accepts (tr : list cev) : Prop := forall pre keep post, tr = pre ++ HClose 0 keep :: post -> In (HUpgrade 0) pre.
(** What the handler put before it closed its response for the (n + 1)-th time: the first time in accept(), the second at the end of the session. *)
Fixpoint said (n : nat) (tr : list cev) : bytes :=
  match tr with
  | [] => []
  | HPut 0 d :: tr' => d ++ said n tr'
  | HClose 0 _ :: tr' => match n with O => [] | S n' => said n' tr' end
  | _ :: tr' => said n tr'
  end.
(** The receive queue never grows above max_queue_size. *)
Definition roomy (o : copts) (tr : list cev) : Prop :=
  forall pre post s b, tr = pre ++ post -> conn_run o conn_new pre = Some (s, b) -> (Z.of_nat (List.length (c_q0 s)) <= o_queue o)%Z.
