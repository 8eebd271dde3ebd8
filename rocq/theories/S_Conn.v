(** The words of C45, C46 and C59. *)
From Verif Require Import PyBytes PyInt PyExn M_Parser M_Framing M_Conn.

(** A request on the wire: a head, and a body as it is sent (if chunked: the chunks), or none. *)
Record msg := mkM { m_head : bytes; m_has : bool; m_body : bytes }.
Definition wire (m : msg) : bytes := m_head m ++ m_body m.
(** The head ends with its only blank line, fits the limit, and is accepted by the parser (C01-C09); with Content-Length, this is the length of the body;
    a chunked body is never empty (its last chunk). *)
Definition msg_ok (o : copts) (m : msg) : Prop :=
  exists p r, find (CRLF ++ CRLF) (m_head m) = Some p /\ List.length (m_head m) = p + 4 /\ (Z.of_nat p + 2 <= o_head o)%Z /\
    frame_head (m_head m) (Z.of_nat p + 2) = Framed r /\
    (if m_has m then
       if hmem k_content_length (rq_headers r) then rq_content_length r = blen (m_body m) else has_body r = true /\ m_body m <> []
     else has_body r = false /\ m_body m = []).

Definition parsed (m : msg) : option hreq :=
  match find (CRLF ++ CRLF) (m_head m) with
  | Some p => match frame_head (m_head m) (Z.of_nat p + 2) with Framed r => Some r | _ => None end
  | None => None
  end.
(** The length of its body is announced. *)
Definition counted (m : msg) : bool := match parsed m with Some r => hmem k_content_length (rq_headers r) | None => false end.
(** It has a body and Expect: 100-continue. *)
Definition expects (m : msg) : bool := match parsed m with Some r => rq_continue r | None => false end.
(** The interim response to it. *)
Definition interim (m : msg) : bytes := match parsed m with Some r => bs "HTTP/" ++ rq_version r ++ bs " 100 Continue" ++ CRLF ++ CRLF | None => [] end.

(** What came from the client. *)
Definition input (tr : list cev) : bytes := List.concat (map (fun e => match e with Data d => d | _ => [] end) tr).
Definition is_prefix {A} (a b : list A) : Prop := exists t, a ++ t = b.
(** The heads of the requests whose handlers were started; what the handler of request i read; the responses that were completed. *)
Definition starts (b : list obs) : list (nat * bytes) := flat_map (fun x => match x with Started i h => [(i, h)] | _ => [] end) b.
Definition got (i : nat) (b : list obs) : bytes := List.concat (map (fun x => match x with Got j (Some d) => if (i =? j)%nat then d else [] | _ => [] end) b).
Definition ended (b : list obs) : nat := List.length (filter (fun x => match x with Ended => true | _ => false end) b).
(** Handler starts and ends of responses, in this order. *)
Definition marks (b : list obs) : list bool := flat_map (fun x => match x with Started _ _ => [true] | Ended => [false] | _ => [] end) b.
Fixpoint alternate (first : bool) (l : list bool) : Prop := match l with [] => True | x :: l' => x = first /\ alternate (negb first) l' end.
(** The handlers that closed their response. *)
Definition closers (tr : list cev) : list nat := flat_map (fun e => match e with HClose i _ => [i] | _ => [] end) tr.

(** The client sends a request while others are not answered only if those have no body. *)
Definition client_ok (o : copts) (M : list msg) (tr : list cev) : Prop :=
  forall pre d post s b, tr = pre ++ Data d :: post -> conn_run o conn_new pre = Some (s, b) ->
  exists j, is_prefix (input pre ++ d) (List.concat (map wire (firstn j M))) /\
            forall i m, ended b <= i -> S i < j -> nth_error M i = Some m -> m_has m = false.
(** The client sends a request only when those before are answered. *)
Definition client_waits (o : copts) (M : list msg) (tr : list cev) : Prop :=
  forall pre d post s b, tr = pre ++ Data d :: post -> conn_run o conn_new pre = Some (s, b) ->
  exists j, is_prefix (input pre ++ d) (List.concat (map wire (firstn j M))) /\ j <= S (ended b).
(** The handlers that asked for the body: with a read, or with send_continue. *)
Definition askers (tr : list cev) : list nat := flat_map (fun e => match e with HRead i | HContinue i => [i] | _ => [] end) tr.
(** The handler of request i has read the body up to its end: the end mark, or, if no length was announced, all the bytes (the last chunk: C13). *)
Definition read_all (i : nat) (m : msg) (b : list obs) : Prop := if counted m then In (Got i None) b else got i b = m_body m.
(** Each handler closes its response once, a handler with a body not before it has read the body up to its end; after the last chunk it does not read on; a handler without a body reads at most
    once, and not after its response ended (an ASGI application that calls receive() once); no upgrade; a handler of a request with Expect: 100-continue that asked for the body asks again only after the interim response was taken. *)
Definition handlers_ok (o : copts) (M : list msg) (tr : list cev) : Prop :=
  NoDup (closers tr) /\
  (forall pre i keep post s b m, tr = pre ++ HClose i keep :: post -> conn_run o conn_new pre = Some (s, b) -> nth_error M i = Some m -> m_has m = true -> read_all i m b) /\
  (forall pre i post s b m, tr = pre ++ HTake i :: post -> conn_run o conn_new pre = Some (s, b) -> nth_error M i = Some m ->
     if m_has m then counted m = true \/ got i b <> m_body m else ended b <= i /\ ~ In (Got i (Some [])) b) /\
  (forall i, ~ In (HUpgrade i) tr) /\
  (forall pre e i post s b m, tr = pre ++ e :: post -> conn_run o conn_new pre = Some (s, b) -> e = HRead i \/ e = HContinue i -> In i (askers pre) ->
     nth_error M i = Some m -> expects m = true -> In (Interim i) b).
(** No data is still on its way into the queue when the end of a response is taken. *)
Definition settled (o : copts) (tr : list cev) : Prop :=
  forall pre kicked post s b s' bx, tr = pre ++ RunSend kicked :: post -> conn_run o conn_new pre = Some (s, b) -> conn_step o s (RunSend kicked) = Some (s', bx) -> In Ended bx -> Forall (fun t => t = ROver) (c_rcv s).
(** The same, at the ends of responses to requests with chunked bodies. *)
Definition calm (o : copts) (M : list msg) (tr : list cev) : Prop :=
  forall pre kicked post s b s' bx m, tr = pre ++ RunSend kicked :: post -> conn_run o conn_new pre = Some (s, b) -> conn_step o s (RunSend kicked) = Some (s', bx) -> In Ended bx ->
  nth_error M (ended b) = Some m -> m_has m = true -> counted m = false -> Forall (fun t => t = ROver) (c_rcv s).
Definition opts_ok (o : copts) : Prop := 0 < o_first o /\ 0 < o_buf o.
(** Nothing is left to do, except for the client: no task can run, and every handler that was started has closed its response. *)
Definition quiet (o : copts) (tr : list cev) (s : conn) (b : list obs) : Prop :=
  (forall j, conn_step o s (RunHR j) = None) /\ (forall j, conn_step o s (RunRcv j) = None) /\ (forall kicked, conn_step o s (RunSend kicked) = None) /\
  (forall i h, In (Started i h) b -> In i (closers tr)).
(** No task can run. *)
Definition idle (o : copts) (s : conn) : Prop :=
  (forall j, conn_step o s (RunHR j) = None) /\ (forall j, conn_step o s (RunRcv j) = None) /\ (forall kicked, conn_step o s (RunSend kicked) = None).
(** What the handler of request i put into its response; the same with [x] where the body was first asked for; what was written between the end of response i - 1 and the end of response i. *)
Definition puts (i : nat) (tr : list cev) : bytes := List.concat (map (fun e => match e with HPut j d => if (i =? j)%nat then d else [] | _ => [] end) tr).
Fixpoint answer (x : bytes) (i : nat) (tr : list cev) : bytes :=
  match tr with
  | [] => []
  | HPut j d :: tr' => (if (i =? j)%nat then d else []) ++ answer x i tr'
  | HRead j :: tr' | HContinue j :: tr' => if (i =? j)%nat then x ++ answer [] i tr' else answer x i tr'
  | _ :: tr' => answer x i tr'
  end.
(** What is to be written as the response to request i: what its handler put, and the interim response if it is expected. *)
Definition response (M : list msg) (i : nat) (tr : list cev) : bytes := answer (match nth_error M i with Some m => if expects m then interim m else [] | None => [] end) i tr.
Fixpoint out (i : nat) (b : list obs) : bytes :=
  match b with
  | [] => []
  | Wrote d :: b' => match i with O => d ++ out 0 b' | S _ => out i b' end
  | Ended :: b' => match i with O => [] | S i' => out i' b' end
  | _ :: b' => out i b'
  end.
(** Nothing is put into a response that was closed. *)
Definition tidy (tr : list cev) : Prop := forall pre i d post, tr = pre ++ HPut i d :: post -> ~ In i (closers pre).
