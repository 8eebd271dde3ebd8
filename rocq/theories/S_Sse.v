(** What the messages given to SSE.send should arrive as. *)
From Verif Require Import PyBytes M_Response M_Sse S_EventSource.

(** Messages that can be carried: no CR anywhere, no LF in the event name or id, no NUL in
    the id, and a retry that is not negative. *)
Definition sse_ok (m : sse_msg) : Prop :=
  ~ In CR (m_data m) /\ ~ In CR (m_event m) /\ ~ In CR (m_id m) /\ ~ In LF (m_event m) /\ ~ In LF (m_id m) /\
  ~ In (ascii_of_nat 0) (m_id m) /\ (0 <= m_retry m)%Z.

(** Last event ID, reconnection time and events after one more message. *)
Definition receive (st : bytes * option Z * list event) (m : sse_msg) : bytes * option Z * list event :=
  let '(id, retry, out) := st in
  let id' := match m_id m with [] => id | x => x end in
  (id', (if (m_retry m =? 0)%Z then retry else Some (m_retry m)),
   out ++ [mkEvent (match m_event m with [] => bs "message" | t => t end) (strip [LF] (m_data m)) id']).
Definition received (ms : list sse_msg) : es :=
  let '(id, retry, out) := fold_left receive ms ([], None, []) in mkEs [] [] id retry out.

(** Messages whose event name or id has a line feed; they are refused. *)
Definition refused (m : sse_msg) : bool := memb LF (m_event m) || memb LF (m_id m).

(** Calls of set_header. *)
Definition sets (l : list (bytes * bytes)) : list hop := map (fun nv => HSet (fst nv) (snd nv)) l.
