(** What a response looks like on the wire (RFC 9112), independent of the model. *)
From Verif Require Import PyBytes.

(** A line that cannot be taken for several. *)
Definition one_line (l : bytes) : Prop := ~ In LF l.

(** A message head: its lines, each ended by CRLF, and an empty line. *)
Definition head_of (lines : list bytes) : bytes := concat (map (fun l => l ++ CRLF) lines) ++ CRLF.

(** Field name of a header line: what precedes the first colon, case-insensitively. *)
Definition field_name (line : bytes) : bytes := lower (firstn (match find (bs ":") line with Some i => i | None => List.length line end) line).

(** How a client finds the body: after the first empty line. *)
Definition client_body (wire : bytes) : option bytes :=
  match find (CRLF ++ CRLF) wire with
  | Some i => Some (skipn (i + 4) wire)
  | None => None
  end.

(** Responses without a body. *)
Definition bodyless (method : bytes) (status : Z) : Prop :=
  (method = bs "HEAD" \/ status = 204 \/ status = 205 \/ status = 304 \/ 100 <= status < 200)%Z.

(** What setting ([true]) or appending ([false]) header lines amounts to: the lines there
    are for a name, whatever its case. *)
Fixpoint lines_for (name : bytes) (calls : list (bool * (bytes * bytes))) (now : list bytes) : list bytes :=
  match calls with
  | [] => now
  | (set, (n, v)) :: calls' =>
      let line := n ++ bs ": " ++ v in
      lines_for name calls'
        (if beqb (lower n) (lower name) then (if set then [line] else now ++ [line]) else now)
  end.

(** The bytes the client gets from the queue items while no further request arrives
    (http_protocol.py:420-460): None closes the connection unless it is kept alive, and then
    the next one does. *)
Fixpoint on_wire (keep : bool) (items : list (option bytes)) : bytes :=
  match items with
  | [] => []
  | Some d :: items' => d ++ on_wire keep items'
  | None :: items' => if keep then on_wire false items' else []
  end.

(** The header names that end() decides on itself, and those that write() does. *)
Definition framing : list bytes :=
  [bs "content-type"; bs "content-length"; bs "transfer-encoding"; bs "connection"].
Definition decided : list bytes := [bs "content-type"; bs "transfer-encoding"; bs "connection"].
(** [sent] is a set of header lines by name made from [stored]: every other name keeps
    exactly its lines, a name that write() decides on keeps them or gets one line. *)
Definition sent_from (stored sent : list (bytes * list bytes)) : Prop :=
  NoDup (map fst sent) /\
  (forall k, ~ In k decided -> dget beqb k sent = dget beqb k stored) /\
  (forall k l, In k decided -> dget beqb k sent = Some l -> dget beqb k stored = Some l \/ exists v, l = [v]).
