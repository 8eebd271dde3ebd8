(** The opening handshake of RFC 6455, section 4, independent of the model. *)
From Verif Require Import PyBytes PySha1 S_Head S_Response S_Calls.

(** The value of Sec-WebSocket-Accept for a key (section 4.2.2, 5.4). *)
Definition guid : bytes := bs "258EAFA5-E914-47DA-95CA-C5AB0DC85B11".
Definition accept_value (key : bytes) : bytes := b64encode (sha1 (key ++ guid)).

(** A request with one Upgrade field, which is websocket in any case, one key and a Connection field. *)
Definition asks (fields : list field) (key : bytes) : Prop :=
  (exists u, values (bs "upgrade") fields = [u] /\ lower u = bs "websocket") /\
  values (bs "connection") fields <> [] /\
  values (bs "sec-websocket-key") fields = [key].

(** What a client looks at in the answer (section 4.1): the status, and exactly one line each for these names. *)
Definition is_accepted (version key : bytes) (first : bytes) (lines : list bytes) : Prop :=
  first = bs "HTTP/" ++ version ++ bs " 101 Switching Protocols" /\
  only_line (bs "upgrade") (bs "Upgrade: websocket") lines /\
  only_line (bs "connection") (bs "Connection: upgrade") lines /\
  only_line (bs "sec-websocket-accept") (bs "Sec-WebSocket-Accept: " ++ accept_value key) lines.
(** The names that the handshake decides on. *)
Definition handshake_names : list bytes := [bs "upgrade"; bs "connection"; bs "sec-websocket-accept"].

(** A request head that the parser takes: no line feeds, no colons or spaces in names, within the limits of lines [ml], line length [mls] and
    head size [hmax]. *)
Definition good_head (method url version : bytes) (fields : list field) (hmax : Z) (ml : nat) (mls : Z) : Prop :=
  ~ In SP method /\ ~ In LF (method ++ url ++ version) /\ contains (bs "HTTP/") version = false /\
  Forall good_field fields /\ Forall (fun f => ~ In (lower (fst f)) reserved) fields /\
  S (List.length fields) <= ml /\
  Forall (fun l => blen l <= mls)%Z (request_line method url version :: map field_bytes fields) /\
  (blen (head_bytes method url version fields) <= hmax)%Z.
