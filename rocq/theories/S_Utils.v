(** Specifications for T_Utils.v, independent of the model. *)
From Verif Require Import PyBytes PyInt M_Utils.

(** ** HTML character references *)
Definition entities : list (bytes * byte) := [(bs "&amp;", "&"%char); (bs "&lt;", "<"%char); (bs "&gt;", ">"%char); (bs "&quot;", """"%char)].
Definition entities_str : list (bytes * byte) := entities ++ [(bs "&#x27;", "'"%char)].
(** The character reference a text starts with, if any. *)
Fixpoint reference (table : list (bytes * byte)) (s : bytes) : option (bytes * byte) :=
  match table with
  | [] => None
  | (name, c) :: table' => if startswith name s then Some (name, c) else reference table' s
  end.
(** Decoding, left to right; [fuel] is at least the length of the text. *)
Fixpoint unescape_fuel (fuel : nat) (table : list (bytes * byte)) (s : bytes) : bytes :=
  match fuel, s with
  | S f, c :: s' =>
      match reference table s with
      | Some (name, x) => x :: unescape_fuel f table (skipn (List.length name) s)
      | None => c :: unescape_fuel f table s'
      end
  | _, _ => []
  end.
Definition unescape (table : list (bytes * byte)) (s : bytes) : bytes := unescape_fuel (List.length s) table s.

(** ** Command lines *)
Inductive setting :=
| NoWs
| Flag (opt key : bytes)
| Text (opt key value : bytes)
| Number (opt key text : bytes) (n : Z)
| Cert (path : bytes)
| Key (path : bytes).
(** The options and the names of the settings. *)
Definition flags : list (bytes * bytes) := [(bs "--debug", bs "debug"); (bs "--reload", bs "reload")].
Definition textual : list (bytes * bytes) :=
  [(bs "--host", bs "host"); (bs "--log-level", bs "log_level"); (bs "--loop", bs "loop"); (bs "--server-name", bs "server_name"); (bs "--root-path", bs "root_path")].
Definition numeric : list (bytes * bytes) :=
  [(bs "--port", bs "port"); (bs "--worker-num", bs "worker_num"); (bs "--limit-memory", bs "limit_memory"); (bs "--backlog", bs "backlog");
   (bs "--download-rate", bs "download_rate"); (bs "--upload-rate", bs "upload_rate"); (bs "--buffer-size", bs "buffer_size");
   (bs "--ws-max-payload-size", bs "ws_max_payload_size"); (bs "--client-max-body-size", bs "client_max_body_size");
   (bs "--client-max-header-size", bs "client_max_header_size"); (bs "--max-queue-size", bs "max_queue_size");
   (bs "--request-timeout", bs "request_timeout"); (bs "--keepalive-timeout", bs "keepalive_timeout");
   (bs "--keepalive-connections", bs "keepalive_connections"); (bs "--app-handler-timeout", bs "app_handler_timeout");
   (bs "--app-close-timeout", bs "app_close_timeout")].
Definition no_dash (a : bytes) : Prop := match a with [] => True | c :: _ => c <> "-"%char end.
Definition setting_ok (x : setting) : Prop :=
  match x with
  | NoWs => True
  | Flag o k => In (o, k) flags
  | Text o k v => In (o, k) textual /\ no_dash v
  | Number o k t n => In (o, k) numeric /\ no_dash t /\ py_int t = Some n
  | Cert p | Key p => no_dash p
  end.
Definition words (x : setting) : list bytes :=
  match x with
  | NoWs => [bs "--no-ws"]
  | Flag o _ => [o]
  | Text o _ v => [o; v]
  | Number o _ t _ => [o; t]
  | Cert p => [bs "--ssl-cert"; p]
  | Key p => [bs "--ssl-key"; p]
  end.
(** What a setting says about the option [k], and about the ssl option [k]. *)
Definition says (k : bytes) (x : setting) : option oval :=
  match x with
  | NoWs => if beqb k (bs "ws") then Some (OBool false) else None
  | Flag _ k' => if beqb k k' then Some (OBool true) else None
  | Text _ k' v => if beqb k k' then Some (OStr v) else None
  | Number _ k' _ n => if beqb k k' then Some (OInt n) else None
  | Cert _ | Key _ => None
  end.
Definition says_ssl (k : bytes) (x : setting) : option bytes :=
  match x with
  | Cert p => if beqb k (bs "cert") then Some p else None
  | Key p => if beqb k (bs "key") then Some p else None
  | _ => None
  end.
(** The last of the settings that say something, or else [d]. *)
Definition last_of {A B} (f : A -> option B) (xs : list A) (d : option B) : option B :=
  fold_left (fun acc x => match f x with Some v => Some v | None => acc end) xs d.
Definition default_option (k : bytes) : option oval :=
  if beqb k (bs "host") then Some (OStr (bs "127.0.0.1")) else if beqb k (bs "port") then Some (OInt 8000) else None.

(** ** The registry, observed through [present ops k]: connection [k] is in it after the
    operations [ops]. [k] was registered at time [t] and has been in it since. *)
Definition registered_at (present : list conn_op -> nat -> Prop) (ops : list conn_op) (k t : nat) : Prop :=
  exists p q, ops = p ++ Add k :: q /\ List.length p = t /\ ~ present p k /\
    forall q1 q2, q = q1 ++ q2 -> present (p ++ Add k :: q1) k.
