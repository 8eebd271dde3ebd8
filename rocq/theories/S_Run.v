(** Specification of where the server listens and with which settings (C70, C71, C72). *)
From Verif Require Import PyBytes PyInt M_App M_Utils S_Utils M_Run.

(** ** C70 *)
(** What can be asked for: a port, on some host or on the host of the server; or a name, such as the path of a Unix socket. *)
Inductive target := At (host : option bytes) (port : Z) | Named (name : bytes).
Definition target_dec (a b : target) : {a = b} + {a <> b}.
Proof. decide equality; try apply Z.eq_dec; try apply (list_eq_dec ascii_dec). decide equality. apply (list_eq_dec ascii_dec). Defined.
(** A call listen(port, host=host, **options), or listen(name, **options). *)
Record asked := mkAsked { k_target : target; k_opts : opts }.
Definition target_of (p : port_arg) (host : option bytes) : target := match p with PInt n => At host n | PPath s => Named s end.
(** Those whose target was not asked for before. *)
Fixpoint firsts (seen : list target) (l : list asked) : list asked :=
  match l with
  | [] => []
  | a :: l' => if in_dec target_dec (k_target a) seen then firsts seen l' else a :: firsts (k_target a :: seen) l'
  end.
(** The address of a target, for a server of this host and port. *)
Definition address (host : bytes) (port : Z) (t : target) : bytes * Z :=
  match t with At (Some h) n => (h, n) | At None n => (host, n) | Named s => (s, port) end.

(** The options as run says them: its reuse_port, the log level in capitals, and an application or none; the others are those of its kwargs. *)
Definition capital (c : ascii) : ascii := if (97 <=? nat_of_ascii c) && (nat_of_ascii c <=? 122) then ascii_of_nat (nat_of_ascii c - 32) else c.
Definition run_says (reuse_port : val) (kw : opts) (k : bytes) : option val :=
  if beqb k (bs "app") then match dget beqb k kw with Some (VStr (c :: s)) => Some (VStr (c :: s)) | _ => Some VNone end
  else if beqb k (bs "log_level") then match dget beqb k kw with Some (VStr s) => Some (VStr (map capital s)) | _ => Some (VStr (bs "DEBUG")) end
  else if beqb k (bs "reuse_port") then Some reuse_port
  else dget beqb k kw.
(** For a target: what was said when it was asked for first, else what run says. *)
Definition option_of (reuse_port : val) (kw : opts) (a : asked) (k : bytes) : option val :=
  match dget beqb k (k_opts a) with Some v => Some v | None => run_says reuse_port kw k end.

(** The value of --bind: parts with commas between them. A part is host:port, [host]:port, :port, or a name without colon. A port
    is a text that int() reads. *)
Definition number (t : bytes) (n : Z) : Prop := py_int t = Some n /\ ~ In ":"%char t /\ ~ In "\"%char t.
Inductive part : bytes -> target -> Prop :=
| p_host h t n : h <> [] -> (forall c, In c h -> ~ In c [":"; "\"; "["; "]"]%char) -> number t n -> part (h ++ bs ":" ++ t) (At (Some h) n)
| p_v6 h t n : h <> [] -> (forall c, In c h -> ~ In c ["\"; "["; "]"]%char) -> number t n -> part (bs "[" ++ h ++ bs "]:" ++ t) (At (Some h) n)
| p_port t n : number t n -> part (bs ":" ++ t) (At None n)
| p_name s : ~ In ":"%char s -> part s (Named s).
(** Words of the command line: settings (S_Utils.v) and binds, each with its parts and what they are. *)
Inductive item := Set_ (x : setting) | Bind (parts : list (bytes * target)).
Definition item_ok (i : item) : Prop :=
  match i with
  | Set_ x => setting_ok x
  | Bind l => l <> [] /\ (forall s t, In (s, t) l -> part s t /\ ~ In ","%char s) /\ no_dash (join (bs ",") (map fst l))
  end.
Definition item_words (i : item) : list bytes :=
  match i with Set_ x => words x | Bind l => [bs "--bind"; join (bs ",") (map fst l)] end.
(** What is asked for by binds. *)
Definition bound_targets (l : list item) : list target := flat_map (fun i => match i with Set_ _ => [] | Bind l => map snd l end) l.
(** The option of name [k]: the last setting of it, or the default; --bind takes the host away. *)
Definition given (l : list item) (k : bytes) : option oval :=
  fold_left (fun acc i => match i with
                          | Set_ x => match says k x with Some v => Some v | None => acc end
                          | Bind _ => if beqb k (bs "host") then None else acc
                          end) l (default_option k).
Definition given_ssl (l : list item) (k : bytes) : option bytes :=
  fold_left (fun acc i => match i with Set_ x => match says_ssl k x with Some v => Some v | None => acc end | Bind _ => acc end) l None.

(** ** C71 *)
(** The documented options that workers and connections use: the name of the option, where the program uses it, the default (__main__.py:29-69). *)
Definition of_conn (name : string) (p : plan) : option val := dget beqb (bs name) (conn_params (n_opts p)).
Definition of_worker (f : worker -> val) (p : plan) : option val := Some (f (worker_of (n_opts p))).
Definition documented : list (string * (plan -> option val) * val) :=
  [("limit_memory", of_worker k_memory, VInt 0); ("backlog", of_worker k_backlog, VInt 100); ("debug", of_conn "debug", VBool false);
   ("ws", of_conn "ws", VBool true); ("ws_max_payload_size", of_conn "ws_max_payload_size", VInt 2097152);
   ("download_rate", of_conn "download_rate", VInt 1048576); ("upload_rate", of_conn "upload_rate", VInt 1048576);
   ("buffer_size", of_conn "buffer_size", VInt 16384); ("client_max_body_size", of_conn "client_max_body_size", VInt 2097152);
   ("client_max_header_size", of_conn "client_max_header_size", VInt 8192); ("max_queue_size", of_conn "max_queue_size", VInt 128);
   ("request_timeout", of_conn "request_timeout", VInt 30); ("keepalive_timeout", of_conn "keepalive_timeout", VInt 30);
   ("keepalive_connections", of_worker k_registry, VInt 512); ("app_handler_timeout", of_conn "app_handler_timeout", VInt 120);
   ("app_close_timeout", of_conn "_app_close_timeout", VInt 30); ("root_path", of_conn "_root_path", VStr [])]%string.
Definition value_of (v : oval) : val := match v with OBool b => VBool b | OInt n => VInt n | OStr s => VStr s end.
(** The levels of the module logging. *)
Definition levels : list (string * Z) :=
  [("NOTSET", 0); ("DEBUG", 10); ("INFO", 20); ("WARNING", 30); ("WARN", 30); ("ERROR", 40); ("CRITICAL", 50); ("FATAL", 50)]%string%Z.
