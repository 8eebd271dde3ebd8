(** Models of tremolo/utils.py (html_escape, parse_args) and tremolo/lib/connections.py. *)
From Verif Require Import PyBytes PyInt PyExn.

(** utils.py:26-29, the branch for bytes. *)
Definition html_escape (data : bytes) : bytes :=
  replace [""""%char] (bs "&quot;") (replace (bs ">") (bs "&gt;") (replace (bs "<") (bs "&lt;") (replace (bs "&") (bs "&amp;") data))).
(** utils.py:23-24, the branch for str: html.escape(data) of CPython, on the UTF-8 bytes of
    the text. *)
Definition html_escape_str (data : bytes) : bytes :=
  replace (bs "'") (bs "&#x27;") (html_escape data).

(** ** KeepAliveConnections, connections.py:4-20. Keys are compared by identity: a number for
    each connection. [maxlen] is at least 1 (lines 10-11). *)
Definition conns (V : Type) := list (nat * V).
Definition conns_set {V} (maxlen : nat) (k : nat) (v : V) (d : conns V) : conns V :=      (* 16-20 *)
  let d' := dset Nat.eqb k v d in
  if Nat.ltb maxlen (List.length d')
  then match d' with [] => [] | (k0, _) :: _ => ddel Nat.eqb k0 d' end
  else d'.
(** del d[k] for a present k, inherited from dict; nothing for an absent one (the server tests). *)
(** http_protocol.py:507-508 *)
Definition conns_pop {V} (k : nat) (d : conns V) : conns V := ddel Nat.eqb k d.
(** http_protocol.py:469 and 507-508 *)
Inductive conn_op := Add (k : nat) | Drop (k : nat).
(** The registry as the server uses it (http_protocol.py:469, 507-508): values are None. *)
Definition conns_step (maxlen : nat) (d : conns unit) (o : conn_op) : conns unit :=
  match o with Add k => conns_set maxlen k tt d | Drop k => conns_pop k d end.
(** connections.py:4-20, from an empty registry. *)
Definition conns_run (maxlen : nat) (ops : list conn_op) : conns unit := fold_left (conns_step maxlen) ops [].

(** ** parse_args, utils.py:53-105. [None] is sys.exit. *)
Inductive oval := OBool (b : bool) | OInt (n : Z) | OStr (s : bytes).
(** utils.py:54: options, with options[ssl] apart. *)
Record popts := mkOpts { o_opts : list (bytes * oval); o_ssl : list (bytes * bytes) }.
(** options[name] = v, utils.py:61, 63, 69, 87 *)
Definition oset (k : bytes) (v : oval) (o : popts) : popts := mkOpts (dset beqb k v (o_opts o)) (o_ssl o).
(** options[ssl][name] = v, utils.py:95, 97 *)
Definition sset (k v : bytes) (o : popts) : popts := mkOpts (o_opts o) (dset beqb k v (o_ssl o)).
(** utils.py:54 *)
Definition defaults : popts := mkOpts [(bs "host", OStr (bs "127.0.0.1")); (bs "port", OInt 8000)] [].

(** name = argv[i - 1].lstrip('-').replace('-', '_'), line 58 *)
Definition opt_name (a : bytes) : bytes := replace (bs "-") (bs "_") (lstrip_by (fun c => Ascii.eqb c "-") a).
(** in, utils.py:62-85 *)
Definition inb (a : bytes) (l : list bytes) : bool := existsb (beqb a) l.
(** utils.py:62 *)
Definition flag_opts : list bytes := [bs "--debug"; bs "--reload"].
(** utils.py:64-68 *)
Definition str_opts : list bytes := [bs "--host"; bs "--log-level"; bs "--loop"; bs "--server-name"; bs "--root-path"].
(** utils.py:70-85 *)
Definition int_opts : list bytes :=
  [bs "--port"; bs "--worker-num"; bs "--limit-memory"; bs "--backlog"; bs "--download-rate"; bs "--upload-rate"; bs "--buffer-size";
   bs "--ws-max-payload-size"; bs "--client-max-body-size"; bs "--client-max-header-size"; bs "--max-queue-size"; bs "--request-timeout";
   bs "--keepalive-timeout"; bs "--keepalive-connections"; bs "--app-handler-timeout"; bs "--app-close-timeout"].

(** The callbacks of utils.py:53, 99-100: what each does to the options, or exits. Other effects of them are left
    out. *)
Definition callbacks := bytes -> option (bytes -> popts -> option popts).

(** One turn of the loop, lines 58-103: [a] is argv[i - 1], [v] is argv[i]. int() of a str is
    taken on its ASCII text. *)
Definition arg_step (cb : callbacks) (a v : bytes) (o : popts) : option popts :=
  let name := opt_name a in
  if beqb a (bs "--no-ws") then Some (oset (bs "ws") (OBool false) o)
  else if inb a flag_opts then Some (oset name (OBool true) o)
  else if inb a str_opts then Some (oset name (OStr v) o)
  else if inb a int_opts then match py_int v with Some n => Some (oset name (OInt n) o) | None => None end
  else if beqb a (bs "--ssl-cert") then Some (sset (bs "cert") v o)
  else if beqb a (bs "--ssl-key") then Some (sset (bs "key") v o)
  else if startswith (bs "-") a then match cb name with Some f => f v o | None => None end
  else Some o.
(** The loop over range(len(argv)): [prev] is argv[i - 1]. *)
Fixpoint args_loop (cb : callbacks) (prev : bytes) (argv : list bytes) (o : popts) : option popts :=
  match argv with
  | [] => Some o
  | v :: argv' => match arg_step cb prev v o with Some o' => args_loop cb v argv' o' | None => None end
  end.
(** The first turn, i = 0, looks at argv[-1]. sys.argv is never empty. *)
Definition parse_args (cb : callbacks) (argv : list bytes) : option popts :=
  args_loop cb (last argv []) argv defaults.
