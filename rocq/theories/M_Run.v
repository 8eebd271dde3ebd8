(** Model of how the server is told where and how to listen: Tremolo.listen and run (tremolo/tremolo.py:71-81, 595-722), bind and the main
    program (tremolo/__main__.py:74-99), create_sock and close_sock (tremolo.py:524-581), the options of a worker and of its connections
    (tremolo.py:227-363, 386, 480-502).

    A str is its Latin-1 bytes. What is printed and systems without Unix sockets are left out. The processes themselves are in
    M_Super.v. *)
From Verif Require Import PyBytes PyInt PyExn M_App M_Utils.

(** Values of options. tremolo.py:71, 595 *)
Inductive val := VNone | VBool (b : bool) | VInt (n : Z) | VStr (s : bytes) | VDict (d : list (bytes * bytes)).
(** tremolo.py:71, 595 *)
Definition opts := list (bytes * val).
(** self.ports, tremolo.py:66, 80 *)
Definition ports := list ((option bytes * option Z) * opts).
(** listen, tremolo.py:71-81; [port_key] is 72-75. *)
Definition listen (p : port_arg) (host : option bytes) (o : opts) (ps : ports) : bool * ports :=
  let k := port_key p host in
  if dmem okeqb k ps then (false, ps) else (true, dset okeqb k o ps).

(** ** run *)
(** options.get(k, d). tremolo.py:229, 251, 261, 332-360, 386, 702 *)
Definition getd (o : opts) (k : string) (d : val) : val := match dget beqb (bs k) o with Some v => v | None => d end.
(** {**a, **b}. tremolo.py:689 *)
Definition merged (a b : opts) : opts := fold_left (fun acc kv => dset beqb (fst kv) (snd kv) acc) b a.
(** s.upper() for ASCII. tremolo.py:597 *)
Definition upper (s : bytes) : bytes := map (fun c => let n := nat_of_ascii c in if (97 <=? n) && (n <=? 122) then ascii_of_nat (n - 32) else c) s.
(** kwargs, with reuse_port, log_level and app. A log_level that is no str raises AttributeError. An app is given by its name: others are left out
    (612-625). app_dir (633-638) and locks (630) are left out. tremolo.py:596-597, 611-629 *)
Definition run_kwargs (reuse_port : val) (kw : opts) : res opts :=
  let kw := dset beqb (bs "reuse_port") reuse_port kw in
  match getd kw "log_level" (VStr (bs "DEBUG")) with
  | VStr s =>
      let kw := dset beqb (bs "log_level") (VStr (upper s)) kw in
      Ok (match getd kw "app" VNone with VStr (_ :: _) => kw | _ => dset beqb (bs "app") VNone kw end)
  | _ => Raise AttributeError
  end.
(** A turn of the loop of lines 682-721: the arguments of its workers, how many there are, and their options. tremolo.py:682-721 *)
Record plan := mkPlan { n_host : bytes; n_port : Z; n_workers : Z; n_opts : opts }.
(** The loop, tremolo.py:682-721. _port must be a number for line 692; range() needs one in 702. *)
Fixpoint plans (host : bytes) (port : port_arg) (workers : Z) (kw : opts) (ps : ports) : res (list plan) :=
  match ps with
  | [] => Ok []
  | ((h, p), o) :: ps' =>
      let! n := match p, port with Some n, _ => Ok n | None, PInt n => Ok n | None, PPath _ => Raise TypeError end in
      let o := merged kw o in
      let! w := match getd o "worker_num" (VInt workers) with VInt w => Ok w | VBool b => Ok (if b then 1 else 0)%Z | _ => Raise TypeError end in
      let! r := plans host port workers kw ps' in
      Ok (mkPlan (match h with Some h => h | None => host end) n w o :: r)
  end.
(** run, tremolo.py:595-721, up to the processes; [cpus] is the number of usable ones (671-674). *)
Definition run (cpus : Z) (host : option bytes) (port : port_arg) (reuse_port : val) (worker_num : Z) (kwargs : opts) (ps : ports) : res (list plan) :=
  let! kw := run_kwargs reuse_port kwargs in
  let! hp := match host, ps with
             | None, [] => Raise ValueError                                    (* 659-662 *)
             | None, _ => Ok (bs "localhost", ps)
             | Some h, _ => Ok (h, snd (listen port (Some h) kw ps))           (* 666 *)
             end in
  if (worker_num <? 1)%Z then Raise ValueError
  else plans (fst hp) port (Z.min worker_num cpus) kw (snd hp).

(** ** --bind, __main__.py:74-86 *)
(** s.rsplit(c, 1), or the empty text and s. tremolo.py:289, 500; __main__.py:80 *)
Definition rsplit1 (c : ascii) (s : bytes) : bytes * bytes :=
  let r := rev s in
  match find [c] r with Some i => (rev (skipn (S i) r), rev (firstn i r)) | None => ([], s) end.
(** One of them, __main__.py:79-83; [None] is the ValueError of int(). *)
Definition bind_one (s : bytes) (ps : ports) : option ports :=
  if (match find (":"%char :: ["\"%char]) s with None => true | Some _ => false end) && memb ":"%char s then
    let '(h, p) := rsplit1 ":" s in
    match py_int p with
    | Some n => let h := strip (bs "[]") h in Some (snd (listen (PInt n) (match h with [] => None | _ => Some h end) [] ps))
    | None => None
    end
  else Some (snd (listen (PPath s) None [] ps)).
(** bind, __main__.py:78-86, on the listeners; [None] is sys.exit. *)
Fixpoint bind_all (l : list bytes) (ps : ports) : option ports :=
  match l with [] => Some ps | s :: l' => match bind_one s ps with Some ps' => bind_all l' ps' | None => None end end.
(** __main__.py:78-86 *)
Definition bind_value (value : bytes) (ps : ports) : option ports := bind_all (split (bs ",") value) ps.

(** ** The main program, __main__.py:89-99 *)
(** A value of parse_args. utils.py:54 *)
Definition of_oval (v : oval) : val := match v with OBool b => VBool b | OInt n => VInt n | OStr s => VStr s end.
(** The keyword arguments for run: options[app] is sys.argv[-1] (92-93); ssl as in utils.py:54. __main__.py:89-99 *)
Definition main_opts (o : popts) (app : bytes) : opts :=
  dset beqb (bs "app") (VStr app) (map (fun kv => (fst kv, of_oval (snd kv))) (o_opts o) ++ [(bs "ssl", VDict (o_ssl o))]).
(** server.run( **options), __main__.py:99: host, port, reuse_port and worker_num are parameters of run; the others are its kwargs. tremolo.py:595 *)
Definition run_main (cpus : Z) (o : opts) (ps : ports) : res (list plan) :=
  let rest := filter (fun kv => negb (existsb (beqb (fst kv)) [bs "host"; bs "port"; bs "reuse_port"; bs "worker_num"])) o in
  match getd o "host" VNone, getd o "port" (VInt 0), getd o "worker_num" (VInt 1) with
  | VStr h, VInt p, VInt w => run cpus (Some h) (PInt p) (getd o "reuse_port" (VBool true)) w rest ps
  | VNone, VInt p, VInt w => run cpus None (PInt p) (getd o "reuse_port" (VBool true)) w rest ps
  | _, _, _ => Raise TypeError
  end.

(** The callbacks help and bind, on the options: options[host] = None (75) is modelled as no host, for which run has None. __main__.py:11-71, 74-86, 90 *)
Definition main_cb : callbacks := fun name =>
  if beqb name (bs "help") then Some (fun _ _ => None)
  else if beqb name (bs "bind") then Some (fun v o => match bind_value v [] with Some _ => Some (mkOpts (ddel beqb (bs "host") (o_opts o)) (o_ssl o)) | None => None end)
  else None.
(** What bind does to the listeners in the loop of parse_args; [prev] is argv[i - 1]. utils.py:57, 98-100; __main__.py:74-86 *)
Fixpoint args_ports (prev : bytes) (argv : list bytes) (ps : ports) : option ports :=
  match argv with
  | [] => Some ps
  | v :: argv' =>
      match (if startswith (bs "-") prev && beqb (opt_name prev) (bs "bind") then bind_value v ps else Some ps) with
      | Some ps' => args_ports v argv' ps'
      | None => None
      end
  end.
(** python3 -m tremolo: [None] is sys.exit. __main__.py:89-99 *)
Definition main (cpus : Z) (argv : list bytes) : option (res (list plan)) :=
  match parse_args main_cb argv, args_ports (last argv []) argv [] with
  | Some o, Some ps =>
      let app := last argv [] in
      if negb (beqb app (hd [] argv)) && negb (startswith (bs "-") app) then Some (run_main cpus (main_opts o app) ps) else None
  | _, _ => None
  end.

(** ** A worker and its connections *)
(** The parameters of the protocol of a connection: name, key of the option, default. tremolo.py:332-360 *)
Definition conn_table : list (string * string * val) :=
  [("debug", "debug", VBool false); ("ws", "ws", VBool true); ("ws_max_payload_size", "ws_max_payload_size", VInt (2 * 1048576));
   ("download_rate", "download_rate", VInt 1048576); ("upload_rate", "upload_rate", VInt 1048576); ("buffer_size", "buffer_size", VInt (16 * 1024));
   ("client_max_body_size", "client_max_body_size", VInt (2 * 1048576)); ("client_max_header_size", "client_max_header_size", VInt 8192);
   ("max_queue_size", "max_queue_size", VInt 128); ("request_timeout", "request_timeout", VInt 30); ("keepalive_timeout", "keepalive_timeout", VInt 30);
   ("app_handler_timeout", "app_handler_timeout", VInt 120); ("_app_close_timeout", "app_close_timeout", VInt 30); ("_root_path", "root_path", VStr [])]%string.
(** tremolo.py:332-360 *)
Definition conn_params (o : opts) : opts := map (fun '(name, key, d) => (bs name, getd o key d)) conn_table.
(** What a worker uses itself: backlog (229, 363), the size of the registry of kept-alive connections (260-262; the registry makes it at least 1), the memory limit
    (386), the name in the Server field (251-254, 311-312), the certificate and the key for TLS (240-249; the password is left out).
    tremolo.py:229-262, 311-312, 386 *)
Record worker := mkWorker { k_backlog : val; k_registry : val; k_memory : val; k_name : val; k_tls : option (bytes * option bytes) }.
(** tremolo.py:229-262, 311-312, 386 *)
Definition worker_of (o : opts) : worker :=
  let asgi := match getd o "app" VNone with VNone => false | _ => true end in
  let name := match getd o "server_name" (VStr (bs "Tremolo")) with
              | VStr s => VStr (if asgi && negb (beqb s []) then s ++ bs " (ASGI)" else s)
              | v => v
              end in
  let tls := match getd o "ssl" VNone with
             | VDict ((_ :: _) as d) => Some (match dget beqb (bs "cert") d with Some c => c | None => [] end, dget beqb (bs "key") d)
             | _ => None
             end in
  mkWorker (getd o "backlog" (VInt 100)) (getd o "keepalive_connections" (VInt 512)) (getd o "limit_memory" (VInt 0)) name tls.
(** The loop of a worker: a module and a name of it. loop_name.rpartition('.') splits at the last dot. tremolo.py:493-502 *)
Definition loop_of (o : opts) : res (bytes * bytes) :=
  match getd o "loop" (VStr (bs "asyncio.")) with
  | VStr s =>
      let s := if memb "."%char s then s else s ++ bs "." in
      let '(m, c) := rsplit1 "." s in
      Ok (match m with [] => bs "asyncio" | _ => m end, match c with [] => bs "new_event_loop" | _ => c end)
  | _ => Raise TypeError
  end.
(** getattr(logging, log_level, logging.DEBUG), tremolo.py:482-484: the levels; functions of the module have their names in lower case, for which setLevel
    raises TypeError. Other names of the module are left out. *)
Definition log_level (o : opts) : res Z :=
  match getd o "log_level" VNone with
  | VStr s =>
      if existsb (beqb s) (map bs ["debug"; "info"; "warning"; "warn"; "error"; "critical"; "fatal"; "exception"; "log"; "disable"; "shutdown"]%string) then Raise TypeError
      else Ok (if beqb s (bs "INFO") then 20 else if beqb s (bs "WARNING") || beqb s (bs "WARN") then 30 else if beqb s (bs "ERROR") then 40
               else if beqb s (bs "CRITICAL") || beqb s (bs "FATAL") then 50 else if beqb s (bs "NOTSET") then 0 else 10)%Z
  | _ => Raise TypeError
  end.

(** ** Sockets *)
(** What is bound: an address of IPv6 (with IPv4 as well, or not), of IPv4, or a path. tremolo.py:524-569 *)
Inductive bound := Inet6 (dual : bool) (host : bytes) (port : Z) | Inet (host : bytes) (port : Z) | Unix (path : bytes).
(** create_sock, tremolo.py:525-554, 567; [resolves] is whether getaddrinfo succeeds. *)
Definition sock_for (resolves : bytes -> bool) (host : bytes) (port : Z) : bound :=
  if resolves host then if memb ":"%char host then Inet6 (beqb host (bs "::")) host port else Inet host port
  else Unix (if endswith (bs ".sock") host then host else host ++ bs ".sock").
(** What there is at a path: nothing, a regular file of a size, or a socket of some process (whose size is 0). tremolo.py:556-562 *)
Inductive node := Nothing | File (size : nat) | Sock (owner : nat).
(** sock.bind(path) by process [who]: OSError if there is something. tremolo.py:558 *)
Definition bind_path (who : nat) (x : node) : option node := match x with Nothing => Some (Sock who) | _ => None end.
(** os.path.exists(host) and os.stat(host).st_size == 0, then os.unlink(host). tremolo.py:561-562 *)
Definition clear_path (x : node) : node := match x with File (S n) => File (S n) | _ => Nothing end.
(** tremolo.py:556-562: two tries. The flag is whether the socket was bound. *)
Definition bind_unix (who : nat) (x : node) : bool * node :=
  match bind_path who x with
  | Some y => (true, y)
  | None => match bind_path who (clear_path x) with Some y => (true, y) | None => (false, clear_path (clear_path x)) end
  end.
(** The processes that bind it, one after the other: run (689), then every worker (236). *)
(** tremolo.py:236, 689, 737-739 *)
Definition binds (who : list nat) (x : node) : node := fold_left (fun y w => snd (bind_unix w y)) who x.
(** sock.getsockname(), of a socket that is closed or not. tremolo.py:577 *)
Definition getsockname (closed : bool) (path : bytes) : res bytes := if closed then Raise OSError else Ok path.
(** close_sock, tremolo.py:571-581, for a Unix socket at [path], where there is [x]; [shutdown] is how line 573 ends. *)
Definition close_unix (shutdown : res unit) (path : bytes) (x : node) : node :=
  match (let! _ := shutdown in let! _ := getsockname true path in Ok Nothing) with Ok y => y | Raise _ => x end.

(** ** The ASGI application by its name, tremolo.py:285-299 *)
(** s.count(':'). tremolo.py:285 *)
Definition colons (s : bytes) : nat := List.length (filter (Ascii.eqb ":") s).
(** os.path.splitext(name)[0] of CPython for a name without slash: what is before the last dot, unless there is nothing but dots before it.
    tremolo.py:292 *)
Definition splitext (s : bytes) : bytes :=
  if memb "."%char s then let root := fst (rsplit1 "." s) in if forallb (Ascii.eqb ".") root then s else root else s.
(** app_dir, the name of the module and the attribute. [abspath] is os.path.abspath, whose result begins with a slash: then os.path.split cuts it at the last
    slash, which the directory keeps if it is the only one. tremolo.py:285-299 *)
Definition locate (abspath : bytes -> bytes) (app : bytes) : bytes * bytes * bytes :=
  let has_drive := match find (":"%char :: ["\"%char]) app with Some _ => true | None => false end in
  let app := if has_drive && Nat.ltb (colons app) 2 || negb (memb ":"%char app) then app ++ bs ":app" else app in
  let '(path, attr) := rsplit1 ":" app in
  let '(dir, base) := rsplit1 "/" (abspath path) in
  (match dir with [] => bs "/" | _ => dir end, splitext base, attr).
