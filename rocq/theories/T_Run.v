(** C70: the server listens on exactly the addresses it was told. C71: the settings of the command line reach workers and connections. C72: the ASGI application is found by its
    name. *)
From Verif Require Import PyBytes PyBytesFacts PyDictFacts PyInt PyExn M_App M_Utils S_Utils P_Utils M_Run S_Run P_Run.

(** ** C70 *)
(** The calls of listen, in order. *)
Definition call_listen (ps : ports) (c : port_arg * option bytes * opts) : ports := snd (listen (fst (fst c)) (snd (fst c)) (snd c) ps).
Definition asked_by (c : port_arg * option bytes * opts) : asked := mkAsked (target_of (fst (fst c)) (snd (fst c))) (snd c).
(** run, after any calls of listen: there is a listener for every target that was asked for, and for the host and port of run if it has a host; each target has
    one, in the order in which they were first asked for, and there is no other. A listener has the address of its target; the options of the first call for it, and for the
    others those of run; as many workers as its worker_num says, else as run says, at most one for each processor. *)
Theorem c70_run cpus host port reuse workers kw calls :
  NoDup (map fst kw) -> Forall (fun c => NoDup (map fst (snd c))) calls ->                                     (* dicts *)
  (forall v, dget beqb (bs "log_level") kw = Some v -> exists s, v = VStr s) ->                                (* the types of the arguments *)
  (forall o v, o = kw \/ In o (map snd calls) -> dget beqb (bs "worker_num") o = Some v -> exists n, v = VInt n) ->
  (host <> None \/ calls <> []) -> (1 <= workers)%Z ->
  exists ps, run cpus host (PInt port) reuse workers kw (fold_left call_listen calls []) = Ok ps /\
    Forall2 (fun a p =>
      (n_host p, n_port p) = address (match host with Some h => h | None => bs "localhost" end) port (k_target a) /\
      (forall k, dget beqb k (n_opts p) = option_of reuse kw a k) /\
      n_workers p = match option_of reuse kw a (bs "worker_num") with Some (VInt n) => n | _ => Z.min workers cpus end)
      (firsts [] (map asked_by calls ++ match host with Some h => [mkAsked (At (Some h) port) []] | None => [] end)) ps.
Proof.
  intros ND F L W Ex Wn.
  assert (forall ps, fold_left call_listen calls ps = fold_left add (map asked_by calls) ps) as E.
  { clear. induction calls as [|c calls IH]; intros ps; [reflexivity|]. cbn [fold_left map]. rewrite IH. f_equal. unfold call_listen. now rewrite listen_add. }
  rewrite E. apply run_main_lemma; try assumption.
  - intros v. apply W. now left.
  - rewrite Forall_forall in *. intros a I. apply in_map_iff in I as (c & <- & I). cbn [asked_by k_opts]. split; [now apply F|]. intros v. apply W. right. now apply in_map.
  - destruct Ex as [Ex|Ex]; [now left|right]. now destruct calls.
Qed.
Print Assumptions c70_run.
(** What is asked for is listened on. *)
Theorem c70_all l : forall seen a, In a l -> In (k_target a) (seen ++ map k_target (firsts seen l)).
Proof.
  induction l as [|b l IH]; intros seen a; cbn [In firsts]; [easy|]. destruct (in_dec target_dec (k_target b) seen) as [J|N].
  - intros [<-|I]; [apply in_or_app; now left|now apply IH].
  - cbn [map]. intros [<-|I]; [apply in_or_app; right; now left|]. specialize (IH (k_target b :: seen) a I). cbn [Datatypes.app In] in IH. rewrite in_app_iff in *. cbn [In]. tauto.
Qed.
Print Assumptions c70_all.
(** No address to listen on, or no worker: the server does not start. *)
Theorem c70_none cpus host port reuse workers kw ps : (forall v, dget beqb (bs "log_level") kw = Some v -> exists s, v = VStr s) -> NoDup (map fst kw) ->
  host = None /\ ps = [] \/ (workers < 1)%Z -> run cpus host port reuse workers kw ps = Raise ValueError.
Proof.
  intros L ND H. destruct (run_kwargs_main reuse kw L ND) as (kw' & E & _). unfold run. rewrite E. cbn [bind]. destruct H as [[-> ->]|H]; [reflexivity|].
  assert ((workers <? 1)%Z = true) as Lt by lia. destruct host as [h|]; [|destruct ps as [|x ps]; [reflexivity|]]; cbn [bind]; now rewrite Lt.
Qed.
Print Assumptions c70_none.
(** A call of listen says whether the target is new. *)
Theorem c70_listen p host o calls : fst (listen p host o (fold_left call_listen calls [])) = true <-> ~ In (target_of p host) (map (fun c => k_target (asked_by c)) calls).
Proof.
  assert (forall ps, fold_left call_listen calls ps = fold_left add (map asked_by calls) ps) as E.
  { clear. induction calls as [|c calls IH]; intros ps; [reflexivity|]. cbn [fold_left map]. rewrite IH. f_equal. unfold call_listen. now rewrite listen_add. }
  rewrite E, (adds _ [] []) by (intros t; split; intros []). cbn [Datatypes.app]. unfold listen. rewrite port_key_of.
  destruct (dmem okeqb _ _) eqn:D; cbn [fst].
  - split; [discriminate|]. intros N. exfalso. apply N. apply kmem in D. rewrite map_map in D. apply in_map_iff in D as (a & Ea & I). cbn [entry fst] in Ea. apply key_inj in Ea.
    apply firsts_in in I. apply in_map_iff in I as (c & <- & I). rewrite <- Ea. now apply (in_map (fun c => k_target (asked_by c))).
  - split; [|reflexivity]. intros _ I. apply in_map_iff in I as (c & Ec & I). pose proof (c70_all (map asked_by calls) [] (asked_by c) (in_map _ _ _ I)) as J. cbn [Datatypes.app] in J.
    rewrite Ec in J. apply in_map_iff in J as (a & Ea & J). assert (dmem okeqb (key_of (target_of p host)) (map entry (firsts [] (map asked_by calls))) = true) as D2; [|congruence].
    apply kmem. rewrite map_map. apply in_map_iff. exists a. split; [cbn [entry fst]; now rewrite Ea|exact J].
Qed.
Print Assumptions c70_listen.
Example c70_example :
  let calls := [(PInt 8001, None, [(bs "worker_num", VInt 2)]); (PPath (bs "/tmp/a.sock"), None, [(bs "debug", VBool true)]); (PInt 8001, None, [(bs "debug", VBool true)])] in
  match run 4 (Some (bs "127.0.0.1")) (PInt 8000) (VBool true) 8 [(bs "debug", VBool false)] (fold_left call_listen calls []) with
  | Ok ps => map (fun p => (n_host p, n_port p, n_workers p, dget beqb (bs "debug") (n_opts p))) ps =
      [(bs "127.0.0.1", 8001%Z, 2%Z, Some (VBool false)); (bs "/tmp/a.sock", 8000%Z, 4%Z, Some (VBool true)); (bs "127.0.0.1", 8000%Z, 4%Z, Some (VBool false))]
  | Raise _ => False
  end.
Proof. vm_compute. reflexivity. Qed.

(** The command line: options and binds in any order, then the application. Every part of every --bind is listened on, and the host and port if --host was not undone by a
    --bind after it. *)
Theorem c70_main cpus prog l app : no_dash prog -> no_dash app -> app <> prog -> app <> [] -> Forall item_ok l ->
  forall workers port host, (1 <= workers)%Z ->
  workers = match given l (bs "worker_num") with Some (OInt n) => n | _ => 1%Z end -> given l (bs "port") = Some (OInt port) -> given l (bs "host") = host ->
  exists ps, main cpus (prog :: flat_map item_words l ++ [app]) = Some (Ok ps) /\
    Forall2 (fun a p => (n_host p, n_port p) = address (match host with Some (OStr h) => h | _ => bs "localhost" end) port (k_target a) /\ n_workers p = Z.min workers cpus)
      (firsts [] (map (fun t => mkAsked t []) (bound_targets l ++ match host with Some (OStr h) => [At (Some h) port] | _ => [] end))) ps.
Proof.
  intros P A Np Ne F workers port host Wn Ew Ep Eh. destruct (main_lemma cpus prog l app P A Np Ne F) as (ps & ssl & E & _ & R). { unfold given_workers. rewrite <- Ew. exact Wn. }
  exists ps. split; [exact E|].
  assert (given_portn l = port) as Gp by (unfold given_portn; now rewrite Ep).
  assert (given_workers l = workers) as Gw by (unfold given_workers; now rewrite <- Ew).
  assert (given_host l = match host with Some (OStr h) => Some h | _ => None end) as Gh by (unfold given_host; now rewrite Eh).
  rewrite Gp, Gw, Gh in R. rewrite map_app.
  assert (own (match host with Some (OStr h) => Some h | _ => None end) port = map (fun t => mkAsked t []) match host with Some (OStr h) => [At (Some h) port] | _ => [] end) as <-
    by (destruct host as [[| |]|]; reflexivity).
  refine (Forall2_strengthen (fun _ => True) _ _ _ _ _ R _); [apply Forall_forall; auto|]. intros a p _ (Q1 & Q2 & _). split; [|exact Q2]. rewrite Q1. now destruct host as [[| |]|].
Qed.
Print Assumptions c70_main.
(** Nor is the port ever missing. *)
Theorem c70_port l : Forall item_ok l -> exists n, given l (bs "port") = Some (OInt n).
Proof. exact (given_port l). Qed.
Print Assumptions c70_port.
Definition ex_items : list item :=
  [Set_ (Number (bs "--port") (bs "port") (bs "9000") 9000); Bind [(bs "127.0.0.1:8000", At (Some (bs "127.0.0.1")) 8000); (bs ":8001", At None 8001)];
   Set_ (Number (bs "--worker-num") (bs "worker_num") (bs "3") 3); Set_ (Text (bs "--log-level") (bs "log_level") (bs "info"));
   Bind [(bs "[::1]:80", At (Some (bs "::1")) 80); (bs "/tmp/x.sock", Named (bs "/tmp/x.sock")); (bs ":8001", At None 8001)]; Set_ NoWs; Set_ (Cert (bs "c.pem"))].
Example c70_main_example : Forall item_ok ex_items /\ given ex_items (bs "port") = Some (OInt 9000) /\ given ex_items (bs "host") = None /\
  match main 2 (bs "tremolo" :: flat_map item_words ex_items ++ [bs "example:app"]) with
  | Some (Ok ps) => map (fun p => (n_host p, n_port p, n_workers p)) ps =
      [(bs "127.0.0.1", 8000%Z, 2%Z); (bs "localhost", 8001%Z, 2%Z); (bs "::1", 80%Z, 2%Z); (bs "/tmp/x.sock", 9000%Z, 2%Z)]
  | _ => False
  end.
Proof.
  split; [|vm_compute; auto].
  assert (forall t n, py_int t = Some n -> forallb (fun c => negb (Ascii.eqb c ":") && negb (Ascii.eqb c "\")) t = true -> number t n) as N.
  { intros t n E B. split; [exact E|]. rewrite forallb_forall in B. split; intros I; apply B in I; discriminate I. }
  assert (forall h bad, forallb (fun c => negb (memb c bad)) h = true -> forall c, In c h -> ~ In c bad) as K.
  { intros h bad B c I J. rewrite forallb_forall in B. apply B in I. apply memb_In in J. now rewrite J in I. }
  assert (forall c s, memb c s = false -> ~ In c s) as M. { intros c s E I. apply memb_In in I. congruence. }
  unfold ex_items. repeat match goal with |- Forall _ (_ :: _) => constructor | |- Forall _ [] => constructor end; cbn [item_ok].
  - cbn [setting_ok]. split; [now left|]. split; [discriminate|reflexivity].
  - split; [discriminate|]. split; [|discriminate]. intros s t [I|[I|[]]]; injection I as <- <-; (split; [|apply M; reflexivity]).
    + apply (p_host (bs "127.0.0.1") (bs "8000") 8000); [discriminate|apply K; reflexivity|now apply N].
    + apply (p_port (bs "8001") 8001). now apply N.
  - cbn [setting_ok]. split; [right; now left|]. split; [discriminate|reflexivity].
  - cbn [setting_ok]. split; [right; now left|discriminate].
  - split; [discriminate|]. split; [|discriminate]. intros s t [I|[I|[I|[]]]]; injection I as <- <-; (split; [|apply M; reflexivity]).
    + apply (p_v6 (bs "::1") (bs "80") 80); [discriminate|apply K; reflexivity|now apply N].
    + apply p_name. apply M. reflexivity.
    + apply (p_port (bs "8001") 8001). now apply N.
  - exact I.
  - discriminate.
Qed.
(** A bind that is none of these ends the program: there is no number after the last colon. *)
Theorem c70_bad h t ps : ~ In "\"%char h -> ~ In "\"%char t -> ~ In ":"%char t -> py_int t = None -> bind_one (h ++ bs ":" ++ t) ps = None.
Proof.
  intros Nh Nt Nc E. unfold bind_one. change (bs ":" ++ t) with (":"%char :: t). rewrite no_backslash. 2: { rewrite in_app_iff. cbn [In]. intros [I|[I|I]]; [easy|discriminate I|easy]. }
  rewrite memb_mid. cbn [andb]. rewrite rsplit1_last by exact Nc. now rewrite E.
Qed.
Print Assumptions c70_bad.
(** So the path of a Unix socket with a colon cannot be given. *)
Theorem c70_colon_refuted : main 1 (map bs ["tremolo"; "--bind"; "/tmp/a:b.sock"; "example:app"]%string) = None.
Proof. vm_compute. reflexivity. Qed.
Print Assumptions c70_colon_refuted.

(** Sockets. A name that does not resolve, such as one with a typing error, is taken as the path of a Unix socket: nothing listens on the port. *)
Theorem c70_typo_refuted resolves port : resolves (bs "exmaple.com") = false -> sock_for resolves (bs "exmaple.com") port = Unix (bs "exmaple.com.sock").
Proof. intros H. unfold sock_for. rewrite H. reflexivity. Qed.
Print Assumptions c70_typo_refuted.
(** Any other host has a socket of that host and port, and :: is for IPv4 too. *)
Theorem c70_sock resolves host port : resolves host = true ->
  match sock_for resolves host port with Inet h n => h = host /\ n = port /\ ~ In ":"%char h | Inet6 dual h n => h = host /\ n = port /\ In ":"%char h /\ (dual = true <-> h = bs "::") | Unix _ => False end.
Proof.
  intros H. unfold sock_for. rewrite H. destruct (memb ":"%char host) eqn:E.
  - apply memb_In in E. split; [reflexivity|]. split; [reflexivity|]. split; [exact E|]. now rewrite beqb_eq.
  - split; [reflexivity|]. split; [reflexivity|]. intros I. apply memb_In in I. congruence.
Qed.
Print Assumptions c70_sock.
(** The processes that bind the path, any number of them, never remove a file that is not empty. *)
Theorem c70_files who n : binds who (File (S n)) = File (S n).
Proof. apply binds_other. Qed.
Print Assumptions c70_files.
(** Without such a file, the socket at the path is that of the last one that bound it. *)
Theorem c70_last who w x : (forall n, x <> File (S n)) -> binds (who ++ [w]) x = Sock w.
Proof. apply binds_last. Qed.
Print Assumptions c70_last.
(** So of several workers (here 1 and 2; 0 is the main process) only the last one can be connected to. *)
Theorem c70_workers_refuted : exists who w, In w who /\ w <> 0 /\ binds (0 :: who) Nothing <> Sock w /\ List.length who = 2.
Proof. exists [1; 2], 1. split; [now left|]. split; [discriminate|]. split; [discriminate|reflexivity]. Qed.
Print Assumptions c70_workers_refuted.
(** An empty file that is no socket is removed. *)
Theorem c70_empty_refuted : binds [0] (File 0) = Sock 0.
Proof. reflexivity. Qed.
Print Assumptions c70_empty_refuted.
(** And the socket stays when the server has stopped, though close_sock is to remove it. *)
Theorem c70_close_refuted shutdown path w : close_unix shutdown path (Sock w) = Sock w.
Proof. apply close_keeps. Qed.
Print Assumptions c70_close_refuted.
(** The number of workers that listen() gives is not limited to the processors, and may be 0. *)
Theorem c70_workers_limit_refuted : exists calls ps, run 2 None (PInt 0) (VBool true) 1 [] (fold_left call_listen calls []) = Ok ps /\ map n_workers ps = [0; 100]%Z.
Proof.
  exists [(PInt 8000, None, [(bs "worker_num", VInt 0)]); (PInt 8001, None, [(bs "worker_num", VInt 100)])].
  eexists. split; [vm_compute; reflexivity|]. vm_compute. reflexivity.
Qed.
Print Assumptions c70_workers_limit_refuted.
(** A path as the port of run() raises TypeError: the message of line 692 wants a number. *)
Theorem c70_path_refuted path cpus reuse : run cpus (Some (bs "localhost")) (PPath path) reuse 1 [] [] = Raise TypeError.
Proof. unfold run. vm_compute run_kwargs. reflexivity. Qed.
Print Assumptions c70_path_refuted.

(** ** C71 *)
(** The command line, as in C70: every listener of it has every documented option as it was given last, else its documented default. *)
Theorem c71_main cpus prog l app : no_dash prog -> no_dash app -> app <> prog -> app <> [] -> Forall item_ok l ->
  (1 <= match given l (bs "worker_num") with Some (OInt n) => n | _ => 1 end)%Z ->
  exists ps, ps <> [] /\ main cpus (prog :: flat_map item_words l ++ [app]) = Some (Ok ps) /\ forall p, In p ps ->
    (forall name use d, In (name, use, d) documented -> use p = Some (match given l (bs name) with Some v => value_of v | None => d end)) /\
    (* the log level, in capitals or not *)
    (forall name n, In (name, n) levels -> match given l (bs "log_level") with Some (OStr s) => map capital s | _ => bs "DEBUG" end = bs name -> log_level (n_opts p) = Ok n) /\
    (* TLS if there is a certificate or a key; with these *)
    match given_ssl l (bs "cert"), given_ssl l (bs "key") with
    | None, None => k_tls (worker_of (n_opts p)) = None
    | c, k => k_tls (worker_of (n_opts p)) = Some (match c with Some c => c | None => [] end, k)
    end /\
    (* the name of the server *)
    k_name (worker_of (n_opts p)) = VStr (match given l (bs "server_name") with Some (OStr []) => [] | Some (OStr s) => s ++ bs " (ASGI)" | _ => bs "Tremolo (ASGI)" end) /\
    (* the application and the loop *)
    dget beqb (bs "app") (n_opts p) = Some (VStr app) /\
    (forall s, given l (bs "loop") = Some (OStr s) -> ~ In "."%char s -> loop_of (n_opts p) = Ok (match s with [] => bs "asyncio" | _ => s end, bs "new_event_loop")) /\
    (forall m c, given l (bs "loop") = Some (OStr (m ++ bs "." ++ c)) -> ~ In "."%char c ->
       loop_of (n_opts p) = Ok (match m with [] => bs "asyncio" | _ => m end, match c with [] => bs "new_event_loop" | _ => c end)) /\
    (given l (bs "loop") = None -> loop_of (n_opts p) = Ok (bs "asyncio", bs "new_event_loop")).
Proof.
  intros P A Np Ne F W. destruct (main_lemma cpus prog l app P A Np Ne F W) as (ps & ssl & E & Gs & R).
  exists ps. split.
  { intros ->. inversion R as [H|]. assert (map bare (bound_targets l) ++ own (given_host l) (given_portn l) <> []) as N.
    { destruct (bound_or_host l) as [B|[B|(i & I & N)]].
      - unfold own. destruct (given_host l); [|easy]. now destruct (map bare (bound_targets l)).
      - destruct (bound_targets l); [easy|discriminate].
      - rewrite Forall_forall in F. now destruct (N (F i I)). }
    destruct (map bare (bound_targets l) ++ own (given_host l) (given_portn l)) as [|a r]; [easy|]. cbn [firsts] in H. destruct (in_dec target_dec (k_target a) []) as [[]|]. discriminate. }
  split; [exact E|]. intros p Ip.
  assert (exists a, In a (firsts [] (map bare (bound_targets l) ++ own (given_host l) (given_portn l))) /\ forall k, dget beqb k (n_opts p) =
     if beqb k (bs "log_level") then match given l k with Some (OStr s) => Some (VStr (map capital s)) | _ => Some (VStr (bs "DEBUG")) end
     else if beqb k (bs "reuse_port") then Some (VBool true) else if reserved k then None else main_says l ssl app k) as (_ & _ & G).
  { clear -R Ip. induction R as [|a q la ps Q R IH]; [destruct Ip|]. destruct Ip as [<-|Ip]; [exists a; split; [now left|apply Q]|]. destruct (IH Ip) as (b & I & H). exists b. split; [now right|exact H]. }
  assert (dget beqb (bs "loop") (n_opts p) = match given l (bs "loop") with Some v => Some (value_of v) | None => None end) as Gl by (rewrite G; reflexivity).
  split; [intros name use d I; exact (documented_use l ssl app p name use d I G)|].
  split.
  { intros name n I En. apply (level_use _ name n I). rewrite G. cbn iota. rewrite beqb_refl. rewrite <- En. now destruct (given l (bs "log_level")) as [[| |]|]. }
  assert (dget beqb (bs "app") (n_opts p) = Some (VStr app)) as Ga by (rewrite G; reflexivity).
  split.
  { assert (getd (n_opts p) "ssl" VNone = VDict ssl) as Es.
    { unfold getd. rewrite G. change (beqb (bs "ssl") (bs "log_level")) with false. change (beqb (bs "ssl") (bs "reuse_port")) with false. change (reserved (bs "ssl")) with false. cbn iota.
      unfold main_says. change (beqb (bs "ssl") (bs "app")) with false. cbn iota. rewrite (given_absent l (bs "ssl") F) by (now left). now rewrite beqb_refl. }
    unfold worker_of. cbn [k_tls]. rewrite Es. pose proof (Gs (bs "cert")) as G1. pose proof (Gs (bs "key")) as G2.
    destruct ssl as [|[k v] ssl].
    - cbn [dget] in G1, G2. now rewrite <- G1, <- G2.
    - rewrite G1, G2. destruct (given_ssl l (bs "cert")) eqn:E1; [reflexivity|]. destruct (given_ssl l (bs "key")) eqn:E2; [reflexivity|]. exfalso.
      (* a key of the dict is one of both *)
      pose proof (Gs k) as G3. cbn [dget] in G3. rewrite beqb_refl in G3.
      assert (forall acc, acc = None -> fold_left (fun acc i => match i with Set_ x => match says_ssl k x with Some v => Some v | None => acc end | Bind _ => acc end) l acc <> None -> k = bs "cert" \/ k = bs "key") as K.
      { clear. induction l as [|i l IH]; intros acc Ea; cbn [fold_left]; [easy|]. destruct (match i with Set_ x => match says_ssl k x with Some v => Some v | None => acc end | Bind _ => acc end) eqn:Ei; [|now apply IH].
        intros _. destruct i as [x|]; [|congruence]. destruct x; cbn [says_ssl] in Ei; try congruence; destruct (beqb k _) eqn:B; try congruence; apply beqb_eq in B; auto. }
      destruct (K None eq_refl) as [->| ->]; [unfold given_ssl in G3; congruence| |]; congruence. }
  split.
  { unfold worker_of. cbn [k_name]. assert (getd (n_opts p) "app" VNone = VStr app) as -> by (unfold getd; now rewrite Ga). unfold getd. rewrite G.
    change (beqb (bs "server_name") (bs "log_level")) with false. change (beqb (bs "server_name") (bs "reuse_port")) with false. change (reserved (bs "server_name")) with false. cbn iota.
    unfold main_says. change (beqb (bs "server_name") (bs "app")) with false. change (beqb (bs "server_name") (bs "ssl")) with false. cbn iota.
    destruct (given l (bs "server_name")) as [v|] eqn:En; [|reflexivity]. destruct (given_text l _ _ F (or_intror (or_intror (or_introl eq_refl))) En) as (s & ->).
    cbn [value_of]. destruct s; reflexivity. }
  split; [exact Ga|]. split; [|split].
  - intros s El. rewrite El in Gl. now apply loop_plain.
  - intros m c El. rewrite El in Gl. now apply loop_class.
  - intros El. rewrite El in Gl. unfold loop_of, getd. rewrite Gl. vm_compute. reflexivity.
Qed.
Print Assumptions c71_main.
Example c71_example : given ex_items (bs "log_level") = Some (OStr (bs "info")) /\ given_ssl ex_items (bs "cert") = Some (bs "c.pem") /\
  match main 2 (bs "tremolo" :: flat_map item_words ex_items ++ [bs "example:app"]) with
  | Some (Ok (p :: _)) => of_conn "ws" p = Some (VBool false) /\ of_conn "buffer_size" p = Some (VInt 16384) /\ log_level (n_opts p) = Ok 20%Z /\
      k_tls (worker_of (n_opts p)) = Some (bs "c.pem", None)
  | _ => False
  end.
Proof. vm_compute. auto 10. Qed.
(** The same for options of run() and of listen(): what C70 says of the options of a listener decides what its connections use. *)
Theorem c71_options p name use d : In (name, use, d) documented -> use p = Some (match dget beqb (bs name) (n_opts p) with Some v => v | None => d end).
Proof.
  intros I. cbn [documented In] in I. repeat (destruct I as [I|I]; [injection I as <- <- <-; reflexivity|]). destruct I.
Qed.
Print Assumptions c71_options.
(** A log level in small letters is good for run() and for the command line, but not for listen(): the worker fails with TypeError. *)
Theorem c71_level_refuted : exists ps p, run 1 None (PInt 0) (VBool true) 1 [(bs "log_level", VStr (bs "info"))] (fold_left call_listen [(PInt 8000, None, [(bs "log_level", VStr (bs "info"))])] []) = Ok ps /\
  In p ps /\ log_level (n_opts p) = Raise TypeError.
Proof. eexists. eexists. split; [vm_compute; reflexivity|]. split; [now left|]. vm_compute. reflexivity. Qed.
Print Assumptions c71_level_refuted.

(** ** C72 *)
(** The comment of tremolo.py:281-283. name:attr, where the name is a module or a path of one, with or without .py. *)
Theorem c72_name abspath path dir m ext attr : ~ In "\"%char (path ++ attr) -> ~ In ":"%char attr -> abspath path = dir ++ bs "/" ++ m ++ ext -> dir <> [] -> ~ In "/"%char m ->
  ext = [] /\ ~ In "."%char m \/ ext = bs ".py" /\ (exists c, In c m /\ c <> "."%char) ->
  locate abspath (path ++ bs ":" ++ attr) = (dir, m, attr).
Proof.
  intros Nb Nc Ea Nd Ns E. change (bs ":" ++ attr) with (":"%char :: attr). rewrite locate_attr by assumption. rewrite Ea. change (bs "/" ++ m ++ ext) with ("/"%char :: (m ++ ext)).
  assert (~ In "/"%char (m ++ ext) /\ splitext (m ++ ext) = m) as [N1 E1].
  { destruct E as [[-> N]|[-> N]]; [rewrite app_nil_r; split; [exact Ns|now apply splitext_none]|]. split; [|now apply splitext_py].
    rewrite in_app_iff. intros [I|I]; [easy|]. cbn in I. intuition discriminate. }
  rewrite rsplit1_last by exact N1. rewrite E1. now destruct dir.
Qed.
Print Assumptions c72_name.
(** Without an attribute it is app. *)
Theorem c72_default abspath path dir m ext : ~ In ":"%char path -> abspath path = dir ++ bs "/" ++ m ++ ext -> dir <> [] -> ~ In "/"%char m ->
  ext = [] /\ ~ In "."%char m \/ ext = bs ".py" /\ (exists c, In c m /\ c <> "."%char) ->
  locate abspath path = (dir, m, bs "app").
Proof.
  intros Nc Ea Nd Ns E. rewrite locate_plain by assumption. rewrite Ea. change (bs "/" ++ m ++ ext) with ("/"%char :: (m ++ ext)).
  assert (~ In "/"%char (m ++ ext) /\ splitext (m ++ ext) = m) as [N1 E1].
  { destruct E as [[-> N]|[-> N]]; [rewrite app_nil_r; split; [exact Ns|now apply splitext_none]|]. split; [|now apply splitext_py].
    rewrite in_app_iff. intros [I|I]; [easy|]. cbn in I. intuition discriminate. }
  rewrite rsplit1_last by exact N1. rewrite E1. now destruct dir.
Qed.
Print Assumptions c72_default.
(** A relative path is in the working directory /srv; an absolute one is as it is. *)
Definition ex_abspath (s : bytes) : bytes := match s with "/"%char :: _ => s | _ => bs "/srv/" ++ s end.
Example c72_example : map (locate ex_abspath) [bs "example:app"; bs "/path/to/module.py"; bs "/path/to/module.py:myapp"] =
  [(bs "/srv", bs "example", bs "app"); (bs "/path/to", bs "module", bs "app"); (bs "/path/to", bs "module", bs "myapp")].
Proof. vm_compute. reflexivity. Qed.
(** A module of a package, by its dotted name, is not found: what is after the last dot is taken for an extension, and the package itself is imported. *)
Theorem c72_dotted_refuted : locate ex_abspath (bs "package.module:app") = (bs "/srv", bs "package", bs "app").
Proof. vm_compute. reflexivity. Qed.
Print Assumptions c72_dotted_refuted.
