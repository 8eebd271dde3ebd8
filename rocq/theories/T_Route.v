(** Theorems about routing (C49, C50). *)
From Verif Require Import PyBytes PyBytesFacts PyBytesFacts2 PyRe M_Route S_Route P_Re P_Route.

(** C49. Routes registered in this order as literal paths (each with a handler, a number), and a URL with a path p
    other than the root: the first of the routes for that path is chosen, and if there is none, none is chosen. The
    URL's query string and the slashes around the path do not matter. Newlines do not occur in the URL of a
    request line. Missing from the full statement: paths with a character special in
    regular expressions, and which of several routes for the root wins. *)
Theorem c49_literal_partial : forall (regs : list (bytes * nat)) (paths : list bytes) (url p : bytes),
  Forall2 (fun r p => literal (fst r) p) regs paths -> has_path url p -> p <> [] -> ~ In LF url ->
  match List.find (fun rp => beqb (snd rp) p) (combine regs paths) with
  | Some ((_, func), _) => exists m, fst (choose search (add_routes regs) url) = Found func m None
  | None => fst (choose search (add_routes regs) url) = Missing
  end.
Proof.
  intros regs paths url p R HP Np NL. pose proof (choose_literal regs paths url p R HP Np NL) as C.
  destruct (List.find _ _) as [[[w f] p']|]; [destruct C as [m C]; exists m; now rewrite C|now rewrite C].
Qed.
Print Assumptions c49_literal_partial.
Example c49_literal_case :
  let regs := [(bs "/user/list/", 5); (bs "", 6); (bs "user/list", 7); (bs "/user/add", 8)]%nat in
  Forall2 (fun r p => literal (fst r) p) regs [bs "user/list"; []; bs "user/list"; bs "user/add"] /\
  has_path (bs "//user/list/?q=/user/add") (bs "user/list") /\ ~ In LF (bs "//user/list/?q=/user/add").
Proof.
  cbv zeta. assert (forall p, forallb (fun c => negb (memb c special)) p = true -> forall c, In c p -> ~ In c special) as K.
  { intros p H c I. rewrite forallb_forall in H. specialize (H c I). intros J. destruct (memb c special) eqn:E; [discriminate|]. apply memb_notIn in E. contradiction. }
  assert (forall p, negb (memb "?"%char p) && negb (Ascii.eqb (hd " "%char p) "/"%char) && negb (Ascii.eqb (last p " "%char) "/"%char) = true -> bare p) as B.
  { intros p H. apply andb_prop in H as [H H3]. apply andb_prop in H as [H1 H2]. split; [|split].
    - destruct (memb "?"%char p) eqn:E; [discriminate|]. now apply memb_notIn.
    - intros E. rewrite E in H2. discriminate.
    - intros E. rewrite E in H3. discriminate. }
  split; [|split; [split; [now apply B|]|apply memb_notIn; reflexivity]].
  - repeat apply Forall2_cons; [..|apply Forall2_nil]; (split; [apply B; reflexivity|]; split; [apply K; reflexivity|]).
    + now exists 1%nat, 1%nat.
    + now exists 0%nat, 0%nat.
    + now exists 0%nat, 0%nat.
    + now exists 1%nat, 0%nat.
  - exists 1%nat, 1%nat, (bs "?q=/user/add"). split; [reflexivity|]. right. now eexists.
Qed.
Example c49_literal_run :
  let regs := [(bs "/user/list/", 5); (bs "", 6); (bs "user/list", 7); (bs "/user/add", 8)]%nat in
  map (fun u => match fst (choose search (add_routes regs) (bs u)) with Found f _ _ => Some f | Missing => None end)
    ["//user/list/?q=/user/add"; "/user/add"; "/user/add2"; "/"; "/user"]%string = [Some 5; Some 8; None; Some 6; None]%nat.
Proof. vm_compute. reflexivity. Qed.

(** The root: some handler is chosen for every URL whose path has only slashes; the one registered last. *)
Theorem c49_root_partial : forall (regs : list (bytes * nat)) (paths : list bytes) (url : bytes),
  Forall2 (fun r p => literal (fst r) p) regs paths -> has_path url [] -> ~ In LF url ->
  let last_root := List.find (fun rp => beqb (snd rp) []) (rev (combine regs paths)) in
  exists m, fst (choose search (add_routes regs) url) = Found (match last_root with Some ((_, func), _) => func | None => index end) m None.
Proof. exact root_last. Qed.
Print Assumptions c49_root_partial.
(** A URL which does not begin with a slash has no path; nothing is chosen for it. *)
Theorem c49_no_slash : forall (regs : list (bytes * nat)) (paths : list bytes) (url : bytes),
  Forall2 (fun r p => literal (fst r) p) regs paths -> hd " "%char url <> "/"%char -> ~ In LF url ->
  fst (choose search (add_routes regs) url) = Missing.
Proof. intros regs paths url R H NL. now rewrite (choose_other regs paths url R H NL). Qed.
Print Assumptions c49_no_slash.
Example c49_no_slash_case : fst (choose search (add_routes [(bs "a/b", 3%nat)]) (bs "a/b")) = Missing /\ fst (choose search (add_routes [(bs "*", 3%nat)]) (bs "*")) = Missing.
Proof. split; vm_compute; reflexivity. Qed.

(** The full statement is false: of two routes for the root the second wins, *)
Theorem c49_root_refuted : exists (regs : list (bytes * nat)) (url : bytes),
  regs = [(bs "/", 1%nat); (bs "/", 2%nat)] /\ has_path url [] /\
  exists m, fst (choose search (add_routes regs) url) = Found 2 m None.
Proof.
  exists [(bs "/", 1%nat); (bs "/", 2%nat)], (bs "/"). split; [reflexivity|]. split.
  - split; [split; [now intros []|split; discriminate]|]. exists 0%nat, 0%nat, []. split; [reflexivity|now left].
  - eexists. vm_compute. reflexivity.
Qed.
Print Assumptions c49_root_refuted.
(** and a dot in a path is any character: the route for /v1.0/x is chosen for /v1-0/x?, and hides a route registered
    for exactly that path. *)
Theorem c49_dot_refuted : exists (regs : list (bytes * nat)) (url : bytes),
  regs = [(bs "/x/v1.0", 1%nat); (bs "/x/v1-0", 2%nat)] /\ has_path url (bs "x/v1-0") /\
  exists m, fst (choose search (add_routes regs) url) = Found 1 m None.
Proof.
  exists [(bs "/x/v1.0", 1%nat); (bs "/x/v1-0", 2%nat)], (bs "/x/v1-0"). split; [reflexivity|]. split.
  - split; [split; [apply memb_notIn; reflexivity|split; discriminate]|]. exists 0%nat, 0%nat, []. split; [reflexivity|now left].
  - eexists. vm_compute. reflexivity.
Qed.
Print Assumptions c49_dot_refuted.

(** C50. Over the life of a worker, whatever its routes (regular expressions or not), requests are begun and finished
    in any order, by handlers that return or raise: two requests with the same URL get the same handler and the same
    path parameters. [wrun] lists the requests begun, in order, with what was chosen. Missing
    from the full statement: that another worker, or the same one after another history, chooses the same. *)
Theorem c50_worker_partial : forall {M} (search : bytes -> bytes -> option M) (t0 : table) tr s (url : bytes) (c1 c2 : choice),
  wrun search (t0, []) tr s -> In (url, c1) tr -> In (url, c2) tr ->
  match c1, c2 with
  | Found f1 m1 _, Found f2 m2 _ => f1 = f2 /\ m1 = m2
  | Missing, Missing => True
  | _, _ => False
  end.
Proof.
  intros M sr t0 tr s url c1 c2 R I1 I2. pose proof (life_same sr _ _ _ _ _ _ R I1 I2) as E.
  destruct c1, c2; cbn [handler_of] in E; try discriminate E; [|exact I]. now injection E.
Qed.
Print Assumptions c50_worker_partial.
(** With literal routes only, the choice is a function of the routes and the URL, whatever was served. *)
Theorem c50_literal : forall {M} (search : bytes -> bytes -> option M) (regs : list (bytes * nat)) tr s (url : bytes) (c : choice),
  (forall r, In r regs -> hd " "%char (fst r) <> "^"%char /\ last (fst r) " "%char <> "$"%char) ->
  wrun search (add_routes regs, []) tr s -> In (url, c) tr -> c = fst (choose search (add_routes regs) url).
Proof. exact @life_literal. Qed.
Print Assumptions c50_literal.
Definition ex_routes : list (bytes * nat) := [(bs "/a/b", 4); (bs "^/\w+/\d+$", 5); (bs "^/b/(?P<n>\w+)$", 6)]%nat.
Definition ex_routes1 : list (bytes * nat) := [(bs "^/\w+/\d+$", 5%nat)].
Definition ex_routes2 : list (bytes * nat) := [(bs "^/a$", 4); (bs "^/b$", 5); (bs "^/c$", 6)]%nat.
Ltac begin R u := let R' := fresh in pose proof (wr_begin _ _ _ _ _ _ R (wbegin search _ _ u)) as R'; clear R; rename R' into R;
  match type of R with wrun _ _ ?tr ?s => let tr' := eval vm_compute in tr in let s' := eval vm_compute in s in change (wrun search (add_routes ex_routes, []) tr' s') in R || change (wrun search (add_routes ex_routes1, []) tr' s') in R || change (wrun search (add_routes ex_routes2, []) tr' s') in R end.
Ltac finish_at R l1 i l2 := let R' := fresh in pose proof (wr_end _ _ _ _ _ _ R (wend search _ l1 i l2 true)) as R'; clear R; rename R' into R;
  match type of R with wrun _ _ ?tr ?s => let s' := eval vm_compute in s in change (wrun search (add_routes ex_routes, []) tr s') in R || change (wrun search (add_routes ex_routes1, []) tr s') in R || change (wrun search (add_routes ex_routes2, []) tr s') in R end.
(** Five requests, three of them at once. *)
Example c50_case : exists tr s, wrun search (add_routes ex_routes, []) tr s /\
  map (fun x => match snd x with Found f _ _ => Some f | Missing => None end) tr = [Some 5; Some 4; Some 6; None; Some 5]%nat /\
  map fst tr = [bs "/x/1"; bs "/a/b"; bs "/b/1"; bs "/a/1"; bs "/x/1"] /\ t_regex (fst s) = [].
Proof.
  pose proof (wr0 search (add_routes ex_routes, [])) as R.
  begin R (bs "/x/1"). begin R (bs "/a/b"). begin R (bs "/b/1"). finish_at R [0%nat] 1%nat (@nil nat). begin R (bs "/a/1"). begin R (bs "/x/1"). finish_at R (@nil nat) 0%nat (@nil nat).
  eexists _, _. split; [exact R|]. vm_compute. repeat split.
Qed.
(** The full statement is false: the route ^/\w+/\d+$ answers /a/1 in a fresh worker, and not in one that has served
    /b/2, for the first request that matches a regular expression removes it from the table. *)
Theorem c50_refuted : exists (regs : list (bytes * nat)) (url1 url2 : bytes) tr s,
  let t0 := add_routes regs in
  (exists m d, fst (choose search t0 url2) = Found 5 m d) /\
  wrun search (t0, []) tr s /\ map fst tr = [url1; url2] /\ nth 1 (map snd tr) (Found 0 [] None) = Missing.
Proof.
  exists ex_routes1, (bs "/b/2"), (bs "/a/1").
  pose proof (wr0 search (add_routes ex_routes1, [])) as R. begin R (bs "/b/2"). finish_at R (@nil nat) 0%nat (@nil nat). begin R (bs "/a/1").
  eexists _, _. cbv zeta. split; [eexists _, _; vm_compute; reflexivity|]. split; [exact R|]. vm_compute. repeat split.
Qed.
Print Assumptions c50_refuted.
(** Requests at the same time: /a and /b are served together, each removes by the position it had, and the route for /c,
    which has never been requested, is gone while ^/b$ is still there. *)
Theorem c50_stale_refuted : exists (regs : list (bytes * nat)) tr s,
  wrun search (add_routes regs, []) tr s /\ map fst tr = [bs "/a"; bs "/b"; bs "/c"] /\
  (exists m d, fst (choose search (add_routes regs) (bs "/c")) = Found 6 m d) /\ nth 2 (map snd tr) (Found 0 [] None) = Missing.
Proof.
  exists ex_routes2. pose proof (wr0 search (add_routes ex_routes2, [])) as R. begin R (bs "/a"). begin R (bs "/b"). finish_at R (@nil nat) 0%nat [1%nat]. finish_at R (@nil nat) 1%nat (@nil nat). begin R (bs "/c").
  eexists _, _. split; [exact R|]. split; [reflexivity|]. split; [eexists _, _; vm_compute; reflexivity|reflexivity].
Qed.
Print Assumptions c50_stale_refuted.
