(** C65: what decorators register. *)
From Verif Require Import PyBytes PyBytesFacts PyDictFacts PyExn M_App S_App P_App.

Section T.
Context {V : Type}.
Implicit Types (cs : list (call V)) (f : pyfun V).

(** The options of a function are the defaults of its parameters and nothing else. *)
Theorem c65_options f params defaults : py_function f params defaults ->
  exists o, getoptions f = Ok o /\ forall name v, dget beqb name o = Some v <-> default_of params defaults name v.
Proof. apply options_ok. Qed.

(** After any calls on a new application, the middlewares of a kind are those given for it, in this order, each with the defaults of its function as options;
    there are no other kinds. *)
Theorem c65_middlewares e400 e404 e500 o404 cs : Forall ok_call cs -> let a := snd (app_calls (app_new e400 e404 e500 o404) cs) in
  (forall name, In name [bs "connect"; bs "close"; bs "request"; bs "response"] ->
     exists l, dget beqb name (a_middlewares a) = Some l /\ Forall2 (fun m f => fst m = f_id f /\ has_defaults f (snd m)) l (middlewares_given name cs)) /\
  (forall name, ~ In name [bs "connect"; bs "close"; bs "request"; bs "response"] ->
     dget beqb name (a_middlewares a) = None /\ forall f, ok_fun f -> app_call a (Middleware name f) = (RExc ValueError, a)).
Proof.
  intros F a. destruct (mid_all e400 e404 e500 o404 cs F) as (H & Hn). split; [exact H|]. intros name N. specialize (Hn name N). split; [exact Hn|].
  intros f Of. destruct (getoptions_has f Of) as (o & E & _). cbn [app_call]. unfold after in Hn. fold a in Hn. now rewrite E, Hn.
Qed.
(** The same of the hooks of workers; these are called without options. *)
Theorem c65_events e400 e404 e500 o404 cs : Forall ok_call cs -> let a := snd (app_calls (app_new e400 e404 e500 o404) cs) in
  (forall name, In name [bs "worker_start"; bs "worker_stop"] -> dget beqb name (a_events a) = Some (events_given name cs)) /\
  (forall name, ~ In name [bs "worker_start"; bs "worker_stop"] ->
     dget beqb name (a_events a) = None /\ forall f, app_call a (Event name f) = (RExc KeyError, a)).
Proof.
  intros F a. destruct (ev_all e400 e404 e500 o404 cs F) as (H & Hn). split; [exact H|]. intros name N. specialize (Hn name N). split; [exact Hn|].
  intros f. cbn [app_call]. unfold after in Hn. fold a in Hn. now rewrite Hn.
Qed.
(** A registration that is accepted returns the function. *)
Theorem c65_returns e400 e404 e500 o404 cs f : Forall ok_call cs -> ok_fun f -> let a := snd (app_calls (app_new e400 e404 e500 o404) cs) in
  (forall name, In name [bs "connect"; bs "close"; bs "request"; bs "response"] -> fst (app_call a (Middleware name f)) = RFun (f_id f)) /\
  (forall name, In name [bs "worker_start"; bs "worker_stop"] -> fst (app_call a (Event name f)) = RFun (f_id f)) /\
  (forall code, fst (app_call a (Error code f)) = RFun (f_id f)).
Proof.
  intros F Of a. destruct (getoptions_has f Of) as (o & E & _). split; [|split].
  - intros name I. destruct (proj1 (mid_all e400 e404 e500 o404 cs F) name I) as (l & G & _). unfold after in G. fold a in G. cbn [app_call]. now rewrite E, G.
  - intros name I. pose proof (proj1 (ev_all e400 e404 e500 o404 cs F) name I) as G. unfold after in G. fold a in G. cbn [app_call]. now rewrite G.
  - intros code. cbn [app_call]. rewrite E. now destruct (existsb _ _).
Qed.
(** Errors 400, 404 and 500 have each one handler, the last that was given (or the one of the framework); an option has the value of the last handler that has it. *)
Theorem c65_errors_partial e400 e404 e500 o404 cs : Forall ok_call cs -> let a := snd (app_calls (app_new e400 e404 e500 o404) cs) in
  exists x400 x404 x500, a_errors a = [x400; x404; x500] /\
    Forall (fun '(code, e0, o0, x) => fst (fst x) = code /\ snd (fst x) = last (map f_id (errors_given code cs)) e0 /\
      exists os, Forall2 has_defaults (errors_given code cs) os /\ forall name, last_value name o0 os (dget beqb name (snd x)))
      [(400%Z, e400, [], x400); (404%Z, e404, o404, x404); (500%Z, e500, [], x500)].
Proof. intros F a. destruct (err_all e400 e404 e500 o404 cs F) as (x & y & z & E & Hx & Hy & Hz). exists x, y, z. split; [exact E|]. constructor; [exact Hx|constructor; [exact Hy|constructor; [exact Hz|constructor]]]. Qed.
(** A handler of any other error is taken without a word and never used. *)
Theorem c65_errors_ignored e400 e404 e500 o404 cs f code : Forall ok_call cs -> ~ In code [400; 404; 500]%Z -> let a := snd (app_calls (app_new e400 e404 e500 o404) cs) in
  app_call a (Error code f) = (RFun (f_id f), a).
Proof.
  intros F N a. destruct (err_all e400 e404 e500 o404 cs F) as (x & y & z & E & (Hx & _) & (Hy & _) & (Hz & _)). unfold after in E. fold a in E.
  cbn [app_call]. rewrite E. cbn [existsb]. rewrite Hx, Hy, Hz. cbn [In] in N.
  destruct (Z.eqb_spec code 400); [subst; tauto|]. destruct (Z.eqb_spec code 404); [subst; tauto|]. destruct (Z.eqb_spec code 500); [subst; tauto|]. reflexivity.
Qed.
(** An address is listened on with the options given first; listen tells whether the address is new. *)
Theorem c65_listen e400 e404 e500 o404 cs p host : Forall ok_call cs -> let a := snd (app_calls (app_new e400 e404 e500 o404) cs) in
  first_on (address p host) cs (dget okeqb (port_key p host) (a_ports a)) /\
  forall o, exists b, fst (app_call a (Listen p host o)) = RBool b /\ (b = true <-> nobody_on (address p host) cs).
Proof.
  intros F a. split.
  - pose proof (ports_all e400 e404 e500 o404 cs F (port_key p host)) as E. unfold after in E. fold a in E. rewrite E. apply first_on_ok.
  - intros o. eexists. split; [exact (listen_ret e400 e404 e500 o404 cs p host o F)|]. rewrite <- first_none. destruct (first_listener _ cs); split; congruence.
Qed.
(** Whatever is registered or refused, nothing that was registered before is lost but error handlers that are replaced. *)
Theorem c65_kept e400 e404 e500 o404 cs c : Forall ok_call cs -> ok_call c -> let a := snd (app_calls (app_new e400 e404 e500 o404) cs) in let a' := snd (app_call a c) in
  (forall name l, dget beqb name (a_middlewares a) = Some l -> exists l', dget beqb name (a_middlewares a') = Some (l ++ l')) /\
  (forall name l, dget beqb name (a_events a) = Some l -> exists l', dget beqb name (a_events a') = Some (l ++ l')) /\
  (forall k o, dget okeqb k (a_ports a) = Some o -> dget okeqb k (a_ports a') = Some o).
Proof.
  intros F Oc a a'. subst a'. clearbody a. destruct c as [p host o|code f|name f|name f]; cbn [app_call].
  - destruct (dmem okeqb (port_key p host) (a_ports a)) eqn:G; unfold dmem in G; cbn [snd a_middlewares a_events a_ports];
      (split; [intros n l E; exists []; now rewrite app_nil_r|split; [intros n l E; exists []; now rewrite app_nil_r|]]); [easy|].
    intros k o' E. rewrite kget_set. destruct (okeqb_spec k (port_key p host)) as [->|]; [now rewrite E in G|exact E].
  - destruct (existsb _ _); [destruct (getoptions f)|]; cbn [snd a_middlewares a_events a_ports];
      (split; [intros n l E; exists []; now rewrite app_nil_r|split; [intros n l E; exists []; now rewrite app_nil_r|easy]]).
  - destruct (getoptions f) as [o|]; [destruct (dget beqb name (a_middlewares a)) as [l0|] eqn:G|]; cbn [snd a_middlewares a_events a_ports];
      (split; [intros n l E|split; [intros n l E; exists []; now rewrite app_nil_r|easy]]); try (exists []; now rewrite app_nil_r).
    rewrite dget_dset. destruct (beqb n name) eqn:B; [|exists []; now rewrite app_nil_r]. apply beqb_eq in B as ->. exists [(f_id f, o)]. congruence.
  - destruct (dget beqb name (a_events a)) as [l0|] eqn:G; cbn [snd a_middlewares a_events a_ports];
      (split; [intros n l E; exists []; now rewrite app_nil_r|split; [intros n l E|easy]]); try (exists []; now rewrite app_nil_r).
    rewrite dget_dset. destruct (beqb n name) eqn:B; [|exists []; now rewrite app_nil_r]. apply beqb_eq in B as ->. exists [f_id f]. congruence.
Qed.
End T.

(** def check(request, rate=5, **server), def page(a=1, b=2), def other(b=3). *)
Definition ex_check : pyfun Z := mkFun 10 [bs "request"; bs "rate"; bs "server"; bs "x"] 2 (Some [5%Z]).
Definition ex_page : pyfun Z := mkFun 11 [bs "a"; bs "b"] 2 (Some [1; 2]%Z).
Definition ex_other : pyfun Z := mkFun 12 [bs "b"] 1 (Some [3%Z]).
Definition ex_calls : list (call Z) :=
  [Middleware (bs "request") ex_check; Error 404 ex_page; Listen (PInt 8000) None [(bs "a", 1%Z)]; Error 404 ex_other; Middleware (bs "request") ex_page; Error 403 ex_check;
   Listen (PPath (bs "/tmp/s")) (Some (bs "h")) []; Listen (PInt 8000) None [(bs "a", 2%Z)]; Middleware (bs "requests") ex_check; Event (bs "worker_stop") ex_page; Event (bs "stop") ex_page].
Example c65_example : Forall ok_call ex_calls /\
  py_function ex_check [bs "request"; bs "rate"] [5%Z] /\ getoptions ex_check = Ok [(bs "rate", 5%Z)] /\
  app_calls (app_new 1 2 3 []) ex_calls =
    ([RFun 10; RFun 11; RBool true; RFun 12; RFun 11; RFun 10; RBool true; RBool false; RExc ValueError; RFun 11; RExc KeyError],
     mkApp [(400%Z, 1, []); (404%Z, 12, [(bs "a", 1%Z); (bs "b", 3%Z)]); (500%Z, 3, [])]
           [(bs "connect", []); (bs "close", []); (bs "request", [(10, [(bs "rate", 5%Z)]); (11, [(bs "a", 1%Z); (bs "b", 2%Z)])]); (bs "response", [])]
           [(bs "worker_start", []); (bs "worker_stop", [11])]
           [((None, Some 8000%Z), [(bs "a", 1%Z)]); ((Some (bs "/tmp/s"), None), [])]).
Proof.
  assert (py_function ex_check [bs "request"; bs "rate"] [5%Z]) as C.
  { split; [repeat constructor; cbn [In]; intros H; repeat destruct H as [H|H]; try discriminate H; exact H|]. split; [now exists [bs "server"; bs "x"]|]. split; [reflexivity|]. split; [now left|cbn; lia]. }
  assert (py_function ex_page [bs "a"; bs "b"] [1; 2]%Z) as P.
  { split; [repeat constructor; cbn [In]; intros H; repeat destruct H as [H|H]; try discriminate H; exact H|]. split; [now exists []|]. split; [reflexivity|]. split; [now left|cbn; lia]. }
  assert (py_function ex_other [bs "b"] [3%Z]) as O.
  { split; [repeat constructor; cbn [In]; intros H; repeat destruct H as [H|H]; try discriminate H; exact H|]. split; [now exists []|]. split; [reflexivity|]. split; [now left|cbn; lia]. }
  assert (ok_fun ex_check) by (red; eauto). assert (ok_fun ex_page) by (red; eauto). assert (ok_fun ex_other) by (red; eauto).
  split; [repeat constructor; assumption|]. split; [exact C|]. split; vm_compute; reflexivity.
Qed.

(** So the claim that the handler given for an error handles it is false: one for 403 is not kept. *)
Theorem c65_errors_refuted : exists (f : pyfun Z) code, ok_fun f /\ let '(rs, a) := app_calls (app_new 1 2 3 []) [Error code f] in
  rs = [RFun (f_id f)] /\ ~ In (f_id f) (map (fun x => snd (fst x)) (a_errors a)).
Proof.
  exists (mkFun 10 [] 0 None), 403%Z. split.
  - exists [], []. split; [constructor|]. split; [now exists []|]. split; [reflexivity|]. split; [now right|constructor].
  - vm_compute. split; [reflexivity|]. intros H. repeat destruct H as [H|H]; try discriminate H. exact H.
Qed.

Print Assumptions c65_options.
Print Assumptions c65_middlewares.
Print Assumptions c65_events.
Print Assumptions c65_returns.
Print Assumptions c65_errors_partial.
Print Assumptions c65_errors_ignored.
Print Assumptions c65_errors_refuted.
Print Assumptions c65_listen.
Print Assumptions c65_kept.
