(** C73: with reload on, a worker restarts when a module of the application changes, and only then; and when it uses too much memory. *)
From Verif Require Import PyBytes PyBytesFacts M_Reload S_Reload P_Reload.

(** A reload has a reason, whatever appears, disappears or is loaded in between: the file of the module differs from what it was at an earlier look. [all]: the modules, one
    for each identity. *)
Theorem c73_reason sys app_dir all gs reload limit n m : (forall a b, In a all -> In b all -> m_id a = m_id b -> a = b) -> (forall g, In g gs -> incl (g_modules g) all) ->
  looks reload limit (paths_of sys app_dir) gs [] = Some (n, Reload m) ->
  exists f g g0 s s', mine sys app_dir m f /\ nth_error gs n = Some g /\ In g0 (firstn n gs) /\ g_files g0 f = Some s /\ g_files g f = Some s' /\ s <> s'.
Proof.
  intros O I R. destruct (looks_seen (paths_of sys app_dir) all gs [] [] limit reload n m O I) as (g & f & g0 & s & s' & N & I0 & W & F0 & F1 & D); [intros x []|constructor|exact R|].
  exists f, g, g0, s, s'. split; [now apply watched_mine|]. auto 10.
Qed.
Print Assumptions c73_reason.
(** The modules of the application that are there at the first look ([g0]), as long as their files are there: the worker reloads at the first look at which the file of one
    of them differs from what it was, and if none ever does it goes on. *)
Theorem c73_reload_partial sys app_dir g0 gs limit : NoDup (map m_id (g_modules g0)) -> (limit <= 0)%Z ->
  (exists m f, In m (g_modules g0) /\ mine sys app_dir m f /\ there g0 f) ->
  (forall m f g, In m (g_modules g0) -> mine sys app_dir m f -> there g0 f -> In g gs -> there g f) ->
  match looks true limit (paths_of sys app_dir) (g0 :: gs) [] with
  | None => forall m f g, In m (g_modules g0) -> mine sys app_dir m f -> there g0 f -> In g gs -> ~ differs g g0 f
  | Some (n, e) => exists i m, n = S i /\ e = Reload m /\
      (exists m f g, In m (g_modules g0) /\ mine sys app_dir m f /\ there g0 f /\ nth_error gs i = Some g /\ differs g g0 f) /\
      (forall m f g, In m (g_modules g0) -> mine sys app_dir m f -> there g0 f -> In g (firstn i gs) -> ~ differs g g0 f)
  end.
Proof.
  intros ND L Ex T. pose proof (looks_main (paths_of sys app_dir) g0 gs limit ND L) as Q. unfold there, differs in *.
  destruct Ex as (m0 & f0 & I0 & M0 & F0). specialize (Q ltac:(exists m0, f0; rewrite watched_mine; auto)).
  specialize (Q ltac:(intros m f g I W F J; apply watched_mine in W; eauto)). destruct (looks true limit (paths_of sys app_dir) (g0 :: gs) []) as [[n e]|].
  - destruct Q as (i & m & E1 & E2 & _ & (m1 & f1 & g1 & A1 & A2 & A3) & B). exists i, m. split; [exact E1|]. split; [exact E2|]. split.
    + exists m1, f1, g1. apply watched_mine in A2. auto.
    + intros m' f g I M F J D. apply D. apply (B m' f g I); [now apply watched_mine|exact F|exact J].
  - intros m f g I M F J D. apply D. apply (Q m f g I); [now apply watched_mine|exact F|exact J].
Qed.
Print Assumptions c73_reload_partial.
(** Without the option there is no reload. *)
Theorem c73_off paths gs : forall limit k n m, looks false limit paths gs k <> Some (n, Reload m).
Proof.
  induction gs as [|g gs IH]; intros limit k n m; cbn [looks]; [discriminate|]. unfold turn. destruct ((0 <? limit)%Z && (limit <? g_memory g)%Z); [discriminate|].
  destruct (looks false limit paths gs k) as [[n' e]|] eqn:R; [|discriminate]. intros [= <- ->]. now apply IH in R.
Qed.
Print Assumptions c73_off.
(** The memory limit, with or without reload: it ends the worker only if it is over the limit at that look, and a worker that is over it at some look does not outlive that look. *)
Theorem c73_memory reload limit paths gs n : looks reload limit paths gs [] = Some (n, Memory) -> (0 < limit)%Z /\ exists g, nth_error gs n = Some g /\ (limit < g_memory g)%Z.
Proof. apply looks_memory. Qed.
Print Assumptions c73_memory.
Theorem c73_over reload limit paths gs n g : (0 < limit)%Z -> nth_error gs n = Some g -> (limit < g_memory g)%Z ->
  exists i, i <= n /\ (looks reload limit paths gs [] = Some (i, Memory) \/ exists m, looks reload limit paths gs [] = Some (i, Reload m)).
Proof.
  intros L N M. destruct (looks_over paths gs reload limit [] n g L N M) as (i & e & R & Le). exists i. split; [exact Le|]. destruct e as [m| |k]; [right; eauto|now left|]. now apply looks_no_goes in R.
Qed.
Print Assumptions c73_over.
(** The supervisor takes over the application of the reloaded module, if it has one, by whatever name. *)
Theorem c73_rebind {A} (l1 l2 : list (bytes * (unit + A))) name new old : startswith (bs "__") name = false ->
  (forall kv x, In kv (l1 ++ l2) -> snd kv = inr x -> startswith (bs "__") (fst kv) = true) -> rebind (l1 ++ (name, inr new) :: l2) old = new.
Proof. apply rebind_one. Qed.
Print Assumptions c73_rebind.

Definition ex_mod (n : nat) (f : string) : pymod := mkMod n (Some (bs f)).
Definition ex_sig (n : N) : option sig := Some (8, n, n).
Definition ex_paths : list bytes := paths_of [bs "/srv/app"; bs "/usr/lib/python3"] (bs "/srv/app").
Definition ex_app := ex_mod 0 "/srv/app/app.py".
Definition ex_lib := ex_mod 1 "/usr/lib/python3/os.py".
Definition ex_late := ex_mod 2 "/srv/app/late.py".
Definition ex_files (app late : option sig) (f : bytes) : option sig :=
  if beqb f (bs "/srv/app/app.py") then app else if beqb f (bs "/srv/app/late.py") then late else ex_sig 1.
Example c73_example :
  looks true 0 ex_paths [mkSight [ex_app; ex_lib] (ex_files (ex_sig 1) None) 0; mkSight [ex_app; ex_lib] (ex_files (ex_sig 1) None) 0; mkSight [ex_app; ex_lib] (ex_files (ex_sig 2) None) 0] [] = Some (2, Reload ex_app) /\
  mine [bs "/srv/app"; bs "/usr/lib/python3"] (bs "/srv/app") ex_app (bs "/srv/app/app.py") /\
  ~ mine [bs "/srv/app"; bs "/usr/lib/python3"] (bs "/srv/app") ex_lib (bs "/usr/lib/python3/os.py") /\
  looks false 100 ex_paths [mkSight [ex_app] (ex_files None None) 50; mkSight [ex_app] (ex_files None None) 101] [] = Some (1, Memory).
Proof.
  split; [vm_compute; reflexivity|]. split; [apply watched_mine; reflexivity|]. split; [intros H; apply watched_mine in H; vm_compute in H; discriminate H|vm_compute; reflexivity].
Qed.
(** A module that is loaded after the first look is not watched: it changes as often as it likes. *)
Theorem c73_later_refuted : exists g0 g1 g2, In ex_late (g_modules g1) /\ In ex_late (g_modules g2) /\ there g1 (bs "/srv/app/late.py") /\ there g2 (bs "/srv/app/late.py") /\
  differs g1 g2 (bs "/srv/app/late.py") /\ forall n, looks true 0 ex_paths (g0 :: g1 :: repeat g2 n) [] = None.
Proof.
  exists (mkSight [ex_app] (ex_files (ex_sig 1) (ex_sig 1)) 0), (mkSight [ex_app; ex_late] (ex_files (ex_sig 1) (ex_sig 1)) 0), (mkSight [ex_app; ex_late] (ex_files (ex_sig 1) (ex_sig 2)) 0).
  split; [right; now left|]. split; [right; now left|]. split; [discriminate|]. split; [discriminate|]. split; [discriminate|]. intros n.
  assert (forall n, looks true 0 ex_paths (repeat (mkSight [ex_app; ex_late] (ex_files (ex_sig 1) (ex_sig 2)) 0) n) [(ex_app, (8, 1%N, 1%N))] = None) as G.
  { clear. induction n as [|n IH]; [reflexivity|]. cbn [repeat looks]. match goal with |- context [turn ?a ?b ?c ?d ?e] => assert (turn a b c d e = Goes [(ex_app, (8, 1%N, 1%N))]) as -> by (vm_compute; reflexivity) end. now rewrite IH. }
  cbn [looks]. match goal with |- context [turn ?a ?b ?c ?d []] => assert (turn a b c d [] = Goes [(ex_app, (8, 1%N, 1%N))]) as -> by (vm_compute; reflexivity) end.
  match goal with |- context [turn ?a ?b ?c ?d ?e] => assert (turn a b c d e = Goes [(ex_app, (8, 1%N, 1%N))]) as -> by (vm_compute; reflexivity) end. now rewrite G.
Qed.
Print Assumptions c73_later_refuted.
(** Nor is a module any more whose file was away at one look, as when an editor replaces it. *)
Theorem c73_away_refuted : exists g0 g1 g2, In ex_late (g_modules g0) /\ there g0 (bs "/srv/app/late.py") /\ there g2 (bs "/srv/app/late.py") /\
  differs g0 g2 (bs "/srv/app/late.py") /\ forall n, looks true 0 ex_paths (g0 :: g1 :: repeat g2 n) [] = None.
Proof.
  exists (mkSight [ex_app; ex_late] (ex_files (ex_sig 1) (ex_sig 1)) 0), (mkSight [ex_app; ex_late] (ex_files (ex_sig 1) None) 0), (mkSight [ex_app; ex_late] (ex_files (ex_sig 1) (ex_sig 2)) 0).
  split; [right; now left|]. split; [discriminate|]. split; [discriminate|]. split; [discriminate|]. intros n.
  assert (forall n, looks true 0 ex_paths (repeat (mkSight [ex_app; ex_late] (ex_files (ex_sig 1) (ex_sig 2)) 0) n) [(ex_app, (8, 1%N, 1%N))] = None) as G.
  { clear. induction n as [|n IH]; [reflexivity|]. cbn [repeat looks]. match goal with |- context [turn ?a ?b ?c ?d ?e] => assert (turn a b c d e = Goes [(ex_app, (8, 1%N, 1%N))]) as -> by (vm_compute; reflexivity) end. now rewrite IH. }
  cbn [looks]. match goal with |- context [turn ?a ?b ?c ?d []] => assert (turn a b c d [] = Goes [(ex_app, (8, 1%N, 1%N)); (ex_late, (8, 1%N, 1%N))]) as -> by (vm_compute; reflexivity) end.
  match goal with |- context [turn ?a ?b ?c ?d ?e] => assert (turn a b c d e = Goes [(ex_app, (8, 1%N, 1%N))]) as -> by (vm_compute; reflexivity) end. now rewrite G.
Qed.
Print Assumptions c73_away_refuted.
(** A module in a directory of sys.path below that of the application is not watched, whatever becomes of its file. *)
Theorem c73_below_refuted : exists sys app_dir m f, m_file m = Some f /\ begins app_dir f /\
  forall gs, (forall g, In g gs -> g_modules g = [m]) -> looks true 0 (paths_of sys app_dir) gs [] = None.
Proof.
  exists [bs "/srv/app"; bs "/srv/app/lib"], (bs "/srv/app"), (ex_mod 0 "/srv/app/lib/x.py"), (bs "/srv/app/lib/x.py"). split; [reflexivity|]. split; [now exists (bs "/lib/x.py")|].
  induction gs as [|g gs IH]; intros H; [reflexivity|]. cbn [looks]. assert (turn true 0 (paths_of [bs "/srv/app"; bs "/srv/app/lib"] (bs "/srv/app")) g [] = Goes []) as ->.
  { unfold turn. rewrite (H g (or_introl eq_refl)). vm_compute. reflexivity. }
  rewrite IH; [reflexivity|]. intros g' I. apply H. now right.
Qed.
Print Assumptions c73_below_refuted.
(** Of several applications in the module the supervisor takes the last one by name, whichever was running. *)
Theorem c73_rebind_refuted : rebind [(bs "app", inr 1); (bs "backup", inr 2)] 1 = 2.
Proof. reflexivity. Qed.
Print Assumptions c73_rebind_refuted.
