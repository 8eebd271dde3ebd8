(** States reachable in a transition system. *)
From Verif Require Import PyBytes.

Inductive reach {S : Type} (step : S -> S -> Prop) (init : S -> Prop) : S -> Prop :=
| reach_init s : init s -> reach step init s
| reach_step s s' : reach step init s -> step s s' -> reach step init s'.

Lemma reach_invariant {S : Type} (step : S -> S -> Prop) (init inv : S -> Prop) :
  (forall s, init s -> inv s) -> (forall s s', inv s -> step s s' -> inv s') ->
  forall s, reach step init s -> inv s.
Proof. intros I St s R. induction R; eauto. Qed.

(** Running a list of events with a deterministic, partial step function. *)
Fixpoint run {S E : Type} (f : S -> E -> option S) (s : S) (es : list E) : option S :=
  match es with
  | [] => Some s
  | e :: es' => match f s e with Some s' => run f s' es' | None => None end
  end.

Lemma run_app {S E : Type} (f : S -> E -> option S) es1 : forall s es2,
  run f s (es1 ++ es2) = match run f s es1 with Some s' => run f s' es2 | None => None end.
Proof. induction es1 as [|e es1 IH]; intros s es2; cbn [app run]; [reflexivity|]. destruct (f s e); [apply IH|reflexivity]. Qed.

Lemma run_invariant {S E : Type} (f : S -> E -> option S) (inv : S -> Prop) :
  (forall s e s', inv s -> f s e = Some s' -> inv s') ->
  forall es s s', inv s -> run f s es = Some s' -> inv s'.
Proof.
  intros H. induction es as [|e es IH]; intros s s' I R; cbn [run] in R; [congruence|].
  destruct (f s e) as [s1|] eqn:F; [|discriminate]. eauto.
Qed.
