(** split and replace with a separator of several characters. *)
From Verif Require Import PyBytes PyBytesFacts.

Lemma split_max_enough sep : sep <> [] -> forall n m l, List.length l <= n -> List.length l <= m -> split_max sep n l = split_max sep m l.
Proof.
  intros Ne. assert (1 <= List.length sep) as L1 by (destruct sep; [easy|cbn; lia]).
  induction n as [|n IH]; intros m l Hn Hm.
  - destruct l; [|cbn in Hn; lia]. destruct m; [reflexivity|]. cbn [split_max]. rewrite find_unfold. destruct sep; [easy|]. reflexivity.
  - destruct m as [|m].
    + destruct l; [|cbn in Hm; lia]. cbn [split_max]. rewrite find_unfold. destruct sep; [easy|]. reflexivity.
    + cbn [split_max]. destruct (find sep l) as [i|] eqn:E; [|reflexivity]. f_equal. apply find_some in E as (E & _).
      assert (List.length (skipn (i + List.length sep) l) < List.length l \/ l = []) as K.
      { destruct l; [now right|]. left. rewrite skipn_length. cbn [List.length]. lia. }
      destruct K as [K| ->]; [apply IH; lia|]. rewrite skipn_nil. apply IH; cbn; lia.
Qed.
Lemma split_hit sep l : sep <> [] -> startswith sep l = true -> split sep l = [] :: split sep (skipn (List.length sep) l).
Proof.
  intros Ne S. unfold split. assert (1 <= List.length sep) as L1 by (destruct sep; [easy|cbn; lia]).
  destruct l as [|c l]; [destruct sep; easy|]. cbn [List.length split_max]. rewrite find_unfold, S. cbn [firstn]. f_equal.
  cbn [Nat.add]. apply split_max_enough; [exact Ne| |lia]. rewrite skipn_length. cbn [List.length]. lia.
Qed.
Lemma split_miss sep c l : sep <> [] -> startswith sep (c :: l) = false -> exists h t, split sep l = h :: t /\ split sep (c :: l) = (c :: h) :: t.
Proof.
  intros Ne S. assert (1 <= List.length sep) as L1 by (destruct sep; [easy|cbn; lia]). unfold split. cbn [List.length split_max]. rewrite find_unfold, S.
  destruct (find sep l) as [i|] eqn:E.
  - cbn [option_map firstn Nat.add skipn]. assert (List.length l <> 0) as Nl.
    { destruct l; [|cbn; lia]. rewrite find_unfold in E. destruct sep; [easy|]. discriminate. }
    exists (firstn i l), (split_max sep (List.length l) (skipn (i + List.length sep) l)). split; [|reflexivity].
    destruct (List.length l) as [|k] eqn:Lk; [lia|]. assert (forall a, split_max sep (Datatypes.S k) a = match find sep a with None => [a] | Some i => firstn i a :: split_max sep k (skipn (i + List.length sep) a) end) as U by reflexivity.
    rewrite (U l), E. f_equal. apply split_max_enough; [exact Ne| |]; rewrite skipn_length; lia.
  - cbn [option_map]. exists l, []. split; [|reflexivity]. destruct (List.length l); [reflexivity|]. cbn [split_max]. now rewrite E.
Qed.
Lemma replace_hit old new l : old <> [] -> startswith old l = true -> replace old new l = new ++ replace old new (skipn (List.length old) l).
Proof.
  intros Ne S. unfold replace. rewrite (split_hit old l Ne S). assert (split old (skipn (List.length old) l) <> []) as N by apply split_max_nonempty.
  destruct (split old (skipn (List.length old) l)); [easy|]. reflexivity.
Qed.
Lemma replace_miss old new c l : old <> [] -> startswith old (c :: l) = false -> replace old new (c :: l) = c :: replace old new l.
Proof.
  intros Ne S. unfold replace. destruct (split_miss old c l Ne S) as (h & t & -> & ->). destruct t; reflexivity.
Qed.
Lemma replace_nil old new : old <> [] -> replace old new [] = [].
Proof. intros Ne. reflexivity. Qed.
