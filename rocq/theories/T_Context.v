(** C76: contexts. *)
From Verif Require Import PyBytes PyBytesFacts M_Context S_Context P_Context.

(** Any number of contexts, and anything stored in and deleted from them in any order, as attributes and as items. A name that the class does not take
    itself: all four ways to read give the value stored last for this name in this context, and what is stored in other contexts or under other names does not matter;
    if nothing was stored, or it was deleted, they say so in their ways.
    Partial: as long as nothing was stored under __setattr__, and for get under get; and for names that the class does not take, see below. *)
Theorem c76_reads_partial : forall l i k n, made_first l -> nth_error (kinds l) i = Some k -> free k n -> writes i (bs "__setattr__") l = [] ->
  exists c, nth_error (run [] l) i = Some c /\
  match latest i n l with
  | Some v => getattr c n = Val (Given v) /\ getitem c n = Val (Given v) /\ contains c n = Bool true /\ (writes i (bs "get") l = [] -> get c n = Val (Given v))
  | None => getattr c n = AttributeError /\ getitem c n = KeyError /\ contains c n = Bool false /\ (writes i (bs "get") l = [] -> get c n = Default)
  end.
Proof.
  intros l i k n M Hk (N1 & N2 & N3) W. destruct (run_inv l M) as [_ H]. destruct (H i k Hk) as (c & Ec & [A B C D]). exists c. split; [exact Ec|].
  pose proof (D W n N1 N2) as E. assert (writes i (bs "get") l = [] -> getattr c (bs "get") = Method (bs "get")) as G.
  { intros Wg. unfold getattr. rewrite A, (notin_b (bs "get") (props k)) by (destruct k; cbn; intuition discriminate). rewrite (notin_b (bs "get") slots) by (cbn; intuition discriminate).
    rewrite (D W (bs "get")) by (try (destruct k; cbn; intuition discriminate); cbn; intuition discriminate). unfold latest. rewrite Wg. reflexivity. }
  assert (get c n = match getattr c (bs "get") with Val f => Called f | _ => match dget beqb n (x_dict c) with Some v => Val v | None => Default end end) as Eg by reflexivity.
  unfold getattr in *. rewrite A in *. rewrite (notin_b n (props k) N1), (notin_b n slots N2), (notin_b n methods N3). unfold getitem, contains, dmem. rewrite E in *.
  destruct (latest i n l) as [v|]; cbn [option_map] in *; (split; [reflexivity|]; split; [reflexivity|]; split; [reflexivity|]); intros Wg; rewrite Eg, (G Wg); reflexivity.
Qed.
Print Assumptions c76_reads_partial.

(** The entries that the server makes, options and tasks of a connection, options and queues of a worker: at any time they are the objects made
    for this context and no other, read in any way, and they cannot be replaced or deleted. *)
Theorem c76_fixed : forall l i k p, made_first l -> nth_error (kinds l) i = Some k -> In p (props k) ->
  exists c, nth_error (run [] l) i = Some c /\ getattr c p = Val (Made i p) /\ getitem c p = Val (Made i p) /\ contains c p = Bool true /\
  (forall v, setattr c p v = (c, AttributeError)) /\ delattr c p = (c, AttributeError).
Proof.
  intros l i k p M Hk Hp. destruct (run_inv l M) as [_ H]. destruct (H i k Hk) as (c & Ec & [A B C D]). exists c. split; [exact Ec|].
  pose proof (C p Hp) as E. apply in_b in Hp. unfold getattr, setattr, delattr, getitem, contains, dmem. rewrite A, Hp, E. repeat split.
Qed.
Print Assumptions c76_fixed.

Definition some_ops : list op :=
  [New Worker; New Server; SetAttr 1 (bs "user") 5; SetItem 0 (bs "user") 6; New Server; SetItem 1 (bs "user") 7; SetAttr 2 (bs "user") 8; DelAttr 2 (bs "user"); SetAttr 1 (bs "options") 9].
Lemma made_ops : made_first some_ops.
Proof.
  intros pre o post i E A. repeat (destruct pre as [|x pre]; [cbn in E; injection E as <- _; cbn in A; try discriminate; injection A as <-; cbn; lia|cbn [app] in E; injection E as <- E]). now destruct pre.
Qed.
Example c76_example : made_first some_ops /\ kinds some_ops = [Worker; Server; Server] /\ free Server (bs "user") /\ writes 1 (bs "__setattr__") some_ops = [] /\
  latest 0 (bs "user") some_ops = Some 6%N /\ latest 1 (bs "user") some_ops = Some 7%N /\ latest 2 (bs "user") some_ops = None.
Proof.
  split; [exact made_ops|]. repeat split; try reflexivity; cbn; intuition discriminate.
Qed.

(** ** What does not hold *)
(** A value stored under the name get: from then on, get() calls this value, for every name. *)
Theorem c76_get_refuted : exists l i n v c f, made_first l /\ nth_error (kinds l) i = Some Server /\ free Server n /\ latest i n l = Some v /\
  nth_error (run [] l) i = Some c /\ get c n = Called (Given f).
Proof.
  exists [New Server; SetAttr 0 (bs "user") 5; SetAttr 0 (bs "get") 6], 0, (bs "user"), 5%N. eexists. exists 6%N. split.
  - intros pre o post i E A. repeat (destruct pre as [|x pre]; [cbn in E; injection E as <- _; cbn in A; try discriminate; injection A as <-; cbn; lia|cbn [app] in E; injection E as <- E]). now destruct pre.
  - split; [reflexivity|]. split; [repeat split; cbn; intuition discriminate|]. split; [reflexivity|]. split; [reflexivity|]. vm_compute. reflexivity.
Qed.
Print Assumptions c76_get_refuted.
(** An item stored under the name __setattr__: from then on, items are not stored. *)
Theorem c76_setattr_refuted : exists l i n v c, made_first l /\ nth_error (kinds l) i = Some Server /\ free Server n /\ latest i n l = Some v /\
  nth_error (run [] l) i = Some c /\ getitem c n = KeyError.
Proof.
  exists [New Server; SetItem 0 (bs "__setattr__") 5; SetItem 0 (bs "user") 6], 0, (bs "user"), 6%N. eexists. split.
  - intros pre o post i E A. repeat (destruct pre as [|x pre]; [cbn in E; injection E as <- _; cbn in A; try discriminate; injection A as <-; cbn; lia|cbn [app] in E; injection E as <- E]). now destruct pre.
  - split; [reflexivity|]. split; [repeat split; cbn; intuition discriminate|]. split; [reflexivity|]. split; [reflexivity|]. vm_compute. reflexivity.
Qed.
Print Assumptions c76_setattr_refuted.
(** A name that the class takes: nothing was stored, c[n] and n in c say so, but c.n is there. *)
Theorem c76_name_refuted : exists l i n c, made_first l /\ nth_error (kinds l) i = Some Server /\ ~ In n (props Server) /\ latest i n l = None /\
  nth_error (run [] l) i = Some c /\ contains c n = Bool false /\ getattr c n <> AttributeError.
Proof.
  exists [New Server], 0, (bs "get"). eexists. split.
  - intros pre o post i E A. repeat (destruct pre as [|x pre]; [cbn in E; injection E as <- _; cbn in A; try discriminate; injection A as <-; cbn; lia|cbn [app] in E; injection E as <- E]). now destruct pre.
  - split; [reflexivity|]. split; [cbn; intuition discriminate|]. split; [reflexivity|]. split; [reflexivity|]. split; [reflexivity|]. vm_compute. discriminate.
Qed.
Print Assumptions c76_name_refuted.
