From Verif Require Import PyBytes PyBytesFacts PyInt PyExn M_Parser M_Framing M_Conn S_Conn P_Conn.
From Coq Require Import ZifyBool ZifyNat ZifyN.

(** ** Spec lists *)
Lemma input_app a b : input (a ++ b) = input a ++ input b.
Proof. unfold input. now rewrite map_app, concat_app. Qed.
Lemma starts_app a b : starts (a ++ b) = starts a ++ starts b.
Proof. apply flat_map_app. Qed.
Lemma marks_app a b : marks (a ++ b) = marks a ++ marks b.
Proof. apply flat_map_app. Qed.
Lemma got_app i a b : got i (a ++ b) = got i a ++ got i b.
Proof. unfold got. now rewrite map_app, concat_app. Qed.
Lemma ended_app a b : ended (a ++ b) = ended a + ended b.
Proof. unfold ended. now rewrite filter_app, app_length. Qed.
Lemma closers_app a b : closers (a ++ b) = closers a ++ closers b.
Proof. apply flat_map_app. Qed.
Lemma prefix_refl {A} (l : list A) : is_prefix l l.
Proof. exists []. apply app_nil_r. Qed.
Lemma prefix_app_l {A} (c a b : list A) : is_prefix a b -> is_prefix (c ++ a) (c ++ b).
Proof. intros [t <-]. exists t. now rewrite app_assoc. Qed.
Lemma prefix_trans {A} (a b c : list A) : is_prefix a b -> is_prefix b c -> is_prefix a c.
Proof. intros [t <-] [u <-]. exists (t ++ u). now rewrite app_assoc. Qed.
Lemma prefix_app {A} (a b : list A) : is_prefix a (a ++ b).
Proof. now exists b. Qed.
Lemma prefix_cancel {A} (c a b : list A) : is_prefix (c ++ a) (c ++ b) -> is_prefix a b.
Proof. intros [t E]. rewrite <- app_assoc in E. apply app_inv_head in E. now exists t. Qed.
Lemma prefix_length {A} (a b : list A) : is_prefix a b -> List.length a <= List.length b.
Proof. intros [t <-]. rewrite app_length. lia. Qed.
Lemma prefix_full {A} (a b : list A) : is_prefix a b -> List.length b <= List.length a -> a = b.
Proof. intros [t <-] L. rewrite app_length in L. destruct t; [now rewrite app_nil_r|cbn in L; lia]. Qed.
Lemma prefix_comparable {A} (a b c : list A) : is_prefix a c -> is_prefix b c -> List.length a <= List.length b -> is_prefix a b.
Proof.
  intros [t E] [u F] L. exists (firstn (List.length b - List.length a) t).
  assert (firstn (List.length b) (b ++ u) = b) as K by (rewrite firstn_app, Nat.sub_diag, firstn_all; apply app_nil_r). rewrite F, <- E, firstn_app, (firstn_all2 a) in K by lia. exact K.
Qed.

(** The first [k] requests on the wire. *)
Definition upto_msg (M : list msg) (k : nat) : bytes := List.concat (map wire (firstn k M)).
Lemma upto_msg_S M k m : nth_error M k = Some m -> upto_msg M (S k) = upto_msg M k ++ wire m.
Proof.
  intros E. unfold upto_msg. assert (firstn (S k) M = firstn k M ++ [m]) as ->.
  { revert k E. induction M as [|x M IH]; intros [|k] E; try discriminate; cbn in *; [now injection E as ->|]. now rewrite (IH k). }
  rewrite map_app, concat_app. cbn. now rewrite app_nil_r.
Qed.
Lemma upto_msg_mono M i j : i <= j -> is_prefix (upto_msg M i) (upto_msg M j).
Proof.
  intros L. induction L as [|j L IH]; [apply prefix_refl|]. apply (prefix_trans _ _ _ IH). destruct (nth_error M j) as [m|] eqn:E; [rewrite (upto_msg_S M j m E); apply prefix_app|].
  apply nth_error_None in E. unfold upto_msg. rewrite !firstn_all2 by lia. apply prefix_refl.
Qed.

(** ** Receive tasks *)
Definition pend1 (t : rcv) : bytes := match t with RWait _ d => d | RPut r _ => r | ROver => [] end.
Definition pend (l : list rcv) : bytes := List.concat (map pend1 l).
Definition len1 (t : rcv) : Z := match t with RWait _ d => blen d | RPut _ n => n | ROver => 0 end.
Fixpoint lens (l : list rcv) : Z := match l with [] => 0 | t :: l' => (len1 t + lens l')%Z end.
(** Tasks that wait, each for the one before; the first has index [m] and waits for [w]. *)
Fixpoint waits (w : wref) (m : nat) (l : list rcv) : Prop :=
  match l with
  | [] => True
  | RWait w' d :: l' => w' = w /\ d <> [] /\ waits (WTask m) (S m) l'
  | _ :: _ => False
  end.
Lemma pend_app a b : pend (a ++ b) = pend a ++ pend b.
Proof. unfold pend. now rewrite map_app, concat_app. Qed.
Lemma lens_app a b : lens (a ++ b) = (lens a + lens b)%Z.
Proof. induction a as [|t a IH]; cbn [lens app]; lia. Qed.
Lemma pend_over n : pend (repeat ROver n) = [].
Proof. induction n as [|n IH]; [reflexivity|]. cbn [repeat]. change (pend (ROver :: repeat ROver n)) with ([] ++ pend (repeat ROver n)). exact IH. Qed.
Lemma lens_over n : lens (repeat ROver n) = 0%Z.
Proof. induction n as [|n IH]; [reflexivity|]. cbn [repeat lens len1]. lia. Qed.
Lemma waits_lens w m l : waits w m l -> lens l = blen (pend l).
Proof.
  revert w m. induction l as [|[w' d|r n|] l IH]; intros w m W; [reflexivity| |destruct W|destruct W]. destruct W as (_ & _ & W). cbn [lens len1]. rewrite (IH _ _ W). change (pend (RWait w' d :: l)) with (d ++ pend l). unfold blen. rewrite app_length. lia.
Qed.
Lemma waits_lens_nil w m l : waits w m l -> lens l = 0%Z -> l = [].
Proof.
  destruct l as [|[w' d|r n|] l]; intros W L; [easy| |destruct W|destruct W]. exfalso. destruct W as (_ & Nd & W). cbn [lens len1] in L. rewrite (waits_lens _ _ _ W) in L. unfold blen in L. destruct d; [easy|]. cbn [List.length] in L. lia.
Qed.
Lemma waits_app w m l d : waits w m l -> d <> [] -> waits w m (l ++ [RWait (match l with [] => w | _ => WTask (m + List.length l - 1) end) d]).
Proof.
  revert w m. induction l as [|t l IH]; intros w m W N.
  - cbn. repeat split; [exact N].
  - destruct t as [w' d'|r n|]; [|destruct W|destruct W]. destruct W as (A & B & W). cbn [app waits]. split; [exact A|]. split; [exact B|]. specialize (IH (WTask m) (S m) W N).
    destruct l as [|t l].
    + cbn [app List.length Nat.add] in *. replace (m + 1 - 1) with m by lia. exact IH.
    + replace (m + List.length (RWait w' d' :: t :: l) - 1) with (S m + List.length (t :: l) - 1) by (cbn [List.length]; lia). exact IH.
Qed.
Lemma waits_nth w m l : forall j t, waits w m l -> nth_error l (S j) = Some t -> exists d, t = RWait (WTask (m + j)) d /\ d <> [].
Proof.
  revert w m. induction l as [|t l IH]; intros w m j t' W E; [discriminate|]. cbn [nth_error] in E. destruct t as [w' d|r n|]; [|destruct W|destruct W]. destruct W as (_ & _ & W).
  destruct j as [|j].
  - destruct l as [|t l]; [discriminate|]. cbn in E. injection E as ->. destruct t' as [w2 d2|r n|]; [|destruct W|destruct W]. destruct W as (-> & N & _). rewrite Nat.add_0_r. now exists d2.
  - destruct (IH (WTask m) (S m) j t' W E) as (d2 & -> & N). exists d2. split; [f_equal; f_equal; lia|exact N].
Qed.
Lemma waits_not_over w m l j : waits w m l -> nth_error l j <> Some ROver.
Proof. intros W E. destruct j as [|j]; [destruct l as [|[| |] l]; cbn in *; try discriminate; destruct W|]. destruct (waits_nth w m l j ROver W E) as (d & X & _). discriminate. Qed.
