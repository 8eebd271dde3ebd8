(** Proofs about the arguments of handlers (C67). *)
From Verif Require Import PyBytes PyBytesFacts PyDictFacts PyExn M_Server M_Args S_Args.

Definition given (k : option nat) (ws sse : option nat) (c : called) : Prop := c_request c = k /\ c_websocket c = ws /\ c_sse c = sse.
Lemma mids_ok f k l : forall i o s, exists s' cs r, run_mids f i k l o s = (s', cs, r) /\ x_websocket s' = x_websocket s /\ x_sse s' = x_sse s /\
  Forall (fun c => given (Some k) (x_websocket s) (x_sse s) c /\ exists j, c_role c = f j) cs /\
  (r = None /\ ~ Forall (fun m => snd m = Passes) l \/ r = Some (o ++ concat (map fst l)) /\ Forall (fun m => snd m = Passes) l).
Proof.
  induction l as [|[mo e] l IH]; intros i o s; cbn [run_mids].
  - do 3 eexists. split; [reflexivity|]. split; [reflexivity|]. split; [reflexivity|]. split; [constructor|]. right. cbn [map concat]. rewrite app_nil_r. now split.
  - cbv zeta. destruct e.
    + destruct (IH (S i) (merge mo o) (ctx_add (merge mo o) s)) as (s' & cs & r & -> & W & S & F & R). do 3 eexists. split; [reflexivity|]. cbn [ctx_add x_websocket x_sse] in *.
      split; [exact W|]. split; [exact S|]. split; [constructor; [|exact F]; split; [now repeat split|now exists i]|].
      destruct R as [(R & N)|(R & Y)]; [left|right]; (split; [rewrite R|]).
      * reflexivity.
      * intros X. apply N. now inversion X.
      * unfold merge. cbn [map concat fst]. now rewrite <- app_assoc.
      * now constructor.
    + do 3 eexists. split; [reflexivity|]. cbn [ctx_add x_websocket x_sse]. split; [reflexivity|]. split; [reflexivity|]. split; [constructor; [split; [now repeat split|now exists i]|constructor]|].
      left. split; [reflexivity|]. intros X. inversion_clear X as [|? ? Y _]. discriminate Y.
    + do 3 eexists. split; [reflexivity|]. cbn [ctx_add x_websocket x_sse]. split; [reflexivity|]. split; [reflexivity|]. split; [constructor; [split; [now repeat split|now exists i]|constructor]|].
      left. split; [reflexivity|]. intros X. inversion_clear X as [|? ? Y _]. discriminate Y.
Qed.
Lemma dget_app {V} k (a b : list (bytes * V)) : dget beqb k (a ++ b) = match dget beqb k a with Some v => Some v | None => dget beqb k b end.
Proof. induction a as [|[k' v] a IH]; [reflexivity|]. cbn [app dget]. destruct (beqb k k'); [reflexivity|exact IH]. Qed.
Lemma dget_in {V} k (a : list (bytes * V)) : (exists v, dget beqb k a = Some v) <-> In k (map fst a).
Proof.
  induction a as [|[k' v] a IH]; [split; [intros (v & H); discriminate|easy]|]. cbn [dget map fst In]. destruct (beqb k k') eqn:B.
  - apply beqb_eq in B as ->. split; [now left|]. intros _. now exists v.
  - apply beqb_neq in B. rewrite IH. split; [now right|]. intros [->|I]; [easy|exact I].
Qed.
Lemma asked_iff name dr db r : beqb (bs name) (bs "rate") = false -> beqb (bs name) (bs "buffer_size") = false ->
  (exists v, oget name (set_default "buffer_size" db (set_default "rate" dr (own_options r))) = Some v) <-> asks (bs name) r.
Proof.
  intros N1 N2. unfold oget, set_default, asks. rewrite <- dget_in, !dget_app. cbn [dget]. rewrite N1, N2. destruct (dget beqb (bs name) (own_options r)); [reflexivity|]. reflexivity.
Qed.
Lemma handler_ok d k r s : exists s' cs, run_handler d k r (own_options r) s = (s', cs) /\
  let made := a_body r = false /\ asks (bs "websocket") r /\ (exists x, a_offer r = Raise x) in
  let W x := (a_body r = false /\ asks (bs "websocket") r /\ a_offer r = Ok true) /\ x = Some k \/ ~ (a_body r = false /\ asks (bs "websocket") r /\ a_offer r = Ok true) /\ x = x_websocket s in
  let S x := (a_body r = false /\ asks (bs "sse") r /\ ~ (asks (bs "websocket") r /\ exists x, a_offer r = Raise x)) /\ x = Some k \/
             ~ (a_body r = false /\ asks (bs "sse") r /\ ~ (asks (bs "websocket") r /\ exists x, a_offer r = Raise x)) /\ x = x_sse s in
  W (x_websocket s') /\ S (x_sse s') /\ Forall (fun c => given (Some k) (x_websocket s') (x_sse s') c /\ is_before (c_role c) = false) cs /\
  ((made /\ cs = []) \/ (~ made /\ exists c cs', cs = c :: cs' /\ c_role c = TheHandler /\ Forall (fun c => exists j, c_role c = ResponseMid j) cs' /\ forall n v, dget beqb n (own_options r) = Some v -> dget beqb n (c_options c) = Some v)).
Proof.
  unfold run_handler. cbv zeta. set (o := set_default "buffer_size" _ _).
  pose proof (asked_iff "websocket" (d_rate d) (d_bufsize d) r eq_refl eq_refl) as AW. pose proof (asked_iff "sse" (d_rate d) (d_bufsize d) r eq_refl eq_refl) as AS. fold o in AW, AS.
  assert (forall n v, dget beqb n (own_options r) = Some v -> dget beqb n o = Some v) as Own.
  { intros n v H. unfold o, set_default. now rewrite !dget_app, H. }
  assert (forall s1, exists s' cs, match snd (a_handler r) with
      | Passes => let '(s3, cs, _) := run_mids (fun i => ResponseMid (List.length (a_after r) - 1 - i)) 0 k (rev (a_after r)) o (ctx_add o s1) in (s3, call_now (ctx_add o s1) TheHandler (Some k) :: cs)
      | _ => (ctx_add o s1, [call_now (ctx_add o s1) TheHandler (Some k)]) end = (s', cs) /\ x_websocket s' = x_websocket s1 /\ x_sse s' = x_sse s1 /\
      Forall (fun c => given (Some k) (x_websocket s') (x_sse s') c /\ is_before (c_role c) = false) cs /\
      exists c cs', cs = c :: cs' /\ c_role c = TheHandler /\ Forall (fun c => exists j, c_role c = ResponseMid j) cs' /\ forall n v, dget beqb n (own_options r) = Some v -> dget beqb n (c_options c) = Some v) as K.
  { intros s1. assert (forall n v, dget beqb n (own_options r) = Some v -> dget beqb n (c_options (call_now (ctx_add o s1) TheHandler (Some k))) = Some v) as Ko.
    { intros n v H. cbn [call_now ctx_add x_options c_options]. unfold merge. now rewrite dget_app, (Own n v H). }
    destruct (snd (a_handler r)).
    - destruct (mids_ok (fun i => ResponseMid (List.length (a_after r) - 1 - i)) k (rev (a_after r)) 0 o (ctx_add o s1)) as (s' & cs & x & -> & W & S & F & _). cbn [ctx_add x_websocket x_sse] in *.
      do 2 eexists. split; [reflexivity|]. split; [exact W|]. split; [exact S|]. split; [|exists (call_now (ctx_add o s1) TheHandler (Some k)), cs; split; [reflexivity|]; split; [reflexivity|]; split; [|exact Ko]; rewrite Forall_forall in F |- *; intros c I; destruct (F c I) as (_ & j & Rj); eauto].
      constructor; [split; [unfold given; now rewrite W, S|reflexivity]|]. rewrite Forall_forall in F |- *. intros c I. destruct (F c I) as (G & j & ->). split; [now rewrite W, S|reflexivity].
    - do 2 eexists. split; [reflexivity|]. split; [reflexivity|]. split; [reflexivity|]. split; [repeat constructor|]. eexists _, []. split; [reflexivity|]. split; [reflexivity|]. split; [constructor|exact Ko].
    - do 2 eexists. split; [reflexivity|]. split; [reflexivity|]. split; [reflexivity|]. split; [repeat constructor|]. eexists _, []. split; [reflexivity|]. split; [reflexivity|]. split; [constructor|exact Ko]. }
  destruct (a_body r) eqn:B.
  - destruct (K s) as (s' & cs & E & W & S & F & C). exists s', cs. split; [exact E|]. rewrite W, S in *. split; [right; split; [intros (X & _); discriminate|reflexivity]|].
    split; [right; split; [intros (X & _); discriminate|reflexivity]|]. split; [exact F|]. right. split; [intros (X & _); discriminate|exact C].
  - destruct (oget "websocket" o) as [w|] eqn:Ow.
    + assert (asks (bs "websocket") r) as Aw by (apply AW; eauto). destruct (a_offer r) as [[|]|x] eqn:Of.
      * destruct (K (mkHeld (Some k) match oget "sse" o with Some _ => Some k | None => x_sse s end (x_options s))) as (s' & cs & E & W & S & F & C). exists s', cs. split; [exact E|]. cbn [x_websocket x_sse] in W, S.
        rewrite W, S in *. split; [left; now repeat split|]. split.
        { destruct (oget "sse" o) eqn:Os; [left|right]; (split; [|reflexivity]).
          - split; [reflexivity|]. split; [apply AS; eauto|]. intros (_ & y & Y). discriminate.
          - intros (_ & X & _). apply AS in X as (v & X). congruence. }
        split; [exact F|]. right. split; [intros (_ & _ & y & Y); discriminate|exact C].
      * destruct (K (mkHeld (x_websocket s) match oget "sse" o with Some _ => Some k | None => x_sse s end (x_options s))) as (s' & cs & E & W & S & F & C). exists s', cs. split; [exact E|]. cbn [x_websocket x_sse] in W, S.
        rewrite W, S in *. split; [right; split; [intros (_ & _ & X); discriminate|reflexivity]|]. split.
        { destruct (oget "sse" o) eqn:Os; [left|right]; (split; [|reflexivity]).
          - split; [reflexivity|]. split; [apply AS; eauto|]. intros (_ & y & Y). discriminate.
          - intros (_ & X & _). apply AS in X as (v & X). congruence. }
        split; [exact F|]. right. split; [intros (_ & _ & y & Y); discriminate|exact C].
      * exists s, []. split; [reflexivity|]. split; [right; split; [intros (_ & _ & X); discriminate|reflexivity]|]. split; [right; split; [|reflexivity]|].
        { intros (_ & _ & X). apply X. split; [exact Aw|]. now exists x. }
        split; [constructor|]. left. split; [|reflexivity]. split; [reflexivity|]. split; [exact Aw|]. now exists x.
    + assert (~ asks (bs "websocket") r) as Aw by (intros X; apply AW in X as (v & X); congruence).
      assert (match a_offer r with Ok true => x_websocket s | _ => x_websocket s end = x_websocket s) as _ by (now destruct (a_offer r) as [[|]|]).
      destruct (K (mkHeld (x_websocket s) match oget "sse" o with Some _ => Some k | None => x_sse s end (x_options s))) as (s' & cs & E & W & S & F & C). exists s', cs. split; [exact E|]. cbn [x_websocket x_sse] in W, S.
      rewrite W, S in *. split; [right; split; [intros (_ & X & _); easy|reflexivity]|]. split.
      { destruct (oget "sse" o) eqn:Os; [left|right]; (split; [|reflexivity]).
        - split; [reflexivity|]. split; [apply AS; eauto|]. intros (X & _). easy.
        - intros (_ & X & _). apply AS in X as (v & X). congruence. }
      split; [exact F|]. right. split; [intros (_ & X & _); easy|exact C].
Qed.
Lemma request_ok d k r s : exists s' cs, run_request d k r s = (s', cs) /\
  (gets_websocket r /\ x_websocket s' = Some k \/ ~ gets_websocket r /\ x_websocket s' = x_websocket s) /\ (gets_sse r /\ x_sse s' = Some k \/ ~ gets_sse r /\ x_sse s' = x_sse s) /\
  Forall (fun c => given (Some k) (x_websocket (if is_before (c_role c) then s else s')) (x_sse (if is_before (c_role c) then s else s')) c) cs /\
  (forall c, In c cs -> c_role c = TheHandler -> forall n v, dget beqb n (own_options r) = Some v -> dget beqb n (c_options c) = Some v) /\
  (reaches r /\ ~ (a_body r = false /\ asks (bs "websocket") r /\ exists x, a_offer r = Raise x) <-> exists c, In c cs /\ c_role c = TheHandler).
Proof.
  unfold run_request. destruct (mids_ok RequestMid k (a_before r) 0 [] s) as (s1 & cs1 & x & -> & W1 & S1 & F1 & R). destruct R as [(-> & N)|(-> & Y)].
  - exists s1, cs1. split; [reflexivity|]. split; [right; split; [intros (X & _); now apply N|exact W1]|]. split; [right; split; [intros (X & _); now apply N|exact S1]|].
    assert (forall c, In c cs1 -> exists j, c_role c = RequestMid j) as Rl by (rewrite Forall_forall in F1; intros c I; apply (F1 c I)).
    split; [|split; [intros c I E; destruct (Rl c I) as (j & X); congruence|]].
    + rewrite Forall_forall in F1 |- *. intros c I. destruct (F1 c I) as (G & j & ->). exact G.
    + split; [intros (X & _); now destruct N|]. intros (c & I & E). destruct (Rl c I) as (j & X); congruence.
  - cbn [app]. replace (merge (fst (a_handler r)) (concat (map fst (a_before r)))) with (own_options r) by reflexivity.
    destruct (handler_ok d k r s1) as (s' & cs & -> & W & S & F & C). cbv zeta in W, S, C. exists s', (cs1 ++ cs). split; [reflexivity|]. rewrite W1 in W. rewrite S1 in S.
    split; [destruct W as [(A & B)|(A & B)]; [left|right]; (split; [|exact B])|].
    { split; [exact Y|exact A]. } { intros (_ & X). now apply A. }
    split; [destruct S as [(A & B)|(A & B)]; [left|right]; (split; [|exact B])|].
    { split; [exact Y|exact A]. } { intros (_ & X). now apply A. }
    assert (forall c, In c cs1 -> exists j, c_role c = RequestMid j) as Rl by (rewrite Forall_forall in F1; intros c I; apply (F1 c I)).
    split; [|split].
    + apply Forall_app. rewrite !Forall_forall in *. split; [intros c I; destruct (F1 c I) as (G & j & ->); exact G|]. intros c I. destruct (F c I) as (G & ->). exact G.
    + intros c I E n v H. apply in_app_or in I as [I|I]; [destruct (Rl c I) as (j & X); congruence|]. destruct C as [(_ & ->)|(_ & c0 & cs' & -> & R0 & FR & K)]; [easy|].
      destruct I as [<-|I]; [now apply K|]. rewrite Forall_forall in FR. destruct (FR c I) as (j & X). congruence.
    + split.
      * intros (_ & N). destruct C as [(M & _)|(_ & c0 & cs' & -> & R0 & _)]; [now destruct N|]. exists c0. split; [|exact R0]. apply in_or_app. right. now left.
      * intros (c & I & E). split; [exact Y|]. apply in_app_or in I as [I|I]; [destruct (Rl c I) as (j & X); congruence|]. destruct C as [(_ & ->)|(N & _)]; [easy|exact N].
Qed.
(** *** Several requests. *)
Lemma requests_ok d : forall rs before s, latest gets_websocket before (x_websocket s) -> latest gets_sse before (x_sse s) ->
  forall pre r post, rs = pre ++ r :: post -> exists cs, nth_error (snd (run_requests d (List.length before) rs s)) (List.length pre) = Some cs /\
  (forall c, In c cs -> c_request c = Some (List.length before + List.length pre) /\
     latest gets_websocket (if is_before (c_role c) then before ++ pre else before ++ pre ++ [r]) (c_websocket c) /\
     latest gets_sse (if is_before (c_role c) then before ++ pre else before ++ pre ++ [r]) (c_sse c)) /\
  (forall c, In c cs -> c_role c = TheHandler -> forall n v, dget beqb n (own_options r) = Some v -> dget beqb n (c_options c) = Some v) /\
  (reaches r /\ ~ (a_body r = false /\ asks (bs "websocket") r /\ exists x, a_offer r = Raise x) <-> exists c, In c cs /\ c_role c = TheHandler).
Proof.
  induction rs as [|q rs IH]; intros before s LW LS pre r post E; [now destruct pre|]. cbn [run_requests].
  destruct (request_ok d (List.length before) q s) as (s1 & cs1 & -> & W & Ss & F & O & R).
  assert (latest gets_websocket (before ++ [q]) (x_websocket s1)) as LW1 by (destruct W as [(A & ->)|(A & ->)]; [now apply latest_this|now apply latest_before]).
  assert (latest gets_sse (before ++ [q]) (x_sse s1)) as LS1 by (destruct Ss as [(A & ->)|(A & ->)]; [now apply latest_this|now apply latest_before]).
  specialize (IH (before ++ [q]) s1 LW1 LS1). rewrite app_length in IH. cbn [List.length] in IH. rewrite Nat.add_1_r in IH.
  destruct (run_requests d (S (List.length before)) rs s1) as [s2 css] eqn:Er. cbn [snd] in *. destruct pre as [|q' pre].
  - injection E as <- <-. exists cs1. split; [reflexivity|]. split; [|split; [exact O|exact R]]. rewrite Forall_forall in F. intros c I. destruct (F c I) as (A & -> & ->). cbn [List.length app]. rewrite Nat.add_0_r, app_nil_r.
    split; [exact A|]. destruct (is_before (c_role c)); now split.
  - injection E as <- ->. destruct (IH pre r post eq_refl) as (cs & N & G & O' & R'). exists cs. split; [exact N|]. split; [|split; [exact O'|exact R']]. intros c I. destruct (G c I) as (A & B & C). rewrite <- !app_assoc in B, C. cbn [app List.length] in *.
    split; [rewrite A; f_equal; lia|]. now split.
Qed.
