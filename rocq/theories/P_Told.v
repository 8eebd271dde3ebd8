(** Proofs about the Connection line of responses (C86). *)
From Verif Require Import PyBytes PyBytesFacts PyDictFacts PyInt PyIntFacts PyExn M_Response M_Server M_Pages M_Site M_Stack
  S_Response S_Calls S_Chunked S_Site S_AsgiSite S_Stack S_Told P_Response P_Response2 P_Response3 P_Response4 P_Response5 P_Response6 P_Said P_Response7 P_Response8 P_Site P_AsgiSite P_Stack P_Stack2.

Definition word (kp : bool) (v : bytes) : Prop := if kp then v = bs "keep-alive" \/ v = bs "upgrade" else v = bs "close".
Definition told (kp : bool) (z : rsp) : Prop :=
  exists first lines v t q, r_out z = Some (head_of (first :: lines) ++ t) :: q /\ Forall one_line (first :: lines) /\ first <> [] /\ ~ In [] lines /\
    only_line (bs "connection") (bs "Connection: " ++ v) lines /\ word kp v.
Lemma shape_told kp e st mid ch out content key x ann d cv : response_shape e st mid ch [] out content key x ann True d cv -> Forall (fun h => ~ In (bs "connection") (names h)) mid -> word kp cv ->
  forall z, r_out z = out -> told kp z.
Proof.
  intros (first & lines & Ol & _ & Ef & _ & (Nb & Cn) & Sh) Fm W z Ez. exists first, lines, cv, [].
  assert (exists q, out = Some (head_of (first :: lines)) :: q) as (q & Eq).
  { destruct (is_head e || _); [now exists [None]|]. destruct Sh as (items & -> & _). cbn [app]. eexists. reflexivity. }
  exists q. rewrite app_nil_r, Ez. split; [exact Eq|]. split; [exact Ol|]. split; [rewrite Ef; discriminate|]. split; [now apply Nb|]. split; [now apply Cn|exact W].
Qed.
Lemma value_told kp e o pre mid data s' : (1 <= h_buf o)%Z -> Forall appends_clean pre -> Forall name_ok (pre ++ mid) -> Forall unreserved pre -> Forall (clean e) mid -> Forall (fun h => ~ In (bs "connection") (names h)) mid ->
  respond_value e o mid data (start e pre kp) = (Ok tt, s') -> told kp s'.
Proof.
  intros Hb A N U C T E. apply Forall_app in N as [N1 N2]. destruct (called_intro True e pre kp A ltac:(now intros _) U) as (d & Ca).
  destruct (value_main True e o mid data _ d _ s' (ca_h _ _ _ _ _ _ Ca) (ca_g _ _ _ _ _ _ Ca) (ca_l _ _ _ _ _ _ Ca) (ca_b _ _ _ _ _ _ Ca) C (fun _ => N2) Hb E) as (_ & Sh & _).
  rewrite (ca_k _ _ _ _ _ _ Ca), (ca_o _ _ _ _ _ _ Ca) in Sh. eapply shape_told; [exact Sh|exact T| |reflexivity]. destruct kp; [now left|reflexivity].
Qed.
Lemma stream_told kp e o pre mid y0 ys s' : (1 <= h_buf o)%Z -> Forall appends_clean pre -> Forall name_ok (pre ++ mid) -> Forall unreserved pre -> Forall (clean e) mid -> Forall (fun h => ~ In (bs "connection") (names h)) mid ->
  respond_stream e o mid y0 ys (start e pre kp) = (Ok tt, s') -> told kp s'.
Proof.
  intros Hb A N U C T E. apply Forall_app in N as [N1 N2]. destruct (called_intro True e pre kp A ltac:(now intros _) U) as (d & Ca).
  destruct (stream_main True e o mid y0 ys _ d _ s' (ca_h _ _ _ _ _ _ Ca) (ca_g _ _ _ _ _ _ Ca) (ca_l _ _ _ _ _ _ Ca) (ca_b _ _ _ _ _ _ Ca) C (fun _ => N2) Hb E) as (_ & Sh & _).
  rewrite (ca_k _ _ _ _ _ _ Ca), (ca_o _ _ _ _ _ _ Ca) in Sh. eapply shape_told; [exact Sh|exact T| |reflexivity]. destruct kp; [|reflexivity]. destruct (special _); [now right|now left].
Qed.
Lemma answer_told kp e n str pre mid x s' : (1 <= n)%Z -> Forall appends_clean pre -> Forall name_ok (pre ++ mid) -> Forall unreserved pre -> Forall (clean e) mid -> Forall (fun h => ~ In (bs "connection") (names h)) mid ->
  answer_of e (mkHOpts None str n) mid x (start e pre kp) = (Ok tt, s') -> told kp s'.
Proof.
  intros Hb A N U C T E. destruct x as [d|y0 ys]; cbn [answer_of h_buf] in E.
  - exact (value_told kp e (mkHOpts None true n) pre mid d s' Hb A N U C T E).
  - exact (stream_told kp e (mkHOpts None str n) pre mid y0 ys s' Hb A N U C T E).
Qed.
Lemma end_told kp e ops d s' : one_line (e_date e) -> one_line (e_server e) -> Forall appends_clean ops -> Forall name_ok ops -> Forall unreserved ops ->
  end_ e d true None (start e (HBase :: ops) kp) = (Ok tt, s') -> told kp s'.
Proof.
  intros OD OS A1 A2 A3 E'. destruct (end_lines kp e ops d OD OS A1 A2 A3) as (s2 & lines & body & E & O & _ & _ & Ol & Nb & Cn & _).
  rewrite E' in E. injection E as <-. eexists _, lines, _, body, [None]. split; [exact O|]. split; [exact Ol|]. split; [discriminate|]. split; [exact Nb|]. split; [exact Cn|]. destruct kp; [now left|reflexivity].
Qed.
Lemma based_leaves xs : Forall (Forall (fun h => ~ In (bs "connection") (names h))) xs -> Forall (fun h => ~ In (bs "connection") (names h)) (based xs).
Proof.
  induction 1 as [|ops xs U F IH]; [constructor|]. unfold based in *. cbn [flat_map app]. apply Forall_cons; [cbn; intuition discriminate|]. apply Forall_app. now split.
Qed.
