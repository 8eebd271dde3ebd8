(** C22-C27: WebSocket frames. Wire format: S_WebSocket.v (RFC 6455). *)
From Verif Require Import PyBytes PyInt PyExn PyUtf8 M_Stream M_WebSocket S_WebSocket P_WebSocket.
Local Open Scope Z_scope.

Definition wo : opts := mkOpts 16384 1048576.
(** A freshly upgraded request with the given packets queued. *)
Definition ws_reader (segs : list bytes) (tl : list inp) : reader :=
  fresh_reader (mkR (map Data segs ++ tl) 0 false false (-1) false 0).
Example ws_reader_upgraded : upgraded (ws_reader [[]; bs "ab"] [End]) [[]; bs "ab"] [End].
Proof. repeat split; cbn; auto. Qed.
Definition k4 : bytes := [ascii_of_nat 1; ascii_of_nat 200; ascii_of_nat 3; ascii_of_nat 255].

(** C22: create_frame(payload, fin, opcode, mask) returns the wire image of the frame, with
    the shortest length field. [op_for] is the opcode given, or 1 for a str and 2 for bytes;
    [payload_of] is the payload, UTF-8 encoded when it is a str. *)
Theorem c22_create_frame : forall (v : pyval) (fin : bool) (opcode : option N) (mask : bool) (key p : bytes),
  payload_of v = Some p -> (N.of_nat (List.length p) < 2 ^ 64)%N ->
  (op_for v opcode < 16)%N ->
  match v with VStr _ => op_for v opcode = 1%N | VBytes _ => op_for v opcode <> 1%N end ->
  (mask = true -> List.length key = 4%nat) ->
  create_frame v (if fin then 1 else 0) opcode mask key =
    Ok (wire (shortest (N.of_nat (List.length p))) (mkFrame fin (op_for v opcode) (if mask then Some key else None) p)).
Proof. intros v fin opcode mask key p P L O T K. exact (create_frame_wire v fin opcode mask key p T O P L K). Qed.
Print Assumptions c22_create_frame.

Example c22_short : create_frame (VBytes (bs "Hi")) 1 None false [] = Ok (map ascii_of_nat [130; 2; 72; 105]%nat).
Proof. reflexivity. Qed.
Example c22_masked : create_frame (VStr [72; 233]%N) 1 None true k4 = Ok (map ascii_of_nat [129; 131; 1; 200; 3; 255; 73; 11; 170]%nat).
Proof. reflexivity. Qed.
Example c22_medium : exists l, create_frame (VBytes (repeat SP 300)) 0 (Some 0%N) false [] = Ok (map ascii_of_nat [0; 126; 1; 44]%nat ++ l) /\ l = repeat SP 300.
Proof. eexists. split; [vm_compute; reflexivity|]. vm_compute. reflexivity. Qed.

(** C23: whatever create_frame made of a message is received as that message, however it is
    cut into packets ([rbuf r] is what an earlier read left over), and what follows it
    stays unread. *)
Theorem c23_roundtrip : forall o max v mask key B frame r segs tl,
  0 <= o_max_body o ->
  create_frame v 1 None mask key = Ok frame -> (mask = true -> List.length key = 4%nat) ->
  (forall p, payload_of v = Some p -> (65536 <= blen p -> blen p <= max) /\ blen p < 2 ^ 64) ->
  upgraded r segs tl -> rbuf r ++ concat segs = frame ++ B ->
  exists r' segs', ws_recv o max r = (WRet v, r', []) /\ upgraded r' segs' tl /\ rbuf r' ++ concat segs' = B.
Proof. exact c23_main. Qed.
Print Assumptions c23_roundtrip.

Example c23_example : exists r', ws_recv wo 100 (ws_reader [[]; map ascii_of_nat [129; 131; 1; 200]%nat; map ascii_of_nat [3; 255; 73; 11; 170; 5]%nat] []) =
  (WRet (VStr [72; 233]%N), r', []) /\ rbuf r' = [ascii_of_nat 5].
Proof. eexists. split; [vm_compute; reflexivity|]. vm_compute. reflexivity. Qed.

(** Until the frame is complete, recv waits (as long as the connection stays open). *)
Theorem c23_waits : forall o max form f r segs k,
  0 <= o_max_body o -> frame_ok form f -> (form = L64 -> Z.of_nat (List.length (f_payload f)) <= max) ->
  (k < List.length (wire form f))%nat -> upgraded r segs [] -> rbuf r ++ concat segs = firstn k (wire form f) ->
  exists r', ws_recv o max r = (WBlock, r', []).
Proof. exact c23_waits_l. Qed.
Print Assumptions c23_waits.

(** C24, as claimed: any announced length above the limit is refused with 1009. *)
Definition c24_claim : Prop := forall o max form fin op mask n B r segs tl,
  0 <= o_max_body o -> 0 <= max -> (op < 16)%N -> fits form n -> max < Z.of_N n ->
  upgraded r segs tl -> rbuf r ++ concat segs = announce form fin op mask n ++ B ->
  exists r' segs', ws_recv o max r = (WRaise (WSServerClosed 1009), r', []) /\ upgraded r' segs' tl /\ rbuf r' ++ concat segs' = B.

(** It holds of the 64-bit form: refused, and nothing after the length is read. Missing: the
    7-bit and 16-bit forms, where the limit is not looked at. *)
Theorem c24_limit_partial : forall o max fin op mask n B r segs tl,
  0 <= o_max_body o -> (op < 16)%N -> (n < 2 ^ 64)%N -> max < Z.of_N n ->
  upgraded r segs tl -> rbuf r ++ concat segs = announce L64 fin op mask n ++ B ->
  exists r' segs', ws_recv o max r = (WRaise (WSServerClosed 1009), r', []) /\ upgraded r' segs' tl /\ rbuf r' ++ concat segs' = B.
Proof. exact c24_main. Qed.
Print Assumptions c24_limit_partial.

Example c24_example : exists r', ws_recv wo 1000 (ws_reader [announce L64 true 2 true 1001%N; bs "xyz"] []) = (WRaise (WSServerClosed 1009), r', []).
Proof. eexists. vm_compute. reflexivity. Qed.

(** With ws_max_payload_size = 3, a binary message of 4 bytes is delivered. *)
Theorem c24_limit_refuted : exists max (p : bytes) r,
  max < blen p /\ upgraded r [announce L16 true 2 false (N.of_nat (List.length p)); p] [] /\ rbuf r = [] /\
  exists r', ws_recv wo max r = (WRet (VBytes p), r', []).
Proof.
  exists 3, (bs "abcd"), (ws_reader [announce L16 true 2 false 4; bs "abcd"] []). split; [reflexivity|].
  split; [repeat split; cbn; auto|]. split; [reflexivity|]. eexists. vm_compute. reflexivity.
Qed.
Print Assumptions c24_limit_refuted.
Theorem c24_claim_refuted : ~ c24_claim.
Proof.
  intros H. destruct (H wo 3 L16 true 2%N false 4%N (bs "abcd") (ws_reader [announce L16 true 2 false 4; bs "abcd"] []) [announce L16 true 2 false 4; bs "abcd"] [])
    as (r' & segs' & E & _); try (cbn; lia); try reflexivity.
  - repeat split; cbn; auto.
  - vm_compute in E. discriminate E.
Qed.
Print Assumptions c24_claim_refuted.

(** C25. [whole o max form f r B tl]: the reader [r] holds the complete frame [f] followed by
    [B], in any packets, and the limit allows it. [left r' B tl]: exactly [B] is left. *)
Theorem c25_control_partial : forall o max form f r B tl, whole o max form f r B tl ->
  exists r', left r' B tl /\
  let n := List.length (f_payload f) in
  (* a ping is answered by one pong with the same payload *)
  (f_op f = 9%N -> (n < 126)%nat ->
     ws_recv o max r = (WRet (VBytes []), r', [wire L7 (mkFrame true 10 None (f_payload f))])) /\
  (* a pong is swallowed *)
  (f_op f = 10%N -> (n < 126)%nat -> ws_recv o max r = (WRet (VBytes []), r', [])) /\
  (* a close frame ends the session with its code *)
  (f_op f = 8%N -> f_payload f = [] -> ws_recv o max r = (WRaise (WSClientClosed 1005), r', [])) /\
  (forall a b p, f_op f = 8%N -> f_payload f = a :: b :: p ->
     ws_recv o max r = (WRaise (WSClientClosed (256 * Z.of_N (N_of_ascii a) + Z.of_N (N_of_ascii b))), r', [])) /\
  (* anything else is refused *)
  (~ In (f_op f) [1; 2; 8; 9; 10]%N -> ws_recv o max r = (WRaise (WSServerClosed 1008), r', [])) /\
  (In (f_op f) [9; 10]%N -> (126 <= n)%nat -> ws_recv o max r = (WRaise (WSServerClosed 1008), r', [])).
Proof. exact c25_all. Qed.
Print Assumptions c25_control_partial.

Example c25_whole : whole wo 100 L7 (mkFrame true 9 (Some k4) (bs "hey")) (ws_reader [wire L7 (mkFrame true 9 (Some k4) (bs "hey"))] []) [] [].
Proof.
  split; [easy|]. split; [repeat split; reflexivity|]. split; [easy|]. exists [wire L7 (mkFrame true 9 (Some k4) (bs "hey"))].
  split; [repeat split; cbn; auto|]. reflexivity.
Qed.
Example c25_ping_example : exists r', ws_recv wo 100 (ws_reader [wire L7 (mkFrame true 9 (Some k4) (bs "hey"))] []) =
  (WRet (VBytes []), r', [map ascii_of_nat [138; 3]%nat ++ bs "hey"]).
Proof. eexists. vm_compute. reflexivity. Qed.

(** Missing above, and false: a close frame with a payload of 126 bytes or more is not
    refused with 1008; the session ends with the peer's code. *)
Theorem c25_control_refuted : exists f r r',
  f_op f = 8%N /\ (126 <= List.length (f_payload f))%nat /\ whole wo 100 L16 f r [] [] /\
  ws_recv wo 100 r = (WRaise (WSClientClosed 1000), r', []).
Proof.
  exists (mkFrame true 8 None (network 2 1000 ++ repeat SP 126)), (ws_reader [wire L16 (mkFrame true 8 None (network 2 1000 ++ repeat SP 126))] []).
  eexists. split; [reflexivity|]. split; [vm_compute; lia|]. split.
  - split; [easy|]. split; [repeat split; reflexivity|]. split; [easy|]. exists [wire L16 (mkFrame true 8 None (network 2 1000 ++ repeat SP 126))].
    split; [repeat split; cbn; auto|]. cbn [ws_reader fresh_reader rbuf concat app]. now rewrite !app_nil_r.
  - vm_compute. reflexivity.
Qed.
Print Assumptions c25_control_refuted.

(** C26, as claimed: a frame cut short by the end of the connection makes recv raise. *)
Definition c26_claim : Prop := forall o max form f r segs tl k,
  0 <= o_max_body o -> frame_ok form f -> (form = L64 -> Z.of_nat (List.length (f_payload f)) <= max) ->
  (k < List.length (wire form f))%nat -> upgraded r segs (End :: tl) -> rbuf r ++ concat segs = firstn k (wire form f) ->
  exists e r' out, ws_recv o max r = (WRaise e, r', out).

(** Partial: it raises when the end comes within the first two bytes, and otherwise at the
    next call at the latest. Missing: the call that meets the end may return. *)
Theorem c26_truncated_partial : forall o max form f r segs tl k,
  0 <= o_max_body o -> frame_ok form f -> (form = L64 -> Z.of_nat (List.length (f_payload f)) <= max) ->
  (k < List.length (wire form f))%nat -> upgraded r segs (End :: tl) -> rbuf r ++ concat segs = firstn k (wire form f) ->
  exists x r' out, ws_recv o max r = (x, r', out) /\
    ((k < 2)%nat -> x = WRaise (WSClientClosed 1005)) /\
    ws_recv o max r' = (WRaise (WSClientClosed 1005), r', []).
Proof. exact c26_partial_l. Qed.
Print Assumptions c26_truncated_partial.

(** What is returned then, for every binary message whose head has arrived: its beginning. *)
Theorem c26_truncated_refuted : forall o max form f r segs tl k,
  0 <= o_max_body o -> frame_ok form f -> (form = L64 -> Z.of_nat (List.length (f_payload f)) <= max) ->
  f_op f = 2%N -> (List.length (wire_head form f) <= k < List.length (wire form f))%nat ->
  upgraded r segs (End :: tl) -> rbuf r ++ concat segs = firstn k (wire form f) ->
  exists r' out, ws_recv o max r = (WRet (VBytes (firstn (k - List.length (wire_head form f)) (f_payload f))), r', out).
Proof. exact c26_returns. Qed.
Print Assumptions c26_truncated_refuted.
Example c26_frame : frame_ok L7 (mkFrame true 2 (Some k4) (bs "hello")). Proof. repeat split; reflexivity. Qed.
Theorem c26_claim_refuted : ~ c26_claim.
Proof.
  intros H. set (f := mkFrame true 2 (Some k4) (bs "hello")).
  destruct (H wo 100 L7 f (ws_reader [firstn 9 (wire L7 f)] [End]) [firstn 9 (wire L7 f)] [] 9%nat) as (e & r' & out & E).
  - easy.
  - repeat split; reflexivity.
  - easy.
  - vm_compute. lia.
  - repeat split; cbn; auto.
  - reflexivity.
  - vm_compute in E. discriminate E.
Qed.
Print Assumptions c26_claim_refuted.

(** C27. After any pings and pongs ([skippable]: a whole ping or pong frame with a payload
    below 126 bytes), receive() returns the next text message, or binary message that is not
    empty, having answered the pings in order. [message f v]: the unfragmented data frame [f]
    carries [v]. Missing: empty binary messages; fragmented messages. *)
Theorem c27_receive_partial : forall o max cs form f v B r segs tl,
  0 <= o_max_body o -> Forall (skippable max) cs -> frame_ok form f ->
  (form = L64 -> Z.of_nat (List.length (f_payload f)) <= max) -> message f v -> v <> VBytes [] ->
  upgraded r segs tl -> rbuf r ++ concat segs = concat (map (fun c => wire (fst c) (snd c)) cs) ++ wire form f ++ B ->
  exists r' segs', receive o max r = (WRet v, r', pongs cs) /\ upgraded r' segs' tl /\ rbuf r' ++ concat segs' = B.
Proof. exact c27_main. Qed.
Print Assumptions c27_receive_partial.

Definition ex_ping := mkFrame true 9 (Some k4) (bs "p").
Definition ex_text := mkFrame true 1 (Some k4) (bs "hi").
Example c27_skippable : Forall (skippable 100) [(L7, ex_ping); (L16, mkFrame true 10 None [])] /\ message ex_text (VStr [104; 105]%N).
Proof.
  split; [|split; reflexivity]. constructor; [|constructor; [|constructor]]; (split; [repeat split; reflexivity|]); (split; [easy|]); cbn; (split; [auto|lia]).
Qed.
Example c27_example : exists r', receive wo 100 (ws_reader [wire L7 ex_ping ++ wire L7 ex_text] []) = (WRet (VStr [104; 105]%N), r', [pong_of ex_ping]).
Proof. eexists. vm_compute. reflexivity. Qed.

(** The loop of receive() always comes to a result or waits for data. *)
Theorem c27_terminates : forall o max r segs tl x r' out,
  0 <= o_max_body o -> upgraded r segs tl -> receive o max r = (x, r', out) -> x <> WFuel.
Proof. exact c27_fuel. Qed.
Print Assumptions c27_terminates.

(** An empty binary message is not delivered: receive() returns the message after it. *)
Theorem c27_receive_refuted : exists f1 f2 v2 r r',
  message f1 (VBytes []) /\ message f2 v2 /\ v2 <> VBytes [] /\ frame_ok L7 f1 /\ frame_ok L7 f2 /\
  upgraded r [wire L7 f1; wire L7 f2] [] /\ rbuf r = [] /\ receive wo 100 r = (WRet v2, r', []).
Proof.
  exists (mkFrame true 2 (Some k4) []), ex_text, (VStr [104; 105]%N), (ws_reader [wire L7 (mkFrame true 2 (Some k4) []); wire L7 ex_text] []).
  eexists. repeat (split; [first [reflexivity | discriminate | (repeat split; cbn; auto; reflexivity)]|]). vm_compute. reflexivity.
Qed.
Print Assumptions c27_receive_refuted.

(** A message in two fragments: the first is delivered as if it were whole, and the second
    ends the session with code 1008. *)
Theorem c27_fragments_refuted : exists r r' r2,
  upgraded r [wire L7 (mkFrame false 1 (Some k4) (bs "he")); wire L7 (mkFrame true 0 (Some k4) (bs "llo"))] [] /\ rbuf r = [] /\
  receive wo 100 r = (WRet (VStr [104; 101]%N), r', []) /\ receive wo 100 r' = (WRaise (WSServerClosed 1008), r2, []).
Proof.
  exists (ws_reader [wire L7 (mkFrame false 1 (Some k4) (bs "he")); wire L7 (mkFrame true 0 (Some k4) (bs "llo"))] []).
  eexists _, _. split; [repeat split; cbn; auto|]. split; [reflexivity|]. split; [vm_compute; reflexivity|]. vm_compute. reflexivity.
Qed.
Print Assumptions c27_fragments_refuted.
