(** C67: what handlers and middlewares are called with. *)
From Verif Require Import PyBytes PyBytesFacts PyDictFacts PyExn M_Server M_Args S_Args P_Args.

Definition calls_of (d : defaults) (rs : list areq) (k : nat) : list called := nth k (snd (run_requests d 0 rs held0)) [].

(** Every function called for a request gets this request, and the WebSocket and the SSE that were made last: functions before the handler those of an earlier request,
    the handler and the response middlewares their own if the request makes one, and otherwise those of an earlier request. *)
Theorem c67_exact d pre r post c : In c (calls_of d (pre ++ r :: post) (List.length pre)) ->
  c_request c = Some (List.length pre) /\
  latest gets_websocket (if is_before (c_role c) then pre else pre ++ [r]) (c_websocket c) /\
  latest gets_sse (if is_before (c_role c) then pre else pre ++ [r]) (c_sse c).
Proof.
  unfold calls_of. destruct (requests_ok d (pre ++ r :: post) [] held0 (latest_nil _) (latest_nil _) pre r post eq_refl) as (cs & N & G & _). cbn [List.length] in N. rewrite (nth_error_nth _ _ _ N). intros I. destruct (G c I) as (A & B & C). now split.
Qed.
Print Assumptions c67_exact.

Lemma latest_last P rs r k : latest P (rs ++ [r]) k -> (P r /\ k = Some (List.length rs)) \/ (~ P r /\ latest P rs k).
Proof. intros H. inversion H as [X|rs' r' Y X|rs' r' x Y Z X]; [now destruct rs|apply app_inj_tail in X as (-> & ->); now left|apply app_inj_tail in X as (-> & ->); now right]. Qed.
Lemma latest_none P rs k : Forall (fun r => ~ P r) rs -> latest P rs k -> k = None.
Proof. intros F H. induction H as [|rs r Y|rs r x Y Z IH]; [reflexivity| |]; apply Forall_app in F as (F & F1); [inversion F1; easy|now apply IH]. Qed.

(** The handler of a request that opens a WebSocket (no body, asked for, with the fields of a handshake) gets the WebSocket of its own request, and so do the response
    middlewares; likewise an SSE. Where neither the request nor an earlier one on the connection opens one they get None. Missing: requests after another that did, see
    [c67_stale_refuted]. *)
Theorem c67_own_partial d pre r post c : In c (calls_of d (pre ++ r :: post) (List.length pre)) -> is_before (c_role c) = false ->
  (gets_websocket r -> c_websocket c = Some (List.length pre)) /\ (gets_sse r -> c_sse c = Some (List.length pre)) /\
  (Forall (fun q => ~ gets_websocket q) (pre ++ [r]) -> c_websocket c = None) /\ (Forall (fun q => ~ gets_sse q) (pre ++ [r]) -> c_sse c = None).
Proof.
  intros I B. destruct (c67_exact d pre r post c I) as (_ & W & S). rewrite B in W, S.
  split; [intros G; destruct (latest_last _ _ _ _ W) as [(_ & E)|(N & _)]; [exact E|easy]|]. split; [intros G; destruct (latest_last _ _ _ _ S) as [(_ & E)|(N & _)]; [exact E|easy]|].
  split; intros F; eapply latest_none; eauto.
Qed.
Print Assumptions c67_own_partial.

(** The handler is called exactly for the requests that all middlewares let pass, but for a WebSocket request whose handshake cannot be examined (an Upgrade field that is
    given twice). *)
Theorem c67_called d pre r post : (exists c, In c (calls_of d (pre ++ r :: post) (List.length pre)) /\ c_role c = TheHandler) <->
  reaches r /\ ~ (a_body r = false /\ asks (bs "websocket") r /\ exists x, a_offer r = Raise x).
Proof.
  unfold calls_of. destruct (requests_ok d (pre ++ r :: post) [] held0 (latest_nil _) (latest_nil _) pre r post eq_refl) as (cs & N & _ & _ & R). cbn [List.length] in N. rewrite (nth_error_nth _ _ _ N). symmetry. exact R.
Qed.
Print Assumptions c67_called.

(** context.options as the handler sees it has all the options of its route and of the middlewares before it, with their values. *)
Theorem c67_options d pre r post c n v : In c (calls_of d (pre ++ r :: post) (List.length pre)) -> c_role c = TheHandler ->
  dget beqb n (own_options r) = Some v -> dget beqb n (c_options c) = Some v.
Proof.
  unfold calls_of. destruct (requests_ok d (pre ++ r :: post) [] held0 (latest_nil _) (latest_nil _) pre r post eq_refl) as (cs & N & _ & O & _). cbn [List.length] in N. rewrite (nth_error_nth _ _ _ N). eauto.
Qed.
Print Assumptions c67_options.

(** *** What is not so. *)
Definition d1 : defaults := mkDefaults (VInt 1048576) (VInt 16384).
Definition ws_route : opts * ending := ([(bs "websocket", VObj)], Passes).
Definition sse_route : opts * ending := ([(bs "sse", VObj); (bs "stream", VBool false)], Passes).
Definition plain_route : opts * ending := ([], Passes).
Definition open_ws : areq := mkAreq false (Ok true) [] ws_route [plain_route].
Definition open_sse : areq := mkAreq false (Ok false) [] sse_route [].
(** A later request on the connection: to the WebSocket's path without a handshake, or to another route. *)
Definition get_ws : areq := mkAreq false (Ok false) [] ws_route [].
Definition get_plain : areq := mkAreq false (Ok false) [plain_route] plain_route [].

Lemma not_ws r : a_offer r = Ok false -> ~ gets_websocket r.
Proof. intros E (_ & _ & _ & X). congruence. Qed.
(** A handler whose own request opens no WebSocket is given that of an earlier request (its handler turned it down, say, and the connection was kept); likewise an SSE. *)
Theorem c67_stale_refuted : exists d rs c, c_role c = TheHandler /\ In c (calls_of d rs 1) /\ (forall r, nth_error rs 1 = Some r -> ~ gets_websocket r /\ ~ gets_sse r) /\
  c_websocket c = Some 0 /\ c_request c = Some 1.
Proof.
  exists d1, [open_ws; get_ws]. eexists. split; [|split]; [|vm_compute; left; reflexivity|]; [reflexivity|]. split.
  - intros r E. injection E as <-. split; [now apply not_ws|]. intros (_ & _ & X & _). vm_compute in X. destruct X as [X|[]]. discriminate X.
  - now split.
Qed.
Print Assumptions c67_stale_refuted.
Theorem c67_stale_sse_refuted : exists d rs c, c_role c = TheHandler /\ In c (calls_of d rs 1) /\ (forall r, nth_error rs 1 = Some r -> ~ gets_sse r /\ ~ gets_websocket r) /\ c_sse c = Some 0 /\ c_request c = Some 1.
Proof.
  exists d1, [open_sse; get_plain]. eexists. split; [|split]; [|vm_compute; right; left; reflexivity|]; [reflexivity|]. split.
  - intros r E. injection E as <-. split; [|now apply not_ws]. intros (_ & _ & X & _). vm_compute in X. exact X.
  - now split.
Qed.
Print Assumptions c67_stale_sse_refuted.
(** context.options keeps the options of the routes of earlier requests: this handler sees one that nothing of its request has. *)
Theorem c67_options_refuted : exists d rs r c n v, nth_error rs 1 = Some r /\ In c (calls_of d rs 1) /\ c_role c = TheHandler /\ ~ In n (map fst (own_options r)) /\
  n <> bs "rate" /\ n <> bs "buffer_size" /\ dget beqb n (c_options c) = Some v.
Proof.
  exists d1, [open_sse; get_plain], get_plain. eexists. exists (bs "stream"), (VBool false). split; [reflexivity|]. split; [vm_compute; right; left; reflexivity|]. split; [reflexivity|].
  split; [vm_compute; tauto|]. split; [discriminate|]. split; [discriminate|]. reflexivity.
Qed.
Print Assumptions c67_options_refuted.

(** *** The hypotheses are met. *)
Example c67_example_own : gets_websocket open_ws /\ gets_sse open_sse /\ reaches get_plain /\
  map (fun c => (c_role c, c_websocket c)) (calls_of d1 [get_plain; open_ws] 1) = [(TheHandler, Some 1); (ResponseMid 0, Some 1)] /\
  map (fun c => (c_role c, c_sse c)) (calls_of d1 [get_plain; open_sse] 1) = [(TheHandler, Some 1)] /\
  map (fun c => (c_role c, c_websocket c, c_sse c)) (calls_of d1 [get_plain; open_ws] 0) = [(RequestMid 0, None, None); (TheHandler, None, None)].
Proof.
  split; [|split; [|split; [|vm_compute; now repeat split]]].
  - split; [constructor|]. split; [reflexivity|]. split; [vm_compute; now left|reflexivity].
  - split; [constructor|]. split; [reflexivity|]. split; [vm_compute; now left|]. intros (X & x & Y). discriminate Y.
  - repeat constructor.
Qed.
Example c67_example_options : let r := mkAreq false (Ok false) [([(bs "status", VStatus 201 (bs "Created"))], Passes); ([(bs "status", VStatus 202 (bs "Accepted"))], Passes)] sse_route [] in
  dget beqb (bs "status") (own_options r) = Some (VStatus 201 (bs "Created")) /\ dget beqb (bs "stream") (own_options r) = Some (VBool false) /\ List.length (calls_of d1 [r] 0) = 3.
Proof. now vm_compute. Qed.
Example c67_example_middleware_stops : calls_of d1 [mkAreq false (Ok true) [([], Stops)] ws_route []] 0 = [mkCalled (RequestMid 0) (Some 0) None None []].
Proof. reflexivity. Qed.
