(** C19-C21: uploads and throttled queueing. *)
From Verif Require Import PyBytes PyExn Trans M_Upload P_Upload.
Local Open Scope Z_scope.

(** C19, partial. For every run of an upload (pieces, end of put_to_queue, queue overflow, in
    any order): all the pieces handed over by the client but the last one total less than
    client_max_body_size, and less than the Content-Length if there is one. With
    Expect: 100-continue one more piece can get in (c19_upload_refuted), never two. *)
Theorem c19_upload_partial : forall o first evs s,
  run (ustep o) (ustart first false) evs = Some s ->
  exists ps last, u_pieces s = ps ++ [last] /\
    (ps = [] \/ (blen (concat ps) < u_max o /\ match u_cl o with Some n => blen (concat ps) < n | None => True end)).
Proof. exact c19_main. Qed.
Print Assumptions c19_upload_partial.

Theorem c19_upload_expect : forall o first expect evs s,
  run (ustep o) (ustart first expect) evs = Some s ->
  exists ps lasts, u_pieces s = ps ++ lasts /\ (List.length lasts <= 2)%nat /\
    (ps = [] \/ (blen (concat ps) < u_max o /\ match u_cl o with Some n => blen (concat ps) < n | None => True end)).
Proof. exact c19_expect. Qed.
Print Assumptions c19_upload_expect.

Definition ex_expect_run : list uev :=
  [UDone; UData (bs "bbbb"); UContinued; UData (bs "cccc"); UDone; UData (bs "dddd")].
(** 16 bytes are taken with a limit of 10 and pieces of 4. *)
Theorem c19_upload_refuted : exists o first evs s, run (ustep o) (ustart first true) evs = Some s /\
  exists ps last, u_pieces s = ps ++ [last] /\ u_max o + blen last <= blen (concat (u_pieces s)) /\ ps <> [].
Proof.
  exists (mkUOpts 10 None), (bs "aaaa"), ex_expect_run. eexists. split; [reflexivity|].
  exists [bs "aaaa"; bs "bbbb"; bs "cccc"], (bs "dddd"). split; [reflexivity|]. split; [vm_compute; discriminate|discriminate].
Qed.
Print Assumptions c19_upload_refuted.

Example c19_nonvacuous : exists s, run (ustep (mkUOpts 10 None)) (ustart (bs "aaaa") false) [UDone; UData (bs "bbbb"); UDone; UData (bs "cccc"); UDone] = Some s /\
  u_closing s = true /\ u_pieces s = [bs "aaaa"; bs "bbbb"; bs "cccc"].
Proof. eexists. split; [reflexivity|now split]. Qed.

(** C20. Any number of writers and a consumer, in any interleaving: the queue never holds
    more than max_queue_size plus the number of writers. *)
Theorem c20_queue_bound : forall o q0 datas evs s, 0 <= p_max o -> Z.of_nat (List.length (bq q0)) <= p_max o ->
  run (pstep o) (mkPsys q0 (map start_put datas) false) evs = Some s ->
  Z.of_nat (List.length (bq (ps_q s))) <= p_max o + Z.of_nat (List.length datas).
Proof. exact c20_max. Qed.
Print Assumptions c20_queue_bound.

(** One writer: what was taken and what is queued is what was there plus pieces of the data,
    in order, each of 1 to buffer_size bytes; they are the whole data when the call ends
    normally; the connection is aborted exactly when the call stopped early. *)
Theorem c20_one_writer : forall o q0 d evs s, 0 < p_buf o -> (bwait q0 = true -> bq q0 = []) ->
  run (pstep o) (mkPsys q0 [start_put d] false) evs = Some s ->
  exists p ps, ps_putters s = [p] /\
    taken (ps_q s) ++ bq (ps_q s) = (taken q0 ++ bq q0) ++ ps /\
    (Forall (fun x => 0 < blen x <= p_buf o) ps /\
     match p_phase p with
     | PLoop => concat ps ++ p_rest p = d
     | POver => concat ps = d
     | PAborted => exists t, d = concat ps ++ t
     end) /\
    (ps_aborted s = true <-> p_phase p = PAborted).
Proof. exact c20_one. Qed.
Print Assumptions c20_one_writer.

Definition ex_put : psys := mkPsys (mkBQ [] true []) [start_put (bs "abcdefgh")] false.
Example c20_nonvacuous : exists s, run (pstep (mkPOpts 1 3 1)) ex_put [EPut 0; EPut 0; EGet; EPut 0; EPut 0] = Some s /\
  taken (ps_q s) = [bs "abc"; bs "def"] /\ bq (ps_q s) = [bs "gh"] /\ ps_aborted s = false.
Proof. eexists. split; [vm_compute; reflexivity|now repeat split]. Qed.
Example c20_overflow : exists s, run (pstep (mkPOpts 1 3 1)) ex_put [EPut 0; EPut 0; EPut 0] = Some s /\
  bq (ps_q s) = [bs "def"; bs "gh"] /\ ps_aborted s = true.
Proof. eexists. split; [vm_compute; reflexivity|now repeat split]. Qed.

(** Two writers can pass max_queue_size + 1: the second one is not told. *)
Theorem c20_two_writers_refuted : exists o q0 d1 d2 evs s, Z.of_nat (List.length (bq q0)) <= p_max o /\
  run (pstep o) (mkPsys q0 [start_put d1; start_put d2] false) evs = Some s /\
  p_max o + 1 < Z.of_nat (List.length (bq (ps_q s))).
Proof.
  exists (mkPOpts 1 3 1), (mkBQ [] false []), (bs "abcdef"), (bs "gh"), [EPut 0; EPut 0; EPut 1]%nat. eexists.
  split; [vm_compute; discriminate|]. split; [vm_compute; reflexivity|reflexivity].
Qed.
Print Assumptions c20_two_writers_refuted.

(** C21. Whatever the queue sizes seen on the way (any writers, any interleaving), a call
    that queued all its data slept at least len(data) / rate. *)
Theorem c21_throughput : forall o q0 datas evs s i p d, (0 < p_rate o)%Q -> 0 < p_buf o ->
  run (pstep o) (mkPsys q0 (map start_put datas) false) evs = Some s ->
  nth_error (ps_putters s) i = Some p -> nth_error datas i = Some d -> p_phase p = POver ->
  (inject_Z (blen d) / p_rate o <= p_slept p)%Q.
Proof. exact c21_main. Qed.
Print Assumptions c21_throughput.

Example c21_nonvacuous : exists s p, run (pstep (mkPOpts 5 3 2)) ex_put [EPut 0; EPut 0; EPut 0; EPut 0] = Some s /\
  nth_error (ps_putters s) 0 = Some p /\ p_phase p = POver /\ (p_slept p == 10 # 2)%Q.
Proof. do 2 eexists. split; [vm_compute; reflexivity|]. split; [reflexivity|]. now split. Qed.
