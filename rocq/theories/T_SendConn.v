(** C66: files sent one after another on a connection. *)
From Verif Require Import PyBytes PyInt PyExn M_Response S_Response S_Calls S_Chunked M_Sendfile S_Range S_Sendfile P_Response6 P_Sendfile3 T_Response T_Sendfile.
Local Open Scope Z_scope.

(** The file that the path of a call is of, when it is made. *)
Definition asked (j : job) : option nat := d_name (j_disk j) (j_path j).
Definition asked_file (j : job) (i : nat) : ffile := d_file (j_disk j) i.
(** What this call does if the connection is new. *)
Definition alone (j : job) (i : nat) : res unit * rsp :=
  sendfile (j_env j) (j_req j) (asked_file j i) (j_size j) (j_ctype j) (j_boundary j) (j_kw j) (j_rsp j).
(** The first file that was opened. *)
Fixpoint first_asked (js : list job) : option nat :=
  match js with [] => None | j :: js' => match asked j with Some i => Some i | None => first_asked js' end end.

Lemma nth_sendfiles js : forall n h j, nth_error js n = Some j ->
  nth_error (sendfiles h js) n =
    let h' := match h with Some i => Some i | None => first_asked (firstn n js) end in
    Some (snd (sendfile_on (j_disk j) h' (j_path j) (j_env j) (j_req j) (j_size j) (j_ctype j) (j_boundary j) (j_kw j)) (j_rsp j)).
Proof.
  induction js as [|j0 js IH]; intros n h j N; [now destruct n|]. cbn [sendfiles].
  destruct (sendfile_on (j_disk j0) h (j_path j0) (j_env j0) (j_req j0) (j_size j0) (j_ctype j0) (j_boundary j0) (j_kw j0)) as [h1 c] eqn:E.
  destruct n as [|n]; cbn [nth_error firstn] in *.
  - injection N as ->. cbn [first_asked]. replace (match h with Some i => Some i | None => None end) with h by now destruct h. now rewrite E.
  - rewrite (IH n h1 j N). cbv zeta. cbn [first_asked]. unfold asked. unfold sendfile_on in E. destruct h as [i|]; destruct (d_name (j_disk j0) (j_path j0)) as [i'|]; injection E as <- _; reflexivity.
Qed.

(** C66, partial: a call sends the file of its path if no call before it was for another file: it does what it does on a new connection. Missing: calls for
    other files (c66_other, c66_refuted), and for paths that got another file (c66_replaced_refuted). *)
Theorem c66_same_partial : forall js n j i, nth_error js n = Some j -> asked j = Some i ->
  (forall j', In j' (firstn n js) -> asked j' = Some i \/ asked j' = None) ->
  nth_error (sendfiles None js) n = Some (alone j i).
Proof.
  intros js n j i N A H. rewrite (nth_sendfiles js n None j N). cbv zeta.
  assert (first_asked (firstn n js) = Some i \/ first_asked (firstn n js) = None) as [E|E].
  { induction (firstn n js) as [|j' l IH]; [now right|]. cbn [first_asked]. destruct (H j' (or_introl eq_refl)) as [->| ->]; [now left|]. apply IH. intros j2 I. apply H. now right. }
  all: rewrite E; unfold asked in A; unfold sendfile_on; rewrite A; reflexivity.
Qed.
Print Assumptions c66_same_partial.

(** A path that does not exist: the call raises, and nothing is sent. *)
Theorem c66_missing : forall js n j, nth_error js n = Some j -> asked j = None -> nth_error (sendfiles None js) n = Some (Raise OSError, j_rsp j).
Proof.
  intros js n j N A. rewrite (nth_sendfiles js n None j N). cbv zeta. unfold asked in A. unfold sendfile_on. rewrite A. now destruct (first_asked (firstn n js)).
Qed.
Print Assumptions c66_missing.

(** So a download of the whole file has exactly its bytes as they are now, also on a connection on which this file was sent before. *)
Theorem c66_full_partial : forall js n j i pre keep, nth_error js n = Some j -> asked j = Some i ->
  (forall j', In j' (firstn n js) -> asked j' = Some i \/ asked j' = None) ->
  let e := j_env j in let f := asked_file j i in
  j_rsp j = start e pre keep -> size_ok f (j_size j) -> ~ uses_range e (j_req j) f -> ~ not_modified e (j_req j) f -> 1 <= k_bufsize (j_kw j) ->
  ctype_ok (j_ctype j) -> one_line (fl_mdate f) -> Forall appends_clean pre -> Forall name_ok pre -> Forall unreserved pre -> Forall unframed_call pre ->
  ~ bodyless (e_method e) (fst (the_status pre)) ->
  exists s lines items, nth_error (sendfiles None js) n = Some (Ok tt, s) /\
    r_out s = Some (head_of (status_line e (the_status pre) :: lines)) :: map Some items ++ [None] /\
    full_lines (j_ctype j) (fl_mdate f) (blen (fl_bytes f)) lines /\ concat items = fl_bytes f /\ r_keep s = keep.
Proof.
  intros js n j i pre keep N A H e f R Z NU NM Hb CT OM Ac Nm U F NB. rewrite (c66_same_partial js n j i N A H). unfold alone. rewrite R.
  destruct (c35_full e (j_req j) f (j_size j) (j_ctype j) (j_boundary j) (j_kw j) pre keep Z NU NM Hb CT OM Ac Nm U F NB) as (s & lines & items & E & O & _ & L & C & K).
  exists s, lines, items. unfold e, f in *. rewrite E. repeat (split; [first [reflexivity|assumption]|]). exact K.
Qed.
Print Assumptions c66_full_partial.

(** What happens in general: a download of the whole file has the size and the date of the file of its path, and the bytes of the first file that was sent on
    the connection. *)
Theorem c66_other : forall js n j i first pre keep, nth_error js n = Some j -> asked j = Some i -> first_asked (firstn n js) = Some first ->
  let e := j_env j in let f := asked_file j i in
  j_rsp j = start e pre keep -> size_ok f (j_size j) -> ~ uses_range e (j_req j) f -> ~ not_modified e (j_req j) f -> 1 <= k_bufsize (j_kw j) ->
  ctype_ok (j_ctype j) -> one_line (fl_mdate f) -> Forall appends_clean pre -> Forall name_ok pre -> Forall unreserved pre -> Forall unframed_call pre ->
  ~ bodyless (e_method e) (fst (the_status pre)) ->
  exists s lines items, nth_error (sendfiles None js) n = Some (Ok tt, s) /\
    r_out s = Some (head_of (status_line e (the_status pre) :: lines)) :: map Some items ++ [None] /\
    full_lines (j_ctype j) (fl_mdate f) (blen (fl_bytes f)) lines /\ concat items = fl_bytes (asked_file j first) /\ r_keep s = keep.
Proof.
  intros js n j i first pre keep N A H e f R Z NU NM Hb CT OM Ac Nm U F NB. rewrite (nth_sendfiles js n None j N). cbv zeta. rewrite H. unfold asked in A. unfold sendfile_on. rewrite A. cbn [snd]. rewrite R.
  destruct (c35_gen (fl_bytes (asked_file j first)) e (j_req j) f (j_size j) (j_ctype j) (j_boundary j) (j_kw j) pre keep Z NU NM Hb CT OM Ac Nm U F NB) as (s & lines & items & E & O & _ & L & C & K).
  exists s, lines, items. unfold e, f, asked_file in *. rewrite E. repeat (split; [first [reflexivity|assumption]|]). exact K.
Qed.
Print Assumptions c66_other.

(** ** Examples and witnesses: two files, a and b. *)
Definition date66 : bytes := bs "Thu, 01 Jan 1970 00:00:00 GMT".
Definition disk66 : disk := mkDisk (fun p => if beqb p (bs "a") then Some 0%nat else if beqb p (bs "b") then Some 1%nat else None)
  (fun i => match i with O => mkFile (bs "0123456789") date66 | _ => mkFile (bs "xyz") date66 end).
Definition job66 (d : disk) (p : bytes) : job := mkJob d p get11 (mkFReq [] [] []) 0 plain34 (bs "b") kw34 (start get11 [HBase] true).
(** What comes after the head. *)
Definition body66 (x : res unit * rsp) : bytes := match r_out (snd x) with Some _ :: l => concat (map (fun i => match i with Some d => d | None => [] end) l) | _ => [] end.
Definition says66 (l : bytes) (x : res unit * rsp) : bool := match r_out (snd x) with Some h :: _ => contains l h | _ => false end.
Example c66_example : map body66 (sendfiles None [job66 disk66 (bs "c"); job66 disk66 (bs "b"); job66 disk66 (bs "b")]) = [[]; bs "xyz"; bs "xyz"] /\
  map asked [job66 disk66 (bs "c"); job66 disk66 (bs "b"); job66 disk66 (bs "b")] = [None; Some 1%nat; Some 1%nat].
Proof. vm_compute. split; reflexivity. Qed.
Example c66_hypotheses : let j := job66 disk66 (bs "b") in j_rsp j = start (j_env j) [HBase] true /\ size_ok (asked_file j 1) (j_size j) /\
  ~ uses_range (j_env j) (j_req j) (asked_file j 1) /\ ~ not_modified (j_env j) (j_req j) (asked_file j 1) /\ ~ bodyless (e_method (j_env j)) (fst (the_status [HBase])).
Proof.
  split; [reflexivity|]. split; [now left|]. split; [intros (_ & X & _); now apply X|]. split; [intros (_ & X); discriminate X|].
  intros X. apply bodyless_iff in X. vm_compute in X. discriminate X.
Qed.
(** The claim is false: the second file sent on a connection is the first one, with the length of the second; the seven bytes too many are what the client takes
    for the next response. *)
Theorem c66_refuted : exists j1 j2 r1 r2, asked j1 <> asked j2 /\ sendfiles None [j1; j2] = [r1; r2] /\ fst r2 = Ok tt /\ asked j2 = Some 1%nat /\
  fl_bytes (asked_file j2 1) = bs "xyz" /\ says66 (bs "Content-Length: 3") r2 = true /\ body66 r2 = bs "0123456789" /\ r_keep (snd r2) = true.
Proof. exists (job66 disk66 (bs "a")), (job66 disk66 (bs "b")). do 2 eexists. split; [discriminate|]. split; [reflexivity|]. vm_compute. repeat split. Qed.
Print Assumptions c66_refuted.
(** The same if the path is given a new file in between (as an editor or a deployment does). *)
Theorem c66_replaced_refuted : exists j1 j2 r1 r2, j_path j1 = j_path j2 /\ sendfiles None [j1; j2] = [r1; r2] /\ fst r2 = Ok tt /\
  option_map (fun i => fl_bytes (asked_file j2 i)) (asked j2) = Some (bs "xyz") /\ body66 r2 = bs "0123456789".
Proof.
  exists (job66 disk66 (bs "a")), (job66 (mkDisk (fun p => if beqb p (bs "a") then Some 1%nat else None) (d_file disk66)) (bs "a")). do 2 eexists.
  split; [reflexivity|]. split; [reflexivity|]. vm_compute. repeat split.
Qed.
Print Assumptions c66_replaced_refuted.
