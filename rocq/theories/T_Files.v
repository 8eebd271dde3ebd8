(** Multipart uploads: C40. *)
From Verif Require Import PyBytes PyInt PyExn PyUtf8 M_Parser M_Files S_Form S_Head S_Files P_Cookie P_Files.

(** files(limit) gives the next parts, in order, at most [limit] of them, each with exactly its
    data and described by its info, however the body is cut into pieces; the parts after
    them are what a later call will find.
    Partial: Content-Disposition parameters as browsers write them (in quotes, with ; & and % +
    escaped), boundaries not in quotes and without % + ; &, nothing before the first delimiter,
    exactly CRLF after the closing one. See the refutations below. *)
Theorem c40_files_partial b ps limit q : good_boundary b -> Forall (good_part b) ps -> has_parts b q ps ->
  exists n outs q', (forall fuel, n <= fuel -> files fuel (bs "multipart/form-data; boundary=" ++ b) limit q = Some (outs, None, q')) /\
    Forall2 is_part outs (firstn (Z.to_nat limit) ps) /\ has_parts b q' (skipn (Z.to_nat limit) ps).
Proof. exact (files_main b ps limit q). Qed.
Print Assumptions c40_files_partial.

Definition s (x : string) : pystr := name_text x.
Definition cd1 : bytes := bs "form-data; name=" ++ [QUOTE] ++ bs "a" ++ [QUOTE].
Definition cd2 : bytes := cd1 ++ bs "; filename=" ++ [QUOTE] ++ bs "x%3By.txt" ++ [QUOTE].
Definition field (n v : bytes) : S_Head.field := (n, v).
Definition part1 : part := mkPart [field (bs "Content-Disposition") cd1] [(s "name", s "a")] None false (bs "12" ++ CRLF ++ bs "--B3").
Definition part2 : part := mkPart [field (bs "Content-Disposition") cd2; field (bs "Content-Type") (bs "text/plain"); field (bs "Content-Length") (bs "8")]
  [(s "name", s "a"); (s "filename", s "x;y.txt")] (Some (bs "text/plain")) true (CRLF ++ bs "--BBX" ++ [CR]).
Definition start (body : bytes) (n : nat) : rq := mkRq [] [firstn n body; skipn n body] None false header0.
Lemma plain stop x : forallb (fun c => N.ltb (N_of_ascii c) 128 && negb (memb c (bs "%+" ++ stop))) (bs x) = true -> encodes stop (s x) (bs x).
Proof.
  intros H. rewrite forallb_forall in H. apply plain_encodes; [apply Forall_forall|]; intros c I; specialize (H c I); apply andb_prop in H as [A B].
  - now apply N.ltb_lt.
  - apply PyBytesFacts.memb_notIn. now destruct (memb c _).
Qed.
Ltac gp := repeat (first [apply Forall_nil | apply Forall_cons]); repeat split; try reflexivity; try discriminate; try (vm_compute; congruence); try (apply PyBytesFacts.memb_notIn; reflexivity).
Example c40_parts : good_boundary (bs "BB") /\ Forall (good_part (bs "BB")) [part1; part2] /\ has_parts (bs "BB") (start (multipart (bs "BB") [part1; part2]) 70) [part1; part2].
Proof.
  split; [|split].
  - split; [discriminate|]. split; [vm_compute; discriminate|]. split; [gp|]. intros c I. cbn in I. cbn. intuition (subst; discriminate).
  - constructor; [|constructor; [|constructor]].
    + split; [gp|]. split; [cbn; lia|]. split; [gp|]. split; [vm_compute; discriminate|]. split.
      { exists [(bs "name", bs "a")]. split; [reflexivity|]. split; [|cbn; lia]. constructor; [|constructor]. split; now apply plain. }
      split; [repeat constructor; cbn; tauto|]. split; [gp|]. split; [reflexivity|]. split; [reflexivity|]. split; [vm_compute; discriminate|].
      intros _ j H. do 8 (destruct j as [|j]; [reflexivity|]). cbn in H. lia.
    + split; [gp|]. split; [cbn; lia|]. split; [gp|]. split; [vm_compute; discriminate|]. split.
      { exists [(bs "name", bs "a"); (bs "filename", bs "x%3By.txt")]. split; [reflexivity|]. split; [|cbn; lia]. constructor; [|constructor; [|constructor]]; (split; [now apply plain|]); cbn [snd]; [now apply plain|].
        change (s "x;y.txt") with (s "x" ++ s ";" ++ s "y.txt"). change (bs "x%3By.txt") with (bs "x" ++ bs "%3B" ++ bs "y.txt"). repeat apply encodes_app; [now apply plain| |now apply plain].
        exists (bs ";"), [bs "%3B"]. split; [reflexivity|]. split; [|reflexivity]. constructor; [|constructor]. right. right. exists "3"%char, "B"%char, 3%N, 11%N.
        split; [reflexivity|]. split; [left; split; [split; discriminate|reflexivity]|]. split; [right; left; split; [split; discriminate|reflexivity]|reflexivity]. }
      split; [repeat constructor; cbn; intuition discriminate|]. split; [gp|]. split; [reflexivity|]. split; [reflexivity|]. split; [vm_compute; discriminate|]. discriminate.
  - split; [reflexivity|]. split; [discriminate|reflexivity].
Qed.
Example c40_example : exists q', files 10 (bs "multipart/form-data; boundary=BB") 1024 (start (multipart (bs "BB") [part1; part2]) 70) =
  Some ([([(s "name", IStr (s "a"))], p_data part1);
         ([(s "name", IStr (s "a")); (s "filename", IStr (s "x;y.txt")); (s "length", IInt 8); (s "type", IStr (s "text/plain"))], p_data part2)], None, q').
Proof. eexists. vm_compute. reflexivity. Qed.

(** The line break after the closing delimiter is not required by RFC 2046; files() raises
    BadRequest without it (after it has given the parts), and with an epilogue. *)
Theorem c40_end_refuted : exists b ps body, good_boundary b /\ Forall (good_part b) ps /\ body ++ CRLF = multipart b ps /\
  exists outs q', forall fuel, 10 <= fuel -> files fuel (bs "multipart/form-data; boundary=" ++ b) 1024 (start body 70) = Some (outs, Some BadRequest, q').
Proof.
  exists (bs "BB"), [part1; part2]. exists (firstn (List.length (multipart (bs "BB") [part1; part2]) - 2) (multipart (bs "BB") [part1; part2])).
  split; [apply c40_parts|]. split; [apply c40_parts|]. split; [vm_compute; reflexivity|]. eexists. eexists. intros fuel L.
  do 10 (destruct fuel as [|fuel]; [lia|]). vm_compute. reflexivity.
Qed.
Print Assumptions c40_end_refuted.
(** A file name with a semicolon, in quotes as RFC 2183 has it, is cut. *)
Definition part3 : part := mkPart [field (bs "Content-Disposition") (bs "form-data; name=" ++ [QUOTE] ++ bs "a;b+c" ++ [QUOTE])] [(s "name", s "a;b+c")] None false (bs "x").
Theorem c40_name_refuted : exists q', files 10 (bs "multipart/form-data; boundary=BB") 1024 (start (multipart (bs "BB") [part3]) 70) =
  Some ([([(s "name", IStr (s "a"))], bs "x")], None, q').
Proof. eexists. vm_compute. reflexivity. Qed.
Print Assumptions c40_name_refuted.
(** A boundary in quotes is not recognized. *)
Theorem c40_quoted_refuted : exists q', files 10 (bs "multipart/form-data; boundary=" ++ [QUOTE] ++ bs "BB" ++ [QUOTE]) 1024 (start (multipart (bs "BB") [part1]) 70) =
  Some ([], Some BadRequest, q').
Proof. eexists. vm_compute. reflexivity. Qed.
Print Assumptions c40_quoted_refuted.
