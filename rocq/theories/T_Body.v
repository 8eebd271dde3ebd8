(** C10-C18: head phase and request body reading. *)
From Verif Require Import PyBytes PyInt PyExn M_Header M_Stream S_Chunked S_Read
  P_Header P_Stream P_Chunked P_Chunked2 P_Read.
Local Open Scope Z_scope.

(** C10, partial. [p] is the offset of the first blank line (CRLF CRLF) in the byte stream,
    so the head with its final CRLF has p + 2 bytes. Whatever the segmentation: if
    p + 3 <= client_max_header_size the request is dispatched with that head size and no byte
    is lost; if p + 2 > max the connection is aborted; without a blank line the connection
    waits exactly while the stream fits the limit. Missing: p + 2 = max, where the outcome
    depends on the segmentation (c10_split_refuted). *)
Theorem c10_split_partial : forall max segs, 0 <= max ->
  match find (CRLF ++ CRLF) (concat segs) with
  | Some p =>
      (Z.of_nat p + 3 <= max -> exists data rest,
         head_feed max [] segs = (HDispatch data (Z.of_nat p + 2), rest) /\
         data ++ concat rest = concat segs /\ (p + 4 <= List.length data)%nat) /\
      (max < Z.of_nat p + 2 -> fst (head_feed max [] segs) = HAbort)
  | None =>
      (blen (concat segs) <= max -> head_feed max [] segs = (HWait (concat segs), [])) /\
      (max < blen (concat segs) -> fst (head_feed max [] segs) = HAbort)
  end.
Proof. exact c10_main. Qed.
Print Assumptions c10_split_partial.

(** The same bytes, split in two ways: one aborted, one dispatched. *)
Theorem c10_split_refuted : exists max segs1 segs2, concat segs1 = concat segs2 /\
  fst (head_feed max [] segs1) = HAbort /\ exists d hs, fst (head_feed max [] segs2) = HDispatch d hs.
Proof. exact c10_refuted_main. Qed.
Print Assumptions c10_split_refuted.

Definition ex_segs : list bytes :=
  [bs "GET / HTTP/1.1" ++ [CR]; [LF] ++ bs "A: b" ++ CRLF ++ [CR]; [LF] ++ bs "body"].
Example c10_nonvacuous : exists p, find (CRLF ++ CRLF) (concat ex_segs) = Some p /\ Z.of_nat p + 3 <= 8192 /\
  head_feed 8192 [] ex_segs = (HDispatch (concat ex_segs) 22, []) /\
  fst (head_feed 20 [] ex_segs) = HAbort /\ fst (head_feed 100 [] (firstn 1 ex_segs)) = HWait (hd [] ex_segs).
Proof. exists 20%nat. repeat split; vm_compute; congruence. Qed.

(** C11. What is held of an incomplete head never exceeds the limit, a dispatched head
    (with its final CRLF) does not either, and passing the limit without a blank line aborts. *)
Theorem c11_header_memory : forall max segs, 0 <= max ->
  match fst (head_feed max [] segs) with
  | HWait buf => blen buf <= max
  | HDispatch data hs => hs <= max /\ exists p, find (CRLF ++ CRLF) data = Some p /\ hs = Z.of_nat p + 2
  | HAbort => True
  end /\
  (find (CRLF ++ CRLF) (concat segs) = None -> max < blen (concat segs) -> fst (head_feed max [] segs) = HAbort).
Proof. exact c11_both. Qed.
Print Assumptions c11_header_memory.

Example c11_nonvacuous : find (CRLF ++ CRLF) (concat [bs "aaaaa"; bs "bbbbb"; bs "ccccc"]) = None /\
  12 < blen (concat [bs "aaaaa"; bs "bbbbb"; bs "ccccc"]) /\ fst (head_feed 12 [] [bs "aaaaa"; bs "bbbbb"]) = HWait (bs "aaaaabbbbb").
Proof. repeat split. Qed.

(** C12. [segs] are the pieces that follow the head (with any surplus) up to the end marker
    queued for Content-Length [n] (C19) or by the end of the connection. *)
Theorem c12_content_length_body : forall o s raw n segs tail,
  0 <= n <= o_max_body o -> clen s = n -> raw = true \/ chunked s = false -> eof_ s = false -> consumed s = 0 ->
  items s = map Data segs ++ End :: tail ->
  (exists ys s' g', stream o s raw = (ys, FStop, s', g') /\
     concat ys = firstn (Z.to_nat n) (concat segs) /\ items s' = tail) /\
  (exists s', body o s raw [] = (RRet (firstn (Z.to_nat n) (concat segs)), s', firstn (Z.to_nat n) (concat segs)) /\
     forall acc, body o s' raw acc = (RRet acc, s', acc)).
Proof. exact c12_body_main. Qed.
Print Assumptions c12_content_length_body.

Definition ex_opts := mkOpts 16384 2097152.
Definition ex_state (l : list inp) (n : Z) (ch : bool) : rstate := mkR l 0 false false n ch 0.
Example c12_nonvacuous :
  let s := ex_state (map Data [bs "ab"; []; bs "cdeGET /"] ++ [End]) 5 false in
  0 <= 5 <= o_max_body ex_opts /\ clen s = 5 /\ chunked s = false /\ eof_ s = false /\ consumed s = 0 /\
  fst (fst (fst (stream ex_opts s false))) = [bs "ab"; []; bs "cde"].
Proof. repeat split; vm_compute; congruence. Qed.

(** C13, partial: any chunking, and any segmentation in which no piece ends right after the
    data of a chunk or inside the CRLF after it. Missing: those segmentations, where the
    decoder loses its place (c13_chunked_refuted). Size lines must fit 4 * buffer_size. *)
Theorem c13_chunked_partial : forall o s cs zero zext trailer segs tail,
  chunked s = true -> eof_ s = false -> (cont s = false \/ clen s <= o_max_body o) ->
  Forall good_chunk cs -> good_size zero zext 0 ->
  Forall (fun c => blen (size_line (c_size c) (c_ext c)) + 1 <= o_buffer_size o * 4) cs ->
  blen (size_line zero zext) + 1 <= o_buffer_size o * 4 ->
  items s = map Data segs ++ tail -> concat segs = chunked_body cs zero zext trailer ->
  (forall n, boundary segs n -> ~ after_data cs n) ->
  exists ys s' g', stream o s false = (ys, FStop, s', g') /\ concat ys = chunks_data cs /\ eof_ s' = true.
Proof. exact c13_main. Qed.
Print Assumptions c13_chunked_partial.

Definition ex_chunks : list chunk := [mkChunk (bs "05") (bs ";x=y") (bs "hello"); mkChunk (bs "A") [] (bs " wonderful")].
Definition ex_chunked : bytes := chunked_body ex_chunks (bs "0") [] CRLF.
Definition cut2 (n : nat) (b : bytes) : list bytes := [firstn n b; skipn n b].

(** A well-formed body cut right after the data of its first chunk raises BadRequest. *)
Theorem c13_chunked_refuted : exists o s cs zero zext trailer segs tail,
  chunked s = true /\ eof_ s = false /\ cont s = false /\
  Forall good_chunk cs /\ good_size zero zext 0 /\
  Forall (fun c => blen (size_line (c_size c) (c_ext c)) + 1 <= o_buffer_size o * 4) cs /\
  blen (size_line zero zext) + 1 <= o_buffer_size o * 4 /\
  items s = map Data segs ++ tail /\ concat segs = chunked_body cs zero zext trailer /\
  exists ys s' g', stream o s false = (ys, FRaise BadRequest, s', g').
Proof.
  exists ex_opts, (ex_state (map Data (cut2 13 ex_chunked)) (-1) true), ex_chunks, (bs "0"), [], CRLF, (cut2 13 ex_chunked), [].
  split; [reflexivity|]. split; [reflexivity|]. split; [reflexivity|].
  split; [repeat constructor; cbn; try discriminate; intuition discriminate|].
  split; [repeat split; cbn; intuition discriminate|].
  split; [repeat constructor; vm_compute; discriminate|]. split; [vm_compute; discriminate|]. split; [now rewrite app_nil_r|]. split; [reflexivity|].
  do 3 eexists. vm_compute. reflexivity.
Qed.
Print Assumptions c13_chunked_refuted.

Example c13_nonvacuous : Forall good_chunk ex_chunks /\ good_size (bs "0") [] 0 /\
  concat (cut2 10 ex_chunked) = ex_chunked /\
  (forall n, boundary (cut2 10 ex_chunked) n -> ~ after_data ex_chunks n) /\
  fst (fst (fst (stream ex_opts (ex_state (map Data (cut2 10 ex_chunked)) (-1) true) false))) = [bs "he"; bs "llo"; bs " wonderful"].
Proof.
  split; [repeat constructor; cbn; try discriminate; intuition discriminate|].
  split; [repeat split; cbn; intuition discriminate|]. split; [reflexivity|]. split; [|reflexivity].
  intros n (k & Hk & ->) (cs1 & c & cs2 & E & H). change (List.length (cut2 10 ex_chunked)) with 2%nat in Hk.
  assert (List.length (concat (firstn k (cut2 10 ex_chunked))) = 0 \/ List.length (concat (firstn k (cut2 10 ex_chunked))) = 10
          \/ List.length (concat (firstn k (cut2 10 ex_chunked))) = 35)%nat as B.
  { do 3 (destruct k as [|k]; [vm_compute; auto|]). lia. }
  revert B H. generalize (List.length (concat (firstn k (cut2 10 ex_chunked)))). intros m B H.
  destruct cs1 as [|c1 [|c2 cs1]]; cbn in E; [| |destruct cs1; discriminate E]; injection E; intros; subst; vm_compute in H; lia.
Qed.

(** C14. Any proper prefix of a chunked body (up to the zero-size line), cut in any way and
    followed by the end of the stream, raises BadRequest. *)
Theorem c14_truncated_chunked : forall o s cs zero zext segs tl cutoff,
  chunked s = true -> eof_ s = false -> (cont s = false \/ clen s <= o_max_body o) ->
  Forall good_chunk cs -> good_size zero zext 0 ->
  cutoff <> [] -> concat segs ++ cutoff = chunks_bytes cs ++ size_line zero zext ++ CRLF ->
  items s = map Data segs ++ End :: tl ->
  exists ys s' g', stream o s false = (ys, FRaise BadRequest, s', g').
Proof. exact c14_main. Qed.
Print Assumptions c14_truncated_chunked.

Example c14_nonvacuous : exists segs cutoff, cutoff <> [] /\ (3 <= List.length segs)%nat /\
  concat segs ++ cutoff = chunks_bytes ex_chunks ++ size_line (bs "0") [] ++ CRLF.
Proof.
  exists [firstn 9 ex_chunked; firstn 7 (skipn 9 ex_chunked); firstn 10 (skipn 16 ex_chunked)], (firstn 7 (skipn 26 ex_chunked)).
  split; [discriminate|]. split; [cbn; lia|reflexivity].
Qed.

(** C15, partial. If the stream ends normally, the bytes it used are a sequence of chunks
    whose data is what was delivered, then a zero-size line. The size line before the first
    ';' is what lenient_line allows (RFC 9112 digits, plus underscores and trailing
    whitespace), and where a piece ends the terminator may be shorter than two bytes: the
    full claim fails there (c15_accepted_refuted). *)
Theorem c15_accepted_partial : forall o s segs tl ys s' g', chunked s = true -> eof_ s = false ->
  (cont s = false \/ clen s <= o_max_body o) ->
  items s = map Data segs ++ tl -> match tl with Data _ :: _ => False | _ => True end ->
  stream o s false = (ys, FStop, s', g') ->
  exists P rest, concat segs = P ++ rest /\
    decodes (fun line n => lenient_line line (Z.to_N n)) (boundary segs) 0 P (concat ys).
Proof. exact c15_final. Qed.
Print Assumptions c15_accepted_partial.

(** Accepted although no terminator at all follows the chunk. *)
Theorem c15_accepted_refuted : exists o s segs ys s' g', chunked s = true /\ eof_ s = false /\ cont s = false /\
  items s = map Data segs /\ stream o s false = (ys, FStop, s', g') /\ concat ys = bs "hello" /\
  ~ exists P rest, concat segs = P ++ rest /\
      decodes (fun line n => lenient_line line (Z.to_N n)) (fun _ => False) 0 P (concat ys).
Proof. exact c15_refuted_main. Qed.
Print Assumptions c15_accepted_refuted.

Example c15_nonvacuous : exists segs ys s' g',
  stream ex_opts (ex_state (map Data segs) (-1) true) false = (ys, FStop, s', g') /\ segs = cut2 10 ex_chunked /\ concat ys = bs "hello wonderful".
Proof. exists (cut2 10 ex_chunked). do 3 eexists. split; [vm_compute; reflexivity|]. split; reflexivity. Qed.

(** C16. For a body delivered by the stream (see C12, C13 for which bytes that is), sized
    reads return consecutive slices of it, and eof() only holds when all was returned. *)
Theorem c16_sized_reads : forall o s ys s' g' sizes, stream o s false = (ys, FStop, s', g') -> exists r',
  reads o (fresh_reader s) (map Some sizes) = Some (map Got (slices (concat ys) sizes), r') /\
  (eof r' = true -> concat (slices (concat ys) sizes) = concat ys).
Proof. exact c16_main. Qed.
Print Assumptions c16_sized_reads.

Definition ex_body := ex_state (map Data [bs "abc"; bs "de"; bs "fghi"] ++ [End]) 9 false.
Example c16_nonvacuous : (exists s' g', stream ex_opts ex_body false = ([bs "abc"; bs "de"; bs "fghi"], FStop, s', g')) /\
  option_map fst (reads ex_opts (fresh_reader ex_body) (map Some [2; 0; 5; 9; 1]%nat)) =
  Some [Got (bs "ab"); Got []; Got (bs "cdefg"); Got (bs "hi"); Got []].
Proof. split; [do 2 eexists; vm_compute; reflexivity|reflexivity]. Qed.

(** C17, partial: calls of read() and read(n) return the body in order provided every read()
    is made where a piece of the stream ends. Missing: other interleavings, which skip the
    bytes kept back by the sized read (c17_mixed_refuted). *)
Theorem c17_mixed_partial : forall o s ys s' g' calls, stream o s false = (ys, FStop, s', g') -> exists answers r',
  reads o (fresh_reader s) calls = Some (answers, r') /\
  (aligned ys calls answers -> in_order (concat ys) calls answers).
Proof. exact c17_main. Qed.
Print Assumptions c17_mixed_partial.

Theorem c17_mixed_refuted : exists o s ys s' g' calls answers r', stream o s false = (ys, FStop, s', g') /\
  reads o (fresh_reader s) calls = Some (answers, r') /\ ~ in_order (concat ys) calls answers.
Proof.
  exists ex_opts, ex_body, [bs "abc"; bs "de"; bs "fghi"]. do 2 eexists. exists [Some 1%nat; None], [Got (bs "a"); Got (bs "de")]. eexists.
  split; [vm_compute; reflexivity|]. split; [vm_compute; reflexivity|].
  intros (rest & E & _ & rest2 & E2 & _). cbn in E. injection E as <-. discriminate E2.
Qed.
Print Assumptions c17_mixed_refuted.

Example c17_nonvacuous : exists answers r',
  reads ex_opts (fresh_reader ex_body) [None; Some 2%nat; None; None] = Some (answers, r') /\
  answers = [Got (bs "abc"); Got (bs "de"); Got (bs "fghi"); Ended] /\
  aligned [bs "abc"; bs "de"; bs "fghi"] [None; Some 2%nat; None; None] answers.
Proof.
  do 2 eexists. split; [vm_compute; reflexivity|]. split; [reflexivity|].
  intros i H. destruct i as [|[|[|[|i]]]]; cbn in H; [exists 0%nat|discriminate H|exists 2%nat|exists 3%nat|destruct i; discriminate H]; reflexivity.
Qed.

(** C18. *)
Theorem c18_oversized_body : forall o s raw, o_max_body o < clen s -> raw = true \/ chunked s = false -> eof_ s = false ->
  exists s' g', stream o s raw = ([], FRaise (if cont s then ExpectationFailed else PayloadTooLarge), s', g') /\
                sent100 s' = sent100 s /\ items s' = items s.
Proof. exact c18_main. Qed.
Print Assumptions c18_oversized_body.

Example c18_nonvacuous : let s := ex_state (map Data [bs "ab"]) 3000000 false in
  o_max_body ex_opts < clen s /\ chunked s = false /\ eof_ s = false.
Proof. repeat split. Qed.

(** Used by C12-C16: the theorems put all items in the queue at once. A reader that finds
    the queue empty and continues when items [l] come behaves the same. *)
Theorem c12_resumption : forall o s raw l ys1 s1 g1 ys2 r2 s2 g2,
  stream o s raw = (ys1, FBlock, s1, g1) ->
  drain (work (set_items s1 l) g1) o (set_items s1 l) g1 = (ys2, r2, s2, g2) ->
  stream o (set_items s (items s ++ l)) raw = (ys1 ++ ys2, r2, s2, g2).
Proof. exact stream_resumes. Qed.
Print Assumptions c12_resumption.

Example c12_resumption_nonvacuous :
  let s := ex_state [Data (firstn 10 ex_chunked)] (-1) true in let l := [Data (skipn 10 ex_chunked)] in
  exists s1 g1 s2 g2, stream ex_opts s false = ([bs "he"], FBlock, s1, g1) /\
   drain (work (set_items s1 l) g1) ex_opts (set_items s1 l) g1 = ([bs "llo"; bs " wonderful"], FStop, s2, g2).
Proof. do 4 eexists. split; [vm_compute; reflexivity|]. vm_compute. reflexivity. Qed.
