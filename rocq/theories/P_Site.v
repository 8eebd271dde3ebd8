(** Proofs about whole exchanges (C75): reading a response. *)
From Verif Require Import PyBytes PyBytesFacts PyBytesFacts2 PyInt PyIntFacts PyExn PyUtf8 M_Conn M_Framing M_Response M_Pages M_Site
  S_Head S_Scope S_Route S_Response S_Calls S_Chunked S_Conn S_Site P_Parser P_Chunked.

(** ** Reading a head *)
Lemma head_of_cons l ls rest : head_of (l :: ls) ++ rest = l ++ CRLF ++ (head_of ls ++ rest).
Proof. unfold head_of. cbn [map List.concat]. now rewrite <- !app_assoc. Qed.
Lemma read_head_of lines rest : forall fuel, Forall one_line lines -> ~ In [] lines -> List.length lines < fuel ->
  read_head fuel (head_of lines ++ rest) = Some (lines, rest).
Proof.
  induction lines as [|l ls IH]; intros [|fuel] F N L; try (cbn in L; lia).
  - reflexivity.
  - inversion_clear F as [|? ? Fl Fs]. rewrite head_of_cons. cbn [read_head]. rewrite (find_line l _ (line_ok_nolf l Fl)).
    destruct l as [|c l]; [exfalso; apply N; now left|]. cbn [List.length]. set (n := S (List.length l)). change n with (List.length (c :: l)).
    rewrite (skipn_app_len_plus (c :: l)). cbn [skipn CRLF app]. rewrite IH; [|exact Fs|intros I; apply N; now right|cbn in L; lia].
    do 2 f_equal. f_equal. exact (firstn_app_len (c :: l) (CRLF ++ head_of ls ++ rest)).
Qed.
Lemma head_of_length lines : List.length lines < List.length (head_of lines).
Proof.
  unfold head_of. rewrite app_length. cbn [List.length CRLF]. induction lines as [|l ls IH]; [cbn; lia|]. cbn [map List.concat List.length]. rewrite !app_length. cbn [List.length CRLF]. lia.
Qed.

(** ** Reading chunks *)
Lemma read_chunks_of cs rest : forall fuel, Forall good_chunk cs -> List.length cs < fuel ->
  read_chunks fuel (chunked_body cs (bs "0") [] CRLF ++ rest) = Some (chunks_data cs, rest).
Proof.
  induction cs as [|c cs IH]; intros [|fuel] F L; try (cbn in L; lia).
  - cbn. reflexivity.
  - inversion_clear F as [|? ? Gc Fs]. destruct Gc as (Nd & Sd & Hv & He & Nl).
    assert (chunked_body (c :: cs) (bs "0") [] CRLF ++ rest = size_line (c_size c) (c_ext c) ++ CRLF ++ (c_data c ++ CRLF ++ (chunked_body cs (bs "0") [] CRLF ++ rest))) as ->.
    { unfold chunked_body, chunks_bytes. cbn [map List.concat]. unfold chunk_bytes. now rewrite <- !app_assoc. }
    set (tail := chunked_body cs _ _ _ ++ rest) in *.
    pose proof (hex_value_chars _ _ _ Hv) as HC.
    assert (forall q, In q (c_size c) -> q <> LF /\ q <> ";"%char) as NX.
    { intros q I. rewrite Forall_forall in HC. destruct (HC q I) as (d & D). split; intros ->; vm_compute in D; discriminate. }
    assert (line_ok (size_line (c_size c) (c_ext c))) as LO.
    { apply line_ok_nolf. unfold size_line. intros I. apply in_app_or in I as [I|I]; [now destruct (NX _ I)|contradiction]. }
    cbn [read_chunks]. rewrite (find_line _ _ LO), firstn_app_len, skipn_app_len_plus. cbn [skipn CRLF app].
    assert (match find (bs ";") (size_line (c_size c) (c_ext c)) with Some j => firstn j (size_line (c_size c) (c_ext c)) | None => size_line (c_size c) (c_ext c) end = c_size c) as ->.
    { unfold size_line. change (bs ";") with [";"%char]. assert (~ In ";"%char (c_size c)) as Ns by (intros I; now destruct (NX _ I)).
      destruct He as [-> | He]; [rewrite app_nil_r; now rewrite (proj2 (find1_none ";"%char (c_size c)) Ns)|].
      destruct (c_ext c) as [|y e] eqn:Ee; [discriminate He|]. cbn [hd] in He. subst y. rewrite (find1_app ";"%char (c_size c) e Ns). apply firstn_app_len. }
    destruct (c_size c) as [|z zs] eqn:Es; [congruence|]. rewrite <- Es in *. rewrite Hv.
    destruct (c_data c) as [|y ys] eqn:Ed; [congruence|]. rewrite <- Ed in *.
    assert ((N.of_nat (List.length (c_data c)) =? 0)%N = false) as -> by (apply N.eqb_neq; rewrite Ed; cbn [List.length]; lia).
    rewrite Nnat.Nat2N.id. rewrite skipn_app_len.
    assert (List.length (c_data c) <=? List.length (c_data c ++ CR :: LF :: tail) = true) as -> by (apply Nat.leb_le; rewrite app_length; lia).
    cbn [andb]. change (startswith CRLF (CR :: LF :: tail)) with true. cbn iota. rewrite skipn_app_len_plus, firstn_app_len. cbn [skipn].
    unfold tail. rewrite IH; [|exact Fs|cbn in L; lia]. reflexivity.
Qed.
Lemma chunked_body_length cs : List.length cs < List.length (chunked_body cs (bs "0") [] CRLF).
Proof.
  unfold chunked_body. rewrite !app_length. cbn [List.length bs CRLF list_ascii_of_string size_line app]. unfold chunks_bytes.
  induction cs as [|c cs IH]; [cbn; lia|]. cbn [map List.concat List.length]. unfold chunk_bytes at 1. rewrite !app_length. cbn [List.length CRLF]. lia.
Qed.

Lemma read_response_of first lines cs rest : Forall one_line (first :: lines) -> first <> [] -> ~ In [] lines ->
  only_line (bs "transfer-encoding") (bs "Transfer-Encoding: chunked") lines -> Forall good_chunk cs ->
  read_response (head_of (first :: lines) ++ chunked_body cs (bs "0") [] CRLF ++ rest) = Some (first, chunks_data cs, rest).
Proof.
  intros F N0 N [T _] G. unfold read_response. rewrite read_head_of; [|exact F|intros [X|X]; [now apply N0|contradiction]|].
  2:{ pose proof (head_of_length (first :: lines)). rewrite app_length. lia. }
  assert (existsb (fun l => beqb (field_name l) (bs "transfer-encoding") && beqb l (bs "Transfer-Encoding: chunked")) lines = true) as ->.
  { apply existsb_exists. eexists. split; [exact T|]. reflexivity. }
  rewrite read_chunks_of; [reflexivity|exact G|]. pose proof (chunked_body_length cs). rewrite app_length. lia.
Qed.
