From Verif Require Import PyBytes PyBytesFacts PyDictFacts PyInt PyIntFacts PyExn PyUrl M_Response S_Response S_Calls S_Chunked
  P_Response P_Response2 P_Response3 P_Response4 P_Response5 P_Response6 P_Response7 M_Sendfile S_Range S_Sendfile P_Sendfile P_Sendfile2.
From Coq Require Import ZifyBool ZifyNat ZifyN.
Local Open Scope Z_scope.

Lemma do_mid_seq e h l (k : call unit) s : (do_mid e (h :: l) ;; k) s = (do_hop e h ;; do_mid e l ;; k) s.
Proof. cbn [do_mid]. now rewrite seq_assoc. Qed.
Lemma do_mid_nil e (k : call unit) s : (do_mid e [] ;; k) s = k s.
Proof. reflexivity. Qed.

Definition range_hops (ctype : bytes) (n : Z) (cr : bytes) : list hop :=
  [HStatus 206 (bs "Partial Content"); HCtype ctype; HSet (bs "Content-Length") (fmt_d n); HSet (bs "Content-Range") cr].
Definition multi_hops (ctype : bytes) : list hop := [HStatus 206 (bs "Partial Content"); HCtype ctype].
Definition full_hops (ctype mdate : bytes) (n : Z) (ar : bool) : list hop :=
  [HCtype ctype; HSet (bs "Last-Modified") mdate; HSet (bs "Content-Length") (fmt_d n)] ++ (if ar then [HSet (bs "Accept-Ranges") (bs "bytes")] else []).

Lemma mid_run e pre mid keep (k : call unit) : Forall unreserved pre -> Forall (clean e) mid ->
  (do_mid e mid ;; k) (start e pre keep) = k (start e (pre ++ mid) keep).
Proof. intros U C. now rewrite (seq_ok _ _ _ _ _ (start_mid e pre mid keep U C)). Qed.

Lemma final_app a b : forall st, final_status (a ++ b) st = final_status b (final_status a st).
Proof. induction a as [|h a IH]; intros st; [reflexivity|]. destruct h; cbn [app final_status]; apply IH. Qed.

Lemma clean_lists e mid : Forall (clean e) mid -> Forall appends_clean mid /\ Forall unreserved mid.
Proof. intros F. split; (eapply Forall_impl; [|exact F]); intros h C; now apply clean_appends in C. Qed.

Ltac lists := repeat (first [apply Forall_nil | apply Forall_cons]); cbn [clean name_ok names unframed_call].
Lemma range_clean e ctype n cr : one_line ctype -> one_line cr -> Forall (clean e) (range_hops ctype n cr) /\ Forall name_ok (range_hops ctype n cr).
Proof. intros A B. split; lists; repeat split; try ol; try discriminate; now apply memb_notIn. Qed.
Lemma multi_clean e ctype : one_line ctype -> Forall (clean e) (multi_hops ctype) /\ Forall name_ok (multi_hops ctype).
Proof. intros A. split; lists; repeat split; try ol. Qed.
Lemma full_clean e ctype mdate n ar : one_line ctype -> one_line mdate -> Forall (clean e) (full_hops ctype mdate n ar) /\ Forall name_ok (full_hops ctype mdate n ar).
Proof. intros A B. split; destruct ar; cbn [full_hops app]; lists; repeat split; try ol; try discriminate; now apply memb_notIn. Qed.

(** A head name nobody called stays out. *)
Lemma start_none e key ops keep : key <> k_line -> key <> k_ctype -> Forall (fun h => ~ In key (names h)) ops -> lines_at key (start e ops keep) = None.
Proof. intros A B F. unfold start. now rewrite hops_at. Qed.

Section One.
Context (e : renv) (pre mid : list hop) (keep : bool) (k : kw).
Context (HA : Forall appends_clean pre) (HN : Forall name_ok pre) (HU : Forall unreserved pre).
Context (MC : Forall (clean e) mid) (MN : Forall name_ok mid) (HB : 1 <= k_bufsize k).
Local Notation ops := (pre ++ mid).

Lemma ops_ok : Forall appends_clean ops /\ Forall name_ok ops /\ Forall unreserved ops.
Proof.
  destruct (clean_lists e mid MC) as [A U]. repeat split; apply Forall_app; split; assumption.
Qed.
Lemma mid_close c l stored : r_headers (start e ops keep) = Some stored -> stored <> [] ->
  ~ bodyless (e_method e) (fst (the_status ops)) -> l <> [] ->
  let ch := chunk_choice e c false in
  exists s' sent items, (do_mid e mid ;; wr e c k l ;; close true) (start e pre keep) = (Ok tt, s') /\
    r_out s' = Some (head_of (status_line e (the_status ops) :: lines_of sent)) :: map Some items ++ [None] /\
    sent_ok e ops keep ch stored sent /\ concat items = concat (map (enc ch) l) /\
    r_keep s' = keep && (ch || hmem (bs "content-length") stored).
Proof.
  intros H Ne NB Nl ch. rewrite mid_run by assumption. destruct ops_ok as (A & N & U).
  exact (wr_close e ops keep stored c k l A N U H Ne NB HB Nl).
Qed.
Lemma mid_close_bodyless c l stored : r_headers (start e ops keep) = Some stored -> stored <> [] ->
  bodyless (e_method e) (fst (the_status ops)) -> fst (the_status ops) <> 101 -> fst (the_status ops) <> 426 -> l <> [] ->
  exists s' sent, (do_mid e mid ;; wr e c k l ;; close true) (start e pre keep) = (Ok tt, s') /\
    sent_ok e ops keep (chunk_choice e c (no_content (fst (the_status ops)))) stored sent /\
    on_wire (r_keep s') (r_out s') = head_of (status_line e (the_status ops) :: lines_of sent).
Proof.
  intros H Ne NB N1 N2 Nl. rewrite mid_run by assumption. destruct ops_ok as (A & N & U).
  exact (wr_close_bodyless e ops keep stored c k l A N U H Ne NB N1 N2 HB Nl).
Qed.
End One.

Lemma stored_get e ops keep stored key : r_headers (start e ops keep) = Some stored -> hget key stored = lines_at key (start e ops keep).
Proof. intros H. unfold lines_at. now rewrite H. Qed.
Lemma stored_ne e ops keep stored key : r_headers (start e ops keep) = Some stored -> lines_at key (start e ops keep) <> None -> stored <> [].
Proof. intros H N ->. apply N. unfold lines_at. now rewrite H. Qed.
Lemma stored_mem e ops keep stored key x : r_headers (start e ops keep) = Some stored -> lines_at key (start e ops keep) = Some x -> hmem key stored = true.
Proof. intros H E. rewrite (hmem_lines key _ stored H). now rewrite E. Qed.
(** Names that write() does not decide on are sent as they are stored. *)
Lemma sent_get e ops keep ch stored sent key : sent_ok e ops keep ch stored sent -> ~ In key decided -> hget key sent = hget key stored.
Proof. intros S N. destruct (so_from _ _ _ _ _ _ S) as (_ & F & _). now apply F. Qed.

Lemma framing_none e pre mid keep key : In key [bs "transfer-encoding"; bs "content-length"] -> Forall unframed_call pre ->
  Forall (fun h => ~ In key (names h)) mid -> lines_at key (start e (pre ++ mid) keep) = None.
Proof.
  intros I F M. apply start_none.
  - destruct I as [<-|[<-|[]]]; discriminate.
  - destruct I as [<-|[<-|[]]]; discriminate.
  - apply Forall_app. split; [|exact M]. eapply Forall_impl; [|exact F]. intros h [A B]. destruct I as [<-|[<-|[]]]; assumption.
Qed.

(** ** The responses *)
Lemma one_line_cr a b n : one_line (content_range a b n).
Proof. unfold content_range. repeat (apply one_line_app; [ol|]). ol. Qed.

Lemma single_sent e pre keep stored sent ctype a b size n : ctype_ok ctype -> Forall unframed_call pre -> n = b - a + 1 ->
  let ops := pre ++ range_hops ctype n (content_range a b size) in
  r_headers (start e ops keep) = Some stored -> sent_ok e ops keep false stored sent ->
  single_lines ctype size a b (lines_of sent) /\ hmem (bs "content-length") stored = true /\ stored <> [].
Proof.
  intros [C1 C2] F -> ops H S.
  assert (lines_at (bs "content-length") (start e ops keep) = Some [bs "Content-Length: " ++ fmt_d (b - a + 1)]) as L.
  { unfold ops, range_hops. change ([?x; ?y; ?z; ?w]) with ([x; y] ++ z :: [w]). 
    change (bs "content-length") with (lower (bs "Content-Length")). 
    rewrite (app_assoc pre [HStatus 206 (bs "Partial Content"); HCtype ctype] (_ :: _)).
    apply start_set; [ol|ol|discriminate|discriminate|]. lists. vm_compute. intuition discriminate. }
  assert (lines_at (bs "content-range") (start e ops keep) = Some [range_line a b size]) as R.
  { unfold ops, range_hops. 
    change (lower (bs "Content-Range")) with (bs "content-range").
    change [HStatus 206 (bs "Partial Content"); HCtype ctype; HSet (bs "Content-Length") (fmt_d (b - a + 1)); HSet (bs "Content-Range") (content_range a b size)]
      with ([HStatus 206 (bs "Partial Content"); HCtype ctype; HSet (bs "Content-Length") (fmt_d (b - a + 1))] ++ HSet (bs "Content-Range") (content_range a b size) :: []).
    rewrite app_assoc. apply (start_set e _ (bs "Content-Range")); [ol|apply one_line_cr|discriminate|discriminate|constructor]. }
  assert (ctype_of (start e ops keep) = ctype) as CT.
  { unfold ops, start. rewrite do_hops_app. unfold range_hops. cbn [do_hops]. rewrite !ctype_keep by discriminate.
    apply ctype_set; [|exact C1|exact C2]. pose proof (do_hop_io e (HStatus 206 (bs "Partial Content")) (do_hops e pre (new_rsp keep))) as (_ & _ & _ & _ & _ & X).
    rewrite X. apply start_sent. }
  assert (the_status ops = ok_206) as St.
  { unfold ops, the_status. rewrite final_app. reflexivity. }
  split; [|split].
  - split; [|split; [|split]].
    + apply (sent_only _ _ _ _ _ _ _ _ S); [discriminate|]. rewrite <- CT. apply (so_ct _ _ _ _ _ _ S). now rewrite St.
    + apply (sent_only _ _ _ _ _ _ _ _ S); [discriminate|]. rewrite (sent_get _ _ _ _ _ _ _ S) by (vm_compute; intuition discriminate).
      now rewrite (stored_get _ _ _ _ _ H).
    + apply (sent_only _ _ _ _ _ _ _ _ S); [discriminate|]. rewrite (sent_get _ _ _ _ _ _ _ S) by (vm_compute; intuition discriminate).
      now rewrite (stored_get _ _ _ _ _ H).
    + apply (sent_none _ _ _ _ _ _ _ S). rewrite (so_nte _ _ _ _ _ _ S eq_refl). rewrite (stored_get _ _ _ _ _ H).
      apply framing_none; [now left|exact F|]. lists; vm_compute; intuition discriminate.
  - now apply (stored_mem e ops keep stored _ _ H L).
  - apply (stored_ne e ops keep stored (bs "content-length") H). now rewrite L.
Qed.

Lemma multi_sent e pre keep stored sent boundary : one_line boundary -> Forall unframed_call pre ->
  let ops := pre ++ multi_hops (bs "multipart/byteranges; boundary=" ++ boundary) in
  r_headers (start e ops keep) = Some stored -> sent_ok e ops keep true stored sent ->
  multi_lines boundary (lines_of sent).
Proof.
  intros C1 F ops H S.
  assert (ctype_of (start e ops keep) = bs "multipart/byteranges; boundary=" ++ boundary) as CT.
  { unfold ops, start. rewrite do_hops_app. unfold multi_hops. cbn [do_hops].
    apply ctype_set; [|apply one_line_app; [ol|exact C1]|reflexivity].
    pose proof (do_hop_io e (HStatus 206 (bs "Partial Content")) (do_hops e pre (new_rsp keep))) as (_ & _ & _ & _ & _ & X).
    rewrite X. apply start_sent. }
  assert (the_status ops = ok_206) as St.
  { unfold ops, the_status. rewrite final_app. reflexivity. }
  split; [|split].
  - apply (sent_only _ _ _ _ _ _ _ _ S); [discriminate|].
    change (bs "Content-Type: multipart/byteranges; boundary=" ++ boundary) with (bs "Content-Type: " ++ bs "multipart/byteranges; boundary=" ++ boundary).
    rewrite <- CT. apply (so_ct _ _ _ _ _ _ S). now rewrite St.
  - apply (sent_only _ _ _ _ _ _ _ _ S); [discriminate|]. now apply (so_te _ _ _ _ _ _ S).
  - apply (sent_none _ _ _ _ _ _ _ S). rewrite (sent_get _ _ _ _ _ _ _ S) by (vm_compute; intuition discriminate).
    rewrite (stored_get _ _ _ _ _ H). apply framing_none; [right; now left|exact F|]. lists; vm_compute; intuition discriminate.
Qed.

Lemma full_stored e pre keep stored ctype mdate size ar : one_line mdate ->
  let ops := pre ++ full_hops ctype mdate size ar in
  r_headers (start e ops keep) = Some stored ->
  hget (bs "content-length") stored = Some [bs "Content-Length: " ++ fmt_d size] /\
  hget (bs "last-modified") stored = Some [bs "Last-Modified: " ++ mdate] /\
  hmem (bs "content-length") stored = true /\ stored <> [].
Proof.
  intros C1 ops H.
  assert (lines_at (bs "content-length") (start e ops keep) = Some [bs "Content-Length: " ++ fmt_d size]) as L.
  { unfold ops, full_hops. cbn [app].
    change (HCtype ctype :: HSet (bs "Last-Modified") mdate :: ?z) with ([HCtype ctype; HSet (bs "Last-Modified") mdate] ++ z).
    rewrite app_assoc. apply (start_set e _ (bs "Content-Length")); [ol|ol|discriminate|discriminate|].
    destruct ar; lists. vm_compute. intuition discriminate. }
  assert (lines_at (bs "last-modified") (start e ops keep) = Some [bs "Last-Modified: " ++ mdate]) as M.
  { unfold ops, full_hops. cbn [app].
    change (HCtype ctype :: ?z) with ([HCtype ctype] ++ z).
    rewrite app_assoc. apply (start_set e _ (bs "Last-Modified")); [ol|ol|discriminate|discriminate|].
    destruct ar; lists; vm_compute; intuition discriminate. }
  rewrite !(stored_get _ _ _ _ _ H). split; [exact L|]. split; [exact M|]. split.
  - now apply (stored_mem e ops keep stored _ _ H L).
  - apply (stored_ne e ops keep stored (bs "content-length") H). now rewrite L.
Qed.
Lemma full_sent e pre keep ch stored sent ctype mdate size ar : ctype_ok ctype -> one_line mdate -> Forall unframed_call pre ->
  let ops := pre ++ full_hops ctype mdate size ar in
  r_headers (start e ops keep) = Some stored -> no_content (fst (the_status ops)) = false -> ch = false -> sent_ok e ops keep ch stored sent ->
  full_lines ctype mdate size (lines_of sent).
Proof.
  intros [C1 C2] OM F ops H NC -> S.
  destruct (full_stored e pre keep stored ctype mdate size ar OM H) as (L & M & _).
  assert (ctype_of (start e ops keep) = ctype) as CT.
  { unfold ops, start. rewrite do_hops_app. unfold full_hops. cbn [do_hops app].
    destruct ar; cbn [do_hops]; rewrite !ctype_keep by discriminate; (apply ctype_set; [apply start_sent|exact C1|exact C2]). }
  split; [|split; [|split]].
  - apply (sent_only _ _ _ _ _ _ _ _ S); [discriminate|]. rewrite <- CT. now apply (so_ct _ _ _ _ _ _ S).
  - apply (sent_only _ _ _ _ _ _ _ _ S); [discriminate|]. now rewrite (sent_get _ _ _ _ _ _ _ S) by (vm_compute; intuition discriminate).
  - apply (sent_only _ _ _ _ _ _ _ _ S); [discriminate|]. now rewrite (sent_get _ _ _ _ _ _ _ S) by (vm_compute; intuition discriminate).
  - apply (sent_none _ _ _ _ _ _ _ S). rewrite (so_nte _ _ _ _ _ _ S eq_refl). rewrite (stored_get _ _ _ _ _ H).
    apply framing_none; [now left|exact F|]. unfold full_hops. destruct ar; cbn [app]; lists; vm_compute; intuition discriminate.
Qed.

(** ** sendfile *)
Lemma size_is f file_size : size_ok f file_size -> (if file_size =? 0 then blen (fl_bytes f) else file_size) = blen (fl_bytes f).
Proof. intros [->| ->]; [reflexivity|]. destruct (blen (fl_bytes f) =? 0) eqn:E; lia. Qed.

Lemma wr_file e k file s : 1 <= k_bufsize k -> exists l,
  (write_file (S (List.length file)) e k file 0 ;; close true) s = (wr e (Some false) k l ;; close true) s /\ concat l = file /\ l <> [].
Proof.
  intros Hb. destruct (write_file_wr e k file Hb (S (List.length file)) 0) as (l & E & C & N); [unfold blen; lia|unfold blen; lia|].
  exists l. split; [|split; [exact C|exact N]]. apply seq_ext_l, E.
Qed.

(** The full file, whatever way. *)
Lemma full_eq_gen file e q f file_size ctype boundary k s : size_ok f file_size -> ~ uses_range e q f -> ~ not_modified e q f ->
  exists ar, send_opened e q file (blen (fl_bytes f)) (fl_mdate f) file_size ctype boundary k s =
    (do_mid e (full_hops ctype (fl_mdate f) (blen (fl_bytes f)) ar) ;; write_file (S (List.length file)) e k file 0 ;; close true) s
    /\ (e_11 e = true -> ar = true).
Proof.
  intros Z NU NM. unfold send_opened. rewrite (size_is f file_size Z).
  assert (forall ar, (do_mid e (full_hops ctype (fl_mdate f) (blen (fl_bytes f)) ar) ;; write_file (S (List.length file)) e k file 0 ;; close true) s =
    (set_content_type ctype ;; set_header (bs "Last-Modified") (fl_mdate f) ;; set_header (bs "Content-Length") (fmt_d (blen (fl_bytes f))) ;;
     (if ar then set_header (bs "Accept-Ranges") (bs "bytes") else done tt) ;; write_file (S (List.length file)) e k file 0 ;; close true) s) as X.
  { intros ar. unfold full_hops. cbn [app]. rewrite !do_mid_seq. apply seq_ext. intros _ s1. rewrite do_mid_seq. apply seq_ext. intros _ s2.
    rewrite do_mid_seq. apply seq_ext. intros _ s3. destruct ar; [|reflexivity]. rewrite do_mid_seq. reflexivity. }
  assert (forall b1 b2, (e_11 e = false \/ f_range q = []) -> b1 = e_11 e -> b2 = match f_ims q with [d] => beqb d (fl_mdate f) | _ => false end -> b2 = false) as NI.
  { intros b1 b2 A _ ->. destruct (f_ims q) as [|d [|]] eqn:I; try reflexivity. destruct (beqb d (fl_mdate f)) eqn:B; [|reflexivity].
    apply beqb_eq in B as ->. exfalso. apply NM. split; assumption. }
  destruct (e_11 e) eqn:V.
  - destruct (f_range q) as [|r rs] eqn:R.
    + rewrite (NI true _ (or_intror eq_refl) eq_refl eq_refl). exists true. split; [|easy]. rewrite X. reflexivity.
    + assert (match f_if_range q with [] => false | [d] => negb (beqb d (fl_mdate f)) | _ => true end = true) as ->.
      { destruct (f_if_range q) as [|d [|]] eqn:I; [|destruct (beqb d (fl_mdate f)) eqn:B; [|reflexivity]|reflexivity].
        - exfalso. apply NU. split; [exact V|]. rewrite R. split; [easy|now left].
        - exfalso. apply NU. split; [exact V|]. rewrite R. split; [easy|right]. now apply beqb_eq in B as ->. }
      exists true. split; [|easy]. rewrite X. reflexivity.
  - rewrite (NI false _ (or_introl eq_refl) eq_refl eq_refl).
    exists false. split; [|easy]. rewrite X. reflexivity.
Qed.
Lemma full_eq e q f file_size ctype boundary k s : size_ok f file_size -> ~ uses_range e q f -> ~ not_modified e q f ->
  exists ar, sendfile e q f file_size ctype boundary k s =
    (do_mid e (full_hops ctype (fl_mdate f) (blen (fl_bytes f)) ar) ;; write_file (S (List.length (fl_bytes f))) e k (fl_bytes f) 0 ;; close true) s
    /\ (e_11 e = true -> ar = true).
Proof. apply full_eq_gen. Qed.
Lemma full_status pre ctype mdate n ar : the_status (pre ++ full_hops ctype mdate n ar) = the_status pre.
Proof. unfold the_status. rewrite final_app. now destruct ar. Qed.

Lemma c35_gen file e q f file_size ctype boundary k pre keep :
  size_ok f file_size -> ~ uses_range e q f -> ~ not_modified e q f -> 1 <= k_bufsize k ->
  ctype_ok ctype -> one_line (fl_mdate f) ->
  Forall appends_clean pre -> Forall name_ok pre -> Forall unreserved pre -> Forall unframed_call pre ->
  ~ bodyless (e_method e) (fst (the_status pre)) ->
  exists s' lines items, send_opened e q file (blen (fl_bytes f)) (fl_mdate f) file_size ctype boundary k (start e pre keep) = (Ok tt, s') /\
    r_out s' = Some (head_of (status_line e (the_status pre) :: lines)) :: map Some items ++ [None] /\
    Forall one_line (status_line e (the_status pre) :: lines) /\ full_lines ctype (fl_mdate f) (blen (fl_bytes f)) lines /\
    concat items = file /\ r_keep s' = keep.
Proof.
  intros Z NU NM Hb CT OM A N U F NB. destruct (full_eq_gen file e q f file_size ctype boundary k (start e pre keep) Z NU NM) as (ar & E & _). rewrite E. clear E.
  set (mid := full_hops ctype (fl_mdate f) (blen (fl_bytes f)) ar). destruct (full_clean e ctype (fl_mdate f) (blen (fl_bytes f)) ar (proj1 CT) OM) as [MC MN].
  fold mid in MC, MN. destruct (wr_file e k file (start e (pre ++ mid) keep) Hb) as (l & E & C & Nl).
  destruct (start_some e (pre ++ mid) keep) as (stored & H).
  destruct (full_stored e pre keep stored ctype (fl_mdate f) (blen (fl_bytes f)) ar OM H) as (_ & _ & CM & Ne).
  assert (the_status (pre ++ mid) = the_status pre) as St by apply full_status.
  destruct (mid_close e pre mid keep k A N U MC MN Hb (Some false) l stored H Ne) as (s' & sent & items & R & O & S & I & K).
  { now rewrite St. } { exact Nl. }
  rewrite mid_run in * by assumption. rewrite <- E in R. cbn [chunk_choice orb] in *. rewrite St in *.
  exists s', (lines_of sent), items. split; [exact R|]. split; [exact O|]. split; [|split; [|split]].
  - rewrite <- St. apply (so_lines _ _ _ _ _ _ S).
  - apply (full_sent e pre keep false stored sent ctype _ _ ar CT OM F H); [|reflexivity|exact S].
    fold mid. rewrite St. destruct (no_content (fst (the_status pre))) eqn:X; [|reflexivity]. exfalso. apply NB, bodyless_iff. rewrite X. apply orb_true_r.
  - rewrite I. unfold enc. now rewrite map_id.
  - rewrite K, CM. apply andb_true_r.
Qed.

Lemma c35_main e q f file_size ctype boundary k pre keep :
  size_ok f file_size -> ~ uses_range e q f -> ~ not_modified e q f -> 1 <= k_bufsize k ->
  ctype_ok ctype -> one_line (fl_mdate f) ->
  Forall appends_clean pre -> Forall name_ok pre -> Forall unreserved pre -> Forall unframed_call pre ->
  ~ bodyless (e_method e) (fst (the_status pre)) ->
  exists s' lines items, sendfile e q f file_size ctype boundary k (start e pre keep) = (Ok tt, s') /\
    r_out s' = Some (head_of (status_line e (the_status pre) :: lines)) :: map Some items ++ [None] /\
    Forall one_line (status_line e (the_status pre) :: lines) /\ full_lines ctype (fl_mdate f) (blen (fl_bytes f)) lines /\
    concat items = fl_bytes f /\ r_keep s' = keep.
Proof. apply c35_gen. Qed.

Lemma c35_bodyless_main e q f file_size ctype boundary k pre keep :
  size_ok f file_size -> ~ uses_range e q f -> ~ not_modified e q f -> 1 <= k_bufsize k ->
  ctype_ok ctype -> one_line (fl_mdate f) ->
  Forall appends_clean pre -> Forall name_ok pre -> Forall unreserved pre -> Forall unframed_call pre ->
  bodyless (e_method e) (fst (the_status pre)) -> fst (the_status pre) <> 101 -> fst (the_status pre) <> 426 ->
  exists s' lines, sendfile e q f file_size ctype boundary k (start e pre keep) = (Ok tt, s') /\
    on_wire (r_keep s') (r_out s') = head_of (status_line e (the_status pre) :: lines) /\
    Forall one_line (status_line e (the_status pre) :: lines) /\
    only_line (bs "content-length") (bs "Content-Length: " ++ fmt_d (blen (fl_bytes f))) lines.
Proof.
  intros Z NU NM Hb CT OM A N U F NB N1 N2. destruct (full_eq e q f file_size ctype boundary k (start e pre keep) Z NU NM) as (ar & E & _). rewrite E. clear E.
  set (mid := full_hops ctype (fl_mdate f) (blen (fl_bytes f)) ar). destruct (full_clean e ctype (fl_mdate f) (blen (fl_bytes f)) ar (proj1 CT) OM) as [MC MN].
  fold mid in MC, MN. destruct (wr_file e k (fl_bytes f) (start e (pre ++ mid) keep) Hb) as (l & E & C & Nl).
  destruct (start_some e (pre ++ mid) keep) as (stored & H).
  destruct (full_stored e pre keep stored ctype (fl_mdate f) (blen (fl_bytes f)) ar OM H) as (CL & _ & CM & Ne).
  assert (the_status (pre ++ mid) = the_status pre) as St by apply full_status.
  destruct (mid_close_bodyless e pre mid keep k A N U MC MN Hb (Some false) l stored H Ne) as (s' & sent & R & S & O); try (now rewrite St); [exact Nl|].
  rewrite mid_run in * by assumption. rewrite <- E in R. rewrite St in *.
  exists s', (lines_of sent). split; [exact R|]. split; [exact O|]. split; [rewrite <- St; apply (so_lines _ _ _ _ _ _ S)|].
  apply (sent_only _ _ _ _ _ _ _ _ S); [discriminate|]. rewrite (sent_get _ _ _ _ _ _ _ S) by (vm_compute; intuition discriminate). exact CL.
Qed.

(** 304 *)
Lemma c35_304_main e q f file_size ctype boundary k pre keep stored : not_modified e q f ->
  Forall appends_clean pre -> Forall name_ok pre -> Forall unreserved pre -> r_headers (start e pre keep) = Some stored -> stored <> [] ->
  exists s' lines, sendfile e q f file_size ctype boundary k (start e pre keep) = (Ok tt, s') /\
    on_wire (r_keep s') (r_out s') = head_of (status_line e (304, bs "Not Modified") :: lines) /\
    Forall one_line (status_line e (304, bs "Not Modified") :: lines).
Proof.
  intros [V I] A N U H Ne. unfold sendfile, send_opened.
  assert (forall (a b : call unit), match e_11 e, f_range q with true, _ :: _ => a | _, _ => b end = b) as X.
  { intros a b. destruct V as [->| ->]; [reflexivity|now destruct (e_11 e)]. }
  rewrite X. clear X. rewrite I, beqb_refl.
  set (mid := [HStatus 304 (bs "Not Modified")]).
  assert (Forall (clean e) mid) as MC by (lists; ol). assert (Forall name_ok mid) as MN by (lists; exact Logic.I).
  assert ((set_status 304 (bs "Not Modified") ;; write e None None (mkKw true 16384 None)) (start e pre keep) =
    (do_mid e mid ;; write e None None (mkKw true 16384 None)) (start e pre keep)) as -> by (unfold mid; now rewrite do_mid_seq).
  rewrite mid_run by assumption.
  destruct (ops_ok e pre mid A N U MC MN) as (A' & N' & U').
  assert (the_status (pre ++ mid) = (304, bs "Not Modified")) as St by (unfold the_status; rewrite final_app; reflexivity).
  destruct (start_some e (pre ++ mid) keep) as (stored' & H').
  assert (stored' <> []) as Ne'.
  { intros ->. destruct stored as [|[key x] stored]; [easy|].
    pose proof (do_hops_present e key mid (start e pre keep)) as P. unfold start in H'. rewrite do_hops_app in H'. fold (start e pre keep) in H'.
    unfold lines_at in P. rewrite H, H' in P. apply P; [|reflexivity]. unfold hget. cbn [dget]. now rewrite beqb_refl. }
  destruct (first_write e (pre ++ mid) keep stored' None None (mkKw true 16384 None) A' N' U' H' Ne') as (sent & st' & ct' & kp & up & E & S & K & _).
  rewrite St in *. cbn [fst] in *. change (no_content 304) with true in *. rewrite orb_true_r in *. rewrite (K eq_refl eq_refl) in E. rewrite E.
  eexists _, (lines_of sent). split; [reflexivity|]. split.
  - cbn. now rewrite app_nil_r.
  - rewrite <- St. apply (so_lines _ _ _ _ _ _ S).
Qed.
