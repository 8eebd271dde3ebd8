(** What error responses show: C69.

    [encode] is str.encode by the name of the charset, and [tb] the lines of the traceback of an exception: both are arbitrary. [tokens] is what a browser
    makes of a page: tags, and characters of text. *)
From Verif Require Import PyBytes PyBytesFacts PyInt PyExn PyUtf8 M_Response M_Utils M_Server M_Pages S_Response S_Chunked S_Calls S_Utils S_Pages P_Response2 P_Response6 P_Server2 P_Response8 P_Pages.

(** The classes have the codes and the reasons of the standard. *)
Theorem c69_classes : forall c, let x := new_exc c [] None None None in In (x_code x, x_message x) reasons /\ x_ctype x = bs "text/html; charset=utf-8".
Proof. intros c. split; [destruct c; vm_compute; tauto|reflexivity]. Qed.
Print Assumptions c69_classes.

(** C69. A handler raises one of these exceptions, with the words given, and a code, message and content type or those of the class, and nothing was sent
    yet. Then one response is queued, closed behind it: its head has the code, the message and the content type; its body is the words (or the
    message, if there are none), in the charset that the content type declares. Missing: arguments that are not str, text that
    cannot be encoded, debug (below). *)
Definition charset_is (ctype charset : bytes) : Prop := declares ctype charset \/ bare ctype /\ charset = bs "utf-8".
Definition response_lines (e : renv) (code : Z) (message ctype data : bytes) : list bytes :=
  [bs "HTTP/" ++ version e ++ bs " " ++ fmt_d code ++ bs " " ++ message; bs "Content-Type: " ++ ctype; bs "Content-Length: " ++ fmt_d (blen data);
   bs "Connection: close"; bs "Date: " ++ e_date e; bs "Server: " ++ e_server e].
Definition or_else {X} (o : option X) (d : X) : X := match o with Some x => x | None => d end.
Lemma spaced_join words : tjoin (text (bs " ")) words = spaced words.
Proof. induction words as [|w [|w2 ws] IH]; [reflexivity..|]. cbn [tjoin spaced]. cbn [tjoin spaced] in IH. now rewrite IH. Qed.
Lemma all_str_map words : all_str (map AStr words) = Some words.
Proof. induction words as [|w ws IH]; [reflexivity|]. cbn [map all_str]. now rewrite IH. Qed.
Lemma charset_found ct cs : charset_is ct cs -> charset_of ct = cs.
Proof. intros [D|[B ->]]; [now apply charset_declared|now apply charset_bare]. Qed.
Theorem c69_http_partial : forall encode tb e s cls words code message ctype charset data,
  one_line (e_date e) -> one_line (e_server e) -> headers_sent s = false -> r_buf s = [] ->
  let the_code := or_else code (cls_code cls) in let the_message := or_else message (cls_message cls) in let the_type := or_else ctype (bs "text/html; charset=utf-8") in
  one_line the_message -> one_line the_type -> charset_is the_type charset ->
  encode charset (match words with [] => letters the_message | _ => spaced words end) = Some data ->
  exists s' body, handle_raised encode tb e false (RHttp (new_exc cls (map AStr words) code message ctype)) s = (Finished, s') /\
    r_out s' = r_out s ++ [Some (head_of (response_lines e the_code the_message the_type data) ++ body); None] /\ r_keep s' = false /\
    (bodyless (e_method e) the_code -> body = []) /\ (~ bodyless (e_method e) the_code -> body = data).
Proof.
  intros encode tb e s c words code message ctype cs data D Sv Hs B tc tm tt_ Om Ot Cs En. set (r := RHttp (new_exc c (map AStr words) code message ctype)).
  assert (str_exc (new_exc c (map AStr words) code message ctype) = Some (match words with [] => letters tm | _ => spaced words end)) as St.
  { unfold str_exc. cbn [new_exc x_args]. destruct words as [|w ws]; [reflexivity|]. cbn [map]. change (AStr w :: map AStr ws) with (map AStr (w :: ws)). rewrite all_str_map. cbn [option_map]. now rewrite spaced_join. }
  assert (default_500 encode tb false r = EData data) as De.
  { unfold default_500, page_500, r. cbn [http_exc]. rewrite St. cbn [new_exc x_ctype]. fold tt_. change (match ctype with Some t => t | None => _ end) with tt_. rewrite (charset_found _ _ Cs), En. reflexivity. }
  pose proof (raised_main encode tb e false r s _ data D Sv Hs B St Om Ot De) as M. destruct (handle_raised encode tb e false r s) as [p s']. destruct M as (-> & K & _ & O).
  eexists s', _. split; [reflexivity|]. split; [exact O|]. split; [exact K|]. cbn [http_exc r x_code new_exc]. change (match code with Some z => z | None => cls_code c end) with tc. split; intros Bl.
  - apply bodyless_iff in Bl. now rewrite Bl.
  - destruct (is_head e || no_content tc) eqn:X; [|reflexivity]. apply bodyless_iff in X. now apply Bl in X.
Qed.
Print Assumptions c69_http_partial.

(** Other exceptions: the client cannot tell from the response which one it was (unless debug is on), *)
Theorem c69_secret : forall encode tb1 tb2 e s text1 text2,
  handle_raised encode tb1 e false (ROther (Some text1)) s = handle_raised encode tb2 e false (ROther (Some text2)) s.
Proof. intros. unfold handle_raised. reflexivity. Qed.
Print Assumptions c69_secret.
(** and the page says what the class says. *)
Theorem c69_internal : forall encode tb e s (timeout : bool) what,
  one_line (e_date e) -> one_line (e_server e) -> headers_sent s = false -> r_buf s = [] ->
  encode (bs "utf-8") = utf8_encode -> e_method e <> bs "HEAD" ->
  let '(code, message) := if timeout then (408%Z, bs "Request Timeout") else (500%Z, bs "Internal Server Error") in
  exists s', handle_raised encode tb e false (if timeout then RTimeout (Some what) else ROther (Some what)) s = (Finished, s') /\
    r_out s' = r_out s ++ [Some (head_of (response_lines e code message (bs "text/html; charset=utf-8") message) ++ message); None] /\ r_keep s' = false.
Proof.
  intros encode tb e s r what D Sv Hs B En Me. set (x := if r then RTimeout (Some what) else ROther (Some what)).
  assert (is_head e = false) as Hd. { unfold is_head. destruct (beqb _ _) eqn:E; [|reflexivity]. apply beqb_eq in E. congruence. }
  set (m := if r then bs "Request Timeout" else bs "Internal Server Error").
  assert (default_500 encode tb false x = EData m) as De.
  { unfold default_500, x, m. destruct r; cbn [http_exc page_500]; [change (charset_of _) with (bs "utf-8")|change (charset_of _) with (bs "utf-8")]; cbn [str_exc new_exc x_args x_message cls_message]; rewrite En; vm_compute; reflexivity. }
  assert (str_raised x = Some what) as St by (unfold x; now destruct r).
  assert (one_line (x_message (http_exc x))) as Om by (unfold x; destruct r; apply memb_notIn; reflexivity). assert (one_line (x_ctype (http_exc x))) as Ot by (unfold x; destruct r; apply memb_notIn; reflexivity).
  pose proof (raised_main encode tb e false x s _ m D Sv Hs B St Om Ot De) as M. destruct (handle_raised encode tb e false x s) as [p s'] eqn:E. destruct M as (-> & K & _ & O). rewrite Hd in O. unfold x, m in *.
  destruct r; exists s'; (split; [reflexivity|]); (split; [exact O|exact K]).
Qed.
Print Assumptions c69_internal.

(** With debug on, the page is a list of the lines of the traceback, each of them shown as text, whatever is in it. *)
Lemma shown_items lines : items lines = shown lines.
Proof. induction lines as [|l r IH]; [reflexivity|]. cbn [items shown]. now rewrite IH. Qed.
Theorem c69_debug : forall encode tb e s r t charset,
  one_line (e_date e) -> one_line (e_server e) -> headers_sent s = false -> r_buf s = [] -> str_raised r = Some t ->
  let x := http_exc r in
  one_line (x_message x) -> one_line (x_ctype x) -> charset_is (x_ctype x) charset -> tb x <> [] ->
  exists page, tokens page = tag (bs "ul") :: shown (tb x) ++ [tag (bs "/ul")] /\
  forall data, encode charset page = Some data -> ~ bodyless (e_method e) (x_code x) ->
  exists s', handle_raised encode tb e true r s = (Finished, s') /\
    r_out s' = r_out s ++ [Some (head_of (response_lines e (x_code x) (x_message x) (x_ctype x) data) ++ data); None] /\ r_keep s' = false.
Proof.
  intros encode tb e s r t cs D Sv Hs B St x Om Ot Cs Tb. destruct (debug_page (tb x) x Tb) as (page & Pg & Tk). exists page. split; [now rewrite Tk, shown_items|]. intros data En Nb.
  assert (default_500 encode tb true r = EData data) as De. { unfold default_500. fold x. rewrite Pg, (charset_found _ _ Cs), En. reflexivity. }
  pose proof (raised_main encode tb e true r s _ data D Sv Hs B St Om Ot De) as M. destruct (handle_raised encode tb e true r s) as [p s']. destruct M as (-> & K & _ & O).
  exists s'. split; [reflexivity|]. split; [|exact K]. fold x in O. destruct (is_head e || no_content (x_code x)) eqn:X; [|exact O]. apply bodyless_iff in X. now apply Nb in X.
Qed.
Print Assumptions c69_debug.

(** The page for a path without a route: the path is shown as text, whatever bytes are in it; [e_server] is the name in the Server field, without markup. *)
Definition top_404 : list token := tokens (letters (bs "<!DOCTYPE html><html lang=""en""><head><meta name=""viewport"" content=""width=device-width, initial-scale=1.0"" /><title>404 Not Found</title><style>body { max-width: 600px; margin: 0 auto; padding: 1%; font-family: sans-serif; line-height: 1.5em; }</style></head><body><h1>Not Found</h1>")).
Definition shown_404 (path server : bytes) : list token :=
  top_404 ++ [tag (bs "p")] ++ chars (letters (bs "Unable to find handler for ") ++ letters path ++ letters (bs ".")) ++
  [tag (bs "/p"); tag (bs "hr /"); tag (bs "address title=""Powered by Tremolo""")] ++ chars (letters server) ++ [tag (bs "/address"); tag (bs "/body"); tag (bs "/html")].
Definition fresh (e : renv) (keep : bool) : rsp := start e hops_404 keep.
Theorem c69_404 : forall e path bufsize keep,
  one_line (e_date e) -> one_line (e_server e) -> ~ In "&"%char (e_server e) -> ~ In "<"%char (e_server e) -> (1 <= bufsize)%Z -> e_method e <> bs "HEAD" ->
  exists s' page lines items, respond_404 e path bufsize (fresh e keep) = (Ok tt, s') /\
    r_out s' = Some (head_of ((bs "HTTP/" ++ version e ++ bs " 404 Not Found") :: lines)) :: map Some items ++ [None] /\
    tokens (letters page) = shown_404 path (e_server e) /\
    if e_11 e then only_line (bs "transfer-encoding") (bs "Transfer-Encoding: chunked") lines /\
                   exists cs, concat items = chunked_body cs (bs "0") [] CRLF /\ Forall good_chunk cs /\ chunks_data cs = page
    else concat items = page /\ r_keep s' = false.
Proof.
  intros e path n keep D Sv Na Nl Hn Me.
  assert (tokens (letters (concat (page_404 path (e_server e)))) = shown_404 path (e_server e)) as Tk.
  { rewrite page_404_tokens.
    1:{ assert (nth 0 (page_404 [] []) [] = bs "<!DOCTYPE html><html lang=""en""><head><meta name=""viewport"" content=""width=device-width, initial-scale=1.0"" /><title>404 Not Found</title><style>body { max-width: 600px; margin: 0 auto; padding: 1%; font-family: sans-serif; line-height: 1.5em; }</style></head><body><h1>Not Found</h1>") as -> by (vm_compute; reflexivity). unfold shown_404, top_404. reflexivity. }
    assert (forall c, In (N_of_ascii c) (letters (e_server e)) -> In c (e_server e)) as K.
    { intros c I. apply in_map_iff in I as (c' & E & I). apply (f_equal ascii_of_N) in E. rewrite !ascii_N_embedding in E. now subst. }
    split; intros I; [apply Na|apply Nl]; [apply (K "&"%char)|apply (K "<"%char)]; exact I. }
  assert (~ bodyless (e_method e) (fst (the_status hops_404))) as Nb. { unfold bodyless. intros [H|[H|[H|[H|H]]]]; [easy|vm_compute in H; discriminate..|]. destruct H as [_ H]. vm_compute in H. discriminate. }
  assert (status_line e (final_status [] (the_status hops_404)) = bs "HTTP/" ++ version e ++ bs " 404 Not Found") as Es by (unfold status_line; do 2 f_equal; vm_compute; reflexivity).
  set (o := mkHOpts None false n). destruct (page_404 path (e_server e)) as [|y0 ys] eqn:Ep; [discriminate|].
  assert (Forall appends_clean hops_404) as F1 by repeat constructor. assert (Forall name_ok (hops_404 ++ [])) as F2 by repeat constructor. assert (Forall unreserved hops_404) as F3 by repeat constructor.
  unfold respond_404. rewrite Ep. fold o. destruct (e_11 e) eqn:V.
  - destruct (c31_main e o hops_404 [] y0 ys keep V ltac:(discriminate) Hn F1 F2 F3 (Forall_nil _) (Forall_nil _) Nb) as (s' & lines & items & cs & R & O & _ & Ol & _ & C1 & C2 & C3 & _).
    exists s', (concat (y0 :: ys)), lines, items. split; [exact R|]. split; [rewrite <- Es; exact O|]. split; [exact Tk|]. split; [exact Ol|]. exists cs. auto.
  - destruct (c31_plain_main e o hops_404 [] y0 ys keep) as (s' & lines & items & R & O & C & K); try assumption; [constructor|].
    exists s', (concat (y0 :: ys)), lines, items. split; [exact R|]. split; [rewrite <- Es; exact O|]. split; [exact Tk|]. split; [exact C|].
    destruct (r_keep s') eqn:Kp; [|reflexivity]. exfalso. destruct (K eq_refl) as (l & H). clear - H D Sv. unfold fresh, start in H.
    assert (memb LF (e_date e) = false) as Hd by now apply memb_notIn. assert (memb LF (e_server e) = false) as Hs by now apply memb_notIn.
    change (do_hops e hops_404 (new_rsp keep)) with (snd (set_base_header e (mkRsp (Some []) false [(404%Z, bs "Not Found")] [] [] [] keep false))) in H.
    unfold set_base_header, set_header in H. cbn [r_headers] in H. rewrite Hd in H. unfold seq at 1 in H. rewrite Hs in H. vm_compute in H. discriminate.
Qed.
Print Assumptions c69_404.

(** The rest is false. An argument that is not a str: no response at all, and the connection stays as it is. (raise BadRequest(42)) *)
Theorem c69_args_refuted : exists x, forall encode tb e debug s, headers_sent s = false ->
  handle_raised encode tb e debug (RHttp x) s = (Escaped XOther, s) /\ x = new_exc BadRequest [AObj] None None None.
Proof. exists (new_exc BadRequest [AObj] None None None). intros encode tb e debug s Hs. unfold handle_raised. now rewrite Hs. Qed.
Print Assumptions c69_args_refuted.
(** Text that the charset cannot encode: no response either. (raise BadRequest('\xe9', content_type='text/plain; charset=us-ascii')) *)
Theorem c69_encode_refuted : exists x, forall encode tb e s, headers_sent s = false -> encode (bs "us-ascii") [233%N] = None ->
  let '(p, s') := handle_raised encode tb e false (RHttp x) s in p = Escaped XOther /\ r_out s' = r_out s /\ r_keep s' = r_keep s.
Proof.
  exists (new_exc BadRequest [AStr [233%N]] None None (Some (bs "text/plain; charset=us-ascii"))). intros encode tb e s Hs En. unfold handle_raised. rewrite Hs. cbn [andb str_raised].
  change (str_exc _) with (Some [233%N]). unfold handle_exception. rewrite Hs. cbn [andb as_exc http_of]. unfold default_500. cbn [http_exc]. change (page_500 false _ _) with (Some [233%N]). cbn iota.
  change (charset_of _) with (bs "us-ascii"). rewrite En. destruct s as [h ? ? ? ? ? ? ?]. unfold headers_sent in Hs. cbn in Hs. destruct h; [|discriminate]. now split.
Qed.
Print Assumptions c69_encode_refuted.
(** With debug off, text of an HTTPException is not quoted, though the page is text/html. (raise BadRequest('<script>...')) *)
Theorem c69_markup_refuted : exists words page, page_500 false [] (new_exc BadRequest (map AStr words) None None None) = Some page /\
  tokens page <> chars (spaced words) /\ In (tag (bs "script")) (tokens page).
Proof. exists [letters (bs "bad value <script>x</script>")], (letters (bs "bad value <script>x</script>")). split; [reflexivity|]. split; [vm_compute; discriminate|vm_compute; tauto]. Qed.
Print Assumptions c69_markup_refuted.

(** The hypotheses can be met. *)
Definition env := mkEnv true (bs "GET") (bs "Thu, 01 Jan 1970 00:00:00 GMT") (bs "Tremolo").
Definition encode_utf8 (charset : bytes) (t : pystr) : option bytes := if beqb charset (bs "utf-8") then utf8_encode t else None.
Example c69_example :
  charset_is (bs "text/plain; charset=utf-8") (bs "utf-8") /\ charset_is (bs "text/plain") (bs "utf-8") /\ r_out (snd (handle_raised encode_utf8 (fun _ => []) env false (RHttp (new_exc NotFound (map AStr [letters (bs "no"); [233%N]]) None None (Some (bs "text/plain; charset=utf-8")))) (new_rsp true))) =
  [Some (head_of [bs "HTTP/1.1 404 Not Found"; bs "Content-Type: text/plain; charset=utf-8"; bs "Content-Length: 5"; bs "Connection: close"; bs "Date: Thu, 01 Jan 1970 00:00:00 GMT"; bs "Server: Tremolo"]
         ++ bs "no " ++ map ascii_of_nat [195; 169]); None].
Proof.
  split; [|split].
  - left. exists (bs "text/plain"), (bs " "). split; [reflexivity|]. split; [apply memb_notIn; reflexivity|]. split; [apply memb_notIn; reflexivity|]. split; [intros c [<-|[]]; reflexivity|]. split; [discriminate|].
    intros c I. cbn in I. repeat destruct I as [<-|I]; try easy; (split; [vm_compute; lia|discriminate]).
  - right. split; [split; apply memb_notIn; reflexivity|reflexivity].
  - vm_compute. reflexivity.
Qed.
Example c69_debug_example : exists page, page_500 true [letters (bs "File <a>"); letters (bs "x & 'y'")] (new_exc InternalServerError [] None None None) = Some page /\ page = letters (bs "<ul><li>File &lt;a&gt;</li><li>x &amp; &#x27;y&#x27;</li></ul>") /\ tokens page = [tag (bs "ul")] ++ [tag (bs "li")] ++ chars (letters (bs "File <a>")) ++ [tag (bs "/li"); tag (bs "li")] ++ chars (letters (bs "x & 'y'")) ++ [tag (bs "/li"); tag (bs "/ul")].
Proof. eexists. split; [reflexivity|]. split; vm_compute; reflexivity. Qed.
Example c69_404_example : exists h page, r_out (snd (respond_404 env (bs "/<img src=""x"">&amp;'") 16384 (fresh env true))) = [Some h; Some page; None] /\
  startswith (bs "HTTP/1.1 404 Not Found") h = true /\
  find (bs "<p>Unable to find handler for /&lt;img src=&quot;x&quot;&gt;&amp;amp;'.</p>") page <> None.
Proof. eexists _, _. split; [vm_compute; reflexivity|]. split; [vm_compute; reflexivity|vm_compute; discriminate]. Qed.
