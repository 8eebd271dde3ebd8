From Verif Require Import PyBytes PyBytesFacts PyInt PyExn PyUtf8 M_Response M_Utils M_Server M_Pages S_Response S_Chunked S_Calls S_Utils S_Pages P_Utils P_Server2 P_Response8.
From Coq Require Import ZifyN ZifyBool ZifyNat.

(** ** Tokens *)
Lemma until_gt_shorter s a b : until_gt s = Some (a, b) -> List.length b < List.length s.
Proof.
  revert a b. induction s as [|c s IH]; intros a b; cbn [until_gt]; [discriminate|]. destruct (c =? 62)%N; [intros [= <- <-]; cbn [List.length]; lia|].
  destruct (until_gt s) as [[a' b']|] eqn:E; [|discriminate]. intros [= <- <-]. specialize (IH _ _ eq_refl). cbn [List.length]. lia.
Qed.
Lemma refs_nonempty name x : In (name, x) references -> name <> [].
Proof. intros I ->. vm_compute in I. intuition discriminate. Qed.
Lemma tokens_more : forall n s f, List.length s <= n -> n <= f -> tokens_fuel f s = tokens_fuel n s.
Proof.
  induction n as [|n IH]; intros s f L F; [destruct s; [now destruct f|cbn in L; lia]|]. destruct s as [|c s]; [now destruct f|].
  destruct f as [|f]; [lia|]. cbn [tokens_fuel]. cbn [List.length] in L. destruct (c =? 60)%N.
  - destruct (until_gt s) as [[a b]|] eqn:E; [|reflexivity]. apply until_gt_shorter in E. f_equal. apply IH; lia.
  - destruct (List.find _ _) as [[name x]|] eqn:E.
    + apply List.find_some in E as [I _]. apply refs_nonempty in I. destruct name as [|y name]; [easy|]. f_equal. apply IH; [|lia].
      cbn [List.length skipn]. rewrite skipn_length. lia.
    + f_equal. apply IH; lia.
Qed.
Lemma tokens_at s f : List.length s <= f -> tokens_fuel f s = tokens s.
Proof. intros L. unfold tokens. now apply tokens_more. Qed.
Lemma until_gt_app name rest : ~ In 62%N name -> until_gt (name ++ 62%N :: rest) = Some (name, rest).
Proof.
  induction name as [|c name IH]; intros N; [reflexivity|]. cbn [app until_gt]. destruct (c =? 62)%N eqn:E; [exfalso; apply N; left; lia|].
  rewrite IH; [reflexivity|]. intros I. apply N. now right.
Qed.
Lemma tokens_tag name rest : ~ In 62%N name -> tokens (60%N :: name ++ 62%N :: rest) = Tag name :: tokens rest.
Proof.
  intros N. unfold tokens at 1. cbn [List.length tokens_fuel]. change (60 =? 60)%N with true. cbn iota. rewrite until_gt_app; [|assumption]. f_equal.
  apply tokens_at. rewrite app_length. cbn [List.length]. lia.
Qed.
Lemma no_ref c s : c <> 38%N -> List.find (fun r => prefix (fst r) (c :: s)) references = None.
Proof.
  intros N. unfold references. cbn [List.find fst]. assert (forall l, prefix (38%N :: l) (c :: s) = false) as K by (intros l; cbn [prefix]; destruct (38 =? c)%N eqn:E; [lia|reflexivity]).
  change (letters (bs "&amp;")) with (38%N :: letters (bs "amp;")). change (letters (bs "&lt;")) with (38%N :: letters (bs "lt;")). change (letters (bs "&gt;")) with (38%N :: letters (bs "gt;")).
  change (letters (bs "&quot;")) with (38%N :: letters (bs "quot;")). change (letters (bs "&#x27;")) with (38%N :: letters (bs "#x27;")). now rewrite !K.
Qed.
Lemma tokens_plain c s : c <> 38%N -> c <> 60%N -> tokens (c :: s) = Char c :: tokens s.
Proof.
  intros A L. unfold tokens at 1. cbn [List.length tokens_fuel]. destruct (c =? 60)%N eqn:E; [lia|]. now rewrite (no_ref c s A).
Qed.
Definition tesc (c : N) : list N :=
  if (c =? 38)%N then letters (bs "&amp;") else if (c =? 60)%N then letters (bs "&lt;") else if (c =? 62)%N then letters (bs "&gt;")
  else if (c =? 34)%N then letters (bs "&quot;") else if (c =? 39)%N then letters (bs "&#x27;") else [c].
Definition bare_text (l : list N) : Prop := ~ In 38%N l /\ ~ In 60%N l.
Lemma tokens_bare l s : bare_text l -> tokens (l ++ s) = chars l ++ tokens s.
Proof.
  intros [A L]. induction l as [|c l IH]; [reflexivity|]. cbn [app chars map]. rewrite tokens_plain; [f_equal; apply IH; [intros X; apply A; now right|intros X; apply L; now right]|intros ->; apply A; now left|intros ->; apply L; now left].
Qed.
Lemma tokens_ref name x s : In (name, x) references -> tokens (name ++ s) = Char x :: tokens s.
Proof.
  intros I. assert (forall f, List.length s <= f -> tokens_fuel f s = tokens s) as K by (intros; now apply tokens_at).
  unfold references in I. cbn [In] in I.
  assert (forall n y l, n = 38%N :: l -> List.find (fun r => prefix (fst r) (n ++ s)) references = Some (n, y) -> tokens (n ++ s) = Char y :: tokens s) as G.
  { intros n y l -> F. unfold tokens at 1. rewrite app_length. cbn [List.length Nat.add tokens_fuel app]. change (38 =? 60)%N with false. cbn iota. cbn [app] in F. rewrite F. f_equal.
    replace (skipn (List.length (38%N :: l)) (38%N :: l ++ s)) with s; [|cbn [List.length skipn]; symmetry; rewrite skipn_app, skipn_all, Nat.sub_diag; reflexivity]. apply K. lia. }
  destruct I as [I|[I|[I|[I|[I|[]]]]]]; injection I as <- <-; eapply G; reflexivity.
Qed.
Lemma tokens_esc c s : tokens (tesc c ++ s) = Char c :: tokens s.
Proof.
  unfold tesc. destruct (c =? 38)%N eqn:E1; [apply N.eqb_eq in E1; subst; apply tokens_ref; cbn; auto|]. destruct (c =? 60)%N eqn:E2; [apply N.eqb_eq in E2; subst; apply tokens_ref; cbn; auto|].
  destruct (c =? 62)%N eqn:E3; [apply N.eqb_eq in E3; subst; apply tokens_ref; cbn; auto|]. destruct (c =? 34)%N eqn:E4; [apply N.eqb_eq in E4; subst; apply tokens_ref; cbn; auto|].
  destruct (c =? 39)%N eqn:E5; [apply N.eqb_eq in E5; subst; apply tokens_ref; cbn; auto 6|]. cbn [app]. apply tokens_plain; lia.
Qed.
Lemma tokens_escs l s : tokens (flat_map tesc l ++ s) = chars l ++ tokens s.
Proof. induction l as [|c l IH]; [reflexivity|]. cbn [flat_map chars map app]. rewrite <- app_assoc, tokens_esc. f_equal. exact IH. Qed.

(** ** html.escape *)
Lemma flat_map_flat_map {A B C} (f : B -> list C) (g : A -> list B) l : flat_map f (flat_map g l) = flat_map (fun x => flat_map f (g x)) l.
Proof. induction l as [|x l IH]; [reflexivity|]. cbn [flat_map]. now rewrite flat_map_app, IH. Qed.
Lemma escape_text l : html_escape_text l = flat_map tesc l.
Proof.
  unfold html_escape_text, trepl. rewrite !flat_map_flat_map. apply flat_map_ext. intros c. unfold tesc.
  destruct (c =? 38)%N eqn:E1; [reflexivity|]. cbn [flat_map app]. destruct (c =? 60)%N eqn:E2; [reflexivity|]. cbn [flat_map app]. destruct (c =? 62)%N eqn:E3; [reflexivity|].
  cbn [flat_map app]. destruct (c =? 34)%N eqn:E4; [reflexivity|]. cbn [flat_map app]. now destruct (c =? 39)%N.
Qed.
(** The branch for bytes leaves the apostrophe. *)
Definition tesc4 (c : N) : list N := if (c =? 39)%N then [c] else tesc c.
Lemma tokens_esc4 c s : tokens (tesc4 c ++ s) = Char c :: tokens s.
Proof. unfold tesc4. destruct (c =? 39)%N eqn:E; [|apply tokens_esc]. cbn [app]. apply tokens_plain; lia. Qed.
Lemma tokens_escs4 l s : tokens (flat_map tesc4 l ++ s) = chars l ++ tokens s.
Proof. induction l as [|c l IH]; [reflexivity|]. cbn [flat_map chars map app]. rewrite <- app_assoc, tokens_esc4. f_equal. exact IH. Qed.
Lemma escape_bytes l : letters (html_escape l) = flat_map tesc4 (letters l).
Proof.
  induction l as [|c l IH]; [reflexivity|]. rewrite escape_cons. unfold letters in *. rewrite map_app, IH. cbn [map flat_map]. f_equal.
  destruct c as [[] [] [] [] [] [] [] []]; reflexivity.
Qed.

(** ** Pages *)
Lemma letters_app a b : letters (a ++ b) = letters a ++ letters b.
Proof. apply map_app. Qed.
Fixpoint items (lines : list (list N)) : list token := match lines with [] => [] | l :: r => tag (bs "li") :: chars l ++ tag (bs "/li") :: items r end.
Lemma debug_items lines s : lines <> [] ->
  tokens (letters (bs "<li>") ++ tjoin (letters (bs "</li><li>")) (map html_escape_text lines) ++ letters (bs "</li>") ++ s) = items lines ++ tokens s.
Proof.
  assert (forall s, tokens (letters (bs "<li>") ++ s) = tag (bs "li") :: tokens s) as T1 by (intros z; apply (tokens_tag (letters (bs "li")) z); cbn; intuition discriminate).
  assert (forall s, tokens (letters (bs "</li>") ++ s) = tag (bs "/li") :: tokens s) as T2 by (intros z; apply (tokens_tag (letters (bs "/li")) z); cbn; intuition discriminate).
  induction lines as [|l lines IH]; intros N; [easy|]. destruct lines as [|l2 lines].
  - cbn [map tjoin items]. rewrite T1, escape_text, tokens_escs, T2. cbn [app]. f_equal. now rewrite <- app_assoc.
  - change (map html_escape_text (l :: l2 :: lines)) with (html_escape_text l :: map html_escape_text (l2 :: lines)).
    change (tjoin (letters (bs "</li><li>")) (html_escape_text l :: map html_escape_text (l2 :: lines))) with (html_escape_text l ++ letters (bs "</li><li>") ++ tjoin (letters (bs "</li><li>")) (map html_escape_text (l2 :: lines))).
    cbn [items]. rewrite T1. cbn [app]. f_equal. rewrite <- !app_assoc, escape_text, tokens_escs. cbn [app]. f_equal.
    change (letters (bs "</li><li>") ++ ?X) with ((letters (bs "</li>") ++ letters (bs "<li>")) ++ X). rewrite <- app_assoc, T2. cbn [app]. f_equal. apply IH. discriminate.
Qed.
Lemma debug_page lines x : lines <> [] -> exists p, page_500 true lines x = Some p /\ tokens p = tag (bs "ul") :: items lines ++ [tag (bs "/ul")].
Proof.
  intros N. eexists. split; [reflexivity|]. change (text (bs "<ul><li>")) with (letters (bs "<ul>") ++ letters (bs "<li>")). change (text (bs "</li><li>")) with (letters (bs "</li><li>")).
  change (text (bs "</li></ul>")) with (letters (bs "</li>") ++ letters (bs "</ul>")). rewrite <- app_assoc.
  assert (forall s, tokens (letters (bs "<ul>") ++ s) = tag (bs "ul") :: tokens s) as -> by (intros z; apply (tokens_tag (letters (bs "ul")) z); cbn; intuition discriminate).
  f_equal. rewrite debug_items; [|assumption]. f_equal.
Qed.
Lemma page_404_tokens path server : bare_text (letters server) ->
  tokens (letters (concat (page_404 path server))) =
  tokens (letters (nth 0 (page_404 [] []) [])) ++ [tag (bs "p")] ++ chars (letters (bs "Unable to find handler for ") ++ letters path ++ letters (bs ".")) ++
  [tag (bs "/p"); tag (bs "hr /"); tag (bs "address title=""Powered by Tremolo""")] ++ chars (letters server) ++ [tag (bs "/address"); tag (bs "/body"); tag (bs "/html")].
Proof.
  intros B. unfold page_404. cbn [concat nth]. set (y0 := _ ++ _ ++ _ ++ _ ++ _ ++ _). rewrite app_nil_r, !letters_app, escape_bytes, <- !app_assoc.
  assert (forall s, tokens (letters y0 ++ s) = tokens (letters y0) ++ tokens s) as E0.
  { intros s. unfold y0. rewrite !letters_app, <- !app_assoc.
    assert (forall n s, (match n with 60%N :: n' => forallb (fun c => negb (c =? 62)%N) n' | _ => false end) = true -> tokens (n ++ 62%N :: s) = match n with c :: n' => Tag n' | [] => Unclosed end :: tokens s) as T.
    { intros n z Hn. destruct n as [|c n]; [discriminate|]. destruct (N.eq_dec c 60) as [->|Nc]; [|exfalso; destruct c as [|[p|p|]]; try discriminate; do 5 (destruct p as [p|p|]; try discriminate); now apply Nc].
      cbn [app]. apply tokens_tag. intros I. rewrite forallb_forall in Hn. specialize (Hn _ I). discriminate. }
    assert (forall a b s, (forall z, tokens (a ++ z) = tokens a ++ tokens z) -> (forall z, tokens (b ++ z) = tokens b ++ tokens z) -> tokens ((a ++ b) ++ s) = tokens (a ++ b) ++ tokens s) as C by (intros a b z Ha Hb; now rewrite <- app_assoc, Ha, Hb, Ha, <- app_assoc).
    assert (forall n s, (match n with 60%N :: n' => forallb (fun c => negb (c =? 62)%N) n' | _ => false end) = true -> tokens ((n ++ [62%N]) ++ s) = tokens (n ++ [62%N]) ++ tokens s) as T'.
    { intros n z Hn. rewrite <- app_assoc. cbn [app]. rewrite (T n z Hn), (T n [] Hn). reflexivity. }
    assert (forall l s, forallb (fun c => negb (c =? 38)%N && negb (c =? 60)%N) l = true -> tokens (l ++ s) = tokens l ++ tokens s) as P.
    { intros l z Hl. assert (bare_text l) as Bl by (split; intros I; rewrite forallb_forall in Hl; specialize (Hl _ I); discriminate).
      rewrite (tokens_bare l z Bl). f_equal. rewrite <- (app_nil_r l) at 2. rewrite (tokens_bare l [] Bl). now rewrite app_nil_r. }
    set (pieces := [letters (bs "<!DOCTYPE html") ++ [62%N]; letters (bs "<html lang=""en""") ++ [62%N]; letters (bs "<head") ++ [62%N];
      letters (bs "<meta name=""viewport"" content=""width=device-width, initial-scale=1.0"" /") ++ [62%N]; letters (bs "<title") ++ [62%N]; letters (bs "404 Not Found"); letters (bs "</title") ++ [62%N];
      letters (bs "<style") ++ [62%N]; letters (bs "body { max-width: 600px; margin: 0 auto; padding: 1%; font-family: sans-serif; line-height: 1.5em; }"); letters (bs "</style") ++ [62%N];
      letters (bs "</head") ++ [62%N]; letters (bs "<body") ++ [62%N]; letters (bs "<h1") ++ [62%N]; letters (bs "Not Found"); letters (bs "</h1") ++ [62%N]]).
    assert (Forall (fun p => forall z, tokens (p ++ z) = tokens p ++ tokens z) pieces) as F.
    { repeat (constructor; [intros z; first [apply T'; reflexivity|apply P; reflexivity]|]). constructor. }
    assert (forall z, tokens (concat pieces ++ z) = tokens (concat pieces) ++ tokens z) as G.
    { clear -F C. clearbody pieces. induction F as [|p ps Hp _ IH]; [reflexivity|]. intros z. cbn [concat]. now apply C. }
    exact (G s). }
  rewrite E0. f_equal.
  assert (forall n s, ~ In 62%N n -> tokens (60%N :: n ++ 62%N :: s) = Tag n :: tokens s) as T by (intros; now apply tokens_tag).
  change (letters (bs "<p>Unable to find handler for ")) with (letters (bs "<p>") ++ letters (bs "Unable to find handler for ")).
  rewrite <- app_assoc. change (letters (bs "<p>") ++ ?X) with (60%N :: letters (bs "p") ++ 62%N :: X); rewrite (T (letters (bs "p"))); [|cbn; intuition discriminate]. cbn [app]. f_equal.
  rewrite tokens_bare; [|split; vm_compute; intuition discriminate]. rewrite tokens_escs4. unfold chars. rewrite !map_app, <- !app_assoc. f_equal. f_equal.
  change (letters (bs ".</p><hr />")) with (letters (bs ".") ++ letters (bs "</p>") ++ letters (bs "<hr />")). rewrite <- !app_assoc.
  rewrite tokens_bare; [|split; vm_compute; intuition discriminate]. unfold chars. f_equal.
  change (letters (bs "</p>") ++ ?X) with (60%N :: letters (bs "/p") ++ 62%N :: X); rewrite (T (letters (bs "/p"))); [|cbn; intuition discriminate]. cbn [app]. f_equal. change (letters (bs "<hr />") ++ ?X) with (60%N :: letters (bs "hr /") ++ 62%N :: X); rewrite (T (letters (bs "hr /"))); [|cbn; intuition discriminate]. f_equal.
  change (letters (bs "<address title=""Powered by Tremolo"">") ++ ?X) with (60%N :: letters (bs "address title=""Powered by Tremolo""") ++ 62%N :: X); rewrite (T (letters (bs "address title=""Powered by Tremolo"""))); [|vm_compute; intuition discriminate]. f_equal.
  rewrite tokens_bare; [|assumption]. unfold chars. f_equal.
Qed.


(** ** Charsets *)
Lemma lstrip_stops p l : match l with c :: _ => p c = false | [] => True end -> lstrip_by p l = l.
Proof. destruct l as [|c l]; [reflexivity|]. intros H. cbn [lstrip_by]. now rewrite H. Qed.
Lemma strip_none p l : (forall c, In c l -> p c = false) -> strip_by p l = l.
Proof.
  intros H. unfold strip_by, rstrip_by. rewrite (lstrip_stops p l); [|destruct l; [easy|apply H; now left]]. rewrite lstrip_stops; [apply rev_involutive|].
  destruct (rev l) as [|c r] eqn:E; [easy|]. apply H. rewrite in_rev, E. now left.
Qed.
Lemma lstrip_all p a b : (forall c, In c a -> p c = true) -> lstrip_by p (a ++ b) = lstrip_by p b.
Proof. induction a as [|c a IH]; intros H; [reflexivity|]. cbn [app lstrip_by]. rewrite H; [|now left]. apply IH. intros x I. apply H. now right. Qed.
Lemma lstrip_in p l c : In c (lstrip_by p l) -> In c l.
Proof. induction l as [|x l IH]; [easy|]. cbn [lstrip_by]. destruct (p x); [intros I; right; auto|easy]. Qed.
Lemma not_charset v : ~ In "="%char v -> startswith (bs "charset=") (lstrip_by str_space v) = false.
Proof.
  intros N. destruct (startswith _ _) eqn:E; [|reflexivity]. apply startswith_spec in E as (r & E). exfalso. apply N. apply (lstrip_in str_space). rewrite E. apply in_or_app. left. cbn. tauto.
Qed.
Lemma charset_declared ct cs : declares ct cs -> charset_of ct = cs.
Proof.
  intros (media & bl & -> & Ns & Ne & Hb & Nn & Hc). unfold charset_of. change (bs ";") with [";"%char].
  assert (media ++ [";"%char] ++ bl ++ bs "charset=" ++ cs = join [";"%char] [media; bl ++ bs "charset=" ++ cs]) as -> by (cbn [join]; reflexivity).
  rewrite split_max_join.
  - cbn [charset_in]. rewrite (not_charset media Ne). rewrite lstrip_all; [|intros c I; apply Hb in I; now subst]. rewrite (lstrip_stops _ (bs "charset=" ++ cs)); [|reflexivity].
    replace (startswith (bs "charset=") (bs "charset=" ++ cs)) with true by (symmetry; apply startswith_spec; now exists cs).
    change (skipn 8 (bs "charset=" ++ cs)) with cs. rewrite strip_none; [|intros c I; destruct (Hc c I) as [R _]; unfold str_space; lia]. destruct cs; [easy|]. reflexivity.
  - repeat constructor; [assumption|]. intros I. apply in_app_or in I as [I|I]; [apply Hb in I; discriminate|]. apply in_app_or in I as [I|I]; [cbn in I; intuition discriminate|]. now apply Hc in I.
  - discriminate.
  - cbn. lia.
Qed.
Lemma charset_bare ct : bare ct -> charset_of ct = bs "utf-8".
Proof.
  intros [Ns Ne]. unfold charset_of. change (bs ";") with [";"%char]. change ct with (join [";"%char] [ct]). rewrite split_max_join; [|now repeat constructor|discriminate|cbn; lia]. cbn [charset_in]. now rewrite (not_charset ct Ne).
Qed.

(** ** Responses *)
Lemma raised_main encode tb e debug r s t0 b :
  one_line (e_date e) -> one_line (e_server e) -> headers_sent s = false -> r_buf s = [] -> str_raised r = Some t0 ->
  one_line (x_message (http_exc r)) -> one_line (x_ctype (http_exc r)) -> default_500 encode tb debug r = EData b ->
  let '(p, s') := handle_raised encode tb e debug r s in
  p = Finished /\ r_keep s' = false /\ r_buf s' = [] /\ r_out s' = r_out s ++ [Some (head_of (error_lines e (x_code (http_exc r)) (x_message (http_exc r)) (x_ctype (http_exc r)) (blen b)) ++
                               (if is_head e || no_content (x_code (http_exc r)) then [] else b)); None].
Proof.
  intros D Sv Hs B St Om Oc De. unfold handle_raised. rewrite Hs, St. cbn [andb].
  set (x := http_exc r) in *. assert (expected (as_exc r) = Some (x_code x, x_message x, x_ctype x)) as Ex by (unfold x; destruct r; reflexivity).
  pose proof (error_main e (fun _ s0 => (default_500 encode tb debug r, s0)) (as_exc r) s (x_code x) (x_message x) (x_ctype x) (EData b) (mkRsp (Some []) (r_chunked s) ((x_code x, x_message x) :: r_status s) (x_ctype x :: r_ctype s) [] (r_out s) (r_keep s) (r_up s))) as M.
  specialize (M D Sv Hs B Ex Om Oc). rewrite De in M |- *. specialize (M eq_refl ltac:(discriminate) eq_refl eq_refl eq_refl eq_refl). cbv zeta in M.
  destruct (handle_exception e _ (as_exc r) s) as [p s']. cbn [r_out] in M. tauto.
Qed.
