From Verif Require Import PyBytes PyBytesFacts PyDictFacts PyInt PyExn M_Response M_Server S_Response S_Server P_Response2 P_Response6.
Definition error_lines (e : renv) (code : Z) (message ctype : bytes) (n : Z) : list bytes :=
  [bs "HTTP/" ++ version e ++ bs " " ++ fmt_d code ++ bs " " ++ message; bs "Content-Type: " ++ ctype; bs "Content-Length: " ++ fmt_d n; bs "Connection: close";
   bs "Date: " ++ e_date e; bs "Server: " ++ e_server e].

Lemma end_empty e data s st sts ct cts : one_line (e_date e) -> one_line (e_server e) -> r_headers s = Some [] -> r_buf s = [] -> r_status s = st :: sts -> r_ctype s = ct :: cts ->
  end_ e data false None s = (Ok tt, mkRsp None (r_chunked s) sts cts [] (r_out s ++ [Some (head_of (error_lines e (fst st) (snd st) ct (blen data)) ++ (if is_head e || no_content (fst st) then [] else data)); None]) false (r_up s)).
Proof.
  intros D Sv H B Es Ec. destruct s as [h ch sl cl b out kp up]. cbn [r_headers r_buf r_status r_ctype r_out r_chunked r_up] in *. subst.
  set (s := mkRsp _ _ _ _ _ _ _ _). set (dd := [(bs "date", [header_line (bs "Date") (e_date e)]); (bs "server", [header_line (bs "Server") (e_server e)])]).
  set (s1 := mkRsp (Some dd) ch (st :: sts) (ct :: cts) [] out kp up). set (s2 := mkRsp (Some dd) ch sts (ct :: cts) [] out kp up). set (s3 := mkRsp (Some dd) ch sts cts [] out kp up).
  assert (set_base_header e s = (Ok tt, s1)) as E1.
  { unfold set_base_header, s. cbn [r_headers]. unfold set_header. assert (memb LF (e_date e) = false) as -> by now apply memb_notIn. assert (memb LF (e_server e) = false) as -> by now apply memb_notIn. reflexivity. }
  assert (get_status s1 = (Ok st, s2)) as E2 by reflexivity. assert (get_content_type s2 = (Ok ct, s3)) as E3 by reflexivity. assert (get_headers s3 = (Ok dd, s3)) as E4 by reflexivity.
  unfold end_. match goal with |- context [seq ?m ?k s] => set (m0 := m); set (k0 := k) end.
  set (body := if is_head e || no_content (fst st) then [] else data).
  assert ((if (0 <? blen data)%Z && (is_head e || no_content (fst st)) then [] else data) = body) as Eb.
  { unfold body. destruct data as [|c data]; [now destruct (_ && _), (_ || _)|]. now replace (0 <? blen (c :: data))%Z with true by (symmetry; apply Z.ltb_lt; unfold blen; cbn [List.length]; lia). }
  assert (filter (fun kv : bytes * list bytes => negb (excluded (fst kv))) dd = dd) as Ef by reflexivity.
  assert (exists X, m0 s = (Ok tt, mkRsp None ch sts cts [] (out ++ [Some X]) kp up) /\ X = head_of (error_lines e (fst st) (snd st) ct (blen data)) ++ body) as (X & E5 & EX).
  { unfold m0. change (headers_sent s) with false. cbn iota. rewrite (seq_ok _ _ _ _ _ E1), (seq_ok _ _ _ _ _ E2). cbv zeta. rewrite (seq_ok _ _ _ _ _ E3), (seq_ok _ _ _ _ _ E4), Eb, Ef. eexists. split; [reflexivity|].
    unfold dd. cbn [map snd]. unfold error_lines, head_of, header_line. cbn [map concat]. unfold join_lines. cbn [map join andb]. rewrite <- !app_assoc. reflexivity. }
  rewrite (seq_ok _ _ _ _ _ E5), EX. unfold k0, close, update, flush_close. cbn [with_keep r_buf app with_out r_headers r_chunked r_status r_ctype r_out r_keep r_up]. rewrite <- app_assoc. reflexivity.
Qed.

Definition expected (x : exc) : option (Z * bytes * bytes) :=
  match x with
  | XHttp c m t => Some (c, m, t)
  | XTimeout => Some (408%Z, bs "Request Timeout", bs "text/html; charset=utf-8")
  | XOther => Some (500%Z, bs "Internal Server Error", bs "text/html; charset=utf-8")
  | _ => None
  end.
Lemma error_main e on_500 x s c m t d s2 : one_line (e_date e) -> one_line (e_server e) -> headers_sent s = false -> r_buf s = [] -> expected x = Some (c, m, t) -> one_line m -> one_line t ->
  on_500 (XHttp c m t) (mkRsp (Some []) (r_chunked s) ((c, m) :: r_status s) (t :: r_ctype s) [] (r_out s) (r_keep s) (r_up s)) = (d, s2) ->
  d <> EUnencodable -> r_headers s2 = Some [] -> r_buf s2 = [] -> r_status s2 = (c, m) :: r_status s -> r_ctype s2 = t :: r_ctype s ->
  let data := match d with EData b => b | _ => [] end in
  let '(p, s') := handle_exception e on_500 x s in
  p = match d with ERaised y => Escaped y | _ => Finished end /\
  r_out s' = r_out s2 ++ [Some (head_of (error_lines e c m t (blen data)) ++ (if is_head e || no_content c then [] else data)); None] /\ r_keep s' = false /\ headers_sent s' = true /\ r_buf s' = [].
Proof.
  intros D Sv Hs B Ex Om Ot E5 Nu H2 B2 S2 C2 data. unfold handle_exception. rewrite Hs. cbn [andb].
  assert (http_of x = XHttp c m t) as Hh by (destruct x; cbn in *; congruence). assert (headers_sent s = false -> exists h, r_headers s = Some h) as K by (unfold headers_sent; destruct (r_headers s); [eauto|discriminate]). destruct (K Hs) as [h Hh0]. clear K.
  assert ((put_headers [] ;; set_status c m ;; set_content_type t) s = (Ok tt, mkRsp (Some []) (r_chunked s) ((c, m) :: r_status s) (t :: r_ctype s) [] (r_out s) (r_keep s) (r_up s))) as E1.
  { unfold put_headers, update, seq, set_status, set_content_type. assert (memb LF m = false) as -> by now apply memb_notIn. assert (memb LF t = false) as -> by now apply memb_notIn. destruct s. cbn in *. now subst. }
  assert (end_ e data false None s2 = (Ok tt, mkRsp None (r_chunked s2) (r_status s) (r_ctype s) [] (r_out s2 ++ [Some (head_of (error_lines e c m t (blen data)) ++ (if is_head e || no_content c then [] else data)); None]) false (r_up s2))) as E2.
  { apply (end_empty e data s2 (c, m) (r_status s) t (r_ctype s)); assumption. }
  destruct x; cbn [expected] in Ex; try discriminate; rewrite Hh, E1, E5; destruct d; try easy; unfold data in E2 |- *; rewrite E2; cbn [r_out r_keep headers_sent r_headers r_buf]; auto.
Qed.
Lemma error_sent e on_500 x s : headers_sent s = true -> r_up s = false -> handle_exception e on_500 x s = (Aborted, s).
Proof. intros H U. unfold handle_exception. now rewrite H, U. Qed.
Lemma on_wire_closed a w more : ~ In None a -> on_wire false (a ++ [Some w; None] ++ more) = concat (map (fun x => match x with Some b => b | None => [] end) a) ++ w.
Proof.
  intros N. induction a as [|[b|] a IH]; [cbn; now rewrite app_nil_r|change (on_wire false ((Some b :: a) ++ [Some w; None] ++ more)) with (b ++ on_wire false (a ++ [Some w; None] ++ more)); cbn [map concat]; rewrite IH, app_assoc; [reflexivity|intros I; apply N; now right]|exfalso; apply N; now left].
Qed.
Lemma lines_ok e c m t n : one_line (e_date e) -> one_line (e_server e) -> one_line m -> one_line t -> Forall (fun l => l <> [] /\ one_line l) (error_lines e c m t n).
Proof.
  intros D Sv Om Ot. unfold error_lines, version. assert (forall a b, one_line a -> one_line b -> one_line (a ++ b)) as K by (unfold one_line; intros a b A B I; apply in_app_or in I as [I|I]; auto).
  assert (forall z, one_line (fmt_d z)) as Kd by (intros z; apply one_line_fmt_d).
  repeat (constructor; [split; [discriminate|repeat apply K; try assumption; try apply Kd; try (apply memb_notIn; reflexivity); destruct (e_11 e); apply memb_notIn; reflexivity]|]). constructor.
Qed.
