(** C39, C42, C56: escaping, the keep-alive registry, the command line. *)
From Verif Require Import PyBytes PyBytesFacts PyInt PyExn M_Utils S_Utils P_Utils.

(** C39. *)
Theorem c39_escape : forall data,
  (~ In "<"%char (html_escape data) /\ ~ In ">"%char (html_escape data) /\ ~ In """"%char (html_escape data)) /\
  (forall a r, html_escape data = a ++ "&"%char :: r -> exists name c, In (name, c) entities /\ startswith name ("&"%char :: r) = true) /\
  unescape entities (html_escape data) = data.
Proof. exact escape_facts. Qed.
Print Assumptions c39_escape.
(** The same for text, where html.escape also replaces the apostrophe. *)
Theorem c39_escape_str : forall data,
  (~ In "<"%char (html_escape_str data) /\ ~ In ">"%char (html_escape_str data) /\ ~ In """"%char (html_escape_str data) /\ ~ In "'"%char (html_escape_str data)) /\
  (forall a r, html_escape_str data = a ++ "&"%char :: r -> exists name c, In (name, c) entities_str /\ startswith name ("&"%char :: r) = true) /\
  unescape entities_str (html_escape_str data) = data.
Proof. exact escape_str_facts. Qed.
Print Assumptions c39_escape_str.
Example c39_example :
  html_escape (bs "<a href=""x&amp;y"">") = bs "&lt;a href=&quot;x&amp;amp;y&quot;&gt;" /\
  unescape entities (bs "&lt;a href=&quot;x&amp;amp;y&quot;&gt;") = bs "<a href=""x&amp;y"">".
Proof. split; vm_compute; reflexivity. Qed.

(** C42. [there maxlen ops k]: connection [k] is in the registry after the operations [ops],
    from an empty one. *)
Definition there (maxlen : nat) (ops : list conn_op) (k : nat) : Prop := In k (map fst (conns_run maxlen ops)).
Theorem c42_bounded : forall maxlen, 1 <= maxlen -> forall ops, List.length (conns_run maxlen ops) <= maxlen /\ NoDup (map fst (conns_run maxlen ops)).
Proof. exact registry_bounded. Qed.
Print Assumptions c42_bounded.
(** A new connection is there afterwards. If there was room nothing else changes; otherwise
    exactly one other is dropped, and every other one was registered after it. *)
Theorem c42_add : forall maxlen, 1 <= maxlen -> forall ops k, ~ there maxlen ops k ->
  there maxlen (ops ++ [Add k]) k /\
  (List.length (conns_run maxlen ops) < maxlen -> forall x, there maxlen (ops ++ [Add k]) x <-> there maxlen ops x \/ x = k) /\
  (List.length (conns_run maxlen ops) = maxlen -> exists old t, there maxlen ops old /\ registered_at (there maxlen) ops old t /\
     (forall y ty, there maxlen ops y -> y <> old -> registered_at (there maxlen) ops y ty -> t < ty) /\
     forall x, there maxlen (ops ++ [Add k]) x <-> (there maxlen ops x /\ x <> old) \/ x = k).
Proof. exact add_new. Qed.
Print Assumptions c42_add.
(** Every connection that is there has a time of registration. *)
Theorem c42_registered : forall maxlen, 1 <= maxlen -> forall ops k, there maxlen ops k -> exists t, registered_at (there maxlen) ops k t.
Proof. exact registered. Qed.
Print Assumptions c42_registered.
Theorem c42_again : forall maxlen, 1 <= maxlen -> forall ops k, there maxlen ops k -> conns_run maxlen (ops ++ [Add k]) = conns_run maxlen ops.
Proof. exact add_present. Qed.
Print Assumptions c42_again.
Theorem c42_drop : forall maxlen, 1 <= maxlen -> forall ops k x, there maxlen (ops ++ [Drop k]) x <-> there maxlen ops x /\ x <> k.
Proof. exact drop_key. Qed.
Print Assumptions c42_drop.
(** With room for two: 1 registered, dropped and registered again, so 2 is the oldest. *)
Definition ops42 := [Add 1; Add 2; Add 1; Drop 1; Add 1].
Example c42_example :
  map fst (conns_run 2 ops42) = [2; 1] /\ ~ there 2 ops42 3 /\ registered_at (there 2) ops42 2 1 /\ registered_at (there 2) ops42 1 4 /\
  map fst (conns_run 2 (ops42 ++ [Add 3])) = [1; 3].
Proof.
  split; [reflexivity|]. split; [intros H; vm_compute in H; intuition discriminate|].
  split; [|split; [|reflexivity]].
  - exists [Add 1], [Add 1; Drop 1; Add 1]. repeat split; [intros H; vm_compute in H; intuition discriminate|].
    intros q1 q2 E. destruct q1 as [|a [|b [|c q1]]]; cbn in E; try (injection E as; subst); try (vm_compute; tauto).
    destruct q1; [vm_compute; tauto|discriminate].
  - exists [Add 1; Add 2; Add 1; Drop 1], []. repeat split; [intros H; vm_compute in H; intuition discriminate|].
    intros q1 q2 E. destruct q1; [vm_compute; tauto|discriminate].
Qed.

(** C56. [xs] are the settings on the command line, [words] how each is written. *)
Theorem c56_parse_args : forall cb prog xs app, no_dash prog -> no_dash app -> Forall setting_ok xs ->
  exists o, parse_args cb (prog :: flat_map words xs ++ [app]) = Some o /\
    (forall k, dget beqb k (o_opts o) = last_of (says k) xs (default_option k)) /\
    (forall k, dget beqb k (o_ssl o) = last_of (says_ssl k) xs None).
Proof. exact parse_args_result. Qed.
Print Assumptions c56_parse_args.
(** An option that is none of these and has no callback ends the program. *)
Theorem c56_unknown : forall cb prog xs opt rest, no_dash prog -> Forall setting_ok xs -> startswith (bs "-") opt = true ->
  ~ In opt (bs "--no-ws" :: bs "--ssl-cert" :: bs "--ssl-key" :: map fst flags ++ map fst textual ++ map fst numeric) ->
  cb (opt_name opt) = None -> rest <> [] -> no_dash (last rest []) ->
  parse_args cb (prog :: flat_map words xs ++ opt :: rest) = None.
Proof. exact parse_args_unknown. Qed.
Print Assumptions c56_unknown.
Definition xs56 := [Number (bs "--port") (bs "port") (bs "80") 80; Flag (bs "--debug") (bs "debug"); NoWs; Text (bs "--host") (bs "host") (bs "::");
  Cert (bs "c.pem"); Number (bs "--port") (bs "port") (bs "81") 81].
Example c56_example :
  Forall setting_ok xs56 /\ last_of (says (bs "port")) xs56 (default_option (bs "port")) = Some (OInt 81) /\
  parse_args (fun _ => None) (bs "tremolo" :: flat_map words xs56 ++ [bs "app:app"]) =
  Some (mkOpts [(bs "host", OStr (bs "::")); (bs "port", OInt 81); (bs "debug", OBool true); (bs "ws", OBool false)] [(bs "cert", bs "c.pem")]).
Proof.
  split; [|split; vm_compute; reflexivity]. unfold xs56. repeat apply Forall_cons; try apply Forall_nil; cbn [setting_ok no_dash];
    repeat split; try discriminate; try (vm_compute; reflexivity); cbn; tauto.
Qed.
