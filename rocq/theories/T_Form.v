(** Query strings, forms and cookies: C37, C38. *)
From Verif Require Import PyBytes PyInt PyExn PyUtf8 PyUrl PyQs M_Response S_Response S_Calls M_Form S_Form S_Cookie P_Form P_Cookie.

(** ** C37: cookie values round-trip *)

(** set_cookie() adds one header line, whatever the value, path, domain and samesite are... *)
Theorem c37_one_line e name value date expires path domain samesite secure httponly s :
  headers_sent s = false -> one_line name -> one_line date ->
  let h := HCookie name value date expires path domain samesite secure httponly in
  let s' := snd (do_hop e h s) in
  fst (do_hop e h s) = Ok tt /\
  now_at (bs "Set-Cookie") s' = now_at (bs "Set-Cookie") s ++ [bs "Set-Cookie: " ++ cookie_text name value date expires path domain samesite secure httponly] /\
  one_line (cookie_text name value date expires path domain samesite secure httponly) /\
  (forall k, k <> bs "set-cookie" -> lines_at k s' = lines_at k s).
Proof. exact (cookie_added_one e name value date expires path domain samesite secure httponly s). Qed.
Print Assumptions c37_one_line.
(** ...in which a user agent reads the name, the quoted value and no attributes but the given. *)
Theorem c37_attributes name value date expires path domain samesite secure httponly :
  cookie_name name -> ~ In ";"%char date -> trim date = date ->
  user_agent (cookie_text name value date expires path domain samesite secure httponly) =
  Some (mkCookie name (quote value)
    ([(bs "expires", date); (bs "max-age", fmt_d expires); (bs "path", quote path)]
     ++ opt_attr (bs "domain") domain ++ opt_attr (bs "samesite") samesite ++ opt_flag (bs "secure") secure ++ opt_flag (bs "httponly") httponly)).
Proof. exact (cookie_reads' name value date expires path domain samesite secure httponly). Qed.
Print Assumptions c37_attributes.
(** The cookie, sent back among others, is reported by request.cookies, unless its value is
    empty. *)
Theorem c37_round_trip_partial t b name date expires path domain samesite secure httponly before after pb pa :
  utf8_encode t = Some b -> cookie_name name -> ~ In ";"%char date -> trim date = date ->
  written (bs ";&") before pb -> written (bs ";&") after pa -> List.length before + List.length after < 100 ->
  exists ck d, user_agent (cookie_text name b date expires path domain samesite secure httponly) = Some ck /\
    fst (cookies [cookie_header (before ++ (ck_name ck, ck_value ck) :: after)] no_params) = Ok d /\
    groups (nonblank (pb ++ (map N_of_ascii name, t) :: pa)) d.
Proof. exact (round_trip t b name date expires path domain samesite secure httponly before after pb pa). Qed.
Print Assumptions c37_round_trip_partial.
(** If the others have other names, the value is the only one. *)
Theorem c37_alone_partial t b name date expires path domain samesite secure httponly before after pb pa :
  utf8_encode t = Some b -> t <> [] -> cookie_name name -> ~ In ";"%char date -> trim date = date ->
  written (bs ";&") before pb -> written (bs ";&") after pa -> List.length before + List.length after < 100 ->
  ~ In (map N_of_ascii name) (map fst (pb ++ pa)) ->
  exists ck d, user_agent (cookie_text name b date expires path domain samesite secure httponly) = Some ck /\
    fst (cookies [cookie_header (before ++ (ck_name ck, ck_value ck) :: after)] no_params) = Ok d /\
    forall l, In (map N_of_ascii name, l) d <-> l = [t].
Proof. exact (round_trip_alone t b name date expires path domain samesite secure httponly before after pb pa). Qed.
Print Assumptions c37_alone_partial.
(** An empty value is not reported. *)
Theorem c37_empty_refuted : exists name ck,
  cookie_name name /\ user_agent (cookie_text name [] (bs "Thu, 01 Jan 2026 00:00:00 GMT") 60 (bs "/") [] [] false false) = Some ck /\
  fst (cookies [cookie_header [(ck_name ck, ck_value ck)]] no_params) = Ok [].
Proof.
  exists (bs "sid"). eexists. split; [|split; vm_compute; reflexivity]. split; [discriminate|]. split; [repeat constructor; vm_compute; discriminate|].
  intros c I. cbn in I. intuition (subst; cbn in *; intuition discriminate).
Qed.
Print Assumptions c37_empty_refuted.
(** A + in the name is reported as a space: the name is not quoted. *)
Theorem c37_name_refuted : exists name ck,
  user_agent (cookie_text name (bs "v") (bs "Thu, 01 Jan 2026 00:00:00 GMT") 60 (bs "/") [] [] false false) = Some ck /\
  ck_name ck = name /\ name = bs "a+b" /\
  fst (cookies [cookie_header [(ck_name ck, ck_value ck)]] no_params) = Ok [(map N_of_ascii (bs "a b"), [map N_of_ascii (bs "v")])].
Proof. exists (bs "a+b"). eexists. split; [vm_compute; reflexivity|]. repeat split; vm_compute; reflexivity. Qed.
Print Assumptions c37_name_refuted.
(** A value with everything in it, next to another cookie. *)
Example c37_example : let t := map N_of_ascii (bs "a b; path=/x" ++ [CR; LF] ++ bs "X: +%&=") ++ [0x20AC; 0x1F600]%N in
  exists b ck, utf8_encode t = Some b /\
  user_agent (cookie_text (bs "sid") b (bs "Thu, 01 Jan 2026 00:00:00 GMT") 60 (bs "/") [] (bs "Lax; secure") true false) = Some ck /\
  map fst (ck_attrs ck) = [bs "expires"; bs "max-age"; bs "path"; bs "samesite"; bs "secure"] /\
  fst (cookies [cookie_header [(bs "other", bs "x"); (ck_name ck, ck_value ck)]] no_params) =
  Ok [(map N_of_ascii (bs "other"), [map N_of_ascii (bs "x")]); (map N_of_ascii (bs "sid"), [t])].
Proof. cbn zeta. eexists. eexists. split; [vm_compute; reflexivity|]. split; [vm_compute; reflexivity|]. split; vm_compute; reflexivity. Qed.

(** ** C38: query and form decoding *)

(** request.query: the fields joined with &, written in any way. *)
Theorem c38_query fs pairs : written (bs "&") fs pairs ->
  (List.length fs <= 100 -> exists d p', query (join (bs "&") (map field_text fs)) no_params = (Ok d, p') /\ groups (nonblank pairs) d /\
     query (join (bs "&") (map field_text fs)) p' = (Ok d, p')) /\
  (100 < List.length fs -> fst (query (join (bs "&") (map field_text fs)) no_params) = Raise ValueError).
Proof. exact (query_all fs pairs). Qed.
Print Assumptions c38_query.
(** Every query string, decodable or not, is accepted if it has at most 100 fields. *)
Theorem c38_limit q : q <> [] ->
  (fst (query q no_params) = Raise ValueError <-> 100 < 1 + count_occ Ascii.ascii_dec q "&"%char) /\
  (fst (query q no_params) <> Raise ValueError -> exists d, fst (query q no_params) = Ok d).
Proof. exact (query_limit q). Qed.
Print Assumptions c38_limit.
(** request.cookies, with any number of Cookie headers; 100 cookies for each. *)
Theorem c38_cookies fss pss : fss <> [] -> Forall (fun fs => fs <> []) fss -> Forall2 (written (bs ";&")) fss pss ->
  (List.length (concat fss) <= 100 * List.length fss ->
     exists d, fst (cookies (map cookie_header fss) no_params) = Ok d /\ groups (nonblank (concat pss)) d) /\
  (100 * List.length fss < List.length (concat fss) -> fst (cookies (map cookie_header fss) no_params) = Raise ValueError).
Proof. exact (cookies_all fss pss). Qed.
Print Assumptions c38_cookies.
(** request.form(), of bodies of more than two bytes, however they arrive. *)
Theorem c38_form_partial ctype limit m pieces total fs pairs :
  contains (bs "application/x-www-form-urlencoded") (lower ctype) = true -> written (bs "&") fs pairs -> fs <> [] ->
  concat (map fst pieces) = join (bs "&") (map field_text fs) ->
  Forall (fun p => (snd p <= limit)%Z) pieces -> (2 < total <= limit)%Z ->
  (List.length fs <= m -> exists d, fst (form ctype limit m [] pieces None total no_params) = Ok d /\ groups (nonblank pairs) d) /\
  (m < List.length fs -> fst (form ctype limit m [] pieces None total no_params) = Raise ValueError).
Proof. exact (form_all ctype limit m pieces total fs pairs). Qed.
Print Assumptions c38_form_partial.
(** A body of more than limit bytes is refused. *)
Theorem c38_form_limit ctype limit m body pieces fin total :
  contains (bs "application/x-www-form-urlencoded") (lower ctype) = true -> Exists (fun p => (limit < snd p)%Z) pieces ->
  fst (form ctype limit m body pieces fin total no_params) = Raise ValueError.
Proof. exact (form_big ctype limit m body pieces fin total). Qed.
Print Assumptions c38_form_limit.
(** =a is a field with an empty name, and it is lost. *)
Theorem c38_form_short_refuted : exists fs pairs pieces, written (bs "&") fs pairs /\ nonblank pairs <> [] /\
  pieces = [(join (bs "&") (map field_text fs), 2%Z)] /\
  fst (form (bs "application/x-www-form-urlencoded") 8388608 100 [] pieces None 2 no_params) = Ok [].
Proof.
  exists [([], bs "a")], [([], [97%N])]. eexists. split; [|split; [discriminate|split; [reflexivity|vm_compute; reflexivity]]].
  constructor; [|constructor]. cbn [fst snd]. split.
  - exists [], []. split; [reflexivity|]. split; [constructor|reflexivity].
  - exists (bs "a"), [bs "a"]. split; [reflexivity|]. split; [|reflexivity]. constructor; [|constructor]. left. split; [reflexivity|]. split; [reflexivity|]. cbn. intuition discriminate.
Qed.
Print Assumptions c38_form_short_refuted.
(** A query with too many fields raises once; after that it is an empty dict. *)
Theorem c38_second_refuted : exists q p', 100 < 1 + count_occ Ascii.ascii_dec q "&"%char /\
  query q no_params = (Raise ValueError, p') /\ fst (query q p') = Ok [].
Proof. exists (concat (repeat (bs "a=1&") 100)). eexists. split; [vm_compute; lia|]. split; vm_compute; reflexivity. Qed.
Print Assumptions c38_second_refuted.
Example c38_example : exists d, fst (query (bs "a=1&b=%E2%82%AC+x&a=2&c=&%61=%33&d") no_params) = Ok d /\
  d = [(map N_of_ascii (bs "a"), [map N_of_ascii (bs "1"); map N_of_ascii (bs "2"); map N_of_ascii (bs "3")]);
       (map N_of_ascii (bs "b"), [[0x20AC; 32; 120]%N])].
Proof. eexists. split; vm_compute; reflexivity. Qed.
Ltac hx := first [reflexivity|left; split; [split; discriminate|reflexivity]|right; left; split; [split; discriminate|reflexivity]|right; right; split; [split; discriminate|reflexivity]].
(** A list of fields as in c38_query. *)
Example c38_written : written (bs "&") [(bs "a", bs "1"); (bs "%E2%82%Ac", bs "x+%20y")] [([97%N], [49%N]); ([0x20AC%N], [120; 32; 32; 121]%N)].
Proof.
  assert (forall stop c, (N_of_ascii c < 128)%N -> memb c (bs "%+" ++ stop) = false -> enc_byte stop c [c]) as K.
  { intros stop c A B. left. split; [reflexivity|]. split; [exact A|]. now apply PyBytesFacts.memb_notIn. }
  assert (forall stop c a b x y, is_hex a x -> is_hex b y -> N_of_ascii c = (16 * x + y)%N -> enc_byte stop c ["%"%char; a; b]) as H.
  { intros stop c a b x y A B E. right. right. exists a, b, x, y. repeat split; assumption. }
  constructor; [|constructor; [|constructor]]; cbn [fst snd]; split.
  - exists (bs "a"), [bs "a"]. split; [reflexivity|]. split; [|reflexivity]. constructor; [now apply K|constructor].
  - exists (bs "1"), [bs "1"]. split; [reflexivity|]. split; [|reflexivity]. constructor; [now apply K|constructor].
  - eexists. exists [bs "%E2"; bs "%82"; bs "%Ac"]. split; [vm_compute; reflexivity|]. split; [|reflexivity].
    constructor; [apply (H _ _ _ _ 14%N 2%N); hx|]. constructor; [apply (H _ _ _ _ 8%N 2%N); hx|]. constructor; [apply (H _ _ _ _ 10%N 12%N); hx|constructor].
  - exists (bs "x  y"), [bs "x"; bs "+"; bs "%20"; bs "y"]. split; [reflexivity|]. split; [|reflexivity].
    constructor; [now apply K|]. constructor; [right; left; now split|]. constructor; [apply (H _ _ _ _ 2%N 0%N); hx|]. constructor; [now apply K|constructor].
Qed.
