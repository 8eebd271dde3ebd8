(** C82: dates.

    A time is a number of seconds since 1970, [in_ages]: before the year 10000. [read_date] is how a client reads an HTTP date (S_Date.v). The locale is
    that of the C library; the others are the subject of c82_locale_refuted. *)
From Verif Require Import PyBytes PyBytesFacts PyInt PyExn PyUrl PyTime M_Response S_Response S_Calls S_Chunked M_Sendfile S_Range S_Sendfile M_Date S_Cookie S_Date
  P_Response2 P_Sendfile P_Date T_Response T_Sendfile T_Form.
Local Open Scope Z_scope.

(** Date, Last-Modified and expires: 29 bytes in the format of HTTP, which are a date that exists with the right name of the day, and stand for the second
    that was meant; different seconds have different dates. *)
Theorem c82_date : forall t, in_ages t -> read_date (http_date c_locale t) = Some t.
Proof. exact reads_date. Qed.
Print Assumptions c82_date.
Theorem c82_distinct : forall t t', in_ages t -> in_ages t' -> (http_date c_locale t = http_date c_locale t' <-> t = t').
Proof. exact date_inj. Qed.
Print Assumptions c82_distinct.

(** A cookie: the browser finds an expires that is the time of the call plus the seconds that were asked for, and a max-age that says the same. *)
Theorem c82_cookie : forall now name value expires path domain samesite secure httponly,
  cookie_name name -> in_ages (now + expires) ->
  exists text ck d, set_cookie_at c_locale now name value expires path domain samesite secure httponly = Some text /\ user_agent text = Some ck /\
    attr (bs "expires") ck = Some d /\ read_date d = Some (now + expires) /\ attr (bs "max-age") ck = Some (fmt_d expires).
Proof.
  intros now name value expires path domain samesite secure httponly Hn Ht. unfold set_cookie_at, cookie_date. destruct (fields _ Ht) as (Y & _).
  rewrite (proj2 (Z.leb_le 1 _)), (proj2 (Z.leb_le _ 9999)) by lia. cbn [andb]. eexists. eexists. exists (http_date c_locale (now + expires)). split; [reflexivity|].
  split; [apply c37_attributes; [exact Hn|now apply date_plain|now apply date_trim]|]. split; [reflexivity|]. split; [now apply reads_date|reflexivity].
Qed.
Print Assumptions c82_cookie.

(** Revalidation. A client that got a file changed at the second [t0] asks again with If-Modified-Since and the Last-Modified it was given; by now the file was
    changed at [t1] and is [content]. It gets 304 and nothing else if the two are the same second; otherwise, also if the file became older, the whole
    file of now with its date. *)
Theorem c82_revalidate : forall e t0 t1 content file_size ctype boundary k pre keep stored,
  let f := file_at c_locale t1 content in let q := mkFReq [] [] [http_date c_locale t0] in
  in_ages t0 -> in_ages t1 -> size_ok f file_size -> 1 <= k_bufsize k -> ctype_ok ctype ->
  Forall appends_clean pre -> Forall name_ok pre -> Forall unreserved pre -> Forall unframed_call pre ->
  ~ bodyless (e_method e) (fst (the_status pre)) -> r_headers (start e pre keep) = Some stored -> stored <> [] ->
  exists s' lines, sendfile e q f file_size ctype boundary k (start e pre keep) = (Ok tt, s') /\
    if t0 =? t1
    then on_wire (r_keep s') (r_out s') = head_of (status_line e (304, bs "Not Modified") :: lines) /\
         Forall one_line (status_line e (304, bs "Not Modified") :: lines)
    else exists items d, r_out s' = Some (head_of (status_line e (the_status pre) :: lines)) :: map Some items ++ [None] /\
         Forall one_line (status_line e (the_status pre) :: lines) /\ full_lines ctype d (blen content) lines /\ read_date d = Some t1 /\
         concat items = content /\ r_keep s' = keep.
Proof.
  intros e t0 t1 content file_size ctype boundary k pre keep stored f q H0 H1 Hz Hk Hc P1 P2 P3 P4 Hb Hs Hn. destruct (Z.eqb_spec t0 t1) as [E|E].
  - destruct (c35_not_modified e q f file_size ctype boundary k pre keep stored) as (s' & lines & R & W & O); auto.
    + split; [now right|]. unfold q, f. cbn [f_ims fl_mdate file_at]. now rewrite E.
    + now exists s', lines.
  - destruct (c35_full e q f file_size ctype boundary k pre keep) as (s' & lines & items & R & A & B & C & D & K); auto.
    + intros (_ & U & _). now apply U.
    + intros (_ & U). unfold q, f in U. cbn [f_ims fl_mdate file_at] in U. injection U as U. now apply date_inj in U.
    + apply date_plain; [exact H1|reflexivity].
    + exists s', lines. split; [exact R|]. exists items, (fl_mdate f). repeat (split; [assumption|]). split; [now apply reads_date|]. now split.
Qed.
Print Assumptions c82_revalidate.

(** Resuming. A client that has a part of the file of [t0] asks for the rest with Range and If-Range. If the file was changed in another second it gets the
    whole file of now, never a part of it; otherwise Range counts as it does without If-Range (C34). *)
Theorem c82_resume : forall e t0 t1 range content file_size ctype boundary k pre keep,
  let f := file_at c_locale t1 content in let q := mkFReq range [http_date c_locale t0] [] in
  e_11 e = true -> range <> [] -> in_ages t0 -> in_ages t1 -> size_ok f file_size -> 1 <= k_bufsize k -> ctype_ok ctype ->
  Forall appends_clean pre -> Forall name_ok pre -> Forall unreserved pre -> Forall unframed_call pre ->
  ~ bodyless (e_method e) (fst (the_status pre)) ->
  if t0 =? t1 then uses_range e q f /\ sendfile e q f file_size ctype boundary k (start e pre keep) = sendfile e (mkFReq range [] []) f file_size ctype boundary k (start e pre keep)
  else exists s' lines items d, sendfile e q f file_size ctype boundary k (start e pre keep) = (Ok tt, s') /\
    r_out s' = Some (head_of (status_line e (the_status pre) :: lines)) :: map Some items ++ [None] /\
    Forall one_line (status_line e (the_status pre) :: lines) /\ full_lines ctype d (blen content) lines /\ read_date d = Some t1 /\
    concat items = content /\ r_keep s' = keep.
Proof.
  intros e t0 t1 range content file_size ctype boundary k pre keep f q He Hr H0 H1 Hz Hk Hc P1 P2 P3 P4 Hb. destruct (Z.eqb_spec t0 t1) as [E|E].
  - subst t1. split; [split; [exact He|]; split; [exact Hr|now right]|]. unfold sendfile, send_opened, q, f. cbn [f_range f_if_range f_ims fl_mdate file_at fl_bytes]. rewrite ?beqb_refl. reflexivity.
  - destruct (c35_full e q f file_size ctype boundary k pre keep) as (s' & lines & items & R & A & B & C & D & K); auto.
    + intros (_ & _ & [U|U]); [discriminate U|]. unfold q, f in U. cbn [f_if_range fl_mdate file_at] in U. injection U as U. now apply date_inj in U.
    + intros ([U|U] & _); [congruence|]. now apply Hr.
    + apply date_plain; [exact H1|reflexivity].
    + exists s', lines, items, (fl_mdate f). repeat (split; [assumption|]). split; [now apply reads_date|]. now split.
Qed.
Print Assumptions c82_resume.

(** The dates are not those of HTTP where the locale has other names (locale.setlocale): here for the German one. *)
Theorem c82_locale_refuted : forall t, read_date (http_date german t) = None.
Proof. exact german_unread. Qed.
Print Assumptions c82_locale_refuted.

(** Two changes within a second look the same: a client that has the first version is told, from then on, that it is the current one. Times in nanoseconds. *)
Theorem c82_second_refuted : exists n0 n1 old new s' lines, n0 < n1 /\ old <> new /\
  let second n := n / 1000000000 in
  fl_bytes (file_at c_locale (second n1) new) = new /\
  sendfile get11 (mkFReq [] [] [fl_mdate (file_at c_locale (second n0) old)]) (file_at c_locale (second n1) new) 0 plain34 (bs "b") kw34 (start get11 [HBase] true) = (Ok tt, s') /\
  on_wire (r_keep s') (r_out s') = head_of (status_line get11 (304, bs "Not Modified") :: lines).
Proof.
  exists 1000000001, 1900000000, (bs "old"), (bs "new").
  destruct (c35_not_modified get11 (mkFReq [] [] [fl_mdate (file_at c_locale 1 (bs "old"))]) (file_at c_locale 1 (bs "new")) 0 plain34 (bs "b") kw34 [HBase] true
    (match r_headers (start get11 [HBase] true) with Some s => s | None => [] end)) as (s' & lines & R & W & _); [split; [now right|reflexivity]|fall|fall|fall|vm_compute; reflexivity|vm_compute; discriminate|].
  exists s', lines. split; [lia|]. split; [discriminate|]. split; [reflexivity|]. split; [exact R|exact W].
Qed.
Print Assumptions c82_second_refuted.

(** A cookie set without expires is deleted by the browser at once: max-age is 0, not absent. *)
Theorem c82_cookie_refuted : forall now name value, cookie_name name -> in_ages now ->
  exists text ck, set_cookie_at c_locale now name value 0 (bs "/") [] [] false false = Some text /\ user_agent text = Some ck /\ attr (bs "max-age") ck = Some (bs "0").
Proof.
  intros now name value Hn Ht. destruct (c82_cookie now name value 0 (bs "/") [] [] false false Hn) as (text & ck & d & A & B & _ & _ & C); [now rewrite Z.add_0_r|]. now exists text, ck.
Qed.
Print Assumptions c82_cookie_refuted.

(** Dates around the ends of February, centuries and years. *)
Example c82_example :
  map (fun t => string_of_list_ascii (http_date c_locale t)) [0; 784111777; 951782399; 951782400; 951868800; 4107542399; 4107542400; 1798761599; 253402300799] =
  ["Thu, 01 Jan 1970 00:00:00 GMT"; "Sun, 06 Nov 1994 08:49:37 GMT"; "Mon, 28 Feb 2000 23:59:59 GMT"; "Tue, 29 Feb 2000 00:00:00 GMT"; "Wed, 01 Mar 2000 00:00:00 GMT";
   "Sun, 28 Feb 2100 23:59:59 GMT"; "Mon, 01 Mar 2100 00:00:00 GMT"; "Thu, 31 Dec 2026 23:59:59 GMT"; "Fri, 31 Dec 9999 23:59:59 GMT"]%string /\
  read_date (bs "Sun, 06 Nov 1994 08:49:37 GMT") = Some 784111777 /\ read_date (bs "Mon, 06 Nov 1994 08:49:37 GMT") = None /\
  read_date (bs "Tue, 29 Feb 2100 00:00:00 GMT") = None /\ Forall in_ages [0; 253402300799] /\
  option_map string_of_list_ascii (set_cookie_at c_locale 784111777 (bs "id") (bs "a b") 60 (bs "/") [] [] true false) =
    Some "id=a%20b; expires=Sun, 06 Nov 1994 08:50:37 GMT; max-age=60; path=/; secure"%string /\
  set_cookie_at c_locale 784111777 (bs "id") (bs "a b") 253402300799 (bs "/") [] [] true false = None /\ cookie_name (bs "id").
Proof.
  split; [vm_compute; reflexivity|]. split; [vm_compute; reflexivity|]. split; [vm_compute; reflexivity|]. split; [vm_compute; reflexivity|].
  split; [repeat constructor; discriminate|]. split; [vm_compute; reflexivity|]. split; [vm_compute; reflexivity|].
  split; [discriminate|]. split; [repeat constructor; discriminate|]. intros c [<-|[<-|[]]]; cbn; intuition discriminate.
Qed.
(** The hypotheses of the two theorems on files: a file of 1994 that was changed the second after. *)
Example c82_file : let f := file_at c_locale 784111778 (bs "0123456789") in
  in_ages 784111777 /\ in_ages 784111778 /\ size_ok f 0 /\ ctype_ok plain34 /\ Forall unframed_call [HBase] /\ ~ bodyless (e_method get11) (fst (the_status [HBase])) /\
  (exists stored, r_headers (start get11 [HBase] true) = Some stored /\ stored <> []) /\
  map (fun t => map (fun x => match x with Some d => string_of_list_ascii d | None => ""%string end)
    (tl (r_out (snd (sendfile get11 (mkFReq [] [] [http_date c_locale t]) f 0 plain34 (bs "b") kw34 (start get11 [HBase] true)))))) [784111778; 784111777] = [[""]; ["0123"; "4567"; "89"; ""]]%string.
Proof.
  split; [split; [discriminate|reflexivity]|]. split; [split; [discriminate|reflexivity]|]. split; [now left|]. split; [split; fin|]. split; [fall|].
  split; [intros [A|[A|[A|[A|A]]]]; vm_compute in A; intuition discriminate|]. split; [eexists; split; [vm_compute; reflexivity|discriminate]|vm_compute; reflexivity].
Qed.
