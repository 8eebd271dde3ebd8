(** Model of HTTPRequest.query, cookies and form (tremolo/lib/http_request.py:262-321). *)
From Verif Require Import PyBytes PyInt PyExn PyQs.

(** self.params['query'], ['cookies'], ['post']; None when the key is missing. *)
(** http_request.py:67, 266, 280, 303 *)
Record params := mkParams { pr_query : option qdict; pr_cookies : option qdict; pr_post : option qdict }.
(** http_request.py:67 *)
Definition no_params : params := mkParams None None None.
(** A value that is computed at most once. The key is set to {} before (267, 281, 303). *)
Definition once (cached : option qdict) (r : res qdict) : res qdict * option qdict :=
  match cached with
  | Some d => (Ok d, cached)
  | None => (r, Some (match r with Ok d => d | Raise _ => [] end))
  end.

(** query, 262-274. [query_string] is the part of the URL after the first '?'. *)
Definition query (query_string : bytes) (p : params) : res qdict * params :=
  let '(r, c) := once (pr_query p) (match query_string with [] => Ok [] | q => parse_qs q 100 end) in
  (r, mkParams c (pr_cookies p) (pr_post p)).
(** replace(b'; ', b'&').replace(b';', b'&') *)
(** http_request.py:288, 294-295, 328, 387 *)
Definition semicolons (s : bytes) : bytes := replace (bs ";") (bs "&") (replace (bs "; ") (bs "&") s).
(** cookies, 276-298. [headers] are the values of the Cookie headers: none, one (bytes) or
    several (a list). *)
Definition cookies (headers : list bytes) (p : params) : res qdict * params :=
  let '(r, c) := once (pr_cookies p)
    match headers with
    | [] => Ok []
    | [v] => parse_qs (semicolons v) 100
    | vs => parse_qs (semicolons (join (bs "&") vs)) (100 * List.length vs)
    end in
  (r, mkParams (pr_query p) c (pr_post p)).
(** form, 300-321. [pieces] is what stream() yields, each with the value of body_size (the
    number of body bytes received so far, counted by the protocol) at that time, [fin] how it
    ends (an exception or not), [total] is body_size then; [body] is what self._body held
    before. limit and max_fields are the arguments. *)
Fixpoint form_loop (limit : Z) (body : bytes) (pieces : list (bytes * Z)) : res bytes :=
  match pieces with
  | [] => Ok body
  | (d, size) :: r => if (limit <? size)%Z then Raise ValueError else form_loop limit (body ++ d) r
  end.
(** http_request.py:301-321 *)
Definition form (ctype : bytes) (limit : Z) (max_fields : nat) (body : bytes) (pieces : list (bytes * Z)) (fin : option exn) (total : Z)
    (p : params) : res qdict * params :=
  let '(r, c) := once (pr_post p)
    (if contains (bs "application/x-www-form-urlencoded") (lower ctype) then
       let! b := form_loop limit body pieces in
       match fin with
       | Some x => Raise x
       | None => if ((2 <? total) && (total <=? limit))%Z then parse_qs b max_fields else Ok []
       end
     else Ok []) in
  (r, mkParams (pr_query p) (pr_cookies p) c).
