(** Model of the route table: Tremolo.add_route (tremolo/tremolo.py:192-217) and the choice of a
    handler by HTTPServer.headers_received (tremolo/http_server.py:285-339).

    The dict self.routes has the integer keys 0 (the handlers for 400, 404 and 500), 1 (the root), -1 (regular
    expressions), and bytes keys; the three are fields here, the table of bytes keys a dict. A handler is a
    number; its options are not needed here. Paths given to add_route are str: their latin-1 encoding here
    (a path with other characters raises UnicodeEncodeError and adds nothing). compile_routes
    (219-225) is left to [search], the re.Pattern.search of a pattern. *)
From Verif Require Import PyBytes PyInt.

(** tremolo.py:198, 205, 215 *)
Record route := mkRoute { rt_pat : bytes; rt_func : nat }.
(** tremolo.py:40-55 *)
Record table := mkTable { t_root : list route; t_regex : list route; t_lit : list (bytes * list route) }.
(** tremolo.py:48-54: handlers.index, here 0, answers at the root. *)
Definition index : nat := 0.
(** tremolo.py:50 *)
Definition root_pattern : bytes := bs "^/+(?:\?.*)?$".
(** tremolo.py:40-55 *)
Definition table0 : table := mkTable [mkRoute root_pattern index] [] [].

(** _path[:(_path + '/').find('/')], and the key '%d#%s' : tremolo.py:207-209, http_server.py:290-292 *)
Definition first_segment (p : bytes) : bytes := upto p (pos (find (bs "/") (p ++ bs "/"))).
(** tremolo.py:207-209, http_server.py:290-292 *)
Definition key_of (p : bytes) : bytes := fmt_d (Z.of_nat (count (bs "/") p + 2)) ++ bs "#" ++ first_segment p.
(** tremolo.py:210-212 *)
Definition literal_pattern (p : bytes) : bytes := bs "^/+" ++ p ++ bs "(?:/+)?(?:\?.*)?$".
(** tremolo.py:204 *)
Definition root_pat (t : table) : bytes := match t_root t with r :: _ => rt_pat r | [] => [] end.
(** add_route(func, path), tremolo.py:192-217 *)
Definition add_route (t : table) (path : bytes) (func : nat) : table :=
  if startswith (bs "^") path || endswith (bs "$") path then mkTable (t_root t) (t_regex t ++ [mkRoute path func]) (t_lit t)
  else
    let p := strip (bs "/") (hd [] (split_max (bs "?") 1 path)) in
    match p with
    | [] => mkTable [mkRoute (root_pat t) func] (t_regex t) (t_lit t)
    | _ =>
        let r := mkRoute (literal_pattern p) func in
        mkTable (t_root t) (t_regex t)
          (match dget beqb (key_of p) (t_lit t) with
           | Some l => dset beqb (key_of p) (l ++ [r]) (t_lit t)
           | None => dset beqb (key_of p) [r] (t_lit t)
           end)
    end.
(** tremolo.py:192-217, one call after another. *)
Definition add_routes (regs : list (bytes * nat)) : table := fold_left (fun t r => add_route t (fst r) (snd r)) regs table0.

Section Search.
Context {M : Type} (search : bytes -> bytes -> option M).
(** http_server.py:295-307: the first of a list of routes that matches. *)
Fixpoint first_match (rs : list route) (url : bytes) : option (nat * M) :=
  match rs with
  | [] => None
  | r :: rs' => match search (rt_pat r) url with Some m => Some (rt_func r, m) | None => first_match rs' url end
  end.
(** http_server.py:309-314: the last of the regular expressions that matches, with its index. *)
Fixpoint last_match (i : nat) (rs : list route) (url : bytes) : option (nat * route * M) :=
  match rs with
  | [] => None
  | r :: rs' => match last_match (S i) rs' url with
                | Some x => Some x
                | None => match search (rt_pat r) url with Some m => Some (i, r, m) | None => None end
                end
  end.
(** What headers_received does: call a handler with request.params['path'], and whether to delete an element of
    routes[-1] when it has returned; or the 404 handler. *)
Inductive choice := Found (func : nat) (m : M) (del : option nat) | Missing.
(** http_server.py:285-339, up to the call of the handler. [url] is request.url; request.path is what precedes
    the first ? (http_request.py:54). *)
Definition choose (t : table) (url : bytes) : choice * table :=
  let path := fst (fst (partition (bs "?") url)) in
  let p := strip (bs "/") path in
  match p with
  | [] => (match first_match (t_root t) url with Some (f, m) => Found f m None | None => Missing end, t)
  | _ =>
      match dget beqb (key_of p) (t_lit t) with
      | Some rs => (match first_match rs url with Some (f, m) => Found f m None | None => Missing end, t)
      | None =>
          match last_match 0 (t_regex t) url with
          | Some (i, r, m) => (Found (rt_func r) m (Some i), mkTable (t_root t) (t_regex t) (dset beqb (key_of p) [r] (t_lit t)))
          | None => (Missing, t)
          end
      end
  end.
(** http_server.py:332: del self._routes[-1][i], when the handler has returned (IndexError if it is not there
    any more, which changes nothing). *)
Definition remove_nth {A} (i : nat) (l : list A) : list A := firstn i l ++ skipn (S i) l.
(** http_server.py:332 *)
Definition finish (t : table) (i : nat) : table := mkTable (t_root t) (remove_nth i (t_regex t)) (t_lit t).

(** A worker: its table, and the requests being served that will delete an element. Requests begin and end in any
    order; [ok] is false when the handler raised. *)
(** http_server.py:285-339 *)
Inductive wstep : table * list nat -> (bytes * choice) + nat -> table * list nat -> Prop :=
| wbegin t live url : wstep (t, live) (inl (url, fst (choose t url)))
    (snd (choose t url), match fst (choose t url) with Found _ _ (Some i) => live ++ [i] | _ => live end)
| wend t l1 i l2 (ok : bool) : wstep (t, l1 ++ i :: l2) (inr i) (if ok then finish t i else t, l1 ++ l2).
(** An execution, and the requests it began with the handler each got. *)
(** http_server.py:285-339 *)
Inductive wrun (s0 : table * list nat) : list (bytes * choice) -> table * list nat -> Prop :=
| wr0 : wrun s0 [] s0
| wr_begin s tr o s' : wrun s0 tr s -> wstep s (inl o) s' -> wrun s0 (tr ++ [o]) s'
| wr_end s tr i s' : wrun s0 tr s -> wstep s (inr i) s' -> wrun s0 tr s'.
End Search.
Arguments Found {M}.
Arguments Missing {M}.
