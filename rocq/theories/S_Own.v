(** The words of C88: handlers that send their response themselves, and then return nothing, or something that is no content, such as True. *)
From Verif Require Import PyBytes PyInt PyExn M_Conn M_Response M_Server M_Sendfile.

(** It makes header calls and then calls response.end(data), or sendfile; [out] is what it returns. *)
Definition ends_with {A} (e : renv) (pre : list hop) (data : bytes) (min : option Z) (out : outcome) : func A :=
  fun a s _ => let '(r, s') := end_ e data true min (do_hops e pre s) in (a, s', match r with Ok _ => out | Raise x => OExc (of_exn x) end).
Definition sends_file {A} (e : renv) (pre : list hop) (q : freq) (f : ffile) (size : Z) (ctype boundary : bytes) (k : kw) (out : outcome) : func A :=
  fun a s _ => let '(r, s') := sendfile e q f size ctype boundary k (do_hops e pre s) in (a, s', match r with Ok _ => out | Raise x => OExc (of_exn x) end).
(** What the connection sees when a handler, of whichever request, returns None: self.response.close() (http_server.py:128-130), where self.response is the response of the request that came last. *)
Definition returns_none (s : conn) : option cev := option_map (fun i => HClose i false) (c_cur s).
(** The same at the connection: the handler of request i puts the items of its response into the queue, end() closes the response, and, if the handler returns nothing, it is closed once more; all before the send task runs. *)
Definition own_events (i : nat) (items : list bytes) (nothing : bool) : list cev :=
  map (HPut i) items ++ HClose i true :: (if nothing then [HClose i false] else []).
(** Options of a route: a status and a content type, each as the calls it stands for, and anything else that concerns neither, but not sse (http_server.py:75-85, 110-114). *)
Definition route_calls (kw : opts) : list hop :=
  match oget "status" kw with Some (VStatus z m) => [HStatus z m] | _ => [] end ++ match oget "content_type" kw with Some (VText t) => [HCtype t] | _ => [] end.
Definition route_ok (kw : opts) : Prop :=
  oget "sse" kw = None /\ match oget "status" kw with None => True | Some (VStatus _ m) => ~ In LF m | Some _ => False end /\
  match oget "content_type" kw with None => True | Some (VText t) => ~ In LF t | Some _ => False end.
