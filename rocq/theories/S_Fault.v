(** The words of C84: what the client should read when a handler or a middleware fails. *)
From Verif Require Import PyBytes PyInt PyExn M_Parser M_Framing M_Conn M_Response M_Server M_Stack M_Fault S_Head S_Route S_Response S_Calls S_Conn S_Site S_AsgiSite S_Stack S_Bare.

(** The status and content type of an exception. The WebSocket exceptions have none. *)
Definition error_status (x : exc) : option ((Z * bytes) * bytes) :=
  match x with
  | XHttp code message ctype => Some ((code, message), ctype)
  | XTimeout => Some ((408%Z, bs "Request Timeout"), bs "text/html; charset=utf-8")
  | XOther => Some ((500%Z, bs "Internal Server Error"), bs "text/html; charset=utf-8")
  | _ => None
  end.
Definition page_data (d : edata) : bytes := match d with EData b => b | _ => [] end.
(** The response: the status and type of the exception, the page of the error handler; the connection is to be closed; of the handler's and the middlewares' header
    calls nothing is left. *)
Definition error_says (m : bytes) (x : exc) (d : edata) (y : answer) : Prop :=
  exists st ctype, error_status x = Some (st, ctype) /\ r_line y = status_text st /\ r_data y = (if silent m st then [] else page_data d) /\
  lines_named (bs "content-type") (r_lines y) = [bs "Content-Type: " ++ ctype] /\ lines_named (bs "connection") (r_lines y) = [bs "Connection: close"] /\
  forall name, ~ In name added -> lines_named name (r_lines y) = [].
(** Request middlewares in turn: what each raises, and what it answers. The first that does one of these decides; [None] if all go on. *)
Fixpoint halted (l : list (option (exc * edata) * option bytes)) : option (option (exc * edata)) :=
  match l with
  | [] => None
  | (Some xd, _) :: _ => Some (Some xd)
  | (None, Some _) :: _ => Some None
  | (None, None) :: l' => halted l'
  end.
Fixpoint first_some {X} (l : list (option X)) : option X := match l with [] => None | Some x :: _ => Some x | None :: l' => first_some l' end.
(** What is raised for a request: by a request middleware; otherwise, if none of them answers, by the function of the path, and then by the response middlewares, the last one first. *)
Definition raised (fa : faulty) (paths : list bytes) (c : call) : option (exc * edata) -> Prop := fun out =>
  let ap := f_app fa in
  let m := upper (k_method c) in
  let u := k_url c in
  let v ns := map (fun n => values n (sent_fields c)) ns in
  let sees := v (p_eyes ap) in
  match halted (map (fun ig => (f_before fa (fst ig) m u sees, snd (snd ig m u sees))) (combine (List.seq 0 (List.length (p_before ap))) (p_before ap))) with
  | Some o => out = o
  | None =>
      exists p, has_path u p /\
      out = first_some (match function_of (p_regs ap) paths p with
                        | Some (S _ as f) => f_raises fa f m u (v (p_looks ap f)) (body_of c)
                        | _ => None
                        end :: rev (map (fun i => f_after fa i m u sees) (List.seq 0 (List.length (p_after ap)))))
  end.
(** What the client should read. *)
Definition right_reply (fa : faulty) (paths : list bytes) (c : call) (y : answer) : Prop :=
  exists out, raised fa paths c out /\ match out with Some (x, d) => error_says (method_of c) x d y | None => right_page_to (f_app fa) paths c y end.
(** The request's handler, or a middleware, fails. *)
Definition fails (fa : faulty) (paths : list bytes) (c : call) : Prop := exists xd, raised fa paths c (Some xd).
(** Exceptions have single-line messages and types, and statuses a client can read the response of; what the error handler returns can be encoded. *)
Definition sound_fault (xd : exc * edata) : Prop :=
  snd xd <> EUnencodable /\ exists st ctype, error_status (fst xd) = Some (st, ctype) /\ one_line (snd st) /\ one_line ctype /\ (fst st = 204%Z \/ fst st = 304%Z \/ ~ bodyless [] (fst st)).
Definition sound_faults (fa : faulty) : Prop :=
  (forall f m u v b xd, f_raises fa f m u v b = Some xd -> sound_fault xd) /\ (forall i m u v xd, f_before fa i m u v = Some xd -> sound_fault xd) /\
  forall i m u v xd, f_after fa i m u v = Some xd -> sound_fault xd.
(** Every handler that closed its response did what [fault_serve] says. *)
Definition performs_faulty (fa : faulty) (date : nat -> bytes) (tr : list cev) (b : list obs) : Prop :=
  forall i h r, In (Started i h) b -> In i (closers tr) -> frame_head h (blen h - 2) = Framed r ->
  did i tr = r_out (snd (fault_serve (date i) fa r (got i b))).
Definition closes_faulty (fa : faulty) (date : nat -> bytes) (tr : list cev) (b : list obs) : Prop :=
  forall i h r keep, In (Started i h) b -> In (HClose i keep) tr -> frame_head h (blen h - 2) = Framed r ->
  keep = r_keep (snd (fault_serve (date i) fa r (got i b))).
