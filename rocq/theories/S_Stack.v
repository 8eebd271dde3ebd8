(** The words of C79: what the client of an application with middlewares and streaming handlers should read. *)
From Verif Require Import PyBytes PyInt PyUtf8 M_Conn M_Framing M_Response M_Pages M_Stack S_Head S_Scope S_Route S_Response S_Calls S_Chunked S_Conn S_Site S_AsgiSite.

(** A header call of a handler or a middleware: names are header names, append_header is given single lines, statuses have a body. *)
Definition user_call (h : hop) : Prop :=
  match h with
  | HSet n v => ~ In ":"%char n /\ lower n <> bs "_line"
  | HAppend n v => ~ In ":"%char n /\ lower n <> bs "_line" /\ one_line n /\ one_line v
  | HStatus z _ => ~ bodyless [] z
  | HBase => False
  | _ => True
  end.
(** One that is accepted, and is not about how the body is framed. *)
Definition sure_call (h : hop) : Prop :=
  match h with
  | HSet n v | HAppend n v => one_line n /\ one_line v /\ ~ In (lower n) [bs "transfer-encoding"; bs "content-length"]
  | HCookie n v d x p dm ss se ho => one_line (cookie_text n v d x p dm ss se ho)
  | HStatus _ m => one_line m
  | HCtype c => one_line c
  | HBase => False
  end.
(** Routes are literal paths. Middlewares and handlers may catch what header calls raise, response middlewares make none that do. *)
Definition good_app (ap : stack) (paths : list bytes) : Prop :=
  Forall2 (fun r p => literal (fst r) p) (p_regs ap) paths /\ Forall (fun r => snd r <> 0) (p_regs ap) /\
  (1 <= p_buf ap)%Z /\ one_line (p_name ap) /\
  (forall f, Forall (fun n => ~ In n reserved) (p_looks ap f)) /\ Forall (fun n => ~ In n reserved) (p_eyes ap) /\
  (forall f m u v x, Forall user_call (fst (p_page ap f m u v x))) /\
  Forall (fun g => forall m u v, Forall user_call (fst (g m u v))) (p_before ap) /\
  Forall (fun g => forall m u v, Forall user_call (g m u v) /\ Forall sure_call (g m u v)) (p_after ap).
(** The calls of the request middlewares up to the first that answers, and its answer. *)
Fixpoint turned (l : list (list hop * option bytes)) : list hop * option bytes :=
  match l with
  | [] => ([], None)
  | (ops, Some d) :: _ => (ops, Some d)
  | (ops, None) :: l' => (ops ++ fst (turned l'), snd (turned l'))
  end.
Definition data_in (x : content) : bytes := match x with Whole d => d | Parts y0 ys => List.concat (y0 :: ys) end.
(** The status line is the one the calls say, so are the header lines (name by name, except those which the server decides about), and the body. *)
Definition says (calls : list hop) (data : bytes) (x : answer) : Prop :=
  r_line x = status_text (the_status calls) /\ r_data x = data /\ forall name, ~ In name added -> lines_named name (r_lines x) = said name calls [].
(** What the client should read: the answer of the first request middleware that gives one; otherwise that of the function of the path, after the calls
    of the request middlewares and before those of the response middlewares, the last one first. *)
Definition page_by (says : list hop -> bytes -> answer -> Prop) (ap : stack) (paths : list bytes) (c : call) (x : answer) : Prop :=
  let m := upper (k_method c) in
  let u := k_url c in
  let v ns := map (fun n => values n (sent_fields c)) ns in
  let after := List.concat (rev (map (fun g => g m u (v (p_eyes ap))) (p_after ap))) in
  match turned (map (fun g => g m u (v (p_eyes ap))) (p_before ap)) with
  | (calls, Some d) => says calls d x
  | (calls, None) =>
      exists p, has_path u p /\
      match function_of (p_regs ap) paths p with
      | Some (S _ as f) => let page := p_page ap f m u (v (p_looks ap f)) (body_of c) in says (calls ++ fst page ++ after) (data_in (snd page)) x
      | Some O => says (calls ++ [HStatus 503 (bs "Service Unavailable")] ++ after) (bs "Service Unavailable") x
      | None => exists path query, target u path query /\ says (calls ++ [HStatus 404 (bs "Not Found")] ++ after) (List.concat (page_404 path (p_name ap))) x
      end
  end.
Definition right_page : stack -> list bytes -> call -> answer -> Prop := page_by says.
(** Every handler that closed its response did what [app_serve] says for the request parsed from the head it was started with, and for the body it has read. *)
Definition performs_app (ap : stack) (date : nat -> bytes) (tr : list cev) (b : list obs) : Prop :=
  forall i h r, In (Started i h) b -> In i (closers tr) -> frame_head h (blen h - 2) = Framed r ->
  did i tr = r_out (snd (app_serve (date i) ap r (got i b))).
