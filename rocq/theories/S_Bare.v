(** The words of C81: a client that asks for heads only, and gets responses without a body. *)
From Verif Require Import PyBytes PyInt PyUtf8 M_Conn M_Framing M_Response M_Pages M_Stack S_Head S_Scope S_Route S_Response S_Calls S_Chunked S_Conn S_Site S_AsgiSite S_Stack.

(** ** The client *)
(** The text between the first two spaces, in a status line the code. *)
Definition code_text (line : bytes) : bytes :=
  let after t := match find (bs " ") t with Some i => skipn (S i) t | None => [] end in
  let upto t := match find (bs " ") t with Some i => firstn i t | None => t end in
  upto (after line).
(** 1xx, 204 and 304 (RFC 9112, 6.3). *)
Definition bare_line (line : bytes) : bool :=
  match number (code_text line) with
  | Some n => (n =? 204) || (n =? 304) || ((100 <=? n) && (n <? 200))
  | None => false
  end.
(** The response to a request with method [m]: of a response to HEAD and of one with such a status there is only the head. *)
Definition read_answer_to (m w : bytes) : option (answer * bytes) :=
  match read_head (S (List.length w)) w with
  | Some (first :: lines, rest) => if beqb m (bs "HEAD") || bare_line first then Some (mkAnswer first lines [], rest) else read_answer w
  | _ => None
  end.
(** The responses to requests with these methods. *)
Fixpoint read_answers_to (ms : list bytes) (w : bytes) : option (list answer * bytes) :=
  match ms with
  | [] => Some ([], w)
  | m :: ms' =>
      match read_answer_to m w with
      | Some (x, rest) => match read_answers_to ms' rest with Some (l, rest') => Some (x :: l, rest') | None => None end
      | None => None
      end
  end.
Definition method_of (c : call) : bytes := upper (k_method c).

(** ** The application *)
(** As [user_call], but statuses 204 and 304 are allowed. *)
Definition soft_call (h : hop) : Prop := match h with HStatus z _ => z = 204%Z \/ z = 304%Z \/ ~ bodyless [] z | _ => user_call h end.
(** As [good_app], but for these. The response middlewares do not change the status. *)
Definition soft_app (ap : stack) (paths : list bytes) : Prop :=
  Forall2 (fun r p => literal (fst r) p) (p_regs ap) paths /\ Forall (fun r => snd r <> 0) (p_regs ap) /\
  (1 <= p_buf ap)%Z /\ one_line (p_name ap) /\
  (forall f, Forall (fun n => ~ In n reserved) (p_looks ap f)) /\ Forall (fun n => ~ In n reserved) (p_eyes ap) /\
  (forall f m u v x, Forall soft_call (fst (p_page ap f m u v x))) /\
  Forall (fun g => forall m u v, Forall soft_call (fst (g m u v))) (p_before ap) /\
  Forall (fun g => forall m u v, Forall user_call (g m u v) /\ Forall sure_call (g m u v) /\ Forall (fun h => match h with HStatus _ _ => False | _ => True end) (g m u v)) (p_after ap).
(** No async generator has a status without a body: neither itself nor a request middleware that goes on sets one. *)
Definition full_streams (ap : stack) : Prop :=
  (forall f m u v x, match p_page ap f m u v x with (ops, Parts _ _) => Forall user_call ops | _ => True end) /\
  Forall (fun g => forall m u v, snd (g m u v) = None -> Forall user_call (fst (g m u v))) (p_before ap).
(** Whether the client should get no body. *)
Definition silent (m : bytes) (st : Z * bytes) : bool := beqb m (bs "HEAD") || (fst st =? 204)%Z || (fst st =? 304)%Z.
(** As [says], but the body is left out then. *)
Definition says_to (m : bytes) (calls : list hop) (data : bytes) (x : answer) : Prop := says calls (if silent m (the_status calls) then [] else data) x.
(** What the client should read. *)
Definition right_page_to (ap : stack) (paths : list bytes) (c : call) (x : answer) : Prop := page_by (says_to (method_of c)) ap paths c x.
