(** Words for sequences of calls of the response API, used by the statements about them.
    Calls are those of M_Response.v ([hop], [write]). *)
From Verif Require Import PyBytes PyInt PyUrl M_Response S_Response.

(** Names a call can write header lines for. *)
Definition names (h : hop) : list bytes :=
  match h with
  | HSet n _ | HAppend n _ => [lower n]
  | HCookie _ _ _ _ _ _ _ _ _ => [bs "set-cookie"]
  | HStatus _ _ => []
  | HCtype _ => []
  | HBase => [bs "date"; bs "server"]
  end.
Definition lines_at (k : bytes) (s : rsp) : option (list bytes) :=
  match r_headers s with Some d => hget k d | None => None end.
(** ** Conditions on header calls *)
Definition appends_clean (h : hop) : Prop := match h with HAppend n v => one_line n /\ one_line v | _ => True end.
Definition name_ok (h : hop) : Prop := match h with HSet n _ | HAppend n _ => ~ In ":"%char n | _ => True end.
Definition unreserved (h : hop) : Prop := match h with HSet n _ | HAppend n _ => lower n <> bs "_line" | _ => True end.
(** The status in force after the calls. *)
Fixpoint final_status (ops : list hop) (now : Z * bytes) : Z * bytes :=
  match ops with
  | [] => now
  | HStatus z m :: ops' => final_status ops' (if memb LF m then now else (z, m))
  | _ :: ops' => final_status ops' now
  end.

(** The status line for a status. *)
Definition status_line (e : renv) (st : Z * bytes) : bytes := bs "HTTP/" ++ version e ++ bs " " ++ fmt_d (fst st) ++ bs " " ++ snd st.
(** A call as in [lines_for], and the lines there are for a name. *)
Definition hop_of (c : bool * (bytes * bytes)) : hop :=
  let '(set, (n, v)) := c in if set then HSet n v else HAppend n v.
Definition now_at (name : bytes) (s : rsp) : list bytes :=
  match lines_at (lower name) s with Some l => l | None => [] end.

(** Header calls that are accepted before the head is sent. *)
Definition clean (e : renv) (h : hop) : Prop :=
  match h with
  | HSet n v | HAppend n v => one_line n /\ one_line v /\ lower n <> bs "_line"
  | HCookie n v d x p dm ss se ho => one_line (cookie_text n v d x p dm ss se ho)
  | HStatus _ m => one_line m
  | HCtype c => one_line c
  | HBase => one_line (e_date e) /\ one_line (e_server e)
  end.
(** [x] is the only line of that name. *)
Definition only_line (key x : bytes) (lines : list bytes) : Prop :=
  In x lines /\ forall y, In y lines -> field_name y = key -> y = x.
(** write() called again and again by a handler that catches its exceptions. *)
Fixpoint run_writes (e : renv) (ws : list (option bytes * option bool * kw)) (s : rsp) : rsp :=
  match ws with
  | [] => s
  | (data, chunked, k) :: ws' => run_writes e ws' (snd (write e data chunked k s))
  end.
(** A new response after the header calls [pre], and its status. *)
Definition start (e : renv) (pre : list hop) (keep : bool) : rsp := do_hops e pre (new_rsp keep).
Definition the_status (pre : list hop) : Z * bytes := final_status pre (200%Z, bs "OK").

(** The header lines of a name after the calls, in words: a call of set_header replaces them, append_header and set_cookie add one; set_header and
    set_cookie do nothing if there is a line feed in what they are given. *)
Fixpoint said (key : bytes) (ops : list hop) (now : list bytes) : list bytes :=
  match ops with
  | [] => now
  | h :: ops' =>
      said key ops'
        match h with
        | HSet n v => if beqb (lower n) key && negb (memb LF n || memb LF v) then [n ++ bs ": " ++ v] else now
        | HAppend n v => if beqb (lower n) key then now ++ [n ++ bs ": " ++ v] else now
        | HCookie n v d x p dm ss se ho =>
            let text := cookie_text n v d x p dm ss se ho in
            if beqb (bs "set-cookie") key && negb (memb LF text) then now ++ [bs "Set-Cookie: " ++ text] else now
        | _ => now
        end
  end.
(** The names which the server decides about, or that it adds. *)
Definition added : list bytes := [bs "date"; bs "server"; bs "connection"; bs "content-type"; bs "content-length"; bs "transfer-encoding"].
(** The lines of a name. *)
Definition lines_named (key : bytes) (lines : list bytes) : list bytes := filter (fun l => beqb (field_name l) key) lines.

(** A run of sends. *)
Fixpoint sends (l : list (bytes * kw)) (s : rsp) : rsp :=
  match l with [] => s | (d, k) :: l' => sends l' (snd (send (Some d) k s)) end.
