(** Interpreting an event stream (WHATWG HTML, 9.2.6), independent of the model. The stream
    is read as bytes: it is UTF-8, and what the rules look at are ASCII characters. *)
From Verif Require Import PyBytes PyInt S_Num.

(** The complete lines of a stream; CR LF, LF and CR all end a line. *)
Fixpoint es_lines (cur : bytes) (s : bytes) : list bytes :=
  match s with
  | [] => []
  | c :: s' =>
      if Ascii.eqb c LF then cur :: es_lines [] s'
      else if Ascii.eqb c CR then
        cur :: match s' with
               | c' :: s'' => if Ascii.eqb c' LF then es_lines [] s'' else es_lines [] s'
               | [] => []
               end
      else es_lines (cur ++ [c]) s'
  end.

Record event := mkEvent { ev_type : bytes; ev_data : bytes; ev_id : bytes }.
(** The data, event type and last event ID buffers, the reconnection time, and the events
    dispatched so far. *)
Record es := mkEs { es_data : bytes; es_type : bytes; es_id : bytes; es_retry : option Z; es_out : list event }.
Definition es0 : es := mkEs [] [] [] None [].

Definition is_digit (c : byte) : bool := let n := N_of_ascii c in ((48 <=? n) && (n <=? 57))%N.
Definition es_field (st : es) (field value : bytes) : es :=
  if beqb field (bs "event") then mkEs (es_data st) value (es_id st) (es_retry st) (es_out st)
  else if beqb field (bs "data") then mkEs (es_data st ++ value ++ [LF]) (es_type st) (es_id st) (es_retry st) (es_out st)
  else if beqb field (bs "id") then
    if memb (ascii_of_nat 0) value then st else mkEs (es_data st) (es_type st) value (es_retry st) (es_out st)
  else if beqb field (bs "retry") then
    if negb (beqb value []) && forallb is_digit value
    then mkEs (es_data st) (es_type st) (es_id st) (Some (dec_value 0 value)) (es_out st) else st
  else st.
(** Remove one final LF. *)
Definition chomp (s : bytes) : bytes := match rev s with c :: r => if Ascii.eqb c LF then rev r else s | [] => s end.
Definition es_dispatch (st : es) : es :=
  match es_data st with
  | [] => mkEs [] [] (es_id st) (es_retry st) (es_out st)
  | d => mkEs [] [] (es_id st) (es_retry st)
           (es_out st ++ [mkEvent (match es_type st with [] => bs "message" | t => t end) (chomp d) (es_id st)])
  end.
Definition es_line (st : es) (l : bytes) : es :=
  match l with
  | [] => es_dispatch st
  | c :: _ =>
      if Ascii.eqb c ":" then st
      else match find (bs ":") l with
           | Some i => let v := skipn (S i) l in
                       es_field st (firstn i l) (match v with c :: v' => if Ascii.eqb c SP then v' else v | [] => v end)
           | None => es_field st l []
           end
  end.
(** A whole stream. Events that are incomplete at its end are not dispatched. *)
Definition es_run (s : bytes) : es := fold_left es_line (es_lines [] s) es0.
