(** Proofs about whole exchanges (C75): from the connection to the client. *)
From Verif Require Import PyBytes PyBytesFacts PyInt PyExn M_Parser M_Framing M_Conn M_Response M_Server M_Site
  S_Head S_Response S_Conn S_Site P_Conn2 P_Conn3 P_Conn5 P_Conn6 P_Conn7 P_Conn8 P_Conn9 P_Conn10 P_Site3 P_Site4 P_Exchange.

Lemma read_all l rest : forall ws, Forall2 readable ws l -> read_responses (List.length l) (List.concat ws ++ rest) = Some (l, rest).
Proof.
  induction l as [|[x d] l IH]; intros ws F; inversion_clear F as [|w ? ws' ? Rw Fw]; [reflexivity|]. cbn [List.length read_responses List.concat]. rewrite <- app_assoc, (Rw _). cbn [fst snd]. now rewrite (IH ws' Fw).
Qed.

Section Run.
Context (o : copts) (si : site) (paths : list bytes) (reqs : list call) (date : nat -> bytes) (tr : list cev) (s : conn) (b : list obs).
Let M := map msg_of reqs.
Hypothesis (Ook : opts_ok o) (Sok : site_ok si paths) (Rok : Forall (good_call o) reqs) (Dok : forall i, one_line (date i)).
Hypothesis (Hrun : conn_run o conn_new tr = Some (s, b)) (Hop : c_closing s = false).
Hypothesis (Hc : client_ok o M tr) (Hs : settled o tr \/ client_waits o M tr) (Hh : handlers_ok o M tr) (Hp : performs si date tr b).

Lemma closed_answer i c : nth_error reqs i = Some c -> In i (closers tr) ->
  exists items, did i tr = map Some items ++ [None] /\ (i < ended b -> exists x, readable (List.concat items) x /\ right_answer si paths c x).
Proof.
  intros Ei Hi. destruct (closed_read o reqs tr s b Ook (all_sound _ _ Rok) Hrun Hop Hc Hs Hh i c Ei Hi) as (St & Gb & _). pose proof (nth_good _ _ _ _ Rok Ei) as G.
  destruct (serve_right o si paths c (date i) Sok G (Dok i)) as (r & w & x & Fr & (items & Oi & Ew) & Rd & Ra).
  exists items. split; [|intros _; exists x; split; [rewrite Ew; exact Rd|exact Ra]].
  rewrite (Hp i _ r St Hi Fr), Gb. exact Oi.
Qed.

Lemma exchange : exists l rest, read_responses (ended b) (written b) = Some (l, rest) /\ Forall2 (right_answer si paths) (firstn (ended b) reqs) l /\
  (input tr = List.concat (map wire M) -> quiet o tr s b -> ended b = List.length reqs /\ rest = []).
Proof.
  destruct (answers_upto readable (right_answer si paths) o reqs tr s b Ook (all_sound _ _ Rok) Hrun Hop Hc Hs Hh closed_answer (ended b) (le_n _)) as (l & A & B). exists l, (out (ended b) b). split; [|split; [exact B|]].
  - rewrite written_out. assert (List.length l = ended b) as E.
    { pose proof (f2_length _ _ _ A) as X. rewrite map_length, seq_length in X. now symmetry. }
    rewrite <- E at 1. now apply read_all.
  - exact (all_done readable (right_answer si paths) o reqs tr s b Ook (all_sound _ _ Rok) Hrun Hop Hc Hs Hh closed_answer).
Qed.
End Run.
