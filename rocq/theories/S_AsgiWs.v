(** Words for the statements about ASGI applications on WebSocket scopes. Frames are those of S_WebSocket.v. *)
From Verif Require Import PyBytes PyInt PyUtf8 M_Stream M_WebSocket S_WebSocket P_WebSocket M_Response M_Asgi M_AsgiWs.

(** What the client says: pings and pongs, and then a message. *)
Record utterance := mkUt { u_before : list (lenform * frame); u_form : lenform; u_frame : frame; u_says : pyval }.
Definition utterance_ok (max : Z) (u : utterance) : Prop :=
  Forall (skippable max) (u_before u) /\ frame_ok (u_form u) (u_frame u) /\
  (u_form u = L64 -> Z.of_nat (List.length (f_payload (u_frame u))) <= max)%Z /\
  message (u_frame u) (u_says u) /\ u_says u <> VBytes [].
Definition frames_wire (cs : list (lenform * frame)) : bytes := concat (map (fun c => wire (fst c) (snd c)) cs).
Definition utterance_wire (u : utterance) : bytes := frames_wire (u_before u) ++ wire (u_form u) (u_frame u).
(** The event that carries a message. *)
Definition event_of (v : pyval) : ws_received := match v with VStr s => GotText s | VBytes b => GotBytes b end.

(** The client's bytes that the application has not read are [B], in whatever packets; [tl] is what follows them. *)
Definition unread (z : session) (B : bytes) (tl : list inp) : Prop :=
  exists segs, upgraded (z_in z) segs tl /\ rbuf (z_in z) ++ concat segs = B.
(** The session is open: accepted, and not closed by the application. *)
Definition is_open (z : session) : Prop :=
  z_ws z = true /\ r_up (a_rsp (z_a z)) = true /\ r_headers (a_rsp (z_a z)) = None /\ r_buf (a_rsp (z_a z)) = [].
Definition queued (z : session) : list (option bytes) := r_out (a_rsp (z_a z)).

(** Frames of the server are not masked and have the shortest length. *)
Definition server_frame (op : N) (p : bytes) : bytes := wire (shortest (N.of_nat (List.length p))) (mkFrame true op None p).
(** A message that an application sends, and its frame. *)
Inductive says : app_call -> bytes -> Prop :=
| SaysBytes b : b <> [] -> (N.of_nat (List.length b) < 2 ^ 64)%N -> says (Send (WsSend b [])) (server_frame 2 b)
| SaysText s p : s <> [] -> utf8_encode s = Some p -> (N.of_nat (List.length p) < 2 ^ 64)%N -> says (Send (WsSend [] s)) (server_frame 1 p).

(** A conversation: what the application does, what the client said and the application received, and the frames that the server sends. *)
Inductive talk (max : Z) : list app_call -> list utterance -> list bytes -> Prop :=
| TalkEnd : talk max [] [] []
| TalkSay c f calls us fs : says c f -> talk max calls us fs -> talk max (c :: calls) us (f :: fs)
| TalkHear u calls us fs : utterance_ok max u -> talk max calls us fs -> talk max (Receive :: calls) (u :: us) (pongs (u_before u) ++ fs).
