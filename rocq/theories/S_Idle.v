(** Specification of idle WebSocket sessions (C74), in terms of what happens from outside and what is seen. *)
From Verif Require Import PyBytes M_Idle.
From Coq Require Import Sorted.
Local Open Scope Z_scope.

(** Events in the order of time. *)
Definition in_order (l : list event) : Prop := StronglySorted (fun a b => time a <= time b) l.
(** receive() is running since [c]: it was called then, and since then only pings were sent. *)
Definition pending (o : list (Z * seen)) (c : Z) : Prop := exists o1 o2, o = o1 ++ (c, Called) :: o2 /\ forall x, In x o2 -> snd x = Pinged.
(** Bytes arrive at [t]; with a frame completed. *)
Definition bytes_at (l : list event) (t : Z) : Prop := exists fs, In (Seg t fs) l.
Definition frame_at (l : list event) (t : Z) : Prop := exists fs, In (Seg t fs) l /\ fs <> [].
(** The latest of [c] and the times of [P]. *)
Definition latest (c : Z) (P : Z -> Prop) (t : Z) : Prop := (t = c \/ P t) /\ c <= t /\ forall t', P t' -> t' <= t.
(** The times of the pings. *)
Definition pings (o : list (Z * seen)) : list Z := map fst (filter (fun x => match snd x with Pinged => true | _ => false end) o).
