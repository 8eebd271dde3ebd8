(** Specification of the reload of changed modules (C73). *)
From Verif Require Import PyBytes M_Reload.

Definition begins (p f : bytes) : Prop := exists r, f = p ++ r.
(** A module of the application, with its file: it is in none of the directories of sys.path, but for those that the directory of the application is in. *)
Definition mine (sys_path : list bytes) (app_dir : bytes) (m : pymod) (f : bytes) : Prop :=
  m_file m = Some f /\ forall p, In p sys_path -> begins p f -> begins p app_dir.
(** The file of [m] is there, and as it was: it differs between two looks. *)
Definition there (g : sight) (f : bytes) : Prop := g_files g f <> None.
Definition differs (g g' : sight) (f : bytes) : Prop := g_files g f <> g_files g' f.
