(** Model of the watch of a worker over its modules and its memory (tremolo/tremolo.py:382-386, 397-446; file_signature, utils.py:16-19), and of what the supervisor
    takes over from the reloaded module (tremolo.py:583-593, 733-750).

    The time between two looks is one second (395) or more; what is on disk and which modules are loaded may change in any way between them, and does not change during
    one. The order of sys.modules is that of a list. Closing the server (430-432, 440-442) is C64; the exit codes are C58. *)
From Verif Require Import PyBytes.

(** A module: its identity, and its __file__ if it has the attribute (None: the attribute is missing, or None; left out: a None with no
    path left in [paths], which is a TypeError at 411). tremolo.py:402-408 *)
Record pymod := mkMod { m_id : nat; m_file : option bytes }.
(** file_signature: type, size, mtime. utils.py:16-19 *)
Definition sig := (nat * N * N)%type.
(** tremolo.py:420 *)
Definition sigeqb (a b : sig) : bool := let '(x, y, z) := a in let '(x', y', z') := b in Nat.eqb x x' && N.eqb y y' && N.eqb z z'.
(** What a look sees: sys.modules.values(), the files, the memory in KiB. tremolo.py:402, 411, 417, 438 *)
Record sight := mkSight { g_modules : list pymod; g_files : bytes -> option sig; g_memory : Z }.
(** paths: those of sys.path that app_dir does not begin with. tremolo.py:382-383 *)
Definition paths_of (sys_path : list bytes) (app_dir : bytes) : list bytes := filter (fun p => negb (startswith p app_dir)) sys_path.
(** The test of 403-410: the file of a module that is looked at. tremolo.py:403-410 *)
Definition watched (paths : list bytes) (m : pymod) : option bytes :=
  match m_file m with None => None | Some f => if existsb (fun p => startswith p f) paths then None else Some f end.
(** modules: module -> signature; modules are compared by identity. tremolo.py:384 *)
Definition known := list (pymod * sig).
(** tremolo.py:412, 419 *)
Definition modeqb (a b : pymod) : bool := Nat.eqb (m_id a) (m_id b).
(** One look, 402-436, over the modules of [l]: a module whose file changed, or the new dict. tremolo.py:402-436 *)
Fixpoint look (paths : list bytes) (files : bytes -> option sig) (l : list pymod) (k : known) : pymod + known :=
  match l with
  | [] => inr k
  | m :: l' =>
      match watched paths m with
      | None => look paths files l' k
      | Some f =>
          match files f with
          | None => look paths files l' (ddel modeqb m k)                          (* 411-415 *)
          | Some s =>
              match dget modeqb m k with
              | Some s' => if sigeqb s' s then look paths files l' k else inl m    (* 419-436 *)
              | None => look paths files l' (dset modeqb m s k)                    (* 425-427 *)
              end
          end
      end
  end.
(** How the worker goes on after a look: reload (exit code 0), the memory limit (exit code 1), or not at all. tremolo.py:401-443 *)
Inductive ending := Reload (m : pymod) | Memory | Goes (k : known).
(** tremolo.py:401-443; [dict(modules) or sys.modules.values()] is 402. *)
Definition turn (reload : bool) (limit : Z) (paths : list bytes) (g : sight) (k : known) : ending :=
  match (if reload then look paths (g_files g) (match k with [] => g_modules g | _ => map fst k end) k else inr k) with
  | inl m => Reload m
  | inr k' => if (0 <? limit)%Z && (limit <? g_memory g)%Z then Memory else Goes k'
  end.
(** The looks, one after the other, until one ends the worker: the number of those before it, and why. tremolo.py:389-446 *)
Fixpoint looks (reload : bool) (limit : Z) (paths : list bytes) (l : list sight) (k : known) : option (nat * ending) :=
  match l with
  | [] => None
  | g :: l' =>
      match turn reload limit paths g k with
      | Goes k' => match looks reload limit paths l' k' with Some (n, e) => Some (S n, e) | None => None end
      | e => Some (O, e)
      end
  end.

(** ** The supervisor *)
(** The attributes of a module, in the order of dir(): sorted by name. [inr o]: an application, with its attributes (__dict__); [inl tt]: something else. tremolo.py:743-750 *)
Definition mod_attrs {A} := list (bytes * (unit + A)).
(** self.__dict__.update(attr.__dict__) for every application of the module: as every application has all the attributes, self then has those of the last one.
    tremolo.py:743-750 *)
Definition rebind {A} (attrs : mod_attrs (A := A)) (self : A) : A :=
  fold_left (fun acc kv => if startswith (bs "__") (fst kv) then acc else match snd kv with inr o => o | inl _ => acc end) attrs self.
