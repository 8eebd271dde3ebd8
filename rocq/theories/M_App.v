(** Model of the registration methods of Tremolo (tremolo/tremolo.py:38-190): listen, error, event, middleware, add_middleware and getoptions. add_route is in
    M_Route.v. A wrapper (functools.wraps) is identified with the function that it calls; it has itself no parameters but keyword arguments. *)
From Verif Require Import PyBytes PyExn.

Section App.
Context {V : Type}.
(** A dict of options. tremolo.py:171, 189 *)
Definition options := list (bytes * V).
(** A function: which one; __code__.co_varnames, __code__.co_argcount, __defaults__. tremolo.py:170-181 *)
Record pyfun := mkFun { f_id : nat; f_vars : list bytes; f_argc : Z; f_defaults : option (list V) }.

(** The loop of getoptions, tremolo.py:177-179. [i]: enumerate; defaults[i]. *)
Fixpoint fill (names : list bytes) (i : nat) (defaults : list V) (o : options) : res options :=
  match names with
  | [] => Ok o
  | n :: names' => match nth_error defaults i with Some v => fill names' (S i) defaults (dset beqb n v o) | None => Raise IndexError end
  end.
(** tremolo.py:170-181. Without defaults the slice is empty. *)
Definition getoptions (f : pyfun) : res options :=
  match f_defaults f with
  | None => fill (slice (f_vars f) (f_argc f) (f_argc f)) 0 [] []
  | Some d => fill (slice (f_vars f) (f_argc f - Z.of_nat (List.length d)) (f_argc f)) 0 d []
  end.
(** dict(a, **b), tremolo.py:106 *)
Definition update (a b : options) : options := fold_left (fun o kv => dset beqb (fst kv) (snd kv) o) b a.

(** The key of a port: (host, port); a Unix socket has its path as host. tremolo.py:72-80 *)
Inductive port_arg := PInt (p : Z) | PPath (s : bytes).
(** tremolo.py:72-75 *)
Definition port_key (p : port_arg) (host : option bytes) : option bytes * option Z :=
  match p with PInt n => (host, Some n) | PPath s => (Some s, None) end.
(** tremolo.py:77 *)
Definition okeqb (a b : option bytes * option Z) : bool :=
  match fst a, fst b with Some x, Some y => beqb x y | None, None => true | _, _ => false end &&
  match snd a, snd b with Some x, Some y => (x =? y)%Z | None, None => true | _, _ => false end.

(** self.routes[0], self.middlewares, self.events, self.ports. tremolo.py:39-66 *)
Record app := mkApp { a_errors : list (Z * nat * options); a_middlewares : list (bytes * list (nat * options)); a_events : list (bytes * list nat); a_ports : list ((option bytes * option Z) * options) }.
(** A new application; [e400], [e404], [e500]: handlers.error_400 and so on; [o404]: the options of error_404. tremolo.py:39-66 *)
Definition app_new (e400 e404 e500 : nat) (o404 : options) : app :=
  mkApp [(400%Z, e400, []); (404%Z, e404, o404); (500%Z, e500, [])]
        [(bs "connect", []); (bs "close", []); (bs "request", []); (bs "response", [])] [(bs "worker_start", []); (bs "worker_stop", [])] [].

(** The loop of error, tremolo.py:103-108: the first entry with this code. *)
Fixpoint set_error (code : Z) (id : nat) (o : options) (l : list (Z * nat * options)) : list (Z * nat * options) :=
  match l with
  | [] => []
  | (c, h, ho) :: l' => if (code =? c)%Z then (c, id, update ho o) :: l' else (c, h, ho) :: set_error code id o l'
  end.
(** A call of the application. [Error]: error(code)(f) and route(code)(f) (83-84); [Middleware]: middleware(name)(f), on_connect and so on (128-168); [Event]:
    event(name)(f), on_worker_start, on_worker_stop. tremolo.py:71-168 *)
Inductive call := Listen (p : port_arg) (host : option bytes) (o : options) | Error (code : Z) (f : pyfun) | Middleware (name : bytes) (f : pyfun) | Event (name : bytes) (f : pyfun).
(** What a call returns: a boolean, the decorated function, or an exception. tremolo.py:71-168 *)
Inductive ret := RBool (b : bool) | RFun (id : nat) | RExc (e : exn).
(** tremolo.py:71-126, 135-145, 183-190 *)
Definition app_call (a : app) (c : call) : ret * app :=
  match c with
  | Listen p host o =>                                                          (* 71-80 *)
      let k := port_key p host in
      if dmem okeqb k (a_ports a) then (RBool false, a)
      else let ports := dset okeqb k o (a_ports a) in
           (RBool (dmem okeqb k ports), mkApp (a_errors a) (a_middlewares a) (a_events a) ports)
  | Error code f =>                                                             (* 97-112; getoptions only if an entry has the code *)
      if existsb (fun h => (code =? fst (fst h))%Z) (a_errors a) then
        match getoptions f with
        | Ok o => (RFun (f_id f), mkApp (set_error code (f_id f) o (a_errors a)) (a_middlewares a) (a_events a) (a_ports a))
        | Raise e => (RExc e, a)
        end
      else (RFun (f_id f), a)
  | Middleware name f =>                                                        (* 135-145, 183-190; kwargs or getoptions(wrapper) *)
      match getoptions f with
      | Ok o =>
          match dget beqb name (a_middlewares a) with
          | Some l => (RFun (f_id f), mkApp (a_errors a) (dset beqb name (l ++ [(f_id f, o)]) (a_middlewares a)) (a_events a) (a_ports a))
          | None => (RExc ValueError, a)
          end
      | Raise e => (RExc e, a)
      end
  | Event name f =>                                                             (* 114-123 *)
      match dget beqb name (a_events a) with
      | Some l => (RFun (f_id f), mkApp (a_errors a) (a_middlewares a) (dset beqb name (l ++ [f_id f]) (a_events a)) (a_ports a))
      | None => (RExc KeyError, a)
      end
  end.
(** Several calls. tremolo.py:71-190 *)
Fixpoint app_calls (a : app) (cs : list call) : list ret * app :=
  match cs with
  | [] => ([], a)
  | c :: cs' => let '(r, a1) := app_call a c in let '(rs, a2) := app_calls a1 cs' in (r :: rs, a2)
  end.
End App.
Arguments options V : clear implicits.
Arguments pyfun V : clear implicits.
Arguments app V : clear implicits.
Arguments call V : clear implicits.
