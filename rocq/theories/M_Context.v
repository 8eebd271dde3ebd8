(** Contexts: the objects that carry values between hooks, middlewares and handlers (tremolo/lib/contexts.py).

    Contexts live in a heap, in order of creation. Attribute access follows Python: a data descriptor of the class first, then the instance's dict, then
    other attributes of the class. Names are strings; their values are opaque. Assigning to __dict__, __class__ or __weakref__, which object handles
    itself, and mutating the dict taken out through __dict__ are not modelled ([Other]). *)
From Verif Require Import PyBytes.

(** The three classes. contexts.py:4, 25, 42 *)
Inductive kind := Plain | Worker | Server.
(** A value: the dict or set that the constructor of context [i] makes for the entry [p], or something of the application. contexts.py:6, 27-30, 44-47 *)
Inductive val := Made (i : nat) (p : bytes) | Given (n : N).
(** A context: its class and its __dict__. contexts.py:6 *)
Record ctx := mkCtx { x_kind : kind; x_dict : list (bytes * val) }.
(** The properties of the class; they have no setter. contexts.py:32-38, 49-55 *)
Definition props (k : kind) : list bytes :=
  match k with Plain => [] | Worker => [bs "options"; bs "queues"] | Server => [bs "options"; bs "tasks"] end.
(** The constructors. contexts.py:5-6, 26-30, 43-47 *)
Definition make (i : nat) (k : kind) : ctx := mkCtx k (map (fun p => (p, Made i p)) (props k)).
(** Data descriptors that every class has from object. contexts.py:4 *)
Definition slots : list bytes := [bs "__dict__"; bs "__class__"; bs "__weakref__"].
(** The other attributes of the classes: those defined in the class statement, and those of object (Python 3.13). contexts.py:4-22 *)
Definition methods : list bytes :=
  map bs ["__init__"; "__repr__"; "get"; "__setitem__"; "__getitem__"; "__contains__"; "__module__"; "__doc__"; "__new__"; "__hash__"; "__str__";
          "__getattribute__"; "__setattr__"; "__delattr__"; "__lt__"; "__le__"; "__eq__"; "__ne__"; "__gt__"; "__ge__"; "__reduce_ex__"; "__reduce__";
          "__getstate__"; "__subclasshook__"; "__init_subclass__"; "__format__"; "__sizeof__"; "__dir__"; "__static_attributes__"; "__firstlineno__"]%string.

(** What an operation gives. [Method n] is the attribute n of the class, [Called v] the outcome of calling the value v. contexts.py:4-22 *)
Inductive outcome := Val (v : val) | Default | Bool (b : bool) | Done | Method (n : bytes) | Called (v : val) | KeyError | AttributeError | Other.
(** getattr(c, n). contexts.py:32-38, 49-55 *)
Definition getattr (c : ctx) (n : bytes) : outcome :=
  if existsb (beqb n) (props (x_kind c)) then match dget beqb n (x_dict c) with Some v => Val v | None => KeyError end
  else if existsb (beqb n) slots then Other
  else match dget beqb n (x_dict c) with
       | Some v => Val v
       | None => if existsb (beqb n) methods then Method n else AttributeError
       end.
(** setattr(c, n, v). contexts.py:15 *)
Definition setattr (c : ctx) (n : bytes) (v : val) : ctx * outcome :=
  if existsb (beqb n) (props (x_kind c)) then (c, AttributeError)
  else if existsb (beqb n) slots then (c, Other)
  else (mkCtx (x_kind c) (dset beqb n v (x_dict c)), Done).
(** delattr(c, n). contexts.py:4 *)
Definition delattr (c : ctx) (n : bytes) : ctx * outcome :=
  if existsb (beqb n) (props (x_kind c)) then (c, AttributeError)
  else if existsb (beqb n) slots then (c, Other)
  else if dmem beqb n (x_dict c) then (mkCtx (x_kind c) (ddel beqb n (x_dict c)), Done) else (c, AttributeError).
(** c[n]. contexts.py:17-18 *)
Definition getitem (c : ctx) (n : bytes) : outcome := match dget beqb n (x_dict c) with Some v => Val v | None => KeyError end.
(** c[n] = v; self.__setattr__ is looked up like any attribute. contexts.py:14-15 *)
Definition setitem (c : ctx) (n : bytes) (v : val) : ctx * outcome :=
  match getattr c (bs "__setattr__") with
  | Val f => (c, Called f)
  | _ => setattr c n v
  end.
(** c.get(n, default). contexts.py:11-12 *)
Definition get (c : ctx) (n : bytes) : outcome :=
  match getattr c (bs "get") with
  | Val f => Called f
  | _ => match dget beqb n (x_dict c) with Some v => Val v | None => Default end
  end.
(** n in c. contexts.py:20-21 *)
Definition contains (c : ctx) (n : bytes) : outcome := Bool (dmem beqb n (x_dict c)).

(** What application and server do with contexts. Connections make a ServerContext each, workers a WorkerContext. http_protocol.py:39, tremolo.py:263 *)
Inductive op := New (k : kind) | SetAttr (i : nat) (n : bytes) (v : N) | SetItem (i : nat) (n : bytes) (v : N) | DelAttr (i : nat) (n : bytes).
(** contexts.py:4-22 *)
Definition update (i : nat) (f : ctx -> ctx * outcome) (h : list ctx) : list ctx * outcome :=
  match nth_error h i with
  | Some c => let (c', o) := f c in (firstn i h ++ c' :: skipn (S i) h, o)
  | None => (h, Other)
  end.
(** contexts.py:4-22 *)
Definition step (h : list ctx) (o : op) : list ctx * outcome :=
  match o with
  | New k => (h ++ [make (List.length h) k], Done)
  | SetAttr i n v => update i (fun c => setattr c n (Given v)) h
  | SetItem i n v => update i (fun c => setitem c n (Given v)) h
  | DelAttr i n => update i (fun c => delattr c n) h
  end.
(** contexts.py:4-22 *)
Fixpoint run (h : list ctx) (l : list op) : list ctx := match l with [] => h | o :: l' => run (fst (step h o)) l' end.
