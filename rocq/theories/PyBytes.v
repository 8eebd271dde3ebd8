(** Python [bytes]/[bytearray] values and the methods of them that tremolo uses.
    A byte is an [ascii] (exactly 256 values), a byte string a list of them.
    These definitions model CPython's built-ins, not tremolo code; every
    tremolo function that uses one of them cites its own source lines. *)
From Coq Require Export String Ascii ZArith NArith Bool Lia List.
Export ListNotations.
#[global] Open Scope list_scope.
#[global] Open Scope nat_scope.

Notation byte := ascii (only parsing).
Definition bytes := list ascii.

(** Literal [b'...'] for printable text. *)
Definition bs (s : string) : bytes := list_ascii_of_string s.

Definition CR : byte := ascii_of_nat 13.
Definition LF : byte := ascii_of_nat 10.
Definition SP : byte := ascii_of_nat 32.
Definition CRLF : bytes := [CR; LF].

(** [len(b)] as a Python int. *)
Definition blen (l : bytes) : Z := Z.of_nat (List.length l).

(** [a == b] on byte strings. *)
Fixpoint beqb (a b : bytes) : bool :=
  match a, b with
  | [], [] => true
  | x :: a', y :: b' => Ascii.eqb x y && beqb a' b'
  | _, _ => false
  end.

(** [x in b] for one byte. *)
Definition memb (x : byte) (l : bytes) : bool := existsb (Ascii.eqb x) l.

(** [b.startswith(p)] *)
Fixpoint startswith (p l : bytes) : bool :=
  match p, l with
  | [], _ => true
  | x :: p', y :: l' => Ascii.eqb x y && startswith p' l'
  | _ :: _, [] => false
  end.

(** [b.endswith(p)] *)
Definition endswith (p l : bytes) : bool := startswith (rev p) (rev l).

(** [b.find(sub)]: position of the first occurrence ([None] for Python's -1). *)
Fixpoint find (sub l : bytes) : option nat :=
  if startswith sub l then Some 0
  else match l with
       | [] => None
       | _ :: l' => option_map S (find sub l')
       end.

(** [b.find(sub, start)] for [start <= len(b)], absolute position. *)
Definition find_from (sub : bytes) (start : nat) (l : bytes) : option nat :=
  if Nat.ltb (List.length l) start then None
  else option_map (Nat.add start) (find sub (skipn start l)).

(** [b.rfind(sub)]: position of the last occurrence. *)
Fixpoint rfind (sub l : bytes) : option nat :=
  match l with
  | [] => if startswith sub [] then Some 0 else None
  | _ :: l' =>
      match rfind sub l' with
      | Some i => Some (S i)
      | None => if startswith sub l then Some 0 else None
      end
  end.

(** Python's integer result of [find]/[rfind]: -1 when absent. *)
Definition pos (o : option nat) : Z :=
  match o with Some n => Z.of_nat n | None => (-1)%Z end.

(** [sub in b] *)
Definition contains (sub l : bytes) : bool :=
  match find sub l with Some _ => true | None => false end.

(** Index normalisation of Python slices: negative indices count from the end,
    everything is clamped to [0, len]. *)
Definition norm_index (n : nat) (i : Z) : nat :=
  Z.to_nat (Z.max 0 (Z.min (Z.of_nat n) (if (i <? 0)%Z then i + Z.of_nat n else i)%Z)).

(** [b[i:j]] *)
Definition slice {A} (l : list A) (i j : Z) : list A :=
  let a := norm_index (List.length l) i in
  let z := norm_index (List.length l) j in
  firstn (z - a) (skipn a l).

(** [b[:j]] *)
Definition upto {A} (l : list A) (j : Z) : list A :=
  firstn (norm_index (List.length l) j) l.

(** [b[i:]] *)
Definition from {A} (l : list A) (i : Z) : list A :=
  skipn (norm_index (List.length l) i) l.

(** [b.split(sep, maxsplit)], [sep] non-empty. *)
Fixpoint split_max (sep : bytes) (maxsplit : nat) (l : bytes) : list bytes :=
  match maxsplit with
  | O => [l]
  | S n =>
      match find sep l with
      | None => [l]
      | Some i => firstn i l :: split_max sep n (skipn (i + List.length sep) l)
      end
  end.

(** [b.split(sep)]: a non-empty separator occurs at most [len(b)] times. *)
Definition split (sep l : bytes) : list bytes := split_max sep (List.length l) l.

(** [sep.join(parts)] *)
Fixpoint join (sep : bytes) (parts : list bytes) : bytes :=
  match parts with
  | [] => []
  | [p] => p
  | p :: ps => p ++ sep ++ join sep ps
  end.

(** [b.replace(old, new)], [old] non-empty: non-overlapping, left to right. *)
Definition replace (old new l : bytes) : bytes := join new (split old l).

(** [b.count(sub)], [sub] non-empty. *)
Definition count (sub l : bytes) : nat := List.length (split sub l) - 1.

(** [b.partition(sep)] *)
Definition partition (sep l : bytes) : bytes * bytes * bytes :=
  match find sep l with
  | Some i => (firstn i l, sep, skipn (i + List.length sep) l)
  | None => (l, [], [])
  end.

(** [b.rsplit(sep, 1)] *)
Definition rsplit1 (sep l : bytes) : list bytes :=
  match rfind sep l with
  | Some i => [firstn i l; skipn (i + List.length sep) l]
  | None => [l]
  end.

Fixpoint lstrip_by (p : byte -> bool) (l : bytes) : bytes :=
  match l with
  | [] => []
  | x :: l' => if p x then lstrip_by p l' else l
  end.
Definition rstrip_by (p : byte -> bool) (l : bytes) : bytes := rev (lstrip_by p (rev l)).
Definition strip_by (p : byte -> bool) (l : bytes) : bytes := rstrip_by p (lstrip_by p l).

(** ASCII whitespace as stripped by [bytes.strip()] and accepted by [int()]:
    space, \t, \n, \v, \f, \r. *)
Definition is_space (x : byte) : bool :=
  let n := N_of_ascii x in ((n =? 32) || ((9 <=? n) && (n <=? 13)))%N.

(** [b.strip(chars)], [b.strip()], [b.lstrip()] *)
Definition strip (chars l : bytes) : bytes := strip_by (fun x => memb x chars) l.
Definition strip_ws (l : bytes) : bytes := strip_by is_space l.
Definition lstrip_ws (l : bytes) : bytes := lstrip_by is_space l.

(** [b.lower()], [b.upper()]: ASCII letters only. *)
Definition lower1 (x : byte) : byte :=
  let n := N_of_ascii x in
  (if (65 <=? n) && (n <=? 90) then ascii_of_N (n + 32) else x)%N.
Definition upper1 (x : byte) : byte :=
  let n := N_of_ascii x in
  (if (97 <=? n) && (n <=? 122) then ascii_of_N (n - 32) else x)%N.
Definition lower (l : bytes) : bytes := map lower1 l.
Definition upper (l : bytes) : bytes := map upper1 l.

(** Association lists as insertion-ordered Python dicts. *)
Section Dict.
  Context {K V : Type} (eqb : K -> K -> bool).
  Fixpoint dget (k : K) (d : list (K * V)) : option V :=
    match d with
    | [] => None
    | (k', v) :: d' => if eqb k k' then Some v else dget k d'
    end.
  (** [d[k] = v]: an existing key keeps its position. *)
  Fixpoint dset (k : K) (v : V) (d : list (K * V)) : list (K * V) :=
    match d with
    | [] => [(k, v)]
    | (k', v') :: d' => if eqb k k' then (k', v) :: d' else (k', v') :: dset k v d'
    end.
  Fixpoint ddel (k : K) (d : list (K * V)) : list (K * V) :=
    match d with
    | [] => []
    | (k', v') :: d' => if eqb k k' then d' else (k', v') :: ddel k d'
    end.
  Definition dmem (k : K) (d : list (K * V)) : bool :=
    match dget k d with Some _ => true | None => false end.
End Dict.
