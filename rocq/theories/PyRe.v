(** The part of Python's re that routes use: bytes patterns, no flags (CPython 3.8-3.12,
    Lib/re, Modules/_sre).

    Patterns: ordinary characters, the escapes of punctuation, \d \w \s, the dot, sets (with
    ranges, negated or not), ^, $, groups (capturing, named, (?:...)), |, and the greedy *, + and ?.
    Anything else ({m,n}, lazy and possessive quantifiers, look-around, back references, flags, other escapes)
    is not modelled: [compile] gives None. *)
From Verif Require Import PyBytes.

(** One character: a range of characters, or one of \d \w \s (re.ASCII is what bytes patterns have). *)
Inductive cls := CRange (a b : ascii) | CDigit | CWord | CSpace.
Definition in_range (a b c : ascii) : bool := (N.leb (N_of_ascii a) (N_of_ascii c) && N.leb (N_of_ascii c) (N_of_ascii b))%bool.
Definition in_cls (x : cls) (c : ascii) : bool :=
  match x with
  | CRange a b => in_range a b c
  | CDigit => in_range "0" "9" c
  | CWord => in_range "0" "9" c || in_range "a" "z" c || in_range "A" "Z" c || Ascii.eqb c "_"
  | CSpace => is_space c
  end.

Inductive re :=
| REmpty
| RLit (c : ascii)
| RAny                                   (* . : any character but LF *)
| RSet (neg : bool) (xs : list cls)
| RBol                                   (* ^ : at the start *)
| REol                                   (* $ : at the end, or before a LF at the end *)
| RSeq (a b : re)
| RAlt (a b : re)
| RStar (a : re)
| RGroup (n : nat) (a : re).
Definition RPlus (a : re) : re := RSeq a (RStar a).
Definition ROpt (a : re) : re := RAlt a REmpty.

(** ** Compiling *)
Definition metas : bytes := bs "\^$.|?*+()[{".
Definition is_alnum (c : ascii) : bool := in_range "0" "9" c || in_range "a" "z" c || in_range "A" "Z" c.
Definition escape (c : ascii) : option cls :=
  if Ascii.eqb c "d" then Some CDigit else if Ascii.eqb c "w" then Some CWord else if Ascii.eqb c "s" then Some CSpace
  else if is_alnum c then None else Some (CRange c c).
(** The inside of a set, up to ]. [first]: a ] here is an ordinary character. *)
Fixpoint parse_set (fuel : nat) (first : bool) (l : bytes) : option (list cls * bytes) :=
  match fuel with
  | O => None
  | S f =>
      match l with
      | [] => None
      | c :: l' =>
          if Ascii.eqb c "]" && negb first then Some ([], l')
          else
            match (if Ascii.eqb c "\" then match l' with e :: l2 => option_map (fun x => (x, l2)) (escape e) | [] => None end
                   else Some (CRange c c, l')) with
            | None => None
            | Some (x, l2) =>
                match l2 with
                | m :: hi :: l3 =>
                    if Ascii.eqb m "-" && negb (Ascii.eqb hi "]") then
                      match x with
                      | CRange a _ =>
                          if Ascii.eqb hi "\" || N.ltb (N_of_ascii hi) (N_of_ascii a) then None
                          else option_map (fun r => (CRange a hi :: fst r, snd r)) (parse_set f false l3)
                      | _ => None
                      end
                    else option_map (fun r => (x :: fst r, snd r)) (parse_set f false l2)
                | _ => option_map (fun r => (x :: fst r, snd r)) (parse_set f false l2)
                end
            end
      end
  end.
(** A quantifier after [a]. *)
Definition quantify (a : re) (l : bytes) : option (re * bytes) :=
  match l with
  | c :: l' =>
      if Ascii.eqb c "*" || Ascii.eqb c "+" || Ascii.eqb c "?" then
        match l' with
        | d :: _ => if memb d (bs "*+?{") then None else Some (if Ascii.eqb c "*" then RStar a else if Ascii.eqb c "+" then RPlus a else ROpt a, l')
        | [] => Some (if Ascii.eqb c "*" then RStar a else if Ascii.eqb c "+" then RPlus a else ROpt a, l')
        end
      else if Ascii.eqb c "{" then None
      else Some (a, l)
  | [] => Some (a, l)
  end.
Definition either (a : re) (o : option re) : re := match o with None => a | Some b => RAlt a b end.
(** What is left of a sequence, the alternatives after it, the number of the next group, and the
    text after them. *)
Fixpoint parse_re (fuel : nat) (g : nat) (l : bytes) : option (re * option re * nat * bytes) :=
  match fuel with
  | O => None
  | S f =>
      let more (a : re) (g' : nat) (l' : bytes) :=
        match quantify a l' with
        | None => None
        | Some (a', l2) =>
            match parse_re f g' l2 with
            | Some (sq, alt, g2, rest) => Some (RSeq a' sq, alt, g2, rest)
            | None => None
            end
        end in
      let group (cap : bool) (l' : bytes) :=
        match parse_re f (if cap then S g else g) l' with
        | Some (sq, alt, g2, ")"%char :: rest) => more (if cap then RGroup g (either sq alt) else either sq alt) g2 rest
        | _ => None
        end in
      match l with
      | [] => Some (REmpty, None, g, [])
      | c :: l' =>
          if Ascii.eqb c ")" then Some (REmpty, None, g, l)
          else if Ascii.eqb c "|" then
            match parse_re f g l' with
            | Some (sq, alt, g2, rest) => Some (REmpty, Some (either sq alt), g2, rest)
            | None => None
            end
          else if Ascii.eqb c "(" then
            if startswith (bs "?:") l' then group false (skipn 2 l')
            else if startswith (bs "?P<") l' then
              match find (bs ">") l' with Some i => group true (skipn (S i) l') | None => None end
            else if startswith (bs "?") l' then None
            else group true l'
          else if Ascii.eqb c "." then more RAny g l'
          else if Ascii.eqb c "^" then more RBol g l'
          else if Ascii.eqb c "$" then more REol g l'
          else if Ascii.eqb c "[" then
            match l' with
            | n :: l2 =>
                if Ascii.eqb n "^" then match parse_set f true l2 with Some (xs, r) => more (RSet true xs) g r | None => None end
                else match parse_set f true l' with Some (xs, r) => more (RSet false xs) g r | None => None end
            | [] => None
            end
          else if Ascii.eqb c "\" then
            match l' with
            | e :: l2 => match escape e with
                         | Some (CRange a _) => more (RLit a) g l2
                         | Some x => more (RSet false [x]) g l2
                         | None => None
                         end
            | [] => None
            end
          else if memb c metas then None
          else more (RLit c) g l'
      end
  end.
(** re.compile *)
Definition compile (pattern : bytes) : option re :=
  match parse_re (S (List.length pattern)) 1 pattern with
  | Some (sq, alt, _, []) => Some (either sq alt)
  | _ => None
  end.

(** ** Matching *)
(** Where the matcher is: the position, the text from there, and the groups so far (latest first). *)
Record st := mkSt { s_pos : nat; s_rest : bytes; s_groups : list (nat * bytes) }.
Definition advance (s : st) : st := mkSt (S (s_pos s)) (tl (s_rest s)) (s_groups s).
Definition one (p : ascii -> bool) (s : st) : bool := match s_rest s with c :: _ => p c | [] => false end.
Definition at_end (s : st) : bool := match s_rest s with [] => true | [c] => Ascii.eqb c LF | _ => false end.
Definition capture (n : nat) (s s' : st) : st :=
  mkSt (s_pos s') (s_rest s') ((n, firstn (s_pos s' - s_pos s) (s_rest s)) :: s_groups s').
(** Backtracking: [r] from [s], then [k]. *)
Fixpoint mt {R} (r : re) (s : st) (k : st -> option R) : option R :=
  match r with
  | REmpty => k s
  | RLit c => if one (Ascii.eqb c) s then k (advance s) else None
  | RAny => if one (fun x => negb (Ascii.eqb x LF)) s then k (advance s) else None
  | RSet neg xs => if one (fun x => xorb neg (existsb (fun c => in_cls c x) xs)) s then k (advance s) else None
  | RBol => if Nat.eqb (s_pos s) 0 then k s else None
  | REol => if at_end s then k s else None
  | RSeq a b => mt a s (fun s' => mt b s' k)
  | RAlt a b => match mt a s k with Some x => Some x | None => mt b s k end
  | RStar a =>
      (fix loop (n : nat) (s : st) : option R :=
         match n with
         | O => k s
         | S n' =>
             match mt a s (fun s' => if Nat.eqb (s_pos s') (s_pos s) then None else loop n' s') with
             | Some x => Some x
             | None => k s
             end
         end) (S (List.length (s_rest s))) s
  | RGroup n a => mt a s (fun s' => k (capture n s s'))
  end.
(** pattern.search(text): the groups of the leftmost match. *)
Fixpoint search_from (r : re) (p : nat) (l : bytes) : option (list (nat * bytes)) :=
  match mt r (mkSt p l []) (fun s => Some (s_groups s)) with
  | Some g => Some g
  | None => match l with [] => None | _ :: l' => search_from r (S p) l' end
  end.
Definition search (pattern text : bytes) : option (list (nat * bytes)) :=
  match compile pattern with Some r => search_from r 0 text | None => None end.

Example search_1 : search (bs "^/page/(\d+)(?:\.(?P<ext>html|txt))?$") (bs "/page/12.txt") = Some [(2, bs "txt"); (1, bs "12")].
Proof. vm_compute. reflexivity. Qed.
Example search_2 : search (bs "[a-c]+x|y[^0-9]") (bs "aay1yz") = Some [] /\ search (bs "[a-c]+x|y[^0-9]") (bs "aay1y1") = None.
Proof. split; vm_compute; reflexivity. Qed.
