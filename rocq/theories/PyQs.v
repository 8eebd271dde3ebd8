(** bytes.decode('utf-8', 'replace') and urllib.parse: unquote, parse_qsl, parse_qs (CPython
    3.11), as used by tremolo: on text that came from bytes by decode('latin-1'). Such a text
    is given by these bytes; text in results is a list of code points. *)
From Verif Require Import PyBytes PyInt PyExn PyUtf8.
Local Open Scope N_scope.

(** What may follow a lead byte: how many continuation bytes, and the range of the first. *)
Definition lead (n : N) : option (N * N * N) :=
  if (0xC2 <=? n) && (n <=? 0xDF) then Some (1, 0x80, 0xBF)
  else if n =? 0xE0 then Some (2, 0xA0, 0xBF)
  else if n =? 0xED then Some (2, 0x80, 0x9F)
  else if (0xE1 <=? n) && (n <=? 0xEF) then Some (2, 0x80, 0xBF)
  else if n =? 0xF0 then Some (3, 0x90, 0xBF)
  else if n =? 0xF4 then Some (3, 0x80, 0x8F)
  else if (0xF1 <=? n) && (n <=? 0xF3) then Some (3, 0x80, 0xBF)
  else None.
Definition within (lo hi : N) (c : byte) : bool := (lo <=? N_of_ascii c) && (N_of_ascii c <=? hi).
Definition is_cont (c : byte) : bool := within 0x80 0xBF c.
Definition low6 (c : byte) : N := N_of_ascii c - 0x80.
Definition FFFD : N := 0xFFFD.
(** The longest start of a sequence that is not continued is replaced by one U+FFFD. *)
Fixpoint decode_replace (l : bytes) : pystr :=
  match l with
  | [] => []
  | c0 :: l0 =>
      let n := N_of_ascii c0 in
      if n <? 0x80 then n :: decode_replace l0
      else match lead n with
           | None => FFFD :: decode_replace l0
           | Some (k, lo, hi) =>
               match l0 with
               | [] => [FFFD]
               | c1 :: l1 =>
                   if negb (within lo hi c1) then FFFD :: decode_replace l0
                   else if k =? 1 then ((n - 0xC0) * 64 + low6 c1) :: decode_replace l1
                   else match l1 with
                        | [] => [FFFD]
                        | c2 :: l2 =>
                            if negb (is_cont c2) then FFFD :: decode_replace l1
                            else if k =? 2 then ((n - 0xE0) * 4096 + low6 c1 * 64 + low6 c2) :: decode_replace l2
                            else match l2 with
                                 | [] => [FFFD]
                                 | c3 :: l3 =>
                                     if negb (is_cont c3) then FFFD :: decode_replace l2
                                     else ((n - 0xF0) * 262144 + low6 c1 * 4096 + low6 c2 * 64 + low6 c3) :: decode_replace l3
                                 end
                        end
               end
           end
  end.

(** _hextobyte: two hexadecimal digits of either case. *)
Definition hexval (c : byte) : option N := match digit_val c with Some v => if v <? 16 then Some v else None | None => None end.
Definition hexbyte (item : bytes) : option byte :=
  match item with
  | a :: b :: _ => match hexval a, hexval b with Some x, Some y => Some (ascii_of_N (16 * x + y)) | _, _ => None end
  | _ => None
  end.
(** unquote_to_bytes *)
Definition unquote_to_bytes (s : bytes) : bytes :=
  match split (bs "%") s with
  | [] => []
  | first :: bits =>
      first ++ flat_map (fun item => match hexbyte item with Some c => c :: skipn 2 item | None => "%"%char :: item end) bits
  end.
Definition is_ascii (c : byte) : bool := N_of_ascii c <? 0x80.
(** The parts of the text that are ASCII, and the other characters. *)
Fixpoint unquote_runs (run : bytes) (s : bytes) : pystr :=
  match s with
  | [] => decode_replace (unquote_to_bytes run)
  | c :: s' => if is_ascii c then unquote_runs (run ++ [c]) s'
               else decode_replace (unquote_to_bytes run) ++ N_of_ascii c :: unquote_runs [] s'
  end.
Definition unquote (s : bytes) : pystr := if memb "%"%char s then unquote_runs [] s else map N_of_ascii s.
Definition unquote_plus (s : bytes) : pystr := unquote (replace (bs "+") (bs " ") s).

(** parse_qsl(qs, max_num_fields=m): blank values are dropped. *)
Definition parse_qsl (qs : bytes) (m : nat) : res (list (pystr * pystr)) :=
  match qs with
  | [] => Ok []
  | _ =>
      if Nat.ltb m (1 + count (bs "&") qs) then Raise ValueError
      else Ok (flat_map (fun nv => let '(name, _, value) := partition (bs "=") nv in
                                   match value with [] => [] | _ => [(unquote_plus name, unquote_plus value)] end)
                        (split (bs "&") qs))
  end.
Fixpoint streqb (a b : pystr) : bool :=
  match a, b with [], [] => true | x :: a', y :: b' => (x =? y) && streqb a' b' | _, _ => false end.
Definition qdict := list (pystr * list pystr).
(** parse_qs: a dict of lists. *)
Definition parse_qs (qs : bytes) (m : nat) : res qdict :=
  let! pairs := parse_qsl qs m in
  Ok (fold_left (fun d nv => match dget streqb (fst nv) d with
                             | Some l => dset streqb (fst nv) (l ++ [snd nv]) d
                             | None => dset streqb (fst nv) [snd nv] d
                             end) pairs []).
