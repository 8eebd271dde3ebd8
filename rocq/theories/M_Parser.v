(** Model of tremolo/lib/http_parser.py. *)
From Verif Require Import PyBytes PyInt PyExn.

(** Values held by the [headers] dict: a byte string, the int stored under
    [_status], or a list of those once a name is repeated.
    http_parser.py:87-93, 122-129 *)
Inductive atom := AB (v : bytes) | AI (n : Z).
(** http_parser.py:122-129: a value, or a list of them. *)
Inductive hval := One (a : atom) | Many (l : list atom).
(** http_parser.py:4 (class Headers(dict)), in order of insertion. *)
Definition hdict := list (bytes * hval).

(** http_parser.py:22-41 (ParseHeader.__slots__ and __init__) *)
Record header := mkHeader {
  is_request : bool;
  is_response : bool;
  is_valid_request : bool;
  is_valid_response : bool;
  headers : hdict;
  hlist : list (bytes * bytes);      (* self._headers *)
  hbody : bytes                      (* self._body *)
}.
(** http_parser.py:32-39 *)
Definition header0 : header := mkHeader false false false false [] [] [].

(** dict.get and d[k], http_parser.py:9, 123, 173-188 *)
Definition hget (k : bytes) (d : hdict) : option hval := dget beqb k d.
(** d[k] = v, http_parser.py:89-129 *)
Definition hset (k : bytes) (v : hval) (d : hdict) : hdict := dset beqb k v d.
(** k in d, http_parser.py:122, 126, 140 *)
Definition hmem (k : bytes) (d : hdict) : bool := dmem beqb k d.

(** http_parser.py:89 *)
Definition k_version := bs "_version".
(** http_parser.py:93 *)
Definition k_status := bs "_status".
(** http_parser.py:91 *)
Definition k_message := bs "_message".
(** http_parser.py:104 *)
Definition k_method := bs "_method".
(** http_parser.py:105 *)
Definition k_url := bs "_url".
(** http_parser.py:114 *)
Definition k_line := bs "_line".
(** http_parser.py:140 *)
Definition k_host := bs "host".

(** An assignment into self.headers, http_parser.py:114 *)
Definition set_headers (h : header) (d : hdict) : header :=
  mkHeader (is_request h) (is_response h) (is_valid_request h) (is_valid_response h)
           d (hlist h) (hbody h).

(** http_parser.py:74-75, 134-135 *)
Definition invalidate (h : header) : header :=
  mkHeader (is_request h) (is_response h) false false (headers h) (hlist h) (hbody h).

(** First line that starts with "HTTP/". http_parser.py:83-98.
    The four-way unpacking raises before anything is stored; a bad status
    raises after version and message were stored, and they are overwritten. *)
Definition first_response (line : bytes) (h : header) : header :=
  let d := headers h in
  match split_max [SP] 3 (replace (bs "/") [SP] line) with
  | [_; version; status; message] =>
      let d1 := hset k_message (One (AB message)) (hset k_version (One (AB version)) d) in
      match py_int status with
      | Some n =>
          mkHeader (is_request h) true (is_valid_request h) true
                   (hset k_status (One (AI n)) d1) (hlist h) (hbody h)
      | None =>
          mkHeader (is_request h) true (is_valid_request h) (is_valid_response h)
                   (hset k_message (One (AB [])) (hset k_status (One (AI 0))
                     (hset k_version (One (AB [])) d1))) (hlist h) (hbody h)
      end
  | _ =>
      mkHeader (is_request h) true (is_valid_request h) (is_valid_response h)
               (hset k_message (One (AB [])) (hset k_status (One (AI 0))
                 (hset k_version (One (AB [])) d))) (hlist h) (hbody h)
  end.

(** First line of a request. http_parser.py:99-112; [p] is http_pos. *)
Definition first_request (p : nat) (line : bytes) (h : header) : header :=
  let d := headers h in
  match split_max [SP] 1 (firstn (p - 1) line) with
  | [method; url] =>
      mkHeader true (is_response h) true (is_valid_response h)
               (hset k_version (One (AB (skipn (p + 5) line)))
                 (hset k_url (One (AB url)) (hset k_method (One (AB method)) d)))
               (hlist h) (hbody h)
  | _ =>
      mkHeader true (is_response h) (is_valid_request h) (is_valid_response h)
               (hset k_version (One (AB [])) (hset k_url (One (AB []))
                 (hset k_method (One (AB [])) d)))
               (hlist h) (hbody h)
  end.

(** http_parser.py:80-114 *)
Definition first_line (line : bytes) (h : header) : header :=
  let h1 :=
    match rfind (bs "HTTP/") line with
    | Some 0 => first_response line h
    | Some p =>
        if (1 <? p) && Ascii.eqb (nth (p - 1) line LF) SP
        then first_request p line h else h
    | None => h
    end in
  set_headers h1 (hset k_line (One (AB line)) (headers h1)).

(** http_parser.py:119-120 *)
Definition drop_space (v : bytes) : bytes :=
  if startswith [SP] v then skipn 1 v else v.

(** Storing one header value, turning repeated names into lists.
    http_parser.py:122-129 *)
Definition store (name value : bytes) (d : hdict) : hdict :=
  match hget name d with
  | Some (Many l) => hset name (Many (l ++ [AB value])) d
  | Some (One a) => hset name (Many [a; AB value]) d
  | None => hset name (One (AB value)) d
  end.

(** name in excludes and in args, http_parser.py:131, 157 *)
Definition mem_bytes (x : bytes) (l : list bytes) : bool := existsb (beqb x) l.

(** A header line whose colon is at [c]. http_parser.py:116-132 *)
Definition field_line (excludes : list bytes) (c : nat) (line : bytes) (h : header) : header :=
  let name := lower (firstn c line) in
  let value := drop_space (skipn (c + 1) line) in
  mkHeader (is_request h) (is_response h) (is_valid_request h) (is_valid_response h)
           (store name value (headers h))
           (if mem_bytes name excludes then hlist h else hlist h ++ [(name, value)])
           (hbody h).

(** How the line loop ends: [return self] (line 76) or [break] (lines 68, 136). *)
Inductive exit := Return | Break.

(** The loop of http_parser.py:64-138. [rest] is data[start:header_size];
    [first] is [start == 0]; [n] is max_lines (a negative max_lines behaves as 0). *)
Fixpoint parse_lines (excludes : list bytes) (max_line_size : Z) (n : nat) (first : bool)
                     (rest : bytes) (h : header) : exit * header :=
  match find CRLF rest with
  | None => (Break, h)
  | Some e =>
      let line := firstn e rest in
      match n with
      | O => (Return, invalidate h)
      | S n' =>
          if (max_line_size <? Z.of_nat e)%Z || memb LF line then (Return, invalidate h)
          else if first then
            parse_lines excludes max_line_size n' false (skipn (e + 2) rest) (first_line line h)
          else
            match find_from (bs ":") 1 line with
            | Some c =>
                if Ascii.eqb (nth (c - 1) line LF) SP then (Break, invalidate h)
                else parse_lines excludes max_line_size n' false (skipn (e + 2) rest)
                                 (field_line excludes c line h)
            | None => (Break, invalidate h)
            end
      end
  end.

(** headers[_version] == 1.1, http_parser.py:143 *)
Definition is_version_11 (v : option hval) : bool :=
  match v with Some (One (AB s)) => beqb s (bs "1.1") | _ => false end.

(** http_parser.py:140-144 *)
Definition check_host (h : header) : header :=
  if is_request h && negb (hmem k_host (headers h)) then
    let d := hset k_host (One (AB [])) (headers h) in
    mkHeader (is_request h) (is_response h)
             (is_valid_request h && negb (is_version_11 (hget k_version d)))
             (is_valid_response h) d (hlist h) (hbody h)
  else h.

(** ParseHeader.parse, http_parser.py:43-146, for data that is not None. *)
Definition parse (h : header) (data : bytes) (header_size header_max_size : Z)
                 (excludes : list bytes) (max_lines : nat) (max_line_size : Z) : header :=
  let hs := (if header_size =? -1
             then pos (find (CRLF ++ CRLF) (upto data header_max_size)) + 2
             else header_size)%Z in
  if (hs <? 2)%Z then h
  else
    let h0 := mkHeader false false false false [] [] (from data (hs + 2)) in
    match parse_lines excludes max_line_size max_lines true (upto data hs) h0 with
    | (Return, h1) => h1
    | (Break, h1) => check_host h1
    end.

(** ParseHeader(data, **kwargs), http_parser.py:31-41 *)
Definition parse_header (data : bytes) (header_size header_max_size : Z)
    (excludes : list bytes) (max_lines : nat) (max_line_size : Z) : header :=
  parse header0 data header_size header_max_size excludes max_lines max_line_size.

(** ParseHeader.remove, http_parser.py:148-160: a backwards loop deleting entries
    in place. [remove_loop i] has i entries left to look at. *)
Fixpoint remove_loop (args : list bytes) (i : nat) (l : list (bytes * bytes)) : list (bytes * bytes) :=
  match i with
  | O => l
  | S i' =>
      match nth_error l i' with
      | Some (name, _) =>
          if mem_bytes name args
          then remove_loop args i' (firstn i' l ++ skipn (i' + 1) l)
          else remove_loop args i' l
      | None => remove_loop args i' l   (* unreachable: i' < len *)
      end
  end.
(** A change of self._headers, http_parser.py:158, 165 *)
Definition set_hlist (h : header) (l : list (bytes * bytes)) : header :=
  mkHeader (is_request h) (is_response h) (is_valid_request h) (is_valid_response h)
           (headers h) l (hbody h).
(** http_parser.py:148-160 *)
Definition remove (h : header) (args : list bytes) : header :=
  match args with
  | [] => h
  | _ => set_hlist h (remove_loop args (List.length (hlist h)) (hlist h))
  end.

(** ParseHeader.append, http_parser.py:162-167; arguments that are not tuples
    are ignored ([None]). *)
Fixpoint append (h : header) (args : list (option (bytes * bytes))) : header :=
  match args with
  | [] => h
  | Some v :: args' => append (set_hlist h (hlist h ++ [v])) args'
  | None :: args' => append h args'
  end.

(** http_parser.py:172-188 *)
Definition gethost (h : header) : option hval :=
  match hget (bs "x-forwarded-host") (headers h) with
  | Some v => Some v
  | None => hget k_host (headers h)
  end.
(** http_parser.py:175-176 *)
Definition getmethod (h : header) := hget k_method (headers h).
(** http_parser.py:178-179 *)
Definition geturl (h : header) := hget k_url (headers h).
(** http_parser.py:181-182 *)
Definition getversion (h : header) := hget k_version (headers h).

(** ParseHeader.save, http_parser.py:190-194. A [_line] entry that became a list
    makes join() raise TypeError. *)
Definition save (h : header) : res bytes :=
  match hget k_line (headers h) with
  | None => Ok (join CRLF ([] :: map (fun v => fst v ++ bs ": " ++ snd v) (hlist h))
                ++ CRLF ++ CRLF ++ hbody h)
  | Some (One (AB line)) =>
      Ok (join CRLF (line :: map (fun v => fst v ++ bs ": " ++ snd v) (hlist h))
          ++ CRLF ++ CRLF ++ hbody h)
  | Some _ => Raise TypeError
  end.

(** Splitting of one value in Headers.getlist, http_parser.py:15, 19 *)
Definition split_commas (v : bytes) : list bytes :=
  split_max (bs ",") 100 (replace (bs ", ") (bs ",") v).

(** http_parser.py:14-17, 19; the int under _status has no replace(). *)
Fixpoint getlist_atoms (l : list atom) : res (list bytes) :=
  match l with
  | [] => Ok []
  | AB v :: l' => let! r := getlist_atoms l' in Ok (split_commas v ++ r)
  | AI _ :: _ => Raise AttributeError
  end.

(** Headers.getlist, http_parser.py:8-19 *)
Definition getlist (d : hdict) (name : bytes) : res (list bytes) :=
  match hget name d with
  | None => Ok []
  | Some (Many l) => getlist_atoms l
  | Some (One a) => getlist_atoms [a]
  end.
