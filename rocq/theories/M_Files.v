(** Model of HTTPRequest.files (tremolo/lib/http_request.py:323-419). *)
From Verif Require Import PyBytes PyInt PyExn PyUtf8 PyQs M_Parser M_Form.
Local Open Scope Z_scope.

(** The attributes of the request that files() uses: _read_buf, header, and the generator
    _read_instance: what stream() will yield, how it ends (with an exception, or normally, in
    which case _eof is set then). Simplified: what files() does once the stream has ended with an
    exception is not followed ([q_fin] is dropped when it is raised, though _eof stays as it is). *)
(** http_request.py:69-71, 323-419 *)
Record rq := mkRq { q_buf : bytes; q_stream : list bytes; q_fin : option exn; q_eof : bool; q_header : header }.
(** Values of the info dict: str or int. *)
(** http_request.py:389, 395, 398 *)
Inductive ival := IStr (s : pystr) | IInt (n : Z).
(** http_request.py:375 *)
Definition info := list (pystr * ival).
(** http_request.py:389, 395, 398 *)
Definition iset (k : pystr) (v : ival) (i : info) : info := dset streqb k v i.
Definition text (b : bytes) : pystr := map N_of_ascii b.                       (* decode('latin-1') *)
(** str.strip with the double quote, 34 *)
Fixpoint lstrip_quote (s : pystr) : pystr := match s with c :: s' => if (c =? 34)%N then lstrip_quote s' else s | [] => [] end.
(** http_request.py:389 *)
Definition strip_quote (s : pystr) : pystr := rev (lstrip_quote (rev (lstrip_quote s))).
(** str.encode('latin-1'); UnicodeEncodeError is a ValueError. *)
Fixpoint latin1 (s : pystr) : res bytes :=
  match s with
  | [] => Ok []
  | c :: s' => if (c <? 256)%N then let! r := latin1 s' in Ok (ascii_of_N c :: r) else Raise ValueError
  end.

(** The local variables; [open] is None while header is None, else the info dict. *)
(** http_request.py:338-344 *)
Record loc := mkLoc { l_limit : Z; l_open : option info; l_body : bytes; l_hsize : Z; l_bsize : Z; l_clen : Z; l_paused : bool }.
Definition loc0 (limit : Z) : loc := mkLoc limit None [] 0 0 0 false.          (* 338-344 *)
(** http_request.py:349-419 *)
Inductive fout := FGo (l : loc) (q : rq) | FYield (i : info) (d : bytes) (l : loc) (q : rq) | FStop (q : rq) | FRaise (e : exn) (q : rq).

(** 327-336 *)
Definition files_boundary (ctype : bytes) : res bytes :=
  let! ct := parse_qs (semicolons ctype) 100 in
  match dget streqb (text (bs "boundary")) ct with
  | Some (b :: _) => latin1 b
  | _ => Raise BadRequest
  end.

(** 350-360: data, or an exception. *)
Definition files_read (l : loc) (q : rq) : (bytes * rq) + (exn * rq) :=
  if l_paused l then inl ([], q)
  else match q_stream q with
       | d :: r => inl (d, mkRq (q_buf q) r (q_fin q) (q_eof q) (q_header q))
       | [] => match q_fin q with
               | Some e => inr (e, mkRq (q_buf q) [] None (q_eof q) (q_header q))
               | None =>
                   let q' := mkRq (q_buf q) [] None true (q_header q) in
                   if (l_hsize l =? 1) || (l_bsize l =? -1) then inr (BadRequest, q') else inl ([], q')
               end
       end.
(** 384-389 *)
Definition disposition (h : hdict) : res info :=
  match hget (bs "content-disposition") h with
  | None => Ok []
  | Some (One (AB v)) =>
      let! kv := parse_qsl (semicolons v) 100 in
      Ok (fold_left (fun i p => iset (fst p) (IStr (strip_quote (snd p))) i) kv [])
  | Some _ => Raise AttributeError
  end.
(** 391-395; the second component is content_length. *)
Definition declared (h : hdict) (i : info) (clen : Z) : res (info * Z) :=
  match hget (bs "content-length") h with
  | None => Ok (i, clen)
  | Some (One (AB v)) =>
      match py_int (bs "+" ++ v) with
      | Some n => Ok (iset (text (bs "length")) (IInt n) i, n)
      | None => Raise ValueError
      end
  | Some _ => Raise TypeError
  end.
(** 397-398 *)
Definition typed (h : hdict) (i : info) : res info :=
  match hget (bs "content-type") h with
  | None => Ok i
  | Some (One (AB v)) => Ok (iset (text (bs "type")) (IStr (text v)) i)
  | Some _ => Raise AttributeError
  end.
(** One iteration, 349-419. A yield and what follows it (when the generator is
    resumed) are one step. *)
Definition files_step (boundary : bytes) (l : loc) (q : rq) : fout :=
  if negb ((0 <? l_limit l) && negb (beqb (q_buf q) (bs "--" ++ boundary ++ bs "--" ++ CRLF))) then FStop q
  else
    match files_read l q with
    | inr (e, q') => FRaise e q'
    | inl (data, q') =>
        match l_open l with
        | None =>
            let buf := q_buf q' ++ data in
            let q1 := mkRq buf (q_stream q') (q_fin q') (q_eof q') (q_header q') in
            let hsize := pos (find (CRLF ++ CRLF) buf) + 2 in
            if hsize =? 1 then
              if 8192 <? blen buf then FRaise BadRequest q1
              else FGo (mkLoc (l_limit l) None (l_body l) hsize (l_bsize l) (l_clen l) false) q1
            else
              let body := l_body l ++ from buf (hsize + 2) in
              if (hsize <=? 8192) && startswith (bs "--" ++ boundary ++ CRLF) buf then
                let h := parse (q_header q1) buf hsize 65536 [] 100 8190 in
                let q2 := mkRq buf (q_stream q1) (q_fin q1) (q_eof q1) h in
                match (let! i := disposition (headers h) in
                       let! (i2, n) := declared (headers h) i (l_clen l) in
                       let! i3 := typed (headers h) i2 in Ok (i3, n)) with
                | Raise e => FRaise e q2
                | Ok (i, n) => FGo (mkLoc (l_limit l) (Some i) body hsize (l_bsize l) n (l_paused l)) q2
                end
              else FGo (mkLoc (l_limit l) (Some []) body hsize (l_bsize l) (l_clen l) (l_paused l)) q1
        | Some i =>
            let body := l_body l ++ data in
            let bsize := pos (find_from (CRLF ++ bs "--" ++ boundary) (Z.to_nat (l_clen l)) body) in
            if bsize =? -1 then FGo (mkLoc (l_limit l) (Some i) body (l_hsize l) bsize (l_clen l) false) q'
            else
              FYield i (upto body bsize)
                     (mkLoc (l_limit l - 1) None [] (l_hsize l) bsize 0 true)
                     (mkRq (from body (bsize + 2)) (q_stream q') (q_fin q') (q_eof q') (q_header q'))
        end
    end.
(** The generator, run to its end by the caller: what it yields, the exception it ends with if
    any, and the request afterwards. None: more than [fuel] iterations. *)
(** http_request.py:349-419 *)
Fixpoint files_run (fuel : nat) (boundary : bytes) (l : loc) (q : rq) : option (list (info * bytes) * option exn * rq) :=
  match fuel with
  | O => None
  | S n =>
      match files_step boundary l q with
      | FGo l' q' => files_run n boundary l' q'
      | FYield i d l' q' => option_map (fun r => ((i, d) :: fst (fst r), snd (fst r), snd r)) (files_run n boundary l' q')
      | FStop q' => Some ([], None, q')
      | FRaise e q' => Some ([], Some e, q')
      end
  end.
(** files(limit), 323-336 *)
Definition files (fuel : nat) (ctype : bytes) (limit : Z) (q : rq) : option (list (info * bytes) * option exn * rq) :=
  if q_eof q && beqb (q_buf q) [] then Some ([], None, q)
  else match files_boundary ctype with
       | Raise e => Some ([], Some e, q)
       | Ok b => files_run fuel b (loc0 limit) q
       end.
