(** multipart/form-data bodies (RFC 7578, RFC 2046), independent of the model. *)
From Verif Require Import PyBytes PyInt PyUtf8 S_Form S_Head.
From Verif Require M_Files.

Definition QUOTE : byte := ascii_of_nat 34.

(** A part: its head, the parameters of its Content-Disposition, its Content-Type, whether it
    has a Content-Length, and its data. *)
Record part := mkPart { p_head : list field; p_params : list (pystr * pystr); p_type : option bytes; p_length : bool; p_data : bytes }.
Definition head_of (b : bytes) (p : part) : bytes := lines_bytes ((bs "--" ++ b) :: map field_bytes (p_head p)) ++ CRLF.
Definition multipart (b : bytes) (ps : list part) : bytes :=
  concat (map (fun p => head_of b p ++ p_data p ++ CRLF) ps) ++ bs "--" ++ b ++ bs "--" ++ CRLF.
(** Boundaries: visible ASCII characters but % + ; and &. *)
Definition good_boundary (b : bytes) : Prop :=
  b <> [] /\ (blen b <= 8000)%Z /\ Forall (fun c => 33 <= N_of_ascii c <= 126)%N b /\ (forall c, In c b -> ~ In c (bs "%+;&")).
(** A parameter: name=, and the value in double quotes. *)
Definition param_text (f : bytes * bytes) : bytes := fst f ++ bs "=" ++ [QUOTE] ++ snd f ++ [QUOTE].
Definition no_quotes (t : pystr) : Prop := hd 0%N t <> 34%N /\ last t 0%N <> 34%N.
Definition opt_list {A} (o : option A) : list A := match o with Some x => [x] | None => [] end.
Definition name_text (s : string) : pystr := map N_of_ascii (bs s).
(** The head says what the part has; the delimiter does not occur in the data of a part without
    Content-Length. Heads have at most 8192 bytes, 100 lines and lines of 8190 bytes. *)
Definition good_part (b : bytes) (p : part) : Prop :=
  Forall good_field (p_head p) /\ List.length (p_head p) < 100 /\ Forall (fun f => (blen (field_bytes f) <= 8190)%Z) (p_head p) /\
  (blen (head_of b p) <= 8192)%Z /\
  (exists fs, values (bs "content-disposition") (p_head p) = [join (bs "; ") (bs "form-data" :: map param_text fs)] /\
              Forall2 (fun f p => encodes (bs "=;&") (fst p) (fst f) /\ encodes (bs ";&") (snd p) (snd f)) fs (p_params p) /\ List.length fs < 100) /\
  NoDup (map fst (p_params p)) /\ Forall (fun q => fst q <> name_text "length" /\ fst q <> name_text "type" /\ no_quotes (snd q)) (p_params p) /\
  values (bs "content-type") (p_head p) = opt_list (p_type p) /\
  values (bs "content-length") (p_head p) = (if p_length p then [fmt_d (blen (p_data p))] else []) /\
  (blen (fmt_d (blen (p_data p))) <= int_max_str_digits)%Z /\
  (p_length p = false -> forall j, j < List.length (p_data p) -> startswith (CRLF ++ bs "--" ++ b) (skipn j (p_data p ++ CRLF ++ bs "--" ++ b)) = false).
(** What is said about a part: the parameters, its length and its type. *)
Definition lookup {A} (k : pystr) (d : list (pystr * A)) : option A := option_map snd (List.find (fun q => same k (fst q)) d).
Definition describes (i : M_Files.info) (p : part) : Prop := forall k,
  lookup k i = if same k (name_text "type") then option_map (fun t => M_Files.IStr (map N_of_ascii t)) (p_type p)
               else if same k (name_text "length") then (if p_length p then Some (M_Files.IInt (blen (p_data p))) else None)
               else option_map M_Files.IStr (lookup k (p_params p)).

(** The request still has these parts of its body: in the read buffer, and in the pieces to come. *)
Definition has_parts (b : bytes) (q : M_Files.rq) (ps : list part) : Prop :=
  M_Files.q_fin q = None /\ (M_Files.q_eof q = true -> M_Files.q_stream q = []) /\
  M_Files.q_buf q ++ concat (M_Files.q_stream q) = multipart b ps.
(** A file as files() gives it, and the part. *)
Definition is_part (o : M_Files.info * bytes) (p : part) : Prop := describes (fst o) p /\ snd o = p_data p.
