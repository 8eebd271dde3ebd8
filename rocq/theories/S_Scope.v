(** What an application should be told about a request, in terms of the head that the client sent and of the connection; independent of the model,
    whose inputs and attributes it names. *)
From Verif Require Import PyBytes PyUtf8 S_Head S_Form M_Parser M_Scope.

(** A head that the parser's limits allow. *)
Definition head_fits (method url version : bytes) (fields : list field) : Prop :=
  ~ In SP method /\ ~ In LF (method ++ url ++ version) /\ contains (bs "HTTP/") version = false /\
  Forall good_field fields /\ Forall (fun f => ~ In (lower (fst f)) reserved) fields /\
  S (List.length fields) <= 100 /\
  Forall (fun l => blen l <= 8190)%Z (request_line method url version :: map field_bytes fields).
(** HTTP/1.1 wants a Host field. *)
Definition has_host (version : bytes) (fields : list field) : Prop :=
  version = bs "1.1" -> S_Head.values (bs "host") fields <> [].

(** The target cut at its first question mark. *)
Definition target (url path query : bytes) : Prop :=
  ~ In "?"%char path /\ (url = path ++ bs "?" ++ query \/ (url = path /\ query = [])).
Definition all_space (l : bytes) : Prop := Forall (fun c => is_space c = true) l.
(** [a] is the first element of the comma-separated list [v]: spaces may precede it, and follow if it is the only one. *)
Definition first_element (v a : bytes) : Prop :=
  exists pre post, v = pre ++ a ++ post /\ all_space pre /\ a <> [] /\ is_space (hd SP a) = false /\ is_space (last a SP) = false /\
    ~ In ","%char a /\ (all_space post \/ exists rest, post = ","%char :: rest).
(** [v] without the spaces around it is [a]. *)
Definition stripped (v a : bytes) : Prop :=
  exists pre post, v = pre ++ a ++ post /\ all_space pre /\ all_space post /\ a <> [] /\ is_space (hd SP a) = false /\ is_space (last a SP) = false.

(** Field values of a comma-separated list: each element is followed by a comma and perhaps one space. *)
Fixpoint listed (elements : list bytes) (v : bytes) : Prop :=
  match elements with
  | [] => False
  | [a] => v = a
  | a :: rest => exists v', listed rest v' /\ (v = a ++ bs "," ++ v' \/ v = a ++ bs ", " ++ v')
  end.
(** An element without commas, and not starting with a space. *)
Definition element (a : bytes) : Prop := ~ In ","%char a /\ hd ","%char a <> SP.

(** How a byte of a path may be written. *)
Definition path_byte (c : byte) (e : bytes) : Prop :=
  (e = [c] /\ c <> "%"%char) \/
  (exists a b x y, e = ["%"%char; a; b] /\ is_hex a x /\ is_hex b y /\ N_of_ascii c = (16 * x + y)%N).
(** [written] is the percent-encoding of [b]. *)
Definition path_written (b written : bytes) : Prop := exists parts, Forall2 path_byte b parts /\ written = concat parts.

(** The value of a field that occurs at most once. *)
Definition single (name : bytes) (fields : list field) (v : bytes) : Prop := S_Head.values name fields = [v].
Definition absent (name : bytes) (fields : list field) : Prop := S_Head.values name fields = [].
(** The scheme of the connection, or what a proxy says about it. *)
Definition scheme_is (tls : bool) (fields : list field) (s : bytes) : Prop :=
  (exists v, single (bs "x-forwarded-proto") fields v /\ stripped v s) \/
  ((absent (bs "x-forwarded-proto") fields \/ exists v, single (bs "x-forwarded-proto") fields v /\ all_space v) /\
   s = if tls then bs "https" else bs "http").

(** The head of a request as HTTPProtocol._handle_request parses it, http_protocol.py:268-270. *)
Definition heard (method url version : bytes) (fields : list field) (body : bytes) : header :=
  parse_header (head_bytes method url version fields ++ body) (blen (head_bytes method url version fields) - 2) 65536 [bs "proxy"] 100 8190.
(** The client of a scope. *)
Definition client_of (p : peername) : option (option address) :=
  match p with
  | PeerTuple host port => Some (Some (APair host port))
  | PeerPath [] | PeerNone => Some None
  | PeerPath q => Some (Some (AStr (firstn 2 q)))
  | PeerGone => None
  end.
(** Any reads of the attributes, in any states of the world. *)
Inductive read := RClient | RIp | RSecure | RScheme.
Definition do_read (w : world) (x : read) (m : memo) : memo :=
  match x with RClient => snd (read_client w m) | RIp => snd (read_ip w m) | RSecure => snd (read_secure w m) | RScheme => snd (read_scheme w m) end.
Definition do_reads (l : list (world * read)) (m : memo) : memo := fold_left (fun m x => do_read (fst x) (snd x) m) l m.
