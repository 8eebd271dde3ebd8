(** What a browser makes of a page, and which charset a content type declares; independent of the model. *)
From Verif Require Import PyBytes PyUtf8.
Local Open Scope N_scope.

(** Tags, with what is between < and >, and the characters of the text, with character references decoded. *)
Inductive token := Tag (name : list N) | Char (c : N) | Unclosed.
Definition letters (b : bytes) : list N := map N_of_ascii b.
Definition references : list (list N * N) :=
  [(letters (bs "&amp;"), 38); (letters (bs "&lt;"), 60); (letters (bs "&gt;"), 62); (letters (bs "&quot;"), 34); (letters (bs "&#x27;"), 39)].
Fixpoint prefix (p s : list N) : bool :=
  match p, s with [], _ => true | a :: p', b :: s' => (a =? b) && prefix p' s' | _ :: _, [] => false end.
(** Up to the next >. *)
Fixpoint until_gt (s : list N) : option (list N * list N) :=
  match s with
  | [] => None
  | c :: s' => if c =? 62 then Some ([], s') else match until_gt s' with Some (a, b) => Some (c :: a, b) | None => None end
  end.
Fixpoint tokens_fuel (fuel : nat) (s : list N) : list token :=
  match fuel, s with
  | S f, c :: s' =>
      if c =? 60 then match until_gt s' with Some (name, rest) => Tag name :: tokens_fuel f rest | None => [Unclosed] end
      else match List.find (fun r => prefix (fst r) s) references with
           | Some (name, x) => Char x :: tokens_fuel f (skipn (List.length name) s)
           | None => Char c :: tokens_fuel f s'
           end
  | _, _ => []
  end.
Definition tokens (s : list N) : list token := tokens_fuel (List.length s) s.
Definition tag (name : bytes) : token := Tag (letters name).
Definition chars (s : list N) : list token := map Char s.

(** A content type with one parameter charset, and no other. *)
Definition declares (ctype charset : bytes) : Prop :=
  exists media blanks, ctype = media ++ bs ";" ++ blanks ++ bs "charset=" ++ charset /\
    ~ In ";"%char media /\ ~ In "="%char media /\ (forall c, In c blanks -> c = " "%char) /\
    charset <> [] /\ (forall c, In c charset -> (33 <= nat_of_ascii c <= 126)%nat /\ c <> ";"%char).
(** One without any parameter. *)
Definition bare (ctype : bytes) : Prop := ~ In ";"%char ctype /\ ~ In "="%char ctype.

(** Words with a space between each two of them. *)
Fixpoint spaced (words : list (list N)) : list N :=
  match words with [] => [] | [w] => w | w :: ws => w ++ 32 :: spaced ws end.
(** Status codes and reason phrases (RFC 9110, RFC 6585; 413 and 416 by their names in RFC 7231 and 7233). *)
Definition reasons : list (Z * bytes) :=
  [(400%Z, bs "Bad Request"); (401%Z, bs "Unauthorized"); (403%Z, bs "Forbidden"); (404%Z, bs "Not Found"); (405%Z, bs "Method Not Allowed");
   (408%Z, bs "Request Timeout"); (412%Z, bs "Precondition Failed"); (413%Z, bs "Payload Too Large"); (416%Z, bs "Range Not Satisfiable");
   (417%Z, bs "Expectation Failed"); (429%Z, bs "Too Many Requests"); (500%Z, bs "Internal Server Error"); (503%Z, bs "Service Unavailable")].
(** The page with a list of lines: what a browser shows of it. *)
Fixpoint shown (lines : list (list N)) : list token :=
  match lines with [] => [] | l :: r => tag (bs "li") :: chars l ++ tag (bs "/li") :: shown r end.
