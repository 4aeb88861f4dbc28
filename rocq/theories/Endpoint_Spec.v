(** Specification vocabulary for C30, C31, C32 and C66, independent of the model of src/endpoint.h. *)

From Coq Require Import String ZArith List Bool.
From Verif Require Import Base ListMem Ascii_Spec Http_Spec Http_Calls Http_Model Endpoint_Model.
Import ListNotations.
Open Scope string_scope.
Open Scope list_scope.
Open Scope Z_scope.

Definition b (s : string) : list Z := bytes_of_string s.

(** ** Requests *)
(** The arrays have their sizes, and the directory leaves room for a resource. *)
Definition arrays (root mb pb qb : list Z) : Prop :=
  zlen mb = method_size + 1 /\ zlen pb = resource_size + 1 /\ zlen qb = protocol_size + 1 /\ no_nul root /\ zlen root <= 2047.
(** A request line that fits, followed by anything. *)
Definition request_line (root l m r : list Z) : Prop :=
  exists p rest, l = m ++ [32] ++ r ++ [32] ++ p ++ CRLF ++ rest /\ start_line_ok request m r p /\
    zlen m <= 32 /\ zlen root + zlen r <= 2047 /\ zlen p <= 16.
(** The same up to the case of letters. *)
Definition same_i (s t : list Z) : Prop := map lower s = map lower t.
(** A file is asked for. *)
Definition file_asked (c : config) (m r : list Z) : Prop :=
  (exists p s t, files_prefix c = Some p /\ r = s ++ t /\ same_i s p) \/ (same_i m (b "GET") /\ same_i r (b "/favicon.ico")).
Definition prefix_text (c : config) : Prop := match files_prefix c with Some p => no_nul p | None => True end.

(** ** Content types *)
Definition media_types : list (string * string) :=
  [("html", "text/html; charset=utf-8"); ("css", "text/css; charset=utf-8"); ("js", "text/javascript; charset=utf-8");
   ("txt", "text/plain; charset=utf-8"); ("xml", "text/xml; charset=utf-8"); ("png", "image/png"); ("jpeg", "image/jpeg");
   ("jpg", "image/jpeg"); ("gif", "image/gif"); ("bmp", "image/bmp"); ("svg", "image/svg+xml")].
(** What follows the last dot. *)
Definition extension (p e : list Z) : Prop := exists a, p = a ++ [46] ++ e /\ ~ In 46 e.
Definition media_type (p : list Z) (t : option (list Z)) : Prop :=
  match t with
  | Some t => exists e x y, extension p e /\ In (x, y) media_types /\ same_i e (b x) /\ t = b y
  | None => ~ exists e x y, extension p e /\ In (x, y) media_types /\ same_i e (b x)
  end.

(** ** Responses *)
Definition value_of (d : list Z) : Z := fold_left (fun a c => 10 * a + (c - 48)) d 0.
(** The decimal notation of a number, without leading zeros. *)
Definition decimal_text (d : list Z) (n : Z) : Prop :=
  d <> [] /\ Forall digit d /\ value_of d = n /\ (hd 0 d = 48 -> d = [48]).
(** A response with its headers: Content-Type may be missing. *)
Definition response_text (code reason : list Z) (ctype : option (list Z)) (len body : list Z) : list Z :=
  b "HTTP/1.1 " ++ code ++ b " " ++ reason ++ CRLF
  ++ b "Connection: close" ++ CRLF
  ++ match ctype with Some t => b "Content-Type: " ++ t ++ CRLF | None => [] end
  ++ b "Content-Length: " ++ len ++ CRLF
  ++ CRLF ++ body.
(** [out] is a response with this status and body, whose Content-Length is the length of the body. *)
Definition responds (out code reason : list Z) (ctype : option (list Z)) (body : list Z) : Prop :=
  exists len, out = response_text code reason ctype len body /\ decimal_text len (zlen body).
(** Some response whose Content-Length is the length of the body. *)
Definition one_line (t : list Z) : Prop := ~ In 13 t.
Definition some_response (out : list Z) : Prop :=
  exists code reason ctype body, one_line code /\ one_line reason /\ match ctype with Some t => one_line t | None => True end /\ responds out code reason ctype body.
(** A header value that is sent as it is: words with one space in between. *)
Definition spaced_words (t : list Z) : Prop := exists words, t = join words /\ Forall (fun w => w <> [] /\ Forall printable w) words.
(** A file that does not change while it is sent: what is read is what stat() has announced. *)
Definition stable (f : file) : Prop := f_size f = zlen (f_data f) /\ zlen (f_data f) < 2 ^ 63.

(** ** Paths *)
(** The parts between slashes. *)
Fixpoint components (p : list Z) : list (list Z) :=
  match p with
  | [] => [[]]
  | c :: p => if c =? 47 then [] :: components p
              else match components p with [] => [[c]] | x :: l => (c :: x) :: l end
  end.
Definition dot : list Z := [46].
Definition dotdot : list Z := [46; 46].
Definition absolute (p : list Z) : Prop := exists q, p = 47 :: q.
Definition is_absolute (p : list Z) : bool := match p with c :: _ => c =? 47 | [] => false end.
(** Walking along the parts, from the directory [at_] (the last part first).  Going up from the root
    directory stays there; going up from where a relative path starts is kept.  Symbolic links are ignored. *)
Fixpoint walk (abs : bool) (at_ : list (list Z)) (l : list (list Z)) : list (list Z) :=
  match l with
  | [] => at_
  | x :: l => if list_eq_dec Z.eq_dec x [] then walk abs at_ l
              else if list_eq_dec Z.eq_dec x dot then walk abs at_ l
              else if list_eq_dec Z.eq_dec x dotdot then
                match at_ with
                | [] => walk abs (if abs then [] else [dotdot]) l
                | y :: at_' => if list_eq_dec Z.eq_dec y dotdot then walk abs (dotdot :: at_) l else walk abs at_' l
                end
              else walk abs (x :: at_) l
  end.
Definition place (p : list Z) : list (list Z) := walk (is_absolute p) [] (components p).
(** The path [p] denotes something below the directory [root] (or the directory). *)
Definition below (root p : list Z) : Prop :=
  (absolute root <-> absolute p) /\ exists t, place p = t ++ place root /\ ~ In dotdot t.
Definition no_dotdot (p : list Z) : Prop := ~ In dotdot (components p).
(** The prefix of files is missing or starts with a slash. *)
Definition slash_prefix (c : config) : Prop := match files_prefix c with Some p => absolute p | None => True end.
