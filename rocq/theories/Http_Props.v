(** C10-C15: the HTTP streams. *)

From Coq Require Import String ZArith List Bool Lia.
From Verif Require Import Base ListMem Ascii_Model Http_Model Http_Spec Http_Calls Http_Proofs Http_Writer Http_RoundTrip Http_Order Http_Query Http_Accept.
Import ListNotations.
Open Scope string_scope.
Open Scope list_scope.
Open Scope Z_scope.

Definition b := bytes_of_string.
(** the value of a result, for the witnesses *)
Definition got {A} (d : A) (r : hres A) : A := match r with Ret a => a | _ => d end.
Definition zeros (n : nat) : list Z := repeat 0 n.

(** C10: a message with valid parts, any headers and any body in any pieces is written without
    an error; what was written, followed by anything, is read back with the same parts (header
    values with a single space between the words), into any buffers with room for them, with the
    body cut into pieces of the reader's choice; the stream stays good and the rest is left.
    Missing: parts the writer takes although they are not read back (the _refuted theorems), and
    compilers that evaluate the operands of + from right to left (C10_crlf_refuted). *)
Theorem C10_round_trip_partial : forall sd p1 p2 p3 hs bs b1 b2 b3 hbufs e bbufs rest,
  start_line_ok sd p1 p2 p3 -> Forall header_ok hs ->
  start_room sd p1 p2 p3 b1 b2 b3 ->
  Forall2 (fun h hb => room_for (h_name h) 1 (fst hb) /\ room_for (join (h_words h)) 1 (snd hb)) hs hbufs ->
  room_for [] 1 e -> length (concat bbufs) = length (concat bs) ->
  exists w, write_calls sd (message_puts sd p1 p2 p3 hs bs) (http_writer sd None true) = Ret w /\ wbad w = false /\
  exists chunks s, read_calls sd (message_gets sd b1 b2 b3 hbufs e bbufs) (http_reader sd (wout w ++ rest)) =
      Ret ([p1; p2; p3] ++ flat_map (fun h => [h_name h; join (h_words h)]) hs ++ [[]] ++ chunks, s) /\
    concat chunks = concat bs /\ map (@length Z) chunks = map (@length Z) bbufs /\ is_good s = true /\ hin s = rest.
Proof. exact round_trip. Qed.
Print Assumptions C10_round_trip_partial.

(** and the text on the wire is the usual one *)
Theorem C10_text_partial : forall sd p1 p2 p3 hs bs, start_line_ok sd p1 p2 p3 -> Forall header_ok hs ->
  exists w, write_calls sd (message_puts sd p1 p2 p3 hs bs) (http_writer sd None true) = Ret w /\ wbad w = false /\
    wout w = p1 ++ [32] ++ p2 ++ [32] ++ p3 ++ CRLF ++ flat_map (fun h => h_name h ++ [58; 32] ++ join (h_words h) ++ CRLF) hs ++ CRLF ++ concat bs.
Proof.
  intros sd p1 p2 p3 hs bs H F. destruct (write_message sd p1 p2 p3 hs bs H F) as (w & E & B & O). exists w. split; [exact E|]. split; [exact B|].
  rewrite O. unfold message_text, start_line_text, CRLF. rewrite <- !app_assoc. reflexivity.
Qed.
Print Assumptions C10_text_partial.

Definition host : header := {| h_name := b "Host"; h_value := b " a" ++ [9; 13; 10; 32] ++ b "b "; h_words := [b "a"; b "b"] |}.
Definition empty_value : header := {| h_name := b "X"; h_value := []; h_words := [] |}.
Ltac chars := repeat (first [apply Forall_nil | apply Forall_cons]); cbv [token_char printable digit blank]; try (split; [lia|]); try (cbn; intuition discriminate); try lia.
Example C10_ex : start_line_ok request (b "GET") (b "/x?a=1") (b "HTTP/1.1") /\ start_line_ok response (b "HTTP/1.1") (b "200") (b "Not OK") /\
  Forall header_ok [host; empty_value] /\ start_room request (b "GET") (b "/x?a=1") (b "HTTP/1.1") (zeros 4) (zeros 8) (zeros 9) /\
  match write_calls request (message_puts request (b "GET") (b "/x?a=1") (b "HTTP/1.1") [host; empty_value] [b "12"; b "3"]) (http_writer request None true) with
  | Ret w => wout w = b "GET /x?a=1 HTTP/1.1" ++ CRLF ++ b "Host: a b" ++ CRLF ++ b "X: " ++ CRLF ++ CRLF ++ b "123"
  | _ => False
  end.
Proof.
  split; [|split; [|split; [|split; [|vm_compute; reflexivity]]]].
  - split; [|split; [split; [discriminate|]|]].
    + change (b "GET") with [71; 69; 84]. chars.
    + change (b "/x?a=1") with [47; 120; 63; 97; 61; 49]. chars.
    + exists [49], [49]. repeat split; try discriminate; chars.
  - split; [|split; [split; [discriminate|]|]].
    + exists [49], [49]. repeat split; try discriminate; chars.
    + change (b "200") with [50; 48; 48]. chars.
    + split; [change (b "Not OK") with [78; 111; 116; 32; 79; 75]; repeat (first [apply Forall_nil | apply Forall_cons]); cbv [printable blank]; lia|].
      cbv [blank b bytes_of_string]. cbn. lia.
  - repeat (apply Forall_cons || apply Forall_nil).
    + split; [split; [discriminate|change (h_name host) with [72; 111; 115; 116]; chars]|].
      change (h_value host) with ([32] ++ [97] ++ ([9; 13; 10; 32] ++ [98] ++ [32])). change (h_words host) with [[97]; [98]].
      apply value_word; [apply gap_blank; [left; reflexivity|apply gap_nil]|discriminate|discriminate|chars|].
      apply value_word; [apply gap_blank; [right; reflexivity|apply gap_fold; [left; reflexivity|apply gap_nil]]|discriminate|discriminate|chars|].
      apply value_end. chars.
    + split; [split; [discriminate|change (h_name empty_value) with [88]; chars]|]. apply value_end. constructor.
  - vm_compute. intuition discriminate.
Qed.

(** A protocol of [HTTP/] is written without an error but is refused by the reader. *)
Theorem C10_protocol_refuted : exists w m s,
  write_calls response [(Put protocol, b "HTTP/"); (Put status_code, b "200"); (Put reason_phrase, b "OK")] (http_writer response None true) = Ret w /\ wbad w = false /\
  read_call response protocol (zeros 16) (http_reader response (wout w)) = Ret (m, s) /\ is_good s = false.
Proof.
  set (w := got (http_writer response None true) (write_calls response [(Put protocol, b "HTTP/"); (Put status_code, b "200"); (Put reason_phrase, b "OK")] (http_writer response None true))).
  set (r := got ([], http_reader response []) (read_call response protocol (zeros 16) (http_reader response (wout w)))).
  exists w, (fst r), (snd r). vm_compute. repeat split; reflexivity.
Qed.
Print Assumptions C10_protocol_refuted.
(** A reason phrase that starts with a space is written but read back without it. *)
Theorem C10_reason_refuted : exists w l s,
  write_calls response (message_puts response (b "HTTP/1.1") (b "200") (b " OK") [] []) (http_writer response None true) = Ret w /\ wbad w = false /\
  read_calls response (message_gets response (zeros 16) (zeros 16) (zeros 16) [] (zeros 16) []) (http_reader response (wout w)) = Ret (l, s) /\
  l = [b "HTTP/1.1"; b "200"; b "OK"; []].
Proof.
  set (w := got (http_writer response None true) (write_calls response (message_puts response (b "HTTP/1.1") (b "200") (b " OK") [] []) (http_writer response None true))).
  set (r := got ([], http_reader response []) (read_calls response (message_gets response (zeros 16) (zeros 16) (zeros 16) [] (zeros 16) []) (http_reader response (wout w)))).
  exists w, (fst r), (snd r). vm_compute. repeat split; reflexivity.
Qed.
Print Assumptions C10_reason_refuted.
(** With the operands of + evaluated from right to left, the line ends are LF CR and the message is not read back. *)
Theorem C10_crlf_refuted : exists w l s,
  write_calls request (message_puts request (b "GET") (b "/") (b "HTTP/1.1") [] []) (http_writer request None false) = Ret w /\ wbad w = false /\
  wout w = b "GET / HTTP/1.1" ++ [10; 13; 10; 13] /\
  read_calls request (message_gets request (zeros 16) (zeros 16) (zeros 16) [] (zeros 16) []) (http_reader request (wout w)) = Ret (l, s) /\ is_good s = false.
Proof.
  set (w := got (http_writer request None true) (write_calls request (message_puts request (b "GET") (b "/") (b "HTTP/1.1") [] []) (http_writer request None false))).
  set (r := got ([], http_reader request []) (read_calls request (message_gets request (zeros 16) (zeros 16) (zeros 16) [] (zeros 16) []) (http_reader request (wout w)))).
  exists w, (fst r), (snd r). vm_compute. repeat split; reflexivity.
Qed.
Print Assumptions C10_crlf_refuted.

(** C11: whatever string is given to a call other than put_body, in whatever state the writer is,
    it emits a line of printable characters and spaces (and tabs in a reason phrase), then one line
    end if the call ends a line, or a beginning of it if the sink failed. *)
Theorem C11_no_injection : forall sd c buf w, has_item sd (wcall_item c) = true -> c <> Put body ->
  exists w' txt tl, put_call sd c buf w = Ret w' /\ wout w' = wout w ++ txt ++ tl /\ Forall (line_char (is_reason c)) txt /\
    prefix tl (if ends_line sd c then eol w else []) /\ (wbad w' = false -> tl = if ends_line sd c then eol w else []).
Proof. exact writers_line. Qed.
Print Assumptions C11_no_injection.
Definition attack : list Z := b "a" ++ [13; 10] ++ b " b" ++ [13; 10] ++ b "Set-Cookie: x" ++ [0; 255].
Example C11_ex : map (fun c => match put_call request c attack (http_writer request None true) with Ret w => (wbad w, wout w) | _ => (true, []) end)
    [Put method; Put resource; Put header_name; Put header_value] = [(false, b "a "); (false, b "a "); (true, b "a"); (true, b "a b")] /\
  forallb (fun c => has_item request (wcall_item c)) [Put method; Put resource; Put header_name; Put header_value] = true.
Proof. vm_compute. split; reflexivity. Qed.

(** C12: every call but get_body, on any input and in any state, returns (it terminates), stores
    the gcount characters of a text and its null (two nulls for a resource) inside the buffer, and
    leaves the rest of the buffer as it was. *)
Theorem C12_bounds : forall sd it m s, it <> body -> hnext s = it -> 2 <= zlen m < 2 ^ 64 -> fits_in it m (read_call sd it m s).
Proof. exact readers_fit. Qed.
Print Assumptions C12_bounds.
Example C12_ex : read_call request resource [1; 2; 3; 4] (set_gstate (http_reader request (b "/abcdef ")) 0 resource) =
  Ret ([47; 97; 0; 0], {| hin := b "bcdef "; heof := false; hfail := true; hbad := false; hnext := protocol; hgc := 2 |}).
Proof. vm_compute. reflexivity. Qed.
(** and get_body stores at most the size of the buffer *)
Theorem C12_body : forall sd m s, hnext s = body -> exists d s', read_call sd body m s = Ret (d ++ drop (zlen d) m, s') /\ hgc s' = zlen d /\ zlen d <= zlen m.
Proof. exact body_fits. Qed.
Print Assumptions C12_body.
Example C12_body_ex : read_call request body [1; 2; 3] (set_gstate (http_reader request [7; 8; 9; 10]) 0 body) =
  Ret ([7; 8; 9], {| hin := [10]; heof := false; hfail := false; hbad := false; hnext := body; hgc := 3 |}).
Proof. vm_compute. reflexivity. Qed.
(** The bound 2 is needed: a resource read into one byte, or anything read into none, leaves the buffer. *)
Theorem C12_one_byte_refuted : exists s, hnext s = resource /\ read_call request resource [1] s = Oob.
Proof. exists (set_gstate (http_reader request (b "/abc")) 0 resource). vm_compute. split; reflexivity. Qed.
Print Assumptions C12_one_byte_refuted.
Theorem C12_no_byte_refuted : exists s, hnext s = method /\ read_call request method [] s = Oob.
Proof. exists (http_reader request (b "GET")). vm_compute. split; reflexivity. Qed.
Print Assumptions C12_no_byte_refuted.

(** C13, writers: a list of calls is accepted exactly when it is the beginning of a message, and
    otherwise ends with a logic_error. *)
Theorem C13_writer : forall sd cs room ltr,
  ((exists h k, begins (map fst cs) (message_calls sd h k)) -> exists w, write_calls sd cs (http_writer sd room ltr) = Ret w) /\
  (~ (exists h k, begins (map fst cs) (message_calls sd h k)) -> write_calls sd cs (http_writer sd room ltr) = Throw).
Proof. exact writer_order. Qed.
Print Assumptions C13_writer.
Example C13_writer_ex : begins [Put protocol; Put status_code; Put reason_phrase; Put header_name] (message_calls response 1 0) /\
  write_calls response [(Put protocol, b "HTTP/1.1"); (Put status_code, b "200"); (Put header_name, b "A")] (http_writer response None true) = Throw.
Proof. split; [eexists; reflexivity|vm_compute; reflexivity]. Qed.
(** C13, readers: what was read is always the beginning of a message.  In it a read of a header
    value that failed may be repeated (C13_value_again_refuted), which is what is missing. *)
Theorem C13_reader_partial : forall sd l t s, reads sd (http_reader sd l) t s -> exists full, message_seen sd full /\ begins t full.
Proof. exact reader_order. Qed.
Print Assumptions C13_reader_partial.
(** As long as the stream is good, a call is accepted exactly when it continues a message. *)
Theorem C13_reader_refuses_partial : forall sd l t s it m, reads sd (http_reader sd l) t s -> Forall (fun e => snd e = true) t -> 2 <= zlen m < 2 ^ 64 ->
  ((exists g good full, message_seen sd full /\ begins (t ++ [(it, g, good)]) full) -> exists m' s', read_call sd it m s = Ret (m', s')) /\
  (~ (exists g good full, message_seen sd full /\ begins (t ++ [(it, g, good)]) full) -> read_call sd it m s = Throw).
Proof. exact reader_refuses. Qed.
Print Assumptions C13_reader_refuses_partial.
Definition sample_in : list Z := b "GET / HTTP/1.1" ++ CRLF ++ b "A: b" ++ CRLF ++ CRLF ++ b "xyz".
Definition sample_seen : list seen :=
  [(method, 3, true); (resource, 1, true); (protocol, 8, true); (header_name, 1, true); (header_value, 1, true); (header_name, 0, true); (body, 2, true)].
Example C13_reader_ex : exists s, reads request (http_reader request sample_in) sample_seen s /\ Forall (fun e => snd e = true) sample_seen /\
  message_seen request sample_seen.
Proof.
  set (r := read_list request ([(method, zeros 16); (resource, zeros 16); (protocol, zeros 16); (header_name, zeros 16); (header_value, zeros 16); (header_name, zeros 16); (body, zeros 2)]) (http_reader request sample_in)).
  exists (match r with Some (_, s) => s | None => http_reader request [] end). split; [|split; [repeat constructor|]].
  - apply (read_list_reads request [(method, zeros 16); (resource, zeros 16); (protocol, zeros 16); (header_name, zeros 16); (header_value, zeros 16); (header_name, zeros 16); (body, zeros 2)]). vm_compute. reflexivity.
  - exists [(method, 3, true); (resource, 1, true); (protocol, 8, true)], [[(header_name, 1, true); (header_value, 1, true)]], true, [(body, 2, true)].
    split; [reflexivity|]. split; [|split; [repeat constructor|reflexivity]]. constructor; [|constructor].
    exists 1, true, [], (header_value, 1, true). repeat split; try lia. constructor.
Qed.
(** A header value that does not fit leaves the reader at the value: two values for one name. *)
Theorem C13_value_again_refuted : exists l t s, reads request (http_reader request l) t s /\
  map seen_item t = [method; resource; protocol; header_name; header_value; header_value].
Proof.
  set (l := b "GET / HTTP/1.1" ++ CRLF ++ b "A: b c" ++ CRLF ++ CRLF).
  set (cs := [(method, zeros 16); (resource, zeros 16); (protocol, zeros 16); (header_name, zeros 16); (header_value, zeros 2); (header_value, zeros 2)]).
  set (r := match read_list request cs (http_reader request l) with Some p => p | None => ([], http_reader request []) end).
  exists l, (fst r), (snd r). split; [apply (read_list_reads request cs); vm_compute; reflexivity|vm_compute; reflexivity].
Qed.
Print Assumptions C13_value_again_refuted.

(** C14: as long as the stream has the bytes, get_body stores exactly the next ones, whatever they
    are, and counts them.  Missing: the end of the stream (C14_end_refuted). *)
Theorem C14_exact_partial : forall sd m s d l, is_good s = true -> hnext s = body -> hin s = d ++ l -> length m = length d ->
  exists s', read_call sd body m s = Ret (d, s') /\ hgc s' = zlen d /\ hin s' = l /\ is_good s' = true /\ hnext s' = body.
Proof. intros sd m s d l G N I L. rewrite (body_exact sd m s d l G N I L). eexists. split; [reflexivity|]. auto. Qed.
Print Assumptions C14_exact_partial.
(** At the end of the stream: one byte more than there is, 255, is stored and counted. *)
Theorem C14_end_partial : forall sd m s d, is_good s = true -> hnext s = body -> hin s = d -> (length d < length m)%nat ->
  exists s', read_call sd body m s = Ret (d ++ [255] ++ drop (zlen d + 1) m, s') /\ hgc s' = zlen d + 1 /\ hin s' = [] /\ is_good s' = false.
Proof. exact body_end. Qed.
Print Assumptions C14_end_partial.
Definition at_body (l : list Z) : hrd := set_gstate (http_reader request l) 0 body.
Example C14_ex : is_good (at_body [0; 255; 13]) = true /\ hnext (at_body [0; 255; 13]) = body /\
  match read_call request body (zeros 2) (at_body [0; 255; 13]) with Ret (m, s) => m = [0; 255] /\ hgc s = 2 | _ => False end /\
  match read_call request body (zeros 5) (at_body [0; 255; 13]) with Ret (m, s) => m = [0; 255; 13; 255; 0] /\ hgc s = 4 | _ => False end.
Proof. vm_compute. repeat split; reflexivity. Qed.
Theorem C14_end_refuted : exists m s d m' s', is_good s = true /\ hnext s = body /\ hin s = d /\ zlen d < zlen m /\ read_call request body m s = Ret (m', s') /\ hgc s' <> zlen d.
Proof.
  set (r := got ([], at_body []) (read_call request body (zeros 2) (at_body [7]))).
  exists (zeros 2), (at_body [7]), [7], (fst r), (snd r). vm_compute. intuition discriminate.
Qed.
Print Assumptions C14_end_refuted.

(** C15: split_resource of a path with a query of non-empty parameters, as get_resource left it in
    the buffer (two nulls at the end, and anything after them), cuts it exactly at the ? and the
    &s and leaves the rest of the buffer; of a path alone, it changes nothing.  Missing: empty
    parameters and an empty query (the _refuted theorems). *)
Theorem C15_split_partial : forall path ps junk, path_text path -> ps <> [] -> Forall param_text ps ->
  split_resource (path ++ [63] ++ query_text ps ++ [0; 0] ++ junk) (zlen (path ++ [63] ++ query_text ps ++ [0; 0] ++ junk)) =
  Ret (path ++ [0] ++ strings ps ++ junk).
Proof. exact split_query. Qed.
Print Assumptions C15_split_partial.
Theorem C15_split_path : forall path junk size, path_text path -> split_resource (path ++ [0; 0] ++ junk) size = Ret (path ++ [0] ++ strings [] ++ junk).
Proof. exact split_path. Qed.
Print Assumptions C15_split_path.
(** get_resource_parameter then finds the value of the first parameter of that name (case
    matters), and reports absence otherwise. *)
Theorem C15_find_partial : forall path ps junk name r, path_text path -> Forall param_text ps -> Forall (fun c => c <> 0) name -> lookup name ps r ->
  exists o, get_resource_parameter (path ++ [0] ++ strings ps ++ junk) (zlen (path ++ [0] ++ strings ps ++ junk)) (name ++ [0]) = Ret o /\
    found_at (path ++ [0] ++ strings ps ++ junk) r o.
Proof. exact find_parameter. Qed.
Print Assumptions C15_find_partial.
Example C15_ex : path_text (b "/p") /\ Forall param_text [b "ab=1"; b "a"; b "a=2=3"; b "a=4"] /\
  lookup (b "a") [b "ab=1"; b "a"; b "a=2=3"; b "a=4"] (Some (b "2=3")) /\ lookup (b "A") [b "a=2"] None /\
  split_resource (b "/p?ab=1&a&a=2=3&a=4" ++ [0; 0; 5]) 22 = Ret (b "/p" ++ [0] ++ strings [b "ab=1"; b "a"; b "a=2=3"; b "a=4"] ++ [5]) /\
  get_resource_parameter (b "/p" ++ [0] ++ strings [b "ab=1"; b "a"; b "a=2=3"; b "a=4"] ++ [5]) 22 (b "a" ++ [0]) = Ret (Some 12).
Proof.
  split; [|split; [|split; [|split; [|split; vm_compute; reflexivity]]]].
  - repeat constructor; discriminate.
  - repeat constructor; discriminate.
  - do 2 (apply lookup_next; [intros v E; discriminate E|]). exact (lookup_here (b "a") (b "2=3") _).
  - apply lookup_next; [intros v E; discriminate E|apply lookup_nil].
Qed.
(** An empty parameter hides all the ones after it. *)
Theorem C15_empty_refuted : exists m m', split_resource m (zlen m) = Ret m' /\ m = b "/p?a=1&&b=2" ++ [0; 0] /\
  get_resource_parameter m' (zlen m) (b "b" ++ [0]) = Ret None.
Proof.
  set (m := b "/p?a=1&&b=2" ++ [0; 0]). exists m, (got [] (split_resource m (zlen m))). vm_compute. repeat split; reflexivity.
Qed.
Print Assumptions C15_empty_refuted.
(** A query with nothing in it makes split_resource overwrite the rest of the buffer. *)
Theorem C15_no_query_refuted : exists m', split_resource (b "/p?" ++ [0; 0] ++ b "x&y" ++ [0]) 9 = Ret m' /\ m' = b "/p" ++ [0; 0; 0] ++ b "x" ++ [0] ++ b "y" ++ [0].
Proof.
  exists (got [] (split_resource (b "/p?" ++ [0; 0] ++ b "x&y" ++ [0]) 9)). vm_compute. repeat split; reflexivity.
Qed.
Print Assumptions C15_no_query_refuted.
(** and read after its end *)
Theorem C15_overrun_refuted : split_resource (b "/p?" ++ [0; 0] ++ b "xy") 7 = Oob.
Proof. vm_compute. reflexivity. Qed.
Print Assumptions C15_overrun_refuted.

(** C62: a read that leaves the stream good took from the input exactly text of its form -- the
    header name needs its colon, the lines their CR LF, the protocol its letters, slash and dot --
    and what is in the buffer is that text (for a value, with its white space squeezed). *)
Theorem C62_accepts : forall sd it m s m' s', it <> body -> 2 <= zlen m < 2 ^ 64 ->
  read_call sd it m s = Ret (m', s') -> is_good s' = true -> took sd it m m' s s'.
Proof. exact readers_took. Qed.
Print Assumptions C62_accepts.
Definition at_item (it : item) (l : list Z) : hrd := set_gstate (http_reader request l) 0 it.
(** good, and how much is left; None when the call did not return *)
Definition left_over (r : hres (list Z * hrd)) : option (bool * list Z) := match r with Ret (_, s) => Some (is_good s, hin s) | _ => None end.
Definition crlf_x : list Z := [13; 10; 120].
Example C62_ex :
  left_over (read_call request header_name (zeros 9) (at_item header_name (b "Host : x"))) = Some (true, b "x") /\
  left_over (read_call request header_name (zeros 9) (at_item header_name (b "Host x"))) = Some (false, []) /\
  left_over (read_call request protocol (zeros 9) (at_item protocol (b "hTTp/1.0" ++ crlf_x))) = Some (true, b "x") /\
  left_over (read_call request protocol (zeros 9) (at_item protocol (b "HTML/1.0" ++ crlf_x))) = Some (false, b "/1.0" ++ crlf_x) /\
  left_over (read_call request header_value (zeros 9) (at_item header_value (b "a  b" ++ [13; 10; 32] ++ b "c " ++ crlf_x))) = Some (true, b "x").
Proof. vm_compute. repeat split; reflexivity. Qed.
(** The writer: put_protocol leaves the stream good only for HTTP (in any case), a slash and a version or
    the beginning of one, and writes it with capital letters. *)
Theorem C62_writer : forall sd buf w w', write_call sd (Put protocol) buf w = Ret w' -> wbad w' = false ->
  wbad w = false /\ exists h r, buf = h ++ [47] ++ r /\ http_letters h /\ version_begin r /\
    wout w' = wout w ++ b "HTTP/" ++ r ++ match sd with request => eol w | response => [32] end.
Proof. exact writer_took. Qed.
Print Assumptions C62_writer.
Example C62_writer_ex : map (fun p => match write_call response (Put protocol) (b p) (http_writer response None true) with Ret w => Some (wbad w, wout w) | _ => None end)
  ["http/1.0"%string; "HTTP/1"%string; "HTML/1.0"%string; "HTTP/x"%string] = [Some (false, b "HTTP/1.0 "); Some (false, b "HTTP/1 "); Some (true, []); Some (true, b "HTTP/")].
Proof. vm_compute. reflexivity. Qed.
(** No digit is needed in the version. *)
Theorem C62_version_refuted : exists m' s', read_call request protocol (zeros 9) (at_item protocol (b "HTTP/." ++ crlf_x)) = Ret (m', s') /\ is_good s' = true /\ hgc s' = 6.
Proof.
  set (r := got ([], at_body []) (read_call request protocol (zeros 9) (at_item protocol (b "HTTP/." ++ crlf_x)))).
  exists (fst r), (snd r). vm_compute. repeat split; reflexivity.
Qed.
Print Assumptions C62_version_refuted.
