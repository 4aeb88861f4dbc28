(** Model of the handling of one request by src/endpoint.h: reading the request line, static files,
    the default REST handler and the responses, on top of the HTTP streams (Http_Model.v).

    http_server_stream (src/i/http.i.h:730) derives from std::istream and std::ostream, which share one
    virtual base std::ios: after a failed read nothing can be written.
    A file is what stat() says about it and the bytes an ifstream can read from it ([fs]).
    The socket is a list of input bytes and takes all output.  Logging is left out (null log).  The
    virtual members are the ones of the base class. *)

From Coq Require Import String ZArith List Bool.
From Verif Require Import Base ListMem Ascii_Model Table_Model Http_Model Http_Calls.
Import ListNotations.
Open Scope list_scope.
Open Scope Z_scope.

(** src/i/endpoint.i.h:110 *)
Definition method_size : Z := 32.
(** src/i/endpoint.i.h:115 *)
Definition resource_size : Z := 2048.
(** src/i/endpoint.i.h:120 *)
Definition protocol_size : Z := 16.
(** src/i/endpoint.i.h:125 *)
Definition file_chunk_size : Z := 1024.
(** src/i/endpoint.i.h:50-81: endpoint_config (the members used here, without their terminating nulls) *)
Record config := { root_dir : option (list Z); files_prefix : option (list Z) }.
(** src/endpoint.h:190-231: a file: st_size, and what can be read from it *)
Record file := { f_size : Z; f_data : list Z }.
(** src/endpoint.h:190-191, 226: the file system *)
Definition fsystem : Type := list Z -> option file.

(** A literal with its terminating null, e.g. method::GET (src/i/endpoint.i.h:143) *)
Definition lit (s : string) : list Z := bytes_of_string s ++ [0].

(** src/endpoint.h:112-135: the request line; [mb], [pb], [qb] are the uninitialised arrays method, path
    and protocol.  The results are the memory of method and of path. *)
Definition read_line (c : config) (mb pb qb : list Z) (l : list Z) : hres (list Z * list Z * hrd) :=
  do (m, s) <- read_call request method mb (http_reader request l);                     (* 118-119 *)
  match root_dir c with
  | None => Oob                                                                         (* 124: strcpy of a null pointer *)
  | Some root =>
      if zlen pb <? zlen root + 1 then Oob                                              (* 124: strcpy *)
      else
        do (r, s) <- read_call request resource (0 :: drop (zlen root + 1) pb) s;       (* 125-126 *)
        do (q, s) <- read_call request protocol qb s;                                   (* 131-132 *)
        Ret (m, root ++ r, s)
  end.

(** src/endpoint.h:327-330: is_file_request; None = a read out of bounds *)
Definition is_file_request (c : config) (m r : list Z) : option bool :=
  let n := match files_prefix c with Some p => length p | None => O end in
  match are_equal_i_n (Some r) (option_map (fun p => p ++ [0]) (files_prefix c)) n with
  | None => None
  | Some true => Some true
  | Some false =>
      match are_equal_i (Some m) (Some (lit "GET")) with
      | None => None
      | Some false => Some false
      | Some true => are_equal_i (Some r) (Some (lit "/favicon.ico"))
      end
  end.

(** std::strrchr(path, '.') at src/endpoint.h:283: the rest of the string from the last dot on *)
Fixpoint last_dot (p : list Z) : option (list Z) :=
  match p with
  | [] => None
  | c :: p' => match last_dot p' with Some e => Some e | None => if c =? 46 then Some p else None end
  end.
(** src/i/endpoint.i.h:210: content_type *)
Definition text_plain : list Z := bytes_of_string "text/plain; charset=utf-8".
(** src/i/endpoint.i.h:211 *)
Definition text_html : list Z := bytes_of_string "text/html; charset=utf-8".
(** src/i/endpoint.i.h:212 *)
Definition text_css : list Z := bytes_of_string "text/css; charset=utf-8".
(** src/i/endpoint.i.h:213 *)
Definition text_javascript : list Z := bytes_of_string "text/javascript; charset=utf-8".
(** src/i/endpoint.i.h:214 *)
Definition text_xml : list Z := bytes_of_string "text/xml; charset=utf-8".
(** src/i/endpoint.i.h:218 *)
Definition image_png : list Z := bytes_of_string "image/png".
(** src/i/endpoint.i.h:219 *)
Definition image_jpeg : list Z := bytes_of_string "image/jpeg".
(** src/i/endpoint.i.h:220 *)
Definition image_gif : list Z := bytes_of_string "image/gif".
(** src/i/endpoint.i.h:221 *)
Definition image_bmp : list Z := bytes_of_string "image/bmp".
(** src/i/endpoint.i.h:222 *)
Definition image_svg : list Z := bytes_of_string "image/svg+xml".
(** src/endpoint.h:288-320: the extensions in the order of the tests *)
Definition extension_tests : list (string * list Z) :=
  [(".html", text_html); (".css", text_css); (".js", text_javascript); (".txt", text_plain); (".xml", text_xml);
   (".png", image_png); (".jpeg", image_jpeg); (".jpg", image_jpeg); (".gif", image_gif); (".bmp", image_bmp); (".svg", image_svg)]%string.
(** src/endpoint.h:288-322; the outer None = a read out of bounds, the inner one a null pointer *)
Fixpoint test_extensions (ext : list Z) (l : list (string * list Z)) : option (option (list Z)) :=
  match l with
  | [] => Some None
  | (e, t) :: l => match are_equal_i (Some (ext ++ [0])) (Some (lit e)) with
                   | None => None
                   | Some true => Some (Some t)
                   | Some false => test_extensions ext l
                   end
  end.
(** src/endpoint.h:282-323: get_content_type_from_path *)
Definition content_type_of (path : list Z) : option (option (list Z)) :=
  match last_dot path with None => Some None | Some ext => test_extensions ext extension_tests end.

(** std::snprintf with %zu (src/endpoint.h:202, 256): at most 20 digits, so nothing is cut off at 32 *)
Fixpoint zu (fuel : nat) (n : Z) : list Z :=
  match fuel with
  | O => []
  | S f => if n <? 10 then [48 + n] else zu f (n / 10) ++ [48 + n mod 10]
  end.
(** src/endpoint.h:202, 256 *)
Definition decimal (n : Z) : list Z := zu 20 (wrap_u64 n).

(** src/endpoint.h:258-260, 209-211: the status line *)
Definition status_calls (code reason : list Z) : list (wcall * list Z) :=
  [(Put protocol, bytes_of_string "HTTP/1.1"); (Put status_code, code); (Put reason_phrase, reason)].
(** src/endpoint.h:262-267, 213-222: a header *)
Definition header_calls (name : string) (value : list Z) : list (wcall * list Z) :=
  [(Put header_name, bytes_of_string name); (Put header_value, value)].
(** src/endpoint.h:255-270: send_simple_response *)
Definition simple_response (code reason ctype body : list Z) : list (wcall * list Z) :=
  status_calls code reason
  ++ header_calls "Connection" (bytes_of_string "close")
  ++ header_calls "Content-Type" ctype
  ++ header_calls "Content-Length" (decimal (zlen body))
  ++ [(End_headers, []); (Put Http_Model.body, body)].
(** src/endpoint.h:226-231: the chunks read and put; [n] iterations *)
Fixpoint chunks (n : nat) (data : list Z) : list (list Z) :=
  match n with
  | O => []
  | S n => take file_chunk_size data :: chunks n (drop file_chunk_size data)
  end.
(** src/endpoint.h:201-231: the response with the contents of the file *)
Definition file_response (ctype : option (list Z)) (f : file) : list (wcall * list Z) :=
  status_calls (bytes_of_string "200") (bytes_of_string "OK")
  ++ header_calls "Connection" (bytes_of_string "close")
  ++ match ctype with Some t => header_calls "Content-Type" t | None => [] end
  ++ header_calls "Content-Length" (decimal (f_size f))
  ++ [(End_headers, [])]
  ++ map (fun b => (Put body, b)) (chunks (Z.to_nat ((f_size f + file_chunk_size - 1) / file_chunk_size)) (f_data f)).
(** src/endpoint.h:181 *)
Definition get_only : list Z := bytes_of_string "GET is the only supported method for static files.".
(** src/endpoint.h:195 *)
Definition not_found : list Z := bytes_of_string "Error: The requested resource was not found.".
(** src/endpoint.h:245 *)
Definition todo : list Z := bytes_of_string "TODO: Override process_rest_request().".

(** src/endpoint.h:105-170: what a request leads to: the path of the file asked for from the file system,
    whether the shutdown was requested, the calls of the response, and the bytes sent *)
Record answer := { a_file : option (list Z); a_shut : bool; a_calls : list (wcall * list Z); a_out : list Z }.
(** src/endpoint.h:174-232: process_file_request: the path used (if it gets that far) and the response *)
Definition file_request (fs : fsystem) (m path : list Z) : hres (option (list Z) * list (wcall * list Z)) :=
  match are_equal_i (Some m) (Some (lit "GET")) with
  | None => Oob
  | Some false => Ret (None, simple_response (bytes_of_string "405") (bytes_of_string "Method Not Allowed") text_plain get_only)
  | Some true =>
      match c_str path with
      | None => Oob
      | Some p =>
          match fs p with
          | None => Ret (Some p, simple_response (bytes_of_string "404") (bytes_of_string "Not Found") text_plain not_found)
          | Some f => match content_type_of p with
                      | None => Oob
                      | Some t => Ret (Some p, file_response t f)
                      end
          end
      end
  end.
(** src/endpoint.h:236-246: process_rest_request: whether the shutdown is requested, and the response *)
Definition rest_request (m r : list Z) : hres (bool * list (wcall * list Z)) :=
  let resp := simple_response (bytes_of_string "200") (bytes_of_string "200") text_plain todo in
  match are_equal_i (Some m) (Some (lit "POST")) with
  | None => Oob
  | Some false => Ret (false, resp)
  | Some true => match are_equal_i (Some r) (Some (lit "/shutdown")) with
                 | None => Oob
                 | Some b => Ret (b, resp)
                 end
  end.
(** src/i/http.i.h:730: the writing side of the stream after the reads [s]; [ltr]: see Http_Model *)
Definition server_writer (s : hrd) (ltr : bool) : hwr :=
  {| wout := []; wroom := None; wbad := negb (is_good s); wnext := first_item response; wltr := ltr |}.
(** src/endpoint.h:105-155: process_request (its threads are in Shutdown_Model.v) *)
Definition process_request (c : config) (fs : fsystem) (ltr : bool) (mb pb qb : list Z) (l : list Z) : hres answer :=
  do (m, path, s) <- read_line c mb pb qb l;
  let r := drop (match root_dir c with Some root => zlen root | None => 0 end) path in
  match is_file_request c m r with
  | None => Oob
  | Some true =>
      do (p, calls) <- file_request fs m path;
      do w <- write_calls response calls (server_writer s ltr);
      Ret {| a_file := p; a_shut := false; a_calls := calls; a_out := wout w |}
  | Some false =>
      do (sh, calls) <- rest_request m r;
      do w <- write_calls response calls (server_writer s ltr);
      Ret {| a_file := None; a_shut := sh; a_calls := calls; a_out := wout w |}
  end.
