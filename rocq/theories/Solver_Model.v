(** Model of equations_endpoint in samples/basic/equations.h:50-310: the requests to the equation solver, from the
    bytes of the request to the bytes of the response.

    The HTTP streams are those of Http_Model.v, the JSON streams those of Json_Model.v, the request line, static files
    and responses those of Endpoint_Model.v; the arrays, the loop over the headers and the JSON reader on the body are
    those of Rest_Model.v; the solver is that of Equations_Model.v.  The log is a null pointer.  The numbers and
    std::atof, and what %.16lg prints, are arbitrary ([numbers]).  The arrays a and b (samples/basic/equations.h:126-129)
    are read only when they were filled, so they are optional values here. *)

From Coq Require Import String ZArith List Bool.
From Verif Require Import Base ListMem Ascii_Model Table_Model Http_Model Http_Calls Endpoint_Model Rest_Model.
From Verif Require Json_Model Equations_Model.
Import ListNotations.
Open Scope list_scope.
Open Scope Z_scope.

(** double with its operators (samples/basic/equations.h:215-236), std::atof (src/json.h:448) and %.16lg (src/json.h:819-820) *)
Record numbers (F : Type) := { n_arith : Equations_Model.arith F; n_atof : list Z -> F; n_print : F -> list Z }.
Arguments n_arith {F}. Arguments n_atof {F}. Arguments n_print {F}.

(** samples/basic/equations.h:137: invalid_json; send_simple_response with it at 142, 158, 168, 184, 209, 286, 293, 305 *)
Definition invalid_problem : list (wcall * list Z) :=
  text_response "400" "Bad Request" "An invalid JSON payload was supplied. Must be {""a"": [ [1, 2], [3, 4] ], ""b"": [5, 6] }.".

Section solver.
Variable e : env.
(** samples/basic/equations.h:290-301: one turn of the loop over the two numbers; None = not a number *)
Definition one_number (tb : list Z) (s : Json_Model.rd) : hres (option (list Z) * list Z * Json_Model.rd) :=
  do (t, tb, s) <- get_token e tb s;                                                     (* 291 *)
  Ret (match t with Json_Model.TNum d => Some d | _ => None end, tb, s).                 (* 292-297 *)
(** samples/basic/equations.h:281-310: parse_array_2; the texts of the two numbers, None = false *)
Definition parse_array_2 (tb : list Z) (s : Json_Model.rd) : hres (option (list Z * list Z) * list Z * Json_Model.rd) :=
  do (t, tb, s) <- get_token e tb s;                                                     (* 283 *)
  match t with
  | Json_Model.TBegA =>                                                                  (* 285 *)
      do (x, tb, s) <- one_number tb s;
      match x with
      | None => Ret (None, tb, s)
      | Some x =>
          do (y, tb, s) <- one_number tb s;
          match y with
          | None => Ret (None, tb, s)
          | Some y =>
              do (t, tb, s) <- get_token e tb s;                                         (* 303 *)
              Ret (match t with Json_Model.TEndA => Some (x, y) | _ => None end, tb, s)  (* 304-309 *)
          end
      end
  | _ => Ret (None, tb, s)
  end.
(** samples/basic/equations.h:165-186: the array [2][2] of the property a; None = refused *)
Definition parse_matrix (tb : list Z) (s : Json_Model.rd) : hres (option (list Z * list Z * (list Z * list Z)) * list Z * Json_Model.rd) :=
  do (t, tb, s) <- get_token e tb s;                                                     (* 165 *)
  match t with
  | Json_Model.TBegA =>                                                                  (* 167 *)
      do (r0, tb, s) <- parse_array_2 tb s;                                              (* 172-180, i = 0 *)
      match r0 with
      | None => Ret (None, tb, s)
      | Some r0 =>
          do (r1, tb, s) <- parse_array_2 tb s;                                          (* 172-180, i = 1 *)
          match r1 with
          | None => Ret (None, tb, s)
          | Some r1 =>
              do (t, tb, s) <- get_token e tb s;                                         (* 182 *)
              Ret (match t with Json_Model.TEndA => Some (r0, r1) | _ => None end, tb, s)
          end
      end
  | _ => Ret (None, tb, s)
  end.
(** samples/basic/equations.h:147-206: the loop over the properties; [n] bounds the properties, [a] and [v] are has_a with a and has_b with b.
    The result: None = refused *)
Fixpoint read_problem (n : nat) (a : option (list Z * list Z * (list Z * list Z))) (v : option (list Z * list Z)) (tb : list Z) (s : Json_Model.rd)
    : hres (option (option (list Z * list Z * (list Z * list Z)) * option (list Z * list Z))) :=
  match n with
  | O => Loop
  | S n' =>
      do (t, tb, s) <- get_token e tb s;                                                 (* 149 *)
      match t with
      | Json_Model.TEndO => Ret (Some (a, v))                                            (* 152-154 *)
      | Json_Model.TProp p =>
          do is_a <- equals (p ++ [0]) "a";                                              (* 163 *)
          if is_a then
            do (r, tb, s) <- parse_matrix tb s;
            match r with None => Ret None | Some r => read_problem n' (Some r) v tb s end        (* 188 *)
          else
            do is_b <- equals (p ++ [0]) "b";                                            (* 190 *)
            if is_b then
              do (r, tb, s) <- parse_array_2 tb s;                                       (* 196 *)
              match r with None => Ret None | Some r => read_problem n' a (Some r) tb s end      (* 200 *)
            else
              do (it, s) <- of_json (Json_Model.skip_value (e_fuel e) s);                (* 204 *)
              read_problem n' a v tb s
      | _ => Ret None                                                                    (* 157-160 *)
      end
  end.
(** samples/basic/equations.h:131-212: the JSON input; None = refused *)
Definition get_problem (s : hrd) : hres (option (list Z * list Z * (list Z * list Z) * (list Z * list Z))) :=
  do (t, tb, js) <- get_token e (e_token e) (json_reader s);                             (* 140 *)
  match t with
  | Json_Model.TBegO =>                                                                  (* 141 *)
      do r <- read_problem (S (Datatypes.length (hin s))) None None tb js;
      Ret (match r with Some (Some a, Some v) => Some (a, v) | _ => None end)            (* 208-211 *)
  | _ => Ret None
  end.

(** samples/basic/equations.h:91-123: the loop over the headers has the text of verify_header_json (samples/tictactoe/game.h:1405-1451,
    Rest_Model.v), but goes on without a Content-Type.  The result: [] = go on, calls = this response *)
Definition read_headers (s : hrd) : hres (list (wcall * list Z) * hrd) :=
  do (r, s) <- verify_header_json e (S (Datatypes.length (hin s))) 0 false s;
  Ret (match r with Some calls => calls | None => [] end, s).

Context {F : Type}.
Variable N : numbers F.
(** samples/basic/equations.h:214-254: the solver and the JSON text of the response *)
Definition solution_text (p : list Z * list Z * (list Z * list Z) * (list Z * list Z)) : hres (list Z) :=
  let '((a00, a01), (a10, a11), (b0, b1)) := p in
  let '(status, x, y) := Equations_Model.solve (n_arith N) (n_atof N a00) (n_atof N a01) (n_atof N a10) (n_atof N a11) (n_atof N b0) (n_atof N b1) in
  json_text (e_body e 1025)
    [Json_Model.TBegO; prop "status"; num status; prop "x"; Json_Model.TNum (n_print N x); prop "y"; Json_Model.TNum (n_print N y); Json_Model.TEndO].

(** samples/basic/equations.h:66-282: shutdown requested, the calls that make up the response, and the reading side of the stream *)
Record solver_reply := { q_shut : bool; q_calls : list (wcall * list Z); q_stream : hrd }.
(** samples/basic/equations.h:66-282: process_rest_request; [m], [r] = the memory from method and resource on *)
Definition process_problem (m r : list Z) (s : hrd) : hres solver_reply :=
  do post <- equals_i m "POST";                                                          (* 72 *)
  do down <- (if post then equals_i r "/shutdown" else Ret false);
  if down then Ret {| q_shut := true; q_calls := text_response "200" "OK" "Server is shuting down..."; q_stream := s |} else
  do problem <- equals_i r "/problem";                                                   (* 80 *)
  if negb problem then Ret {| q_shut := false; q_calls := text_response "404" "Not Found" "The requested resource was not found."; q_stream := s |} else
  do post <- equals_i m "POST";                                                          (* 86 *)
  if negb post then Ret {| q_shut := false; q_calls := text_response "405" "Method Not Allowed" "POST is the only supported method for resource '/problem'."; q_stream := s |} else
  do (bad, s) <- read_headers s;                                                         (* 91-123 *)
  match bad with
  | _ :: _ => Ret {| q_shut := false; q_calls := bad; q_stream := s |}
  | [] =>
      do p <- get_problem s;                                                             (* 125-212 *)
      match p with
      | None => Ret {| q_shut := false; q_calls := invalid_problem; q_stream := s |}
      | Some p => do t <- solution_text p;                                               (* 214-254 *)
                  Ret {| q_shut := false; q_calls := json_response t; q_stream := s |}   (* 256-273 *)
      end
  end.

(** src/endpoint.h:105-155 with process_rest_request as above (samples/basic/equations.h:66-282); [c] as in Rest_Model.serve *)
Definition serve_problem (c : conn) (l : list Z) : hres answer :=
  do (m, path, s) <- read_line (c_config c) (c_mb c) (c_pb c) (c_qb c) l;
  let r := drop (match root_dir (c_config c) with Some root => zlen root | None => 0 end) path in
  match is_file_request (c_config c) m r with
  | None => Oob
  | Some true =>
      do (p, calls) <- file_request (c_fs c) m path;
      do w <- write_calls response calls (server_writer s (c_ltr c));
      Ret {| a_file := p; a_shut := false; a_calls := calls; a_out := wout w |}
  | Some false =>
      do rp <- process_problem m r s;
      do w <- write_calls response (q_calls rp) (server_writer (q_stream rp) (c_ltr c));
      Ret {| a_file := None; a_shut := q_shut rp; a_calls := q_calls rp; a_out := wout w |}
  end.
End solver.
Arguments solution_text e {F}. Arguments process_problem e {F}. Arguments serve_problem e {F}.
