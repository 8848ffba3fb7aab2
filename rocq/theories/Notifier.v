(* src/handlers/status_notifier_handler.cpp, src/helpers/curl.cpp *)
From Verif Require Import Base Bytes Containers.
Local Open Scope string_scope.

(* src/config/notifier_config.h:6-28; the port is a std::uint16_t *)
Record notifier_config : Type := mkNotifier {
  n_address : string;
  n_port : N;
  n_username : string;
  n_password : string }.

(* the bytes libcurl reads from a const char pointer: up to the first NUL *)
Fixpoint c_str (s : string) : string :=
  match s with
  | EmptyString => EmptyString
  | String a t => if Ascii.eqb a "000" then EmptyString else String a (c_str t)
  end.

(* get_http_query, curl.cpp:10-23 *)
Definition query_step (result : string) (par : string * string) : string :=
  (if Nat.ltb 0 (String.length result) then result ++ "&" else result) ++ (fst par ++ "=" ++ snd par).
Definition get_http_query (params : smap string) : string := fold_left query_step params "".

(* what a POST request is made of, as handed to libcurl (curl.cpp:112-141); redirects, TLS and protocol
   version are libcurl's business *)
Record post : Type := mkPost { p_url : string; p_port : N; p_body : string; p_auth : option string }.

(* What libcurl does in one call of curl_post: no handle (curl_easy_init returns null), or
   curl_easy_perform returning CURLE_OK (None) or an error, with the response code and the text for the error. *)
Inductive curl_outcome : Type := NoHandle | Performed (error : option (Z * string)).

(* visible actions of the notifier; Complain: a critical line in the log *)
Inductive act : Type := Post (p : post) | Complain (text : string) | Sleep (seconds : N).

(* curl_post, curl.cpp:100-159: the requests made, and the text of the curl_exception if it throws one.
   Without a handle it returns as if it had succeeded. *)
Definition curl_post (url : string) (port : N) (params : smap string) (username passwd : string)
    (out : curl_outcome) : list act * option string :=
  match out with
  | NoHandle => ([], None)
  | Performed error =>
      ([Post (mkPost (c_str url) port (c_str (get_http_query params))
         (if Nat.ltb 0 (String.length username) || Nat.ltb 0 (String.length passwd)
          then Some (c_str (username ++ ":" ++ passwd)) else None))],
       match error with
       | None => None
       | Some (code, text) =>
           Some ("POST request failed to " ++ (url ++ "?" ++ get_http_query params) ++ ". Error: (" ++ to_string_Z code ++ ") " ++ text)
       end)
  end.

(* first loop, status_notifier_handler.cpp:26-41: pairs of frames; *(it + 1) is the dereference of
   end() when the number of frames is odd *)
Fixpoint read_pairs (frames : list string) (type id : string) (params : smap string)
  : res (string * string * smap string) :=
  match frames with
  | [] => Val (type, id, params)
  | [_] => Fail DerefEnd
  | key :: value :: rest =>
      if String.eqb key "type" then read_pairs rest value id params
      else if String.eqb key "id" then read_pairs rest type value params
      else read_pairs rest type id (sm_set key value params)
  end.

(* retry loop, status_notifier_handler.cpp:53-65; outs n is what libcurl does in the n-th call; what() is a
   const char pointer *)
Fixpoint retry (call : curl_outcome -> list act * option string) (outs : nat -> curl_outcome) (n retries : nat) (delay : N) : list act :=
  match retries with
  | O => []
  | S retries =>
      match call (outs n) with
      | (acts, None) => acts
      | (acts, Some what) => (acts ++ Complain ("curl failed: " ++ c_str what) :: Sleep delay :: retry call outs (S n) retries (delay * 2))%list
      end
  end.

(* on_request, status_notifier_handler.cpp:18-66. It never calls respond. *)
Definition notifier_on_request (c : notifier_config) (outs : nat -> curl_outcome) (message : msg) : res (list act) :=
  let? (type, id, params) := read_pairs (m_data message) "" "" [] in
  let url := n_address c ++ (if negb (String.eqb type "") then "/" ++ type else "")
                         ++ (if negb (String.eqb id "") then "/" ++ id else "") in
  Val (retry (curl_post url (n_port c) params (n_username c) (n_password c)) outs 0 4 1%N).
