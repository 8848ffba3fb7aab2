(* src/helpers/curl.cpp in full: every call of libcurl made by curl_get and curl_post, and what comes back. *)
From Verif Require Import Base Bytes Containers Notifier.
Local Open Scope string_scope.
Local Open Scope list_scope.

(* the options set; WRITEFUNCTION and WRITEDATA always name string_write_wrapper and the local `result`. libcurl copies
   the strings it is given up to the first NUL, except CURLOPT_POSTFIELDS, whose pointer it keeps: `query` outlives the
   transfer. *)
Inductive setting : Type :=
| SetUrl (text : string)
| SetPort (port : Z)
| SetPostFields (text : string)
| SetWriter
| SetFollowLocation (n : N)
| SetHttp2
| SetVerifyPeer (n : N)
| SetVerifyHost (n : N)
| SetFailOnError (n : N)
| SetAuthBasic
| SetUserPwd (text : string).

(* the calls of libcurl *)
Inductive curl_call : Type := Init | Setopt (s : setting) | Perform | GetResponseCode | Cleanup.

(* What libcurl does: curl_easy_init returns null, or curl_easy_perform hands these pieces (ptr, size, nmemb) to the
   write function and returns CURLE_OK (None) or an error, with the response code and the text for the error. *)
Inductive served : Type := NoCurl | Served (pieces : list (string * nat * nat)) (error : option (Z * string)).

(* string_write_wrapper, curl.cpp:33-40: the new contents of *str and the value returned *)
Definition string_write_wrapper (ptr : string) (size nmemb : nat) (str : string) : string * nat :=
  ((str ++ substring 0 (size * nmemb) ptr)%string, size * nmemb).
Fixpoint written (pieces : list (string * nat * nat)) (str : string) : string :=
  match pieces with
  | [] => str
  | (ptr, size, nmemb) :: rest => written rest (fst (string_write_wrapper ptr size nmemb str))
  end.

(* the options common to both, curl.cpp:63-79 and 120-136 *)
Definition common_settings (username passwd : string) : list setting :=
  [SetWriter; SetFollowLocation 1; SetHttp2; SetVerifyPeer 1; SetVerifyHost 2; SetFailOnError 1] ++
  (if negb (Nat.eqb (String.length username) 0) || negb (Nat.eqb (String.length passwd) 0)
   then [SetAuthBasic; SetUserPwd (c_str (username ++ ":" ++ passwd))] else []).

(* curl.cpp:85-97 and 142-154: what is thrown (inl) or returned (inr); the handle is released in both cases by the
   destructor of std::unique_ptr, which does nothing for a null pointer *)
Definition conclude (word url_query : string) (settings : list setting) (out : served) : list curl_call * (string + string) :=
  match out with
  | NoCurl => ([Init], inr "")
  | Served pieces error =>
      (Init :: map Setopt settings ++ Perform :: match error with Some _ => [GetResponseCode; Cleanup] | None => [Cleanup] end,
       match error with
       | None => inr (written pieces "")
       | Some (code, text) => inl (word ++ " request failed to " ++ url_query ++ ". Error: (" ++ to_string_Z code ++ ") " ++ text)%string
       end)
  end.

(* curl_get, curl.cpp:42-98. Never called by the broker. *)
Definition http_get (url : string) (port : Z) (params : smap string) (username passwd : string) (out : served) : list curl_call * (string + string) :=
  let query := get_http_query params in
  let url_query := (url ++ "?" ++ query)%string in
  conclude "GET" url_query (SetUrl (c_str url_query) :: SetPort port :: common_settings username passwd) out.

(* curl_post, curl.cpp:100-157 *)
Definition http_post (url : string) (port : Z) (params : smap string) (username passwd : string) (out : served) : list curl_call * (string + string) :=
  let query := get_http_query params in
  let url_query := (url ++ "?" ++ query)%string in
  conclude "POST" url_query (SetUrl (c_str url) :: SetPort port :: SetPostFields (c_str query) :: common_settings username passwd) out.
