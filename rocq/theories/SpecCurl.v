(* What a transfer made with libcurl is: the terms in force when it is performed. *)
From Verif Require Import Base Bytes Containers SpecText Notifier SpecHttp Curl.
Local Open Scope string_scope.
Local Open Scope list_scope.

(* The terms of a transfer, as libcurl documents its options. A port of 0 is that of the scheme; without a body it is a
   GET. t_kept: the answer goes to the caller's string. *)
Record terms : Type := Terms {
  t_url : option string; t_port : Z; t_body : option string; t_kept : bool; t_follows : bool;
  t_peer_checked : bool; t_host_checked : bool; t_strict : bool; t_basic : bool; t_login : option string }.
(* those of a new handle *)
Definition fresh : terms := Terms None 0 None false false true true false true None.

Definition adopt (s : setting) (t : terms) : terms :=
  let '(Terms u p b k f pc hc st ba l) := t in
  match s with
  | SetUrl x => Terms (Some x) p b k f pc hc st ba l
  | SetPort x => Terms u x b k f pc hc st ba l
  | SetPostFields x => Terms u p (Some x) k f pc hc st ba l
  | SetWriter => Terms u p b true f pc hc st ba l
  | SetFollowLocation n => Terms u p b k (negb (N.eqb n 0)) pc hc st ba l
  | SetHttp2 => t
  | SetVerifyPeer n => Terms u p b k f (negb (N.eqb n 0)) hc st ba l
  | SetVerifyHost n => Terms u p b k f pc (negb (N.eqb n 0)) st ba l
  | SetFailOnError n => Terms u p b k f pc hc (negb (N.eqb n 0)) ba l
  | SetAuthBasic => Terms u p b k f pc hc st true l
  | SetUserPwd x => Terms u p b k f pc hc st ba (Some x)
  end.

(* transfers h calls ts: a program that has handle h, or none, makes these calls, which perform the transfers ts. It uses
   only a handle it has, and has none in the end. *)
Inductive transfers : option terms -> list curl_call -> list terms -> Prop :=
| tf_end : transfers None [] []
| tf_init : forall calls ts, transfers (Some fresh) calls ts -> transfers None (Init :: calls) ts
| tf_set : forall t s calls ts, transfers (Some (adopt s t)) calls ts -> transfers (Some t) (Setopt s :: calls) ts
| tf_perform : forall t calls ts, transfers (Some t) calls ts -> transfers (Some t) (Perform :: calls) (t :: ts)
| tf_code : forall t calls ts, transfers (Some t) calls ts -> transfers (Some t) (GetResponseCode :: calls) ts
| tf_cleanup : forall t calls ts, transfers None calls ts -> transfers (Some t) (Cleanup :: calls) ts.

(* pieces as libcurl hands them out: as many bytes as announced *)
Definition whole_piece (p : string * nat * nat) : Prop := let '(ptr, size, nmemb) := p in String.length ptr = size * nmemb.
(* name and password as libcurl reads them: the name ends at the first colon *)
Inductive login_of : string -> string -> string -> Prop :=
| lg_both : forall name password, no_char ":" name -> login_of (name ++ ":" ++ password) name password
| lg_name : forall name, no_char ":" name -> login_of name name "".
(* the text with name and password, if there is one *)
Definition credentials (name password : string) : option string :=
  if String.eqb (name ++ password) "" then None else Some (c_str (name ++ ":" ++ password)).
(* what is returned (inr) or thrown (inl); target names the request *)
Definition answer (word target : string) (pieces : list (string * nat * nat)) (error : option (Z * string)) : string + string :=
  match error with
  | None => inr (String.concat "" (map (fun p => fst (fst p)) pieces))
  | Some (code, text) => inl (word ++ " request failed to " ++ target ++ ". Error: (" ++ to_string_Z code ++ ") " ++ text)%string
  end.
