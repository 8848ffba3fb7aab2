(* C75: the HTTP helper and libcurl. *)
From Verif Require Import Base Bytes Containers SpecText Notifier SpecHttp Curl SpecCurl TextFacts HexFacts CurlFacts.
Local Open Scope string_scope.
Local Open Scope list_scope.

(* Given a handle, each performs exactly one transfer, on these terms, and releases the handle, also if it throws: the
   certificate and the name of the host are checked, redirects are followed, answers from 400 on are errors, a login is
   sent if there is one. It returns the answer, or throws if libcurl reports an error. *)
Theorem C75_get : forall url port params u p pieces error, Forall whole_piece pieces ->
  let '(calls, r) := http_get url port params u p (Served pieces error) in
  transfers None calls [Terms (Some (c_str (url ++ "?" ++ query_text params))) port None true true true true true true (credentials u p)] /\
  r = answer "GET" (url ++ "?" ++ query_text params) pieces error.
Proof. exact get_made. Qed.
Print Assumptions C75_get.

Theorem C75_post : forall url port params u p pieces error, Forall whole_piece pieces ->
  let '(calls, r) := http_post url port params u p (Served pieces error) in
  transfers None calls [Terms (Some (c_str url)) port (Some (c_str (query_text params))) true true true true true true (credentials u p)] /\
  r = answer "POST" (url ++ "?" ++ query_text params) pieces error.
Proof. exact post_made. Qed.
Print Assumptions C75_post.

(* calls perform one list of transfers only *)
Theorem C75_one : forall h calls ts1, transfers h calls ts1 -> forall ts2, transfers h calls ts2 -> ts1 = ts2.
Proof. exact made_fun. Qed.
Print Assumptions C75_one.

(* Without a handle nothing is sent, and the caller cannot tell this from an empty answer. *)
Theorem C75_silent : forall url port params u p,
  http_get url port params u p NoCurl = ([Init], inr "") /\ http_post url port params u p NoCurl = ([Init], inr "").
Proof. split; reflexivity. Qed.
Print Assumptions C75_silent.

(* libcurl reads the name and the password that were meant exactly if the name has no colon. *)
Theorem C75_login : forall u p, no_char "000" u -> no_char "000" p -> (login_of (c_str (u ++ ":" ++ p)) u p <-> no_char ":" u).
Proof. exact login_kept. Qed.
Print Assumptions C75_login.
Theorem C75_login_one : forall t u1 p1 u2 p2, login_of t u1 p1 -> login_of t u2 p2 -> u1 = u2 /\ p1 = p2.
Proof. exact login_fun. Qed.
Print Assumptions C75_login_one.

(* What the notifier's model (C35) says of a POST is what is seen of these calls. *)
Theorem C75_notifier : forall url port params u p out,
  let '(calls, r) := http_post url (Z.of_N port) params u p out in
  snd (curl_post url port params u p (outcome_of out)) = (match r with inl what => Some what | inr _ => None end) /\
  match out with
  | NoCurl => fst (curl_post url port params u p (outcome_of out)) = []
  | Served _ _ => exists t url' body, transfers None calls [t] /\ t_url t = Some url' /\ t_body t = Some body /\ t_port t = Z.of_N port /\
      fst (curl_post url port params u p (outcome_of out)) = [Post (mkPost url' port body (t_login t))]
  end.
Proof. exact post_seen. Qed.
Print Assumptions C75_notifier.

Example C75_example :
  http_get "https://f/x" 443 [("a", "1"); ("b", "2")] "me" "" (Served [("hel", 1, 3); ("lo, you", 7, 1)] None) =
    ([Init; Setopt (SetUrl "https://f/x?a=1&b=2"); Setopt (SetPort 443); Setopt SetWriter; Setopt (SetFollowLocation 1); Setopt SetHttp2; Setopt (SetVerifyPeer 1);
      Setopt (SetVerifyHost 2); Setopt (SetFailOnError 1); Setopt SetAuthBasic; Setopt (SetUserPwd "me:"); Perform; Cleanup], inr "hello, you") /\
  snd (http_post "https://f/x" 80 [] "" "" (Served [("part", 1, 4)] (Some (404%Z, "HTTP response code said error")))) =
    inl "POST request failed to https://f/x?. Error: (404) HTTP response code said error" /\
  transfers None (fst (http_post "https://f/x" 80 [] "" "" (Served [] None))) [Terms (Some "https://f/x") 80 (Some "") true true true true true true None] /\
  (* a program that leaks its handle or uses it afterwards performs no list of transfers *)
  (forall ts, ~ transfers None [Init; Perform] ts) /\ (forall ts, ~ transfers None [Init; Cleanup; Perform] ts).
Proof.
  split; [vm_compute; reflexivity|]. split; [vm_compute; reflexivity|]. split; [exact (proj1 (C75_post "https://f/x" 80 [] "" "" [] None (Forall_nil _)))|].
  split; intros ts H; repeat match goal with H : transfers _ _ _ |- _ => inversion H; clear H; subst end.
Qed.

(* With a colon in the name libcurl logs somebody else in. *)
Theorem C75_login_refuted : exists u p u' p', credentials u p = credentials u' p' /\ u <> u' /\ login_of (c_str (u ++ ":" ++ p)) u' p'.
Proof.
  exists "a:b", "c", "a", "b:c". split; [reflexivity|]. split; [discriminate|]. apply (lg_both "a" "b:c"). apply no_char_cons. split; [discriminate|apply no_char_nil].
Qed.
Print Assumptions C75_login_refuted.
