(* From the process to the frontend, specified by the transfers libcurl performs. *)
From Verif Require Import Base Bytes Containers SpecText Handler Notifier SpecHttp Curl SpecCurl Errands Reactor Config Logger Startup Async.
Local Open Scope string_scope.
Local Open Scope list_scope.

(* the messages the process hands to the notifier's thread *)
Definition informed (effs : list effect) : list msg :=
  flat_map (fun e => match e with Act (APass a m) => if Nat.eqb a 0 then [m] else [] | _ => [] end) effs.
(* those among the answers *)
Definition news (outss : list (list msg)) : list msg := filter (fun m => String.eqb (m_key m) "status_notifier") (concat outss).

(* The transfer for a notification: a POST with the configured login; redirects are followed, certificate and host name
   are checked, refusals are errors. target names it in complaints. *)
Definition terms_for (c : notifier_config) (d : list string) (t : terms) (target : string) : Prop :=
  exists p, post_for c d p target /\ t = Terms (Some (p_url p)) (Z.of_N (p_port p)) (Some (p_body p)) true true true true true true (p_auth p).

(* tries t target outs n d es: from attempt n on, with d seconds to wait next, es is done about transfer t: it is
   performed until it succeeds, four times in all; each failure is complained about and waited after, twice as long as
   the last time. A handle that cannot be had counts as success. *)
Inductive tries (t : terms) (target : string) (outs : nat -> served) : nat -> N -> list errand -> Prop :=
| tr_delivered : forall n d pieces cs, n < 4 -> outs n = Served pieces None -> transfers None cs [t] -> tries t target outs n d [Calls cs]
| tr_no_handle : forall n d, n < 4 -> outs n = NoCurl -> tries t target outs n d [Calls [Init]]
| tr_failed : forall n d pieces e cs es, n < 4 -> outs n = Served pieces (Some e) -> transfers None cs [t] -> tries t target outs (S n) (2 * d) es ->
    tries t target outs n d (Calls cs :: Critical (complaint target e) :: Pause d :: es)
| tr_given_up : forall d, tries t target outs 4 d [].

(* among the steps of the threads nothing is passed to another handler than id *)
Definition own_steps_only (id : string) (es : list step) : Prop := Forall (fun e => match e with Pass i _ => i = id | _ => True end) es.

(* the transfer goes where the settings say, with the login they say *)
Definition sent_to (g : settings) (t : terms) : Prop :=
  (exists where_to, t_url t = Some (c_str (g_notifier_address g ++ where_to))) /\
  (forall port, g_notifier_port g = Some port -> t_port t = Z.of_N port) /\
  t_login t = credentials (g_notifier_username g) (g_notifier_password g).
