(* src/handlers/status_notifier_handler.cpp once more, with the HTTP helper in full (Curl.v) and with the settings of the
   process. *)
From Verif Require Import Base Bytes Containers Notifier Curl Config.
Local Open Scope string_scope.
Local Open Scope list_scope.

(* what the notifier's thread does: the calls of libcurl, a critical line in the log, a sleep *)
Inductive errand : Type := Calls (cs : list curl_call) | Critical (text : string) | Pause (seconds : N).

(* retry loop, status_notifier_handler.cpp:53-65; outs n is what libcurl does in the n-th call *)
Fixpoint try_again (call : served -> list curl_call * (string + string)) (outs : nat -> served) (n retries : nat) (delay : N) : list errand :=
  match retries with
  | O => []
  | S retries =>
      match call (outs n) with
      | (cs, inr _) => [Calls cs]
      | (cs, inl what) => Calls cs :: Critical ("curl failed: " ++ c_str what) :: Pause delay :: try_again call outs (S n) retries (delay * 2)
      end
  end.

(* on_request, status_notifier_handler.cpp:18-66; the port is a std::uint16_t, the parameter of curl_post a long *)
Definition notify (c : notifier_config) (outs : nat -> served) (message : msg) : res (list errand) :=
  let? (type, id, params) := read_pairs (m_data message) "" "" [] in
  let url := (n_address c ++ (if negb (String.eqb type "") then "/" ++ type else "")
                          ++ (if negb (String.eqb id "") then "/" ++ id else ""))%string in
  Val (try_again (http_post url (Z.of_N (n_port c)) params (n_username c) (n_password c)) outs 0 4 1%N).

(* broker_connect.cpp:40-41, broker_config.cpp:142-145: the notifier's copy of its part of the settings. A port that was
   not configured is indeterminate. *)
Inductive notifier_from (g : settings) : notifier_config -> Prop :=
| nf_settings : forall port, g_notifier_port g = Some port \/ g_notifier_port g = None ->
    notifier_from g (mkNotifier (g_notifier_address g) port (g_notifier_username g) (g_notifier_password g)).
