(* The log of the process: what main and broker_core hand to the logger (Startup.v) and, after that, what broker_handler
   does (LogHandler.v), in order. The complaints of the notifier's thread are in Errands.v, the lines after an exception
   has left the loop in Ending.v; the reactor itself does not log. *)
From Verif Require Import Base Bytes Containers Worker Multi Single Queue Handler Spec Logger LogHandler Reactor Config Startup.
Local Open Scope string_scope.
Local Open Scope list_scope.

(* the calls of the logger; what cannot be formatted is not written *)
Definition noted (effs : list effect) : list (level * string) :=
  flat_map (fun e => match e with Note l text => [(l, text)] | _ => [] end) effs.
Definition calls_made (l : list out) : list (level * string) :=
  flat_map (fun x => match x with
                     | Say _ => []
                     | Line lv fmt args => match render fmt args with Some t => [(lv, t)] | None => [] end
                     end) l.
(* the messages the loop hands to broker_handler, reactor.cpp:144 *)
Definition handed (effs : list effect) : list msg :=
  flat_map (fun e => match e with Act (ACall 0 m) => [m] | _ => [] end) effs.
(* what the handler does about them *)
Fixpoint handler_record (o : oracle) (cfg : config) (s : state) (ms : list msg) : list out :=
  match ms with
  | [] => []
  | m :: rest =>
      match on_request_log o cfg m s with
      | (l, inl _) => l
      | (l, inr (_, s')) => l ++ handler_record o cfg s' rest
      end
  end.
Definition log_calls (env : environment) (args : list string) (o : oracle) (fuel : nat) (ws : list wait) : list (level * string) :=
  match start_up env args with
  | (first, Serving (k, g)) =>
      noted first ++ calls_made (handler_record o (handler_config g) (init_state (empty_manager k)) (handed (fst (process env args o fuel ws))))
  | (first, _) => noted first
  end.
