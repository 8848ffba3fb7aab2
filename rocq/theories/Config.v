(* src/config/broker_config.cpp, src/config/*.h, and the choices src/broker_core.cpp and
   src/broker_connect.cpp make with the configuration. *)
From Verif Require Import Base Bytes Queue Handler Notifier Spec.
Local Open Scope string_scope.
Local Open Scope list_scope.

(* A loaded document (yaml-cpp, not in this repository). *)
Inductive yaml : Type := Null | Scalar (text : string) | Seq (items : list yaml) | Map (entries : list (yaml * yaml)).

(* node[key] on a const node: the first entry with that scalar as its key *)
Definition is_scalar (text : string) (y : yaml) : bool :=
  match y with Scalar t => String.eqb t text | _ => false end.
Definition index (key : string) (y : yaml) : option yaml :=
  match y with
  | Map entries => match find (fun e => is_scalar key (fst e)) entries with Some e => Some (snd e) | None => None end
  | _ => None
  end.

(* What the conversions of yaml-cpp and boost::filesystem do with a text. as<std::string> of a scalar is
   its text; as<uint16_t>, as<size_t> may fail. *)
Record conversions : Type := mkConversions {
  as_u16 : string -> option N;
  as_size : string -> option N;
  path_filename : string -> string;
  path_parent : string -> string }.

(* The fields of broker_config (broker_config.h:108-136), log_config and notifier_config. None: indeterminate
   (notifier_config::port has no initialiser). *)
Record settings : Type := mkSettings {
  g_queue_manager : string;
  g_client_address : string; g_client_port : N;
  g_worker_address : string; g_worker_port : N;
  g_max_liveness : N; g_max_failures : N; g_ping_interval : Z;
  g_monitor_address : string; g_monitor_port : N;
  g_notifier_address : string; g_notifier_port : option N; g_notifier_username : string; g_notifier_password : string;
  g_log_path : string; g_log_basename : string; g_log_suffix : string; g_log_level : string; g_log_size : N; g_log_count : N }.

(* the initialisers *)
Definition default_settings : settings :=
  mkSettings "single" "*" 0 "*" 0 4 3 1000 "127.0.0.1" 7894 "" None "" ""
    "/var/log/recodex/" "broker" "log" "debug" (1024 * 1024) 3.

(* assignments to the fields *)
Definition set_queue_manager v g := mkSettings v (g_client_address g) (g_client_port g) (g_worker_address g) (g_worker_port g)
  (g_max_liveness g) (g_max_failures g) (g_ping_interval g) (g_monitor_address g) (g_monitor_port g)
  (g_notifier_address g) (g_notifier_port g) (g_notifier_username g) (g_notifier_password g)
  (g_log_path g) (g_log_basename g) (g_log_suffix g) (g_log_level g) (g_log_size g) (g_log_count g).
Definition set_client_address v g := mkSettings (g_queue_manager g) v (g_client_port g) (g_worker_address g) (g_worker_port g)
  (g_max_liveness g) (g_max_failures g) (g_ping_interval g) (g_monitor_address g) (g_monitor_port g)
  (g_notifier_address g) (g_notifier_port g) (g_notifier_username g) (g_notifier_password g)
  (g_log_path g) (g_log_basename g) (g_log_suffix g) (g_log_level g) (g_log_size g) (g_log_count g).
Definition set_client_port v g := mkSettings (g_queue_manager g) (g_client_address g) v (g_worker_address g) (g_worker_port g)
  (g_max_liveness g) (g_max_failures g) (g_ping_interval g) (g_monitor_address g) (g_monitor_port g)
  (g_notifier_address g) (g_notifier_port g) (g_notifier_username g) (g_notifier_password g)
  (g_log_path g) (g_log_basename g) (g_log_suffix g) (g_log_level g) (g_log_size g) (g_log_count g).
Definition set_worker_address v g := mkSettings (g_queue_manager g) (g_client_address g) (g_client_port g) v (g_worker_port g)
  (g_max_liveness g) (g_max_failures g) (g_ping_interval g) (g_monitor_address g) (g_monitor_port g)
  (g_notifier_address g) (g_notifier_port g) (g_notifier_username g) (g_notifier_password g)
  (g_log_path g) (g_log_basename g) (g_log_suffix g) (g_log_level g) (g_log_size g) (g_log_count g).
Definition set_worker_port v g := mkSettings (g_queue_manager g) (g_client_address g) (g_client_port g) (g_worker_address g) v
  (g_max_liveness g) (g_max_failures g) (g_ping_interval g) (g_monitor_address g) (g_monitor_port g)
  (g_notifier_address g) (g_notifier_port g) (g_notifier_username g) (g_notifier_password g)
  (g_log_path g) (g_log_basename g) (g_log_suffix g) (g_log_level g) (g_log_size g) (g_log_count g).
Definition set_max_liveness v g := mkSettings (g_queue_manager g) (g_client_address g) (g_client_port g) (g_worker_address g) (g_worker_port g)
  v (g_max_failures g) (g_ping_interval g) (g_monitor_address g) (g_monitor_port g)
  (g_notifier_address g) (g_notifier_port g) (g_notifier_username g) (g_notifier_password g)
  (g_log_path g) (g_log_basename g) (g_log_suffix g) (g_log_level g) (g_log_size g) (g_log_count g).
Definition set_max_failures v g := mkSettings (g_queue_manager g) (g_client_address g) (g_client_port g) (g_worker_address g) (g_worker_port g)
  (g_max_liveness g) v (g_ping_interval g) (g_monitor_address g) (g_monitor_port g)
  (g_notifier_address g) (g_notifier_port g) (g_notifier_username g) (g_notifier_password g)
  (g_log_path g) (g_log_basename g) (g_log_suffix g) (g_log_level g) (g_log_size g) (g_log_count g).
Definition set_ping_interval v g := mkSettings (g_queue_manager g) (g_client_address g) (g_client_port g) (g_worker_address g) (g_worker_port g)
  (g_max_liveness g) (g_max_failures g) v (g_monitor_address g) (g_monitor_port g)
  (g_notifier_address g) (g_notifier_port g) (g_notifier_username g) (g_notifier_password g)
  (g_log_path g) (g_log_basename g) (g_log_suffix g) (g_log_level g) (g_log_size g) (g_log_count g).
Definition set_monitor_address v g := mkSettings (g_queue_manager g) (g_client_address g) (g_client_port g) (g_worker_address g) (g_worker_port g)
  (g_max_liveness g) (g_max_failures g) (g_ping_interval g) v (g_monitor_port g)
  (g_notifier_address g) (g_notifier_port g) (g_notifier_username g) (g_notifier_password g)
  (g_log_path g) (g_log_basename g) (g_log_suffix g) (g_log_level g) (g_log_size g) (g_log_count g).
Definition set_monitor_port v g := mkSettings (g_queue_manager g) (g_client_address g) (g_client_port g) (g_worker_address g) (g_worker_port g)
  (g_max_liveness g) (g_max_failures g) (g_ping_interval g) (g_monitor_address g) v
  (g_notifier_address g) (g_notifier_port g) (g_notifier_username g) (g_notifier_password g)
  (g_log_path g) (g_log_basename g) (g_log_suffix g) (g_log_level g) (g_log_size g) (g_log_count g).
Definition set_notifier v p u w g := mkSettings (g_queue_manager g) (g_client_address g) (g_client_port g) (g_worker_address g) (g_worker_port g)
  (g_max_liveness g) (g_max_failures g) (g_ping_interval g) (g_monitor_address g) (g_monitor_port g) v p u w
  (g_log_path g) (g_log_basename g) (g_log_suffix g) (g_log_level g) (g_log_size g) (g_log_count g).
Definition set_log path base level size count g := mkSettings (g_queue_manager g) (g_client_address g) (g_client_port g) (g_worker_address g) (g_worker_port g)
  (g_max_liveness g) (g_max_failures g) (g_ping_interval g) (g_monitor_address g) (g_monitor_port g)
  (g_notifier_address g) (g_notifier_port g) (g_notifier_username g) (g_notifier_password g)
  path base (g_log_suffix g) level size count.

(* a config_error: the document is not a map, or a conversion failed (YAML::Exception) *)
Inductive config_failure : Type := NotAMap | BadConversion (text : string).

(* std::chrono::milliseconds(n) of a size_t n: two's complement *)
Definition milliseconds (n : N) : Z := ((Z.of_N n + 2 ^ 63) mod 2 ^ 64 - 2 ^ 63)%Z.

Section Load.
Variable cv : conversions.

Definition stage : Type := settings -> config_failure + settings.
Fixpoint stages (l : list stage) (g : settings) : config_failure + settings :=
  match l with
  | [] => inr g
  | f :: rest => match f g with inl e => inl e | inr g => stages rest g end
  end.
(* if (y[key] && y[key].IsScalar()) { ... y[key].as<std::string>() ... } *)
Definition text_entry (y : yaml) (key : string) (set : string -> settings -> settings) : stage := fun g =>
  match index key y with Some (Scalar t) => inr (set t g) | _ => inr g end.
(* the same with a number *)
Definition number_entry (y : yaml) (key : string) (conv : string -> option N) (set : N -> settings -> settings) : stage := fun g =>
  match index key y with
  | Some (Scalar t) => match conv t with Some n => inr (set n g) | None => inl (BadConversion t) end
  | _ => inr g
  end.
(* if (y[key] && y[key].IsMap()) { ... } *)
Definition section_entry (y : yaml) (key : string) (body : yaml -> list stage) : stage := fun g =>
  match index key y with
  | Some (Map entries) => stages (body (Map entries)) g
  | _ => inr g
  end.

(* broker_config::broker_config, broker_config.cpp:4-92 *)
Definition load (y : yaml) : config_failure + settings :=
  match y with
  | Map _ =>
      stages
        [text_entry y "queue_manager" set_queue_manager;
         section_entry y "clients" (fun c =>
           [text_entry c "address" set_client_address;
            number_entry c "port" (as_u16 cv) set_client_port]);
         section_entry y "workers" (fun c =>
           [text_entry c "address" set_worker_address;
            number_entry c "port" (as_u16 cv) set_worker_port;
            number_entry c "max_liveness" (as_size cv) set_max_liveness;
            number_entry c "max_request_failures" (as_size cv) set_max_failures;
            number_entry c "ping_interval" (as_size cv) (fun n => set_ping_interval (milliseconds n))]);
         section_entry y "monitor" (fun c =>
           [text_entry c "address" set_monitor_address;
            number_entry c "port" (as_u16 cv) set_monitor_port]);
         section_entry y "notifier" (fun c =>
           [text_entry c "address" (fun v g => set_notifier v (g_notifier_port g) (g_notifier_username g) (g_notifier_password g) g);
            number_entry c "port" (as_u16 cv) (fun v g => set_notifier (g_notifier_address g) (Some v) (g_notifier_username g) (g_notifier_password g) g);
            text_entry c "username" (fun v g => set_notifier (g_notifier_address g) (g_notifier_port g) v (g_notifier_password g) g);
            text_entry c "password" (fun v g => set_notifier (g_notifier_address g) (g_notifier_port g) (g_notifier_username g) v g)]);
         section_entry y "logger" (fun c =>
           [text_entry c "file" (fun v g => set_log (path_parent cv v) (path_filename cv v) (g_log_level g) (g_log_size g) (g_log_count g) g);
            text_entry c "level" (fun v g => set_log (g_log_path g) (g_log_basename g) v (g_log_size g) (g_log_count g) g);
            number_entry c "max-size" (as_size cv) (fun v g => set_log (g_log_path g) (g_log_basename g) (g_log_level g) v (g_log_count g) g);
            number_entry c "rotations" (as_size cv) (fun v g => set_log (g_log_path g) (g_log_basename g) (g_log_level g) (g_log_size g) v g)])]
        default_settings
  | _ => inl NotAMap
  end.
End Load.

(* broker_core::broker_init, broker_core.cpp:132-141; None: force_exit *)
Definition choose_manager (g : settings) : option kind :=
  if String.eqb (g_queue_manager g) "multi" then Some KMulti
  else if String.eqb (g_queue_manager g) "single" then Some KSingle
  else None.
(* what broker_handler reads of the configuration *)
Definition handler_config (g : settings) : config := mkConfig (g_max_liveness g) (g_max_failures g) (g_ping_interval g).
(* broker_connect.cpp:24-32 *)
Definition endpoint (address : string) (port : N) : string := "tcp://" ++ address ++ ":" ++ to_string_N port.
