(* What a configuration document says, and the settings with their defaults. *)
From Verif Require Import Base Config.
Local Open Scope string_scope.
Local Open Scope list_scope.

(* the node at a path of keys; of several entries with one key the first counts *)
Inductive node_at : list string -> yaml -> yaml -> Prop :=
| na_here : forall y, node_at [] y y
| na_key : forall key path before y after z, (forall v, ~ In (Scalar key, v) before) -> node_at path y z ->
    node_at (key :: path) (Map (before ++ (Scalar key, y) :: after)) z.
(* the document has a scalar with text t there *)
Definition written (path : list string) (doc : yaml) (t : string) : Prop := node_at path doc (Scalar t).

(* settings that are texts: where they are written, what is made of the text, where it is kept, the default *)
Definition text_settings (cv : conversions) : list (list string * (string -> string) * (settings -> string) * string) :=
  [(["queue_manager"], fun t => t, g_queue_manager, "single");
   (["clients"; "address"], fun t => t, g_client_address, "*");
   (["workers"; "address"], fun t => t, g_worker_address, "*");
   (["monitor"; "address"], fun t => t, g_monitor_address, "127.0.0.1");
   (["notifier"; "address"], fun t => t, g_notifier_address, "");
   (["notifier"; "username"], fun t => t, g_notifier_username, "");
   (["notifier"; "password"], fun t => t, g_notifier_password, "");
   (["logger"; "file"], path_parent cv, g_log_path, "/var/log/recodex/");
   (["logger"; "file"], path_filename cv, g_log_basename, "broker");
   (["logger"; "level"], fun t => t, g_log_level, "debug")].

(* settings that are numbers: where, which conversion, how the number is kept, where it is kept, the
   default; None is an indeterminate value *)
Definition same (n : N) (z : Z) : Prop := z = Z.of_N n.
(* a signed 64-bit number that is the same modulo 2^64 *)
Definition wrapped (n : N) (z : Z) : Prop := (- 2 ^ 63 <= z < 2 ^ 63)%Z /\ exists q, (Z.of_N n = z + q * 2 ^ 64)%Z.
Definition number_settings (cv : conversions) : list (list string * (string -> option N) * (N -> Z -> Prop) * (settings -> option Z) * option Z) :=
  [(["clients"; "port"], as_u16 cv, same, fun g => Some (Z.of_N (g_client_port g)), Some 0%Z);
   (["workers"; "port"], as_u16 cv, same, fun g => Some (Z.of_N (g_worker_port g)), Some 0%Z);
   (["workers"; "max_liveness"], as_size cv, same, fun g => Some (Z.of_N (g_max_liveness g)), Some 4%Z);
   (["workers"; "max_request_failures"], as_size cv, same, fun g => Some (Z.of_N (g_max_failures g)), Some 3%Z);
   (["workers"; "ping_interval"], as_size cv, wrapped, fun g => Some (g_ping_interval g), Some 1000%Z);
   (["monitor"; "port"], as_u16 cv, same, fun g => Some (Z.of_N (g_monitor_port g)), Some 7894%Z);
   (["notifier"; "port"], as_u16 cv, same, fun g => option_map Z.of_N (g_notifier_port g), None);
   (["logger"; "max-size"], as_size cv, same, fun g => Some (Z.of_N (g_log_size g)), Some (1024 * 1024)%Z);
   (["logger"; "rotations"], as_size cv, same, fun g => Some (Z.of_N (g_log_count g)), Some 3%Z)].
