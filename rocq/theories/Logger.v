(* Log levels: src/helpers/logger.cpp, and the header of the log, src/broker_core.cpp. *)
From Verif Require Import Base.
Local Open Scope string_scope.
Local Open Scope list_scope.

(* spdlog::level::level_enum; the order is that of the enumeration *)
Inductive level : Type := LTrace | LDebug | LInfo | LWarn | LErr | LCritical | LOff.
Definition enum (l : level) : Z :=
  match l with LTrace => 0 | LDebug => 1 | LInfo => 2 | LWarn => 3 | LErr => 4 | LCritical => 5 | LOff => 6 end%Z.
(* spdlog::logger::should_log: a message of level m is written by a logger set to l *)
Definition should_log (l m : level) : bool := Z.leb (enum l) (enum m).

(* helpers::get_log_level, logger.cpp:12-29 *)
Definition get_log_level (lev : string) : level :=
  if String.eqb lev "off" then LOff
  else if String.eqb lev "critical" then LCritical
  else if String.eqb lev "err" then LErr
  else if String.eqb lev "warn" then LWarn
  else if String.eqb lev "info" then LInfo
  else if String.eqb lev "debug" then LDebug
  else LTrace.
(* helpers::get_log_level_number, logger.cpp:31-44 *)
Definition get_log_level_number (lev : level) : Z :=
  match lev with LTrace => 6 | LDebug => 5 | LInfo => 4 | LWarn => 3 | LErr => 2 | LCritical => 1 | LOff => 0 end%Z.
(* helpers::compare_log_levels, logger.cpp:46-49 *)
Definition compare_log_levels (first second : level) : Z := (get_log_level_number first - get_log_level_number second)%Z.

(* the header, broker_core.cpp:110-119: the lines handed to the logger with their levels *)
Definition header (l : level) : list (level * string) :=
  if Z.ltb 0 (compare_log_levels LInfo l) then [(LCritical, "--- Started ReCodEx broker ---")]
  else [(LInfo, "------------------------------"); (LInfo, "    Started ReCodEx broker"); (LInfo, "------------------------------")].
(* what a logger set to l writes *)
Definition written_lines (l : level) (lines : list (level * string)) : list string :=
  map snd (filter (fun p => should_log l (fst p)) lines).
