(* Names of the log levels and what it means that a level says more than another. *)
From Verif Require Import Base Logger.
Local Open Scope string_scope.
Local Open Scope list_scope.

Definition level_names : list (string * level) :=
  [("off", LOff); ("critical", LCritical); ("err", LErr); ("warn", LWarn); ("info", LInfo); ("debug", LDebug)].
(* messages have a level other than off *)
Definition message_level (m : level) : Prop := m <> LOff.
(* a logger set to a writes some message that one set to b does not *)
Definition says_more (a b : level) : Prop := exists m, message_level m /\ should_log a m = true /\ should_log b m = false.
Definition says_the_same (a b : level) : Prop := forall m, message_level m -> should_log a m = should_log b m.
