(* C42: log levels. *)
From Verif Require Import Base Logger SpecLogger LoggerFacts.
Local Open Scope string_scope.
Local Open Scope list_scope.

(* the six names mean their levels, every other text means trace *)
Theorem C42_names : forall lev l, get_log_level lev = l <-> In (lev, l) level_names \/ l = LTrace /\ forall l', ~ In (lev, l') level_names.
Proof. exact names. Qed.
Print Assumptions C42_names.
Example C42_example_names : get_log_level "err" = LErr /\ get_log_level "error" = LTrace /\ get_log_level "" = LTrace.
Proof. repeat split. Qed.

(* the sign of the comparison says which level writes more *)
Theorem C42_compare : forall a b,
  ((0 < compare_log_levels a b)%Z <-> says_more a b) /\
  ((compare_log_levels a b < 0)%Z <-> says_more b a) /\
  (compare_log_levels a b = 0%Z <-> says_the_same a b).
Proof. exact (fun a b => conj (compare_positive a b) (conj (compare_negative a b) (compare_zero a b))). Qed.
Print Assumptions C42_compare.
Example C42_example_compare : (0 < compare_log_levels LDebug LInfo)%Z /\ says_more LDebug LInfo.
Proof. split; [reflexivity|]. exists LDebug. repeat split. discriminate. Qed.

(* the header of the log is written unless logging is off *)
Theorem C42_header : forall l, written_lines l (header l) = [] <-> l = LOff.
Proof. exact header_written. Qed.
Print Assumptions C42_header.
Example C42_example_header : written_lines LErr (header LErr) = ["--- Started ReCodEx broker ---"] /\ length (written_lines LInfo (header LInfo)) = 3.
Proof. split; reflexivity. Qed.
