(* What the end of the broker leaves behind. *)
From Verif Require Import Base Logger Startup.
Local Open Scope string_scope.
Local Open Scope list_scope.

Definition curl_end : list effect := [Note LInfo "Cleanup after CURL..."; CurlCleanup; Note LInfo "CURL cleaned."].
