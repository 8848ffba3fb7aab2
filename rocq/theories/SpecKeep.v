(* Vocabulary for what the broker keeps in memory. *)
From Verif Require Import Base Bytes Containers Worker Multi Single Queue Handler SpecText Spec SpecRun SpecMsg SpecPings.
Local Open Scope string_scope.
Local Open Scope list_scope.

(* the workers registered by the events of a history, in order; an event that registers nobody adds nothing *)
Inductive newcomers : list event -> list worker -> Prop :=
| nc_nil : newcomers [] []
| nc_enter : forall e tr w ws, enters w e -> newcomers tr ws -> newcomers (e :: tr) (w :: ws)
| nc_other : forall e tr ws, (forall w, ~ enters w e) -> newcomers tr ws -> newcomers (e :: tr) ws.

(* the worker objects kept alive by the table of ping timers (its keys are shared pointers) *)
Definition timed (s : state) : list worker := map fst (s_timers s).
