(* Vocabulary for single messages: who sends them, what being heard from does, which are ignored. *)
From Verif Require Import Base Bytes Containers Worker Multi Single Queue Handler SpecText Spec SpecRun.
Local Open Scope string_scope.
Local Open Scope list_scope.

(* the registered worker a message of identity i is attributed to: the oldest one with that identity *)
Definition sender (i : string) (s : state) : option worker := find (named i) (s_reg s).

(* missed pings still allowed, and milliseconds counted towards the next missed ping *)
Definition liveness (s : state) (w : worker) : N := tbl_get (w_id w) (s_live s).
Definition ping_timer (s : state) (w : worker) : option Z := pm_find w (s_timers s).

(* everything except liveness and ping timers is the same *)
Definition same_but_pings (s s' : state) : Prop :=
  s_reg s' = s_reg s /\ s_queue s' = s_queue s /\ s_fails s' = s_fails s /\ s_stats s' = s_stats s /\
  s_frozen s' = s_frozen s /\ s_next_w s' = s_next_w s /\ s_next_r s' = s_next_r s.

(* s' is s after identity i has been heard from *)
Definition heard (cfg : config) (i : string) (s s' : state) : Prop :=
  same_but_pings s s' /\
  forall w, match sender i s with
  | Some w0 =>
      if Nat.eqb (w_id w0) (w_id w)
      then liveness s' w = c_max_liveness cfg /\ ping_timer s' w = Some 0%Z
      else liveness s' w = liveness s w /\ ping_timer s' w = ping_timer s w
  | None => s' = s
  end.

Definition worker_words : list string := ["init"; "done"; "ping"; "progress"].
Definition client_words : list string := ["eval"; "get-runtime-stats"; "freeze"; "unfreeze"].

(* messages the broker ignores in state s *)
Inductive ignored (s : state) (m : msg) : Prop :=
| ig_worker_word : forall c rest, m_key m = "workers" -> m_data m = c :: rest -> ~ In c worker_words -> ignored s m
| ig_client_word : forall c rest, m_key m = "clients" -> m_data m = c :: rest -> ~ In c client_words -> ignored s m
| ig_channel : ~ In (m_key m) ["workers"; "clients"; "timer"] -> ignored s m
| ig_short_init : m_key m = "workers" -> m_data m = ["init"] -> ignored s m
| ig_unknown : forall rest, m_key m = "workers" -> m_data m = "done" :: rest -> sender (m_ident m) s = None -> ignored s m
| ig_short_done : forall rest, m_key m = "workers" -> m_data m = "done" :: rest -> length rest < 2 -> ignored s m
| ig_other_job : forall w r j st rest, m_key m = "workers" -> m_data m = "done" :: j :: st :: rest ->
    sender (m_ident m) s = Some w -> current_of (s_queue s) w = Some r -> r_job r <> j -> ignored s m
| ig_status : forall w r j st rest, m_key m = "workers" -> m_data m = "done" :: j :: st :: rest ->
    sender (m_ident m) s = Some w -> current_of (s_queue s) w = Some r ->
    ~ In st ["OK"; "FAILED"; "INTERNAL_ERROR"] -> ignored s m
| ig_frames : forall w r j st rest, m_key m = "workers" -> m_data m = "done" :: j :: st :: rest ->
    sender (m_ident m) s = Some w -> current_of (s_queue s) w = Some r ->
    In st ["FAILED"; "INTERNAL_ERROR"] -> length rest <> 1 -> ignored s m.

(* whether the last freeze/unfreeze command of a history was freeze *)
Definition is_command (channel word : string) (m : msg) : bool :=
  String.eqb (m_key m) channel && starts_with [word] (m_data m).
Definition frozen_after (tr : list event) : bool :=
  fold_left (fun b e => if is_command "clients" "freeze" (ev_in e) then true
                        else if is_command "clients" "unfreeze" (ev_in e) then false else b) tr false.

(* the event is a done report with status st, in the right format, of the sender's current job *)
Definition credited (st : string) (e : event) : bool :=
  own_report (m_ident (ev_in e)) e &&
  match m_data (ev_in e) with
  | _ :: _ :: st' :: rest => String.eqb st' st && (String.eqb st "OK" || Nat.eqb (length rest) 1)
  | _ => false
  end.

(* the state right after the last timer tick of a history *)
Definition after_last_tick (tr : list event) : option state :=
  fold_left (fun x e => if String.eqb (m_key (ev_in e)) "timer" then Some (ev_post e) else x) tr None.

(* some registered worker offers everything a submission with header frames need requires *)
Definition servable (tr : list event) (s : state) (need : list string) : Prop :=
  exists w reg hw hdrs, In w (s_reg s) /\ In reg tr /\ joined reg w hw hdrs /\
    forall h v, requires need h v -> offers hw hdrs h v.

(* two header blocks have the same headers: for every name the same values in the same order *)
Definition same_headers (h1 h2 : list string) : Prop := forall k vs, values k h1 vs <-> values k h2 vs.

(* everything is the same, except that an allocation number may have been used up *)
Definition same_jobs (s s' : state) : Prop :=
  s_reg s' = s_reg s /\ s_queue s' = s_queue s /\ s_fails s' = s_fails s /\ s_stats s' = s_stats s /\
  s_frozen s' = s_frozen s /\ s_live s' = s_live s /\ s_timers s' = s_timers s.
