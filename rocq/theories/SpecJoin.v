(* Vocabulary for the exact effect of an init message. *)
From Verif Require Import Base Bytes Containers Worker Multi Single Queue Handler SpecText Spec SpecRun SpecMsg SpecQueue SpecOutcome.
Local Open Scope string_scope.
Local Open Scope list_scope.

(* the last value of key after the empty frame of an init message with frames data *)
Definition last_extra (key : string) (data : list string) : option string :=
  fold_left (fun acc f => if String.eqb (fst (split_header f)) key then Some (snd (split_header f)) else acc)
            (after_empty (skipn 2 data)) None.

(* how a worker is shown to people *)
Definition shown (w : worker) : string :=
  (string_to_hex (w_identity w) ++ if String.eqb (w_description w) "" then "" else " (" ++ w_description w ++ ")")%string.

Definition two_inits (w : worker) : msg :=
  Msg "status_notifier" "" ["type"; "error"; "message"; ("Received two different INIT messages from the same worker (" ++ shown w ++ ")")%string].

(* w is the worker described by an init message of identity i with frames data and header frames hdrs *)
Definition worker_for (s : state) (i : string) (data hdrs : list string) (w : worker) : Prop :=
  w_id w = s_next_w s /\ w_identity w = i /\ nth_error data 1 = Some (w_hwgroup w) /\ constructed w /\
  (forall h v, In (h, v) (w_headers_copy w) <-> exists f, In f hdrs /\ header_frame f h v) /\
  w_description w = match last_extra "description" data with Some d => d | None => "" end.

(* r stands for the job j that a new worker says it is running *)
Definition stands_for (s s' : state) (j : string) (r : request) : Prop :=
  r_job r = j /\ r_complete r = false /\ r_frames r = [] /\ r_headers r = [] /\ s_next_r s <= r_id r < s_next_r s' /\ attempts s' r = 0%N.

(* w, sent by identity i, has joined and has been sent x *)
Definition taken_in (cfg : config) (i : string) (data : list string) (s s' : state) (w : worker) (x : option request) : Prop :=
  s_reg s' = s_reg s ++ [w] /\ s_fails s' = s_fails s /\ s_stats s' = s_stats s /\ s_frozen s' = s_frozen s /\
  s_next_w s' = S (s_next_w s) /\ s_next_r s <= s_next_r s' /\
  (exists s1, heard cfg i s s1 /\ s_live s' = s_live s1 /\
     forall w', w_id w' <> w_id w -> ping_timer s' w' = ping_timer s1 w') /\
  liveness s' w = 0%N /\ ping_timer s' w = Some 0%Z /\
  match last_extra "current_job" data with
  | Some j => exists r, stands_for s s' j r /\ now_has (s_queue s) (s_queue s') w (Some r) /\
                still_wait (s_queue s) (s_queue s') /\
                x = match s_queue s with QSingle _ => Some r | QMulti _ => None end
  | None => goes_on_with (s_queue s) (s_queue s') w x
  end.
