(* Vocabulary for the exact effect of done and eval messages. *)
From Coq Require Import Sorted.
From Verif Require Import Base Bytes Containers Worker Multi Single Queue Handler SpecText Spec SpecRun SpecMsg SpecQueue.
Local Open Scope string_scope.
Local Open Scope list_scope.

Definition ok_report (j : string) : msg := Msg "status_notifier" "" ["type"; "job-status"; "id"; j; "status"; "OK"].
Definition tell (j text : string) : msg := Msg "monitor" "recodex-monitor" [j; text].

(* failed attempts of request r *)
Definition attempts (s : state) (r : request) : N := tbl_get (r_id r) (s_fails s).
Definition counter (s : state) (name : string) : N := match find (fun p => String.eqb (fst p) name) (s_stats s) with Some p => snd p | None => 0%N end.

(* the sender i has been heard from; apart from that only jobs, failed attempts and statistics may differ *)
Definition only_jobs (cfg : config) (i : string) (s s' : state) : Prop :=
  s_reg s' = s_reg s /\ s_frozen s' = s_frozen s /\ s_next_w s' = s_next_w s /\ s_next_r s' = s_next_r s /\
  exists s1, heard cfg i s s1 /\ s_live s' = s_live s1 /\ s_timers s' = s_timers s1.

(* exactly the counter `name` has gone up by one *)
Definition counted (name : string) (s s' : state) : Prop :=
  forall c, counter s' c = (counter s c + if String.eqb c name then 1 else 0)%N.

(* request r has one more failed attempt, the others have as many as before *)
Definition one_more_attempt (r : request) (s s' : state) : Prop :=
  forall r', attempts s' r' = (attempts s r' + if Nat.eqb (r_id r') (r_id r) then 1 else 0)%N.

(* x is what w gets in turn. Per-worker queues: the front of its own. Single queue: one that has waited
   longest of those w fits. The others go on waiting as before. *)
Definition in_turn (m m' : manager) (w : worker) (x : option request) : Prop :=
  match m with
  | QSingle _ => (forall r, x = Some r -> exists t, waiting_since m r t /\ forall r' t', waiting_since m r' t' -> fits w r' -> (t <= t')%Z) /\
                 (forall r t, waiting_since m r t -> x = Some r \/ waiting_since m' r t) /\
                 (forall r t, waiting_since m' r t -> waiting_since m r t)
  | QMulti _ => x = hd_error (own_queue m w) /\ own_queue m' w = tl (own_queue m w) /\
                forall w', w_id w' <> w_id w -> own_queue m' w' = own_queue m w'
  end.
(* w, whose request has ended, is given x: its next request, or nothing because none waits for it *)
Definition goes_on_with (m m' : manager) (w : worker) (x : option request) : Prop :=
  now_has m m' w x /\ handed_out m m' w x /\ (x = None -> forall r, ~ waits_for m r w) /\ in_turn m m' w x.

(* request r of worker w goes to worker w', everything else stays *)
Definition moved (m m' : manager) (r : request) (w w' : worker) : Prop :=
  current_of m' w' = Some r /\ (w_id w' <> w_id w -> current_of m' w = None) /\
  (forall w'', w_id w'' <> w_id w -> w_id w'' <> w_id w' -> current_of m' w'' = current_of m w'') /\ still_wait m m'.

(* r is the request that an eval with job id `job`, header frames need and payload frames payload makes in state s *)
Definition request_for (s : state) (job : string) (need payload : list string) (r : request) : Prop :=
  r_id r = s_next_r s /\ attempts s r = 0%N /\ r_complete r = true /\ r_job r = job /\ r_frames r = "eval" :: job :: payload /\
  (forall h v, In (h, v) (r_headers r) <-> requires need h v) /\
  forall m x, sm_find m (r_metadata r) = Some x <-> first_meta m need x.

(* text enumerates the requirements: sorted by header name, the values of one header in the order of the message *)
Definition enumerates (need : list string) (text : string) : Prop :=
  exists l : list (string * string), text = String.concat "" (map (fun p => fst p ++ "=" ++ snd p ++ "; ")%string l) /\
    StronglySorted (fun p q => String.ltb (fst q) (fst p) = false) l /\
    forall h, ((exists m, meta_name h m) -> ~ In h (map fst l)) /\
      ((forall m, ~ meta_name h m) -> values h need (map snd (filter (fun p => String.eqb (fst p) h) l))).

(* only the queue and the number of requests made differ *)
Definition only_queue (s s' : state) : Prop :=
  s_reg s' = s_reg s /\ s_live s' = s_live s /\ s_timers s' = s_timers s /\ s_fails s' = s_fails s /\ s_stats s' = s_stats s /\
  s_frozen s' = s_frozen s /\ s_next_w s' = s_next_w s /\ s_next_r s' = S (s_next_r s).
