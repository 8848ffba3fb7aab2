(* A guest book: what clients and pinging workers are answered, specified without workers, queues or requests. *)
From Verif Require Import Base Bytes Containers Worker Multi Single Queue Handler SpecText Spec SpecRun SpecMsg SpecPings SpecOutcome SpecJoin SpecTick SpecFront.
Local Open Scope string_scope.
Local Open Scope list_scope.

(* name, hardware group, header frames, description, missed pings still allowed, milliseconds counted towards the next one *)
Record guest : Type := Guest { g_name : string; g_group : string; g_frames : list string; g_note : string; g_chances : N; g_waited : Z }.
Record book : Type := Book { b_guests : list guest; b_frozen : bool }.

Definition renew (n : N) (g : guest) : guest := Guest (g_name g) (g_group g) (g_frames g) (g_note g) n 0%Z.
(* the oldest guest of a name, and the book after this guest has been heard *)
Definition guest_of (i : string) (gs : list guest) : option guest := find (fun g => String.eqb (g_name g) i) gs.
Fixpoint hear (n : N) (i : string) (gs : list guest) : list guest :=
  match gs with
  | [] => []
  | g :: t => if String.eqb (g_name g) i then renew n g :: t else g :: hear n i t
  end.
(* what becomes of a guest when z milliseconds have passed *)
Definition pause (cfg : config) (z : Z) (g : guest) : list guest :=
  if Z.ltb (c_ping_interval cfg) (g_waited g + z)
  then if N.eqb (one_less (g_chances g)) 0 then [] else [renew (one_less (g_chances g)) g]
  else [Guest (g_name g) (g_group g) (g_frames g) (g_note g) (g_chances g) (g_waited g + z)].
Definition provides (g : guest) (need : list string) : Prop := forall h v, requires need h v -> offers (g_group g) (g_frames g) h v.

(* serve b m as b': in book b message m is answered with as, then the book is b' *)
Inductive serve (cfg : config) : book -> msg -> list msg -> book -> Prop :=
| sv_again : forall gs f i hw frames hdrs g, init_block frames hdrs -> guest_of i gs = Some g -> same_headers (g_frames g) hdrs ->
    serve cfg (Book gs f) (Msg "workers" i ("init" :: hw :: frames)) [] (Book (hear (c_max_liveness cfg) i gs) f)
| sv_new : forall gs f i hw frames hdrs, init_block frames hdrs -> (forall g, guest_of i gs = Some g -> ~ same_headers (g_frames g) hdrs) ->
    serve cfg (Book gs f) (Msg "workers" i ("init" :: hw :: frames)) []
      (Book (hear (c_max_liveness cfg) i gs ++
             [Guest i hw hdrs (match last_extra "description" ("init" :: hw :: frames) with Some d => d | None => "" end) 0 0]) f)
| sv_ping : forall gs f i rest,
    serve cfg (Book gs f) (Msg "workers" i ("ping" :: rest))
      [Msg "workers" i [match guest_of i gs with Some _ => "pong" | None => "intro" end]] (Book (hear (c_max_liveness cfg) i gs) f)
| sv_progress : forall gs f i rest,
    serve cfg (Book gs f) (Msg "workers" i ("progress" :: rest)) [Msg "monitor" "recodex-monitor" rest] (Book (hear (c_max_liveness cfg) i gs) f)
| sv_worker : forall gs f i c rest, ~ In c ["init"; "ping"; "progress"] \/ (c = "init" /\ rest = []) ->
    serve cfg (Book gs f) (Msg "workers" i (c :: rest)) [] (Book (hear (c_max_liveness cfg) i gs) f)
| sv_endless : forall b i job frames, ~ In "" frames ->
    serve cfg b (Msg "clients" i ("eval" :: job :: frames)) [Msg "clients" i ["ack"]] b
| sv_frozen : forall gs i job frames need payload, header_block frames need payload ->
    serve cfg (Book gs true) (Msg "clients" i ("eval" :: job :: frames))
      [Msg "clients" i ["ack"]; Msg "clients" i ["reject"; "The broker is frozen."]] (Book gs true)
| sv_accept : forall gs i job frames need payload g, header_block frames need payload -> In g gs -> provides g need ->
    serve cfg (Book gs false) (Msg "clients" i ("eval" :: job :: frames)) [Msg "clients" i ["ack"]; Msg "clients" i ["accept"]] (Book gs false)
| sv_refuse : forall gs i job frames need payload text, header_block frames need payload -> (forall g, In g gs -> ~ provides g need) ->
    enumerates need text ->
    serve cfg (Book gs false) (Msg "clients" i ("eval" :: job :: frames))
      [Msg "clients" i ["ack"]; Msg "clients" i ["reject"; ("No worker available for given headers: " ++ text)%string]] (Book gs false)
| sv_freeze : forall gs f i rest, serve cfg (Book gs f) (Msg "clients" i ("freeze" :: rest)) [Msg "clients" i ["ack"]] (Book gs true)
| sv_unfreeze : forall gs f i rest, serve cfg (Book gs f) (Msg "clients" i ("unfreeze" :: rest)) [Msg "clients" i ["ack"]] (Book gs false)
| sv_client : forall b i c rest, ~ In c ["eval"; "freeze"; "unfreeze"] -> serve cfg b (Msg "clients" i (c :: rest)) [] b
| sv_tick : forall gs f i t rest z, reads t z -> serve cfg (Book gs f) (Msg "timer" i (t :: rest)) [] (Book (flat_map (pause cfg z) gs) f)
| sv_other : forall b m, ~ In (m_key m) ["workers"; "clients"; "timer"] -> serve cfg b m [] b.

Inductive served (cfg : config) : list msg -> list (list msg) -> book -> Prop :=
| sd_nil : served cfg [] [] (Book [] false)
| sd_snoc : forall ms ass b m a b', served cfg ms ass b -> serve cfg b m a b' -> served cfg (ms ++ [m]) (ass ++ [a]) b'.

(* guest g stands for worker w *)
Definition stands (s : state) (g : guest) (w : worker) : Prop :=
  w_identity w = g_name g /\ w_hwgroup w = g_group g /\ w_description w = g_note g /\
  liveness s w = g_chances g /\ ping_timer s w = Some (g_waited g) /\
  forall k, values k (g_frames g) (map snd (filter (fun p => String.eqb (fst p) k) (w_headers_copy w))).
