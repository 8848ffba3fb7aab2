(* A ledger: the whole broker with one queue per worker, specified without objects, pointers, maps or allocation order.
   Each worker is a desk with the task it has and the line of tasks waiting at it; a rota says whose turn it is. *)
From Verif Require Import Base Bytes Containers Worker Multi Single Queue Handler SpecText Spec SpecRun SpecMsg SpecPings SpecOutcome SpecJoin SpecTick SpecFront SpecBook SpecFatal.
Local Open Scope string_scope.
Local Open Scope list_scope.

(* name; whether a client has sent it (and not a worker announced it); the header frames it came with; the frames sent to
   a worker; failed attempts *)
Record task : Type := Task { k_name : string; k_whole : bool; k_need : list string; k_text : list string; k_strikes : N }.
Definition struck (k : task) : task := Task (k_name k) (k_whole k) (k_need k) (k_text k) (k_strikes k + 1).

Record desk : Type := Desk { d_key : nat; d_guest : guest; d_now : option task; d_line : list task }.
(* the desks, oldest first; their keys, the one whose turn it is first *)
Record floor : Type := Floor { f_desks : list desk; f_rota : list nat }.

Definition name_of (d : desk) : string := g_name (d_guest d).
Definition desk_at (k : nat) (ds : list desk) : option desk := find (fun d => Nat.eqb (d_key d) k) ds.
Definition desk_named (i : string) (ds : list desk) : option desk := find (fun d => String.eqb (name_of d) i) ds.
Definition change (k : nat) (f : desk -> desk) (ds : list desk) : list desk :=
  map (fun d => if Nat.eqb (d_key d) k then f d else d) ds.
Definition has (x : option task) (d : desk) : desk := Desk (d_key d) (d_guest d) x (d_line d).
Definition lines (ks : list task) (d : desk) : desk := Desk (d_key d) (d_guest d) (d_now d) ks.
Definition with_guest (g : guest) (d : desk) : desk := Desk (d_key d) g (d_now d) (d_line d).
Definition can (d : desk) (k : task) : Prop := provides (d_guest d) (k_need k).
Definition hand (d : desk) (k : task) : msg := Msg "workers" (name_of d) (k_text k).

(* the oldest desk of name i has been heard from *)
Fixpoint attend (n : N) (i : string) (ds : list desk) : list desk :=
  match ds with
  | [] => []
  | d :: t => if String.eqb (name_of d) i then with_guest (renew n (d_guest d)) d :: t else d :: attend n i t
  end.

(* place F k b outs F': b tells whether somebody can do task k. The first in the rota who can gets it, or has it wait in
   line, and goes to the end of the rota. *)
Inductive place : floor -> task -> bool -> list msg -> floor -> Prop :=
| pl_nobody : forall ds rota k, (forall x d, In x rota -> desk_at x ds = Some d -> ~ can d k) ->
    place (Floor ds rota) k false [] (Floor ds rota)
| pl_now : forall ds before x after d k, (forall y e, In y before -> desk_at y ds = Some e -> ~ can e k) ->
    desk_at x ds = Some d -> can d k -> d_now d = None ->
    place (Floor ds (before ++ x :: after)) k true [hand d k] (Floor (change x (has (Some k)) ds) (before ++ after ++ [x]))
| pl_wait : forall ds before x after d k c, (forall y e, In y before -> desk_at y ds = Some e -> ~ can e k) ->
    desk_at x ds = Some d -> can d k -> d_now d = Some c ->
    place (Floor ds (before ++ x :: after)) k true [] (Floor (change x (lines (d_line d ++ [k])) ds) (before ++ after ++ [x])).

(* a desk that has nothing takes the first task of its line *)
Definition takes_next (d : desk) (ds : list desk) : list msg * list desk :=
  match d_line d with
  | [] => ([], change (d_key d) (has None) ds)
  | k :: rest => ([hand d k], change (d_key d) (fun e => lines rest (has (Some k) e)) ds)
  end.

Definition worn_text (n : N) (why : string) : string :=
  ("Job was reassigned too many (" ++ to_string_N (one_less n) ++ ") times. Last failure message was: " ++ why)%string.

(* rehome F ks outs left F': the tasks of a desk that is gone find other desks, in order; those left could not *)
Inductive rehome (cfg : config) : floor -> list task -> list msg -> list task -> floor -> Prop :=
| rh_nil : forall F, rehome cfg F [] [] [] F
| rh_announced : forall F k ks outs left F', k_whole k = false -> rehome cfg F ks outs left F' ->
    rehome cfg F (k :: ks) (failed_report (k_name k) lost_text :: tell (k_name k) "FAILED" :: outs) left F'
| rh_worn : forall F k ks outs left F', k_whole k = true -> (c_max_failures cfg <= k_strikes k)%N -> rehome cfg F ks outs left F' ->
    rehome cfg F (k :: ks) (failed_report (k_name k) (worn_text (k_strikes k) lost_text) :: tell (k_name k) "FAILED" :: outs) left F'
| rh_left : forall F k ks out F1 outs left F', k_whole k = true -> (k_strikes k < c_max_failures cfg)%N ->
    place F k false out F1 -> rehome cfg F1 ks outs left F' ->
    rehome cfg F (k :: ks) (out ++ tell (k_name k) "FAILED" :: outs) (k :: left) F'
| rh_placed : forall F k ks out F1 outs left F', k_whole k = true -> (k_strikes k < c_max_failures cfg)%N ->
    place F k true out F1 -> rehome cfg F1 ks outs left F' ->
    rehome cfg F (k :: ks) (out ++ tell (k_name k) "ABORTED" :: outs) left F'.

Definition shown_as (g : guest) : string :=
  (string_to_hex (g_name g) ++ if String.eqb (g_note g) "" then "" else " (" ++ g_note g ++ ")")%string.

(* the desks xs are closed one after the other *)
Inductive close (cfg : config) : floor -> list nat -> list msg -> floor -> Prop :=
| cl_nil : forall F, close cfg F [] [] F
| cl_next : forall ds rota x xs d outs left F1 outs' F', desk_at x ds = Some d ->
    rehome cfg (Floor (filter (fun e => negb (Nat.eqb (d_key e) x)) ds) (filter (fun y => negb (Nat.eqb y x)) rota))
      (match d_now d with Some k => [struck k] | None => [] end ++ d_line d) outs left F1 ->
    close cfg F1 xs outs' F' ->
    close cfg (Floor ds rota) (x :: xs)
      (outs ++ map (fun k => failed_report (k_name k) ("Worker " ++ shown_as (d_guest d) ++ " dieded")%string) left ++ outs') F'.

(* z milliseconds pass at a desk; its last chance may be gone *)
Definition late (cfg : config) (z : Z) (d : desk) : bool := Z.ltb (c_ping_interval cfg) (g_waited (d_guest d) + z).
Definition pass (cfg : config) (z : Z) (d : desk) : desk :=
  let g := d_guest d in
  with_guest (if late cfg z d then renew (one_less (g_chances g)) g
              else Guest (g_name g) (g_group g) (g_frames g) (g_note g) (g_chances g) (g_waited g + z)) d.
Definition lost (cfg : config) (z : Z) (d : desk) : bool := late cfg z d && N.eqb (one_less (g_chances (d_guest d))) 0.

(* what is known of the whole: the floor, the next key, frozen or not, tasks evaluated and failed so far, and the numbers
   of waiting tasks, desks and free desks at the last tick *)
Record ledger : Type := Ledger { l_floor : floor; l_next : nat; l_frozen : bool; l_done : N; l_failed : N; l_seen : option (N * N * N) }.

Definition unoccupied (d : desk) : bool := match d_now d with None => true | Some _ => false end.
Definition look_round (ds : list desk) : N * N * N :=
  (N.of_nat (length (flat_map d_line ds)), N.of_nat (length ds), N.of_nat (length (filter unoccupied ds))).
Definition numbers (L : ledger) : list string :=
  let '(waiting, desks, idle) := match l_seen L with Some x => x | None => (0, 0, 0)%N end in
  ["evaluated-jobs"; to_string_N (l_done L); "failed-jobs"; to_string_N (l_failed L); "idle-worker-count"; to_string_N idle] ++
  (if l_seen L then ["jobs-in-progress"; to_string_N (desks - idle)] else []) ++
  ["queued-jobs"; to_string_N waiting; "worker-count"; to_string_N desks; "is-frozen"; if l_frozen L then "1" else "0"].

Definition complaint (g : guest) : msg :=
  Msg "status_notifier" "" ["type"; "error"; "message"; ("Received two different INIT messages from the same worker (" ++ shown_as g ++ ")")%string].

Definition fallback (x : option string) : string := match x with Some t => t | None => "" end.

Section React.
Context (cfg : config).

(* report d F frames outs F' a b: the done message with these frames comes from desk d; a and b go to the counters *)
Inductive report : desk -> floor -> list string -> list msg -> floor -> N -> N -> Prop :=
| re_short : forall d F rest, length rest < 2 -> report d F ("done" :: rest) [] F 0 0
| re_other : forall d F k j st rest, d_now d = Some k -> j <> k_name k -> report d F ("done" :: j :: st :: rest) [] F 0 0
| re_ok : forall d ds rota k rest outs ds', d_now d = Some k -> takes_next d ds = (outs, ds') ->
    report d (Floor ds rota) ("done" :: k_name k :: "OK" :: rest) (ok_report (k_name k) :: outs) (Floor ds' rota) 1 0
| re_failed : forall d ds rota k text outs ds', d_now d = Some k -> takes_next d ds = (outs, ds') ->
    report d (Floor ds rota) ["done"; k_name k; "FAILED"; text] (failed_report (k_name k) text :: outs) (Floor ds' rota) 0 1
| re_unknown : forall d ds rota k text, d_now d = Some k -> k_whole k = false ->
    report d (Floor ds rota) ["done"; k_name k; "INTERNAL_ERROR"; text]
      [failed_report (k_name k) ("Job failed with '" ++ text ++ "' and cannot be reassigned")%string]
      (Floor (change (d_key d) (has None) ds) rota) 0 1
| re_worn : forall d ds rota k text outs ds', d_now d = Some k -> k_whole k = true -> (c_max_failures cfg <= k_strikes k + 1)%N ->
    takes_next d ds = (outs, ds') ->
    report d (Floor ds rota) ["done"; k_name k; "INTERNAL_ERROR"; text]
      (failed_report (k_name k) (worn_text (k_strikes k + 1) text) :: tell (k_name k) "FAILED" :: outs) (Floor ds' rota) 0 1
| re_again : forall d ds rota k text outs F', d_now d = Some k -> k_whole k = true -> (k_strikes k + 1 < c_max_failures cfg)%N ->
    place (Floor (change (d_key d) (has None) ds) rota) (struck k) true outs F' ->
    report d (Floor ds rota) ["done"; k_name k; "INTERNAL_ERROR"; text] outs F' 0 1
| re_status : forall d F k st rest, d_now d = Some k -> ~ In st ["OK"; "FAILED"; "INTERNAL_ERROR"] ->
    report d F ("done" :: k_name k :: st :: rest) [] F 0 0
| re_frames : forall d F k st rest, d_now d = Some k -> In st ["FAILED"; "INTERNAL_ERROR"] -> length rest <> 1 ->
    report d F ("done" :: k_name k :: st :: rest) [] F 0 0.

(* react L m outs L': message m is answered with exactly outs *)
Inductive react : ledger -> msg -> list msg -> ledger -> Prop :=
| rc_again : forall ds rota next f dn fl seen i hw frames hdrs d, init_block frames hdrs -> desk_named i ds = Some d ->
    same_headers (g_frames (d_guest d)) hdrs ->
    react (Ledger (Floor ds rota) next f dn fl seen) (Msg "workers" i ("init" :: hw :: frames)) []
      (Ledger (Floor (attend (c_max_liveness cfg) i ds) rota) next f dn fl seen)
| rc_new : forall ds rota next f dn fl seen i hw frames hdrs, init_block frames hdrs ->
    (forall d, desk_named i ds = Some d -> ~ same_headers (g_frames (d_guest d)) hdrs) ->
    react (Ledger (Floor ds rota) next f dn fl seen) (Msg "workers" i ("init" :: hw :: frames))
      (match desk_named i ds with Some d => [complaint (d_guest d)] | None => [] end)
      (Ledger (Floor (attend (c_max_liveness cfg) i ds ++
                 [Desk next (Guest i hw hdrs (fallback (last_extra "description" ("init" :: hw :: frames))) 0 0)
                    (match last_extra "current_job" ("init" :: hw :: frames) with Some j => Some (Task j false [] [] 0) | None => None end) []])
              (next :: rota)) (S next) f dn fl seen)
| rc_short_init : forall ds rota next f dn fl seen i,
    react (Ledger (Floor ds rota) next f dn fl seen) (Msg "workers" i ["init"]) []
      (Ledger (Floor (attend (c_max_liveness cfg) i ds) rota) next f dn fl seen)
| rc_report : forall ds rota next f dn fl seen i rest d outs F' a b, desk_named i ds = Some d ->
    report d (Floor (attend (c_max_liveness cfg) i ds) rota) ("done" :: rest) outs F' a b ->
    react (Ledger (Floor ds rota) next f dn fl seen) (Msg "workers" i ("done" :: rest)) outs (Ledger F' next f (dn + a) (fl + b) seen)
| rc_stranger : forall ds rota next f dn fl seen i rest, desk_named i ds = None ->
    react (Ledger (Floor ds rota) next f dn fl seen) (Msg "workers" i ("done" :: rest)) [] (Ledger (Floor ds rota) next f dn fl seen)
| rc_ping : forall ds rota next f dn fl seen i rest,
    react (Ledger (Floor ds rota) next f dn fl seen) (Msg "workers" i ("ping" :: rest))
      [Msg "workers" i [match desk_named i ds with Some _ => "pong" | None => "intro" end]]
      (Ledger (Floor (attend (c_max_liveness cfg) i ds) rota) next f dn fl seen)
| rc_progress : forall ds rota next f dn fl seen i rest,
    react (Ledger (Floor ds rota) next f dn fl seen) (Msg "workers" i ("progress" :: rest)) [Msg "monitor" "recodex-monitor" rest]
      (Ledger (Floor (attend (c_max_liveness cfg) i ds) rota) next f dn fl seen)
| rc_word : forall ds rota next f dn fl seen i c rest, ~ In c worker_words ->
    react (Ledger (Floor ds rota) next f dn fl seen) (Msg "workers" i (c :: rest)) []
      (Ledger (Floor (attend (c_max_liveness cfg) i ds) rota) next f dn fl seen)
| rc_endless : forall L i job frames, frames <> [] -> ~ In "" frames ->
    react L (Msg "clients" i ("eval" :: job :: frames)) [Msg "clients" i ["ack"]] L
| rc_frozen : forall F next dn fl seen i job frames need payload, header_block frames need payload ->
    react (Ledger F next true dn fl seen) (Msg "clients" i ("eval" :: job :: frames))
      [Msg "clients" i ["ack"]; Msg "clients" i ["reject"; "The broker is frozen."]] (Ledger F next true dn fl seen)
| rc_accept : forall F next dn fl seen i job frames need payload outs F', header_block frames need payload ->
    place F (Task job true need ("eval" :: job :: payload) 0) true outs F' ->
    react (Ledger F next false dn fl seen) (Msg "clients" i ("eval" :: job :: frames))
      (Msg "clients" i ["ack"] :: outs ++ [Msg "clients" i ["accept"]]) (Ledger F' next false dn fl seen)
| rc_refuse : forall F next dn fl seen i job frames need payload text outs F', header_block frames need payload -> enumerates need text ->
    place F (Task job true need ("eval" :: job :: payload) 0) false outs F' ->
    react (Ledger F next false dn fl seen) (Msg "clients" i ("eval" :: job :: frames))
      [Msg "clients" i ["ack"]; Msg "clients" i ["reject"; ("No worker available for given headers: " ++ text)%string]; tell job "FAILED"]
      (Ledger F next false dn fl seen)
| rc_numbers : forall L i rest, react L (Msg "clients" i ("get-runtime-stats" :: rest)) [Msg "clients" i (numbers L)] L
| rc_freeze : forall F next f dn fl seen i rest,
    react (Ledger F next f dn fl seen) (Msg "clients" i ("freeze" :: rest)) [Msg "clients" i ["ack"]] (Ledger F next true dn fl seen)
| rc_unfreeze : forall F next f dn fl seen i rest,
    react (Ledger F next f dn fl seen) (Msg "clients" i ("unfreeze" :: rest)) [Msg "clients" i ["ack"]] (Ledger F next false dn fl seen)
| rc_client : forall L i c rest, ~ In c client_words -> react L (Msg "clients" i (c :: rest)) [] L
| rc_tick : forall ds rota next f dn fl seen i t rest z outs F', reads t z ->
    close cfg (Floor (map (pass cfg z) ds) rota) (map d_key (filter (lost cfg z) ds)) outs F' ->
    react (Ledger (Floor ds rota) next f dn fl seen) (Msg "timer" i (t :: rest)) outs
      (Ledger F' next f dn fl (Some (look_round (f_desks F'))))
| rc_other : forall L m, ~ In (m_key m) ["workers"; "clients"; "timer"] -> react L m [] L.

(* doomed L m outs f: message m is fatal; outs are sent before the broker dies with fault f *)
Inductive doomed (L : ledger) : msg -> list msg -> fault -> Prop :=
| dm_empty_worker : forall i, doomed L (Msg "workers" i []) [] OutOfRange
| dm_empty_client : forall i, doomed L (Msg "clients" i []) [] OutOfRange
| dm_empty_tick : forall i, doomed L (Msg "timer" i []) [] DerefEnd
| dm_eval_bare : forall i, doomed L (Msg "clients" i ["eval"]) [Msg "clients" i ["ack"]] OutOfRange
| dm_eval_job : forall i j, doomed L (Msg "clients" i ["eval"; j]) [Msg "clients" i ["ack"]] DerefEnd
| dm_eval_threads : forall i j frames need payload before f d, l_frozen L = false -> header_block frames need payload ->
    first_bad need before f -> In d (f_desks (l_floor L)) -> reaches (g_group (d_guest d)) (g_frames (d_guest d)) need before ->
    doomed L (Msg "clients" i ("eval" :: j :: frames)) [Msg "clients" i ["ack"]] f
| dm_init_new : forall i hw frames hdrs before f, desk_named i (f_desks (l_floor L)) = None -> init_block frames hdrs ->
    first_bad hdrs before f -> doomed L (Msg "workers" i ("init" :: hw :: frames)) [] f
| dm_init_changed : forall i hw frames hdrs before f d, desk_named i (f_desks (l_floor L)) = Some d -> init_block frames hdrs ->
    ~ same_headers (g_frames (d_guest d)) hdrs -> first_bad hdrs before f ->
    doomed L (Msg "workers" i ("init" :: hw :: frames)) [complaint (d_guest d)] f
| dm_done_idle : forall i d j st rest, desk_named i (f_desks (l_floor L)) = Some d -> d_now d = None ->
    doomed L (Msg "workers" i ("done" :: j :: st :: rest)) [] NullDeref
| dm_tick_text : forall i t rest f, bad_time t f -> doomed L (Msg "timer" i (t :: rest)) [] f
| dm_tick_overflow : forall i t rest z d, reads t z -> In d (f_desks (l_floor L)) -> in_i64 (g_waited (d_guest d) + z) = false ->
    doomed L (Msg "timer" i (t :: rest)) [] IntOverflow.

Inductive reacted : list msg -> list (list msg) -> ledger -> Prop :=
| rd_nil : reacted [] [] (Ledger (Floor [] []) 0 false 0 0 None)
| rd_snoc : forall ms outss L m outs L', reacted ms outss L -> (forall x f, ~ doomed L m x f) -> react L m outs L' ->
    reacted (ms ++ [m]) (outss ++ [outs]) L'.
End React.

(* task k stands for request r, desk d for worker w, the ledger for the state *)
Definition task_is (s : state) (k : task) (r : request) : Prop :=
  r_job r = k_name k /\ r_complete r = k_whole k /\ attempts s r = k_strikes k /\
  (r_complete r = true -> r_frames r = k_text k /\ forall h v, In (h, v) (r_headers r) <-> requires (k_need k) h v).
Inductive may_be {A B} (R : A -> B -> Prop) : option A -> option B -> Prop :=
| mb_none : may_be R None None
| mb_some : forall a b, R a b -> may_be R (Some a) (Some b).
Definition desk_is (s : state) (d : desk) (w : worker) : Prop :=
  d_key d = w_id w /\ stands s (d_guest d) w /\
  may_be (task_is s) (d_now d) (current_of (s_queue s) w) /\ Forall2 (task_is s) (d_line d) (own_queue (s_queue s) w).
