(* A hall: the whole broker with one queue for all workers, specified without objects and maps. Desks are those of
   SpecLedger with no lines of their own; tasks that find no free desk wait in a common pool with the time of their
   arrival. The order in which desks are asked, what the clock shows and how a pool is put in order are parameters. *)
From Coq Require Import Permutation Sorted.
From Verif Require Import Base Bytes Containers Worker Multi Single Queue Handler SpecText Spec SpecRun SpecMsg SpecPings SpecOutcome SpecJoin SpecTick SpecFront SpecBook SpecFatal SpecLedger.
Local Open Scope string_scope.
Local Open Scope list_scope.

(* the desks, oldest first; the tasks waiting with the times they came; how often the clock has been read *)
Record hall : Type := Hall { h_desks : list desk; h_pool : list (task * Z); h_read : nat }.

Definition by_time (l : list (task * Z)) : Prop := StronglySorted (fun x y => (snd x <= snd y)%Z) l.
(* the order of time, in which tasks that came at the same time may follow each other in any way *)
Definition in_time (pool order : list (task * Z)) : Prop := Permutation pool order /\ by_time order.

Section Hall.
(* the order in which desks are asked (that of the addresses of their objects; living objects have different addresses),
   what the clock shows when it is read, and the orders in which a pool may be put *)
Context (rank : nat -> N) (clock : nat -> Z) (arranged : list (task * Z) -> list (task * Z) -> Prop).
Definition ahead (a b : nat) : Prop := (rank a < rank b)%N \/ rank a = rank b /\ a <= b.

(* join H k b outs H': b tells whether somebody can do task k. The first free desk that can gets it; if there is none,
   it waits. *)
Inductive join : hall -> task -> bool -> list msg -> hall -> Prop :=
| jn_nobody : forall ds pool n k, (forall d, In d ds -> ~ can d k) -> join (Hall ds pool n) k false [] (Hall ds pool n)
| jn_now : forall ds pool n d k, In d ds -> d_now d = None -> can d k ->
    (forall e, In e ds -> d_now e = None -> can e k -> ahead (d_key d) (d_key e)) ->
    join (Hall ds pool n) k true [hand d k] (Hall (change (d_key d) (has (Some k)) ds) pool n)
| jn_wait : forall ds pool n d k, (forall e, In e ds -> d_now e = None -> ~ can e k) -> In d ds -> can d k ->
    join (Hall ds pool n) k true [] (Hall ds (pool ++ [(k, clock n)]) (S n)).

(* desk d is free: the pool is put in order, and d takes the first task in it that it can do *)
Inductive takes (d : desk) : hall -> list msg -> hall -> Prop :=
| tk_none : forall ds pool n order, arranged pool order -> (forall x, In x order -> ~ can d (fst x)) ->
    takes d (Hall ds pool n) [] (Hall (change (d_key d) (has None) ds) order n)
| tk_some : forall ds pool n before k t after, arranged pool (before ++ (k, t) :: after) ->
    (forall x, In x before -> ~ can d (fst x)) -> can d k ->
    takes d (Hall ds pool n) [hand d k] (Hall (change (d_key d) (has (Some k)) ds) (before ++ after) n).

(* sift ds pool kept gone: the tasks of the pool that some desk can do, and the others *)
Inductive sift (ds : list desk) : list (task * Z) -> list (task * Z) -> list task -> Prop :=
| sf_nil : sift ds [] [] []
| sf_keep : forall k t pool kept gone d, In d ds -> can d k -> sift ds pool kept gone -> sift ds ((k, t) :: pool) ((k, t) :: kept) gone
| sf_drop : forall k t pool kept gone, (forall d, In d ds -> ~ can d k) -> sift ds pool kept gone -> sift ds ((k, t) :: pool) kept (k :: gone).

(* resettle H ks outs left H': tasks without a desk find other desks, in order; those left could not *)
Inductive resettle (cfg : config) : hall -> list task -> list msg -> list task -> hall -> Prop :=
| rs_nil : forall H, resettle cfg H [] [] [] H
| rs_announced : forall H k ks outs left H', k_whole k = false -> resettle cfg H ks outs left H' ->
    resettle cfg H (k :: ks) (failed_report (k_name k) lost_text :: tell (k_name k) "FAILED" :: outs) left H'
| rs_worn : forall H k ks outs left H', k_whole k = true -> (c_max_failures cfg <= k_strikes k)%N -> resettle cfg H ks outs left H' ->
    resettle cfg H (k :: ks) (failed_report (k_name k) (worn_text (k_strikes k) lost_text) :: tell (k_name k) "FAILED" :: outs) left H'
| rs_left : forall H k ks out H1 outs left H', k_whole k = true -> (k_strikes k < c_max_failures cfg)%N ->
    join H k false out H1 -> resettle cfg H1 ks outs left H' ->
    resettle cfg H (k :: ks) (out ++ tell (k_name k) "FAILED" :: outs) (k :: left) H'
| rs_placed : forall H k ks out H1 outs left H', k_whole k = true -> (k_strikes k < c_max_failures cfg)%N ->
    join H k true out H1 -> resettle cfg H1 ks outs left H' ->
    resettle cfg H (k :: ks) (out ++ tell (k_name k) "ABORTED" :: outs) left H'.

(* the desks xs are cleared one after the other *)
Inductive clear_out (cfg : config) : hall -> list nat -> list msg -> hall -> Prop :=
| co_nil : forall H, clear_out cfg H [] [] H
| co_next : forall ds pool n x xs d kept gone outs left H1 outs' H', desk_at x ds = Some d ->
    sift (filter (fun e => negb (Nat.eqb (d_key e) x)) ds) pool kept gone ->
    resettle cfg (Hall (filter (fun e => negb (Nat.eqb (d_key e) x)) ds) kept n)
      (match d_now d with Some k => [struck k] | None => [] end ++ gone) outs left H1 ->
    clear_out cfg H1 xs outs' H' ->
    clear_out cfg (Hall ds pool n) (x :: xs)
      (outs ++ map (fun k => failed_report (k_name k) ("Worker " ++ shown_as (d_guest d) ++ " dieded")%string) left ++ outs') H'.

(* the hall, the next key, frozen or not, tasks evaluated and failed so far, and the numbers of waiting tasks, desks and
   free desks at the last tick *)
Record roll : Type := Roll { p_hall : hall; p_next : nat; p_frozen : bool; p_done : N; p_failed : N; p_seen : option (N * N * N) }.
Definition look_about (H : hall) : N * N * N :=
  (N.of_nat (length (h_pool H)), N.of_nat (length (h_desks H)), N.of_nat (length (filter unoccupied (h_desks H)))).
(* the ledger with the same desks and numbers *)
Definition as_ledger (R : roll) : ledger := Ledger (Floor (h_desks (p_hall R)) []) (p_next R) (p_frozen R) (p_done R) (p_failed R) (p_seen R).

Section React.
Context (cfg : config).

Inductive tells : desk -> hall -> list string -> list msg -> hall -> N -> N -> Prop :=
| te_short : forall d H rest, length rest < 2 -> tells d H ("done" :: rest) [] H 0 0
| te_other : forall d H k j st rest, d_now d = Some k -> j <> k_name k -> tells d H ("done" :: j :: st :: rest) [] H 0 0
| te_ok : forall d H k rest outs H', d_now d = Some k -> takes d H outs H' ->
    tells d H ("done" :: k_name k :: "OK" :: rest) (ok_report (k_name k) :: outs) H' 1 0
| te_failed : forall d H k text outs H', d_now d = Some k -> takes d H outs H' ->
    tells d H ["done"; k_name k; "FAILED"; text] (failed_report (k_name k) text :: outs) H' 0 1
| te_unknown : forall d ds pool n k text, d_now d = Some k -> k_whole k = false ->
    tells d (Hall ds pool n) ["done"; k_name k; "INTERNAL_ERROR"; text]
      [failed_report (k_name k) ("Job failed with '" ++ text ++ "' and cannot be reassigned")%string]
      (Hall (change (d_key d) (has None) ds) pool n) 0 1
| te_worn : forall d H k text outs H', d_now d = Some k -> k_whole k = true -> (c_max_failures cfg <= k_strikes k + 1)%N ->
    takes d H outs H' ->
    tells d H ["done"; k_name k; "INTERNAL_ERROR"; text]
      (failed_report (k_name k) (worn_text (k_strikes k + 1) text) :: tell (k_name k) "FAILED" :: outs) H' 0 1
| te_again : forall d ds pool n k text outs H', d_now d = Some k -> k_whole k = true -> (k_strikes k + 1 < c_max_failures cfg)%N ->
    join (Hall (change (d_key d) (has None) ds) pool n) (struck k) true outs H' ->
    tells d (Hall ds pool n) ["done"; k_name k; "INTERNAL_ERROR"; text] outs H' 0 1
| te_status : forall d H k st rest, d_now d = Some k -> ~ In st ["OK"; "FAILED"; "INTERNAL_ERROR"] ->
    tells d H ("done" :: k_name k :: st :: rest) [] H 0 0
| te_frames : forall d H k st rest, d_now d = Some k -> In st ["FAILED"; "INTERNAL_ERROR"] -> length rest <> 1 ->
    tells d H ("done" :: k_name k :: st :: rest) [] H 0 0.

(* a new desk: one that comes with a task is sent an empty message, one without takes a task from the pool *)
Inductive opens : desk -> hall -> list msg -> hall -> Prop :=
| op_busy : forall d ds pool n k, d_now d = Some k -> opens d (Hall ds pool n) [Msg "workers" (name_of d) []] (Hall (ds ++ [d]) pool n)
| op_free : forall d ds pool n outs H', d_now d = None -> takes d (Hall (ds ++ [d]) pool n) outs H' -> opens d (Hall ds pool n) outs H'.

(* respond R m outs R': message m is answered with exactly outs *)
Inductive respond : roll -> msg -> list msg -> roll -> Prop :=
| rp_again : forall ds pool n next f dn fl seen i hw frames hdrs d, init_block frames hdrs -> desk_named i ds = Some d ->
    same_headers (g_frames (d_guest d)) hdrs ->
    respond (Roll (Hall ds pool n) next f dn fl seen) (Msg "workers" i ("init" :: hw :: frames)) []
      (Roll (Hall (attend (c_max_liveness cfg) i ds) pool n) next f dn fl seen)
| rp_new : forall ds pool n next f dn fl seen i hw frames hdrs outs H', init_block frames hdrs ->
    (forall d, desk_named i ds = Some d -> ~ same_headers (g_frames (d_guest d)) hdrs) ->
    opens (Desk next (Guest i hw hdrs (fallback (last_extra "description" ("init" :: hw :: frames))) 0 0)
             (match last_extra "current_job" ("init" :: hw :: frames) with Some j => Some (Task j false [] [] 0) | None => None end) [])
      (Hall (attend (c_max_liveness cfg) i ds) pool n) outs H' ->
    respond (Roll (Hall ds pool n) next f dn fl seen) (Msg "workers" i ("init" :: hw :: frames))
      (match desk_named i ds with Some d => [complaint (d_guest d)] | None => [] end ++ outs) (Roll H' (S next) f dn fl seen)
| rp_short_init : forall ds pool n next f dn fl seen i,
    respond (Roll (Hall ds pool n) next f dn fl seen) (Msg "workers" i ["init"]) []
      (Roll (Hall (attend (c_max_liveness cfg) i ds) pool n) next f dn fl seen)
| rp_report : forall ds pool n next f dn fl seen i rest d outs H' a b, desk_named i ds = Some d ->
    tells d (Hall (attend (c_max_liveness cfg) i ds) pool n) ("done" :: rest) outs H' a b ->
    respond (Roll (Hall ds pool n) next f dn fl seen) (Msg "workers" i ("done" :: rest)) outs (Roll H' next f (dn + a) (fl + b) seen)
| rp_stranger : forall ds pool n next f dn fl seen i rest, desk_named i ds = None ->
    respond (Roll (Hall ds pool n) next f dn fl seen) (Msg "workers" i ("done" :: rest)) [] (Roll (Hall ds pool n) next f dn fl seen)
| rp_ping : forall ds pool n next f dn fl seen i rest,
    respond (Roll (Hall ds pool n) next f dn fl seen) (Msg "workers" i ("ping" :: rest))
      [Msg "workers" i [match desk_named i ds with Some _ => "pong" | None => "intro" end]]
      (Roll (Hall (attend (c_max_liveness cfg) i ds) pool n) next f dn fl seen)
| rp_progress : forall ds pool n next f dn fl seen i rest,
    respond (Roll (Hall ds pool n) next f dn fl seen) (Msg "workers" i ("progress" :: rest)) [Msg "monitor" "recodex-monitor" rest]
      (Roll (Hall (attend (c_max_liveness cfg) i ds) pool n) next f dn fl seen)
| rp_word : forall ds pool n next f dn fl seen i c rest, ~ In c worker_words ->
    respond (Roll (Hall ds pool n) next f dn fl seen) (Msg "workers" i (c :: rest)) []
      (Roll (Hall (attend (c_max_liveness cfg) i ds) pool n) next f dn fl seen)
| rp_endless : forall R i job frames, frames <> [] -> ~ In "" frames ->
    respond R (Msg "clients" i ("eval" :: job :: frames)) [Msg "clients" i ["ack"]] R
| rp_frozen : forall H next dn fl seen i job frames need payload, header_block frames need payload ->
    respond (Roll H next true dn fl seen) (Msg "clients" i ("eval" :: job :: frames))
      [Msg "clients" i ["ack"]; Msg "clients" i ["reject"; "The broker is frozen."]] (Roll H next true dn fl seen)
| rp_accept : forall H next dn fl seen i job frames need payload outs H', header_block frames need payload ->
    join H (Task job true need ("eval" :: job :: payload) 0) true outs H' ->
    respond (Roll H next false dn fl seen) (Msg "clients" i ("eval" :: job :: frames))
      (Msg "clients" i ["ack"] :: outs ++ [Msg "clients" i ["accept"]]) (Roll H' next false dn fl seen)
| rp_refuse : forall H next dn fl seen i job frames need payload text outs H', header_block frames need payload -> enumerates need text ->
    join H (Task job true need ("eval" :: job :: payload) 0) false outs H' ->
    respond (Roll H next false dn fl seen) (Msg "clients" i ("eval" :: job :: frames))
      [Msg "clients" i ["ack"]; Msg "clients" i ["reject"; ("No worker available for given headers: " ++ text)%string]; tell job "FAILED"]
      (Roll H next false dn fl seen)
| rp_numbers : forall R i rest, respond R (Msg "clients" i ("get-runtime-stats" :: rest)) [Msg "clients" i (numbers (as_ledger R))] R
| rp_freeze : forall H next f dn fl seen i rest,
    respond (Roll H next f dn fl seen) (Msg "clients" i ("freeze" :: rest)) [Msg "clients" i ["ack"]] (Roll H next true dn fl seen)
| rp_unfreeze : forall H next f dn fl seen i rest,
    respond (Roll H next f dn fl seen) (Msg "clients" i ("unfreeze" :: rest)) [Msg "clients" i ["ack"]] (Roll H next false dn fl seen)
| rp_client : forall R i c rest, ~ In c client_words -> respond R (Msg "clients" i (c :: rest)) [] R
| rp_tick : forall ds pool n next f dn fl seen i t rest z outs H', reads t z ->
    clear_out cfg (Hall (map (pass cfg z) ds) pool n) (map d_key (filter (lost cfg z) ds)) outs H' ->
    respond (Roll (Hall ds pool n) next f dn fl seen) (Msg "timer" i (t :: rest)) outs (Roll H' next f dn fl (Some (look_about H')))
| rp_other : forall R m, ~ In (m_key m) ["workers"; "clients"; "timer"] -> respond R m [] R.

Inductive responded : list msg -> list (list msg) -> roll -> Prop :=
| ro_nil : responded [] [] (Roll (Hall [] [] 0) 0 false 0 0 None)
| ro_snoc : forall ms outss R m outs R', responded ms outss R -> (forall x f, ~ doomed (as_ledger R) m x f) -> respond R m outs R' ->
    responded (ms ++ [m]) (outss ++ [outs]) R'.
End React.
End Hall.

(* a task of the pool stands for an entry of the queue *)
Definition waits_as (s : state) (x : task * Z) (e : entry) : Prop := task_is s (fst x) (e_request e) /\ e_arrived e = snd x.
