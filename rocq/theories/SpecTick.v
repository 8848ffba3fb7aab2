(* Vocabulary for the exact effect of a timer tick. *)
From Coq Require Import Permutation.
From Verif Require Import Base Bytes Containers Worker Multi Single Queue Handler SpecText Spec SpecRun SpecMsg SpecQueue SpecOutcome SpecJoin.
Local Open Scope string_scope.
Local Open Scope list_scope.

Definition lost_text : string := "Worker timed out and its job cannot be reassigned".
(* n - 1 in 64 bits *)
Definition one_less (n : N) : N := if N.eqb n 0 then 18446744073709551615%N else (n - 1)%N.
Definition too_many_text (n : N) : string :=
  ("Job was reassigned too many (" ++ to_string_N (one_less n) ++ ") times. Last failure message was: " ++ lost_text)%string.
Definition died_report (w : worker) (r : request) : msg := failed_report (r_job r) ("Worker " ++ shown w ++ " dieded")%string.

Section Settled.
(* the workers left, and the failed attempts of a request *)
Context (cfg : config) (ws : list worker) (att : request -> N).

(* settled m rs outs un m': the requests rs of a lost worker are dealt with in order, which sends outs and
   takes the manager from m to m'; those of un have still to be reported *)
Inductive settled : manager -> list request -> list msg -> list request -> manager -> Prop :=
| se_nil : forall m, settled m [] [] [] m
| se_announced : forall m r rs outs un m', r_complete r = false -> settled m rs outs un m' ->
    settled m (r :: rs) (failed_report (r_job r) lost_text :: tell (r_job r) "FAILED" :: outs) un m'
| se_last : forall m r rs outs un m', r_complete r = true -> (c_max_failures cfg <= att r)%N -> settled m rs outs un m' ->
    settled m (r :: rs) (failed_report (r_job r) (too_many_text (att r)) :: tell (r_job r) "FAILED" :: outs) un m'
| se_nobody : forall m r rs outs un m', r_complete r = true -> (att r < c_max_failures cfg)%N ->
    (forall w, In w ws -> ~ fits w r) -> settled m rs outs un m' ->
    settled m (r :: rs) (tell (r_job r) "FAILED" :: outs) (r :: un) m'
| se_given : forall m r rs outs un m' w m1, r_complete r = true -> (att r < c_max_failures cfg)%N ->
    In w ws -> fits w r -> current_of m w = None -> now_has m m1 w (Some r) -> still_wait m m1 -> settled m1 rs outs un m' ->
    settled m (r :: rs) (handover w r :: tell (r_job r) "ABORTED" :: outs) un m'
| se_queued : forall m r rs outs un m' w m1, r_complete r = true -> (att r < c_max_failures cfg)%N ->
    In w ws -> fits w r -> (forall w', current_of m1 w' = current_of m w') -> lines_up m m1 r ->
    settled m1 rs outs un m' ->
    settled m (r :: rs) (tell (r_job r) "ABORTED" :: outs) un m'.
End Settled.

(* the requests lost with worker w, in order: its current one and those only it could run *)
Definition lost_with (ws : list worker) (m m' : manager) (w : worker) (rs : list request) : Prop :=
  exists gone, rs = olist (current_of m w) ++ gone /\ now_has m m' w None /\ leave m m' w gone /\
    match m with
    | QSingle _ => (forall r, In r gone -> forall w', In w' ws -> fits w' r -> w' = w) /\
                   (forall r, In r (queued m') -> exists w', In w' ws /\ w' <> w /\ fits w' r) /\
                   subseq gone (queued m) /\ subseq (queued m') (queued m)
    | QMulti _ => gone = own_queue m w
    end.

(* which of the two managers it is *)
Definition kind_of (m : manager) : kind := match m with QSingle _ => KSingle | QMulti _ => KMulti end.

(* removals rm ws att m outs att' m': the workers rm are removed one after the other; ws are registered before *)
Inductive removals (cfg : config) : list worker -> list worker -> (request -> N) -> manager -> list msg -> (request -> N) -> manager -> Prop :=
| rm_nil : forall ws att m, removals cfg [] ws att m [] att m
| rm_next : forall w rm ws ws1 att m rs m1 att1 outs un m2 outs' att' m',
    lost_with ws m m1 w rs ->
    (forall w', In w' ws1 <-> In w' ws /\ w' <> w) ->
    (forall r, att1 r = (att r + match current_of m w with Some c => if Nat.eqb (r_id r) (r_id c) then 1 else 0 | None => 0 end)%N) ->
    settled cfg ws1 att1 m1 rs outs un m2 ->
    kind_of m2 = kind_of m ->
    removals cfg rm ws1 att1 m2 outs' att' m' ->
    removals cfg (w :: rm) ws att m (outs ++ map (died_report w) un ++ outs') att' m'.

(* a tick of z milliseconds takes the last chance of worker w *)
Definition last_miss (cfg : config) (z : Z) (s : state) (w : worker) : Prop :=
  (c_ping_interval cfg < match ping_timer s w with Some t => t | None => 0 end + z)%Z /\ liveness s w = 1%N.
