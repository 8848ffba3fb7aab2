(* C52: worker objects are never released. *)
From Coq Require Import Permutation.
From Verif Require Import Base Bytes Containers Worker Multi Single Queue Handler SpecText Spec SpecRun SpecMsg SpecPings SpecKeep
  Demo Keep.
Local Open Scope string_scope.
Local Open Scope list_scope.

(* C52. The table of ping timers refers to every worker registered since the start, once each, in
   every execution and whether or not the worker has been removed from the registry since. *)
Theorem C52_timers : forall o cfg k tr s ws,
  run o cfg k tr s -> newcomers tr ws -> Permutation (timed s) ws /\ NoDup ws.
Proof. exact timed_newcomers. Qed.
Print Assumptions C52_timers.

(* every history has such a list of newcomers: an event registers at most one worker *)
Theorem C52_newcomers : forall o cfg k tr s, run o cfg k tr s -> exists ws, newcomers tr ws.
Proof. exact newcomers_exist. Qed.
Print Assumptions C52_newcomers.

(* a worker that is registered after some event is referred to for ever *)
Theorem C52_never_forgotten : forall o cfg k tr1 e tr2 s w,
  run o cfg k (tr1 ++ e :: tr2) s -> In w (s_reg (ev_post e)) -> In w (timed s).
Proof. exact never_forgotten. Qed.
Print Assumptions C52_never_forgotten.

(* A worker registers, sends a ping, falls silent and is removed, three times over: nobody is
   registered and no job is held, but three worker objects are still there. So the claim "what
   is kept is bounded by the number of registered workers" is false. *)
Definition come_and_go : list msg :=
  [from_worker "A" ["init"; "g"]; from_worker "A" ["ping"]; tick "1001"; tick "1001"].
Definition left_over (k : kind) (n : nat) : option (nat * nat * nat) :=
  option_map (fun s => (length (s_reg s), length (held (s_queue s)), length (timed s)))
    (final (exec demo_oracle demo_cfg (start k) (concat (repeat come_and_go n)))).
Example C52_example :
  left_over KSingle 3 = Some (0, 0, 3) /\ left_over KMulti 3 = Some (0, 0, 3) /\ left_over KMulti 5 = Some (0, 0, 5).
Proof. vm_compute. auto. Qed.

Theorem C52_released_refuted :
  ~ (forall o cfg k tr s, run o cfg k tr s -> length (timed s) <= length (s_reg s)).
Proof.
  intros H. pose proof (exec_start demo_oracle demo_cfg KSingle come_and_go) as HR.
  destruct (exec demo_oracle demo_cfg (start KSingle) come_and_go) as (tr, [f|s]) eqn:E; [vm_compute in E; discriminate|].
  specialize (H _ _ _ _ _ (HR _ _ eq_refl)). vm_compute in E. injection E as <- <-. vm_compute in H. inversion H.
Qed.
Print Assumptions C52_released_refuted.
