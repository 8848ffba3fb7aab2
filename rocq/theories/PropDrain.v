(* C55, C56: the broker and its workers from end to end. *)
From Verif Require Import Base Bytes Containers Worker Multi Single Queue Handler SpecText Spec SpecRun SpecMsg SpecFatal SpecQueue SpecSystem
  SpecDrain Demo TextFacts System SystemSim DrainSim Drain PropSystem.
Local Open Scope string_scope.
Local Open Scope list_scope.

(* C55. A job on its way to a worker was submitted by a client with exactly this payload and accepted, and the worker's
   declaration offers all it requires. Here workers may be given up at any time. *)
Theorem C55_received : forall o cfg k cards ok, (forall i, proper (cards i)) -> forall tr s ns, system o cfg k cards ok tr s ns ->
  forall i j payload, In ("eval" :: j :: payload) (n_inbox (ns i)) -> ordered_job tr (cards i) j payload.
Proof. exact received. Qed.
Print Assumptions C55_received.

(* So was a job a worker is working on, *)
Theorem C55_evaluated : forall o cfg k cards ok, (forall i, proper (cards i)) -> forall tr s ns, system o cfg k cards ok tr s ns ->
  forall i j, n_proc (ns i) = On (Some j) -> exists payload, ordered_job tr (cards i) j payload.
Proof. exact evaluated. Qed.
Print Assumptions C55_evaluated.

(* and one it says it is working on or has finished. *)
Theorem C55_said : forall o cfg k cards ok, (forall i, proper (cards i)) -> forall tr s ns, system o cfg k cards ok tr s ns ->
  forall i m j, In m (n_outbox (ns i)) -> mentions m j -> exists payload, ordered_job tr (cards i) j payload.
Proof. exact said. Qed.
Print Assumptions C55_said.

(* The frontend is told about accepted jobs only, and the broker keeps no others, although it believes the
   workers' announcements. *)
Theorem C55_reported : forall o cfg k cards ok, (forall i, proper (cards i)) -> forall tr s ns, system o cfg k cards ok tr s ns ->
  forall j, acceptances j tr = 0 -> reports j tr = 0 /\ forall r, In r (held (s_queue s)) -> r_job r <> j.
Proof. exact held_or_reported. Qed.
Print Assumptions C55_reported.

(* C56. Whatever has happened, the workers and the broker can finish the work by themselves: some continuation
   without clients and timer ends with no job being evaluated, and only those waiting for a worker left idle after an
   internal error. *)
Theorem C56_drain : forall o cfg k cards, (forall i, proper (cards i)) -> forall tr s ns, system o cfg k cards settled tr s ns ->
  exists tr' s' ns', serves o cfg cards tr s ns tr' s' ns' /\ s_reg s' = s_reg s /\ running (s_queue s') = [] /\
    (forall r, In r (queued (s_queue s')) -> exists w, In w (s_reg s') /\ waits_for (s_queue s') r w /\ idle_after_error tr' w) /\
    (calm tr ns -> calm tr' ns').
Proof. exact drain. Qed.
Print Assumptions C56_drain.

(* Without internal errors, nothing is left and all that was accepted is reported. *)
Theorem C56_drain_all : forall o cfg k cards, (forall i, proper (cards i)) -> forall tr s ns, system o cfg k cards settled tr s ns ->
  calm tr ns -> exists tr' s' ns', serves o cfg cards tr s ns tr' s' ns' /\ held (s_queue s') = [] /\
    forall j, reports j tr' = acceptances j tr' + adoptions j tr'.
Proof. exact drain_all. Qed.
Print Assumptions C56_drain_all.

(* ---- examples ---- *)

(* C55 on the state of C54_days_single: job3 is on its way to B *)
Definition on_its_way (x : option (state * nodes)) : bool :=
  match x with
  | Some (s, ns) => match n_inbox (ns "B"), n_proc (ns "A") with
                    | [[e; j; u]], On (Some j') => String.eqb e "eval" && String.eqb j "job3" && String.eqb u "url" && String.eqb j' "job2"
                    | _, _ => false
                    end
  | None => false
  end.
Example C55_days : forall k, exists tr s ns, system demo_oracle demo_cfg k demo_cards settled tr s ns /\
  ordered_job tr (demo_cards "B") "job3" ["url"] /\ exists payload, ordered_job tr (demo_cards "A") "job2" payload.
Proof.
  intros k.
  assert (H : on_its_way (sims demo_oracle demo_cfg demo_cards true (begin k) (good_days "job1")) = true) by (destruct k; vm_compute; reflexivity).
  destruct (sims demo_oracle demo_cfg demo_cards true (begin k) (good_days "job1")) as [(s, ns)|] eqn:E; [|discriminate H].
  destruct (sims_sound _ _ k _ _ _ _ _ (begin_reached _ _ k _ _) E) as (tr & HS). exists tr, s, ns. split; [exact HS|]. clear E.
  cbn [fst snd] in HS. unfold on_its_way in H. destruct (n_inbox (ns "B")) as [|[|e [|j [|u [|]]]] [|]] eqn:EB; try discriminate H.
  destruct (n_proc (ns "A")) as [|[j'|]] eqn:EA; try discriminate H. rewrite !andb_true_iff, !String.eqb_eq in H. destruct H as (((-> & ->) & ->) & ->).
  split.
  - apply (C55_received _ _ k _ _ demo_proper _ _ _ HS "B"). rewrite EB. left. reflexivity.
  - exact (C55_evaluated _ _ k _ _ demo_proper _ _ _ HS "A" _ EA).
Qed.

(* C56 on a state with jobs running and queued, one of them with a worker that was given up and came back *)
Definition much_to_do (x : option (state * nodes)) : bool :=
  match x with
  | Some (s, ns) => Nat.eqb (length (running (s_queue s))) 2 && Nat.eqb (length (queued (s_queue s))) 2
  | None => false
  end.
Example C56_days : forall k, exists tr s ns, system demo_oracle demo_cfg k demo_cards settled tr s ns /\
  length (running (s_queue s)) = 2 /\ length (queued (s_queue s)) = 2 /\
  exists tr' s' ns', serves demo_oracle demo_cfg demo_cards tr s ns tr' s' ns' /\ held (s_queue s') = [] /\
    forall j, reports j tr' = acceptances j tr' + adoptions j tr'.
Proof.
  intros k.
  assert (H : much_to_do (sims demo_oracle demo_cfg demo_cards true (begin k) (firstn 19 (good_days "job1"))) = true)
    by (destruct k; vm_compute; reflexivity).
  destruct (sims demo_oracle demo_cfg demo_cards true (begin k) (firstn 19 (good_days "job1"))) as [(s, ns)|] eqn:E; [|discriminate H].
  destruct (sims_calm _ _ k _ _ (firstn 19 (good_days "job1")) _ _ (begin_calm _ _ k _ _) eq_refl E) as (tr & HS & HC). exists tr, s, ns. split; [exact HS|]. clear E.
  unfold much_to_do in H. rewrite andb_true_iff, !Nat.eqb_eq in H. destruct H as (H1 & H2). split; [exact H1|]. split; [exact H2|].
  exact (C56_drain_all _ _ k _ demo_proper _ _ _ HS HC).
Qed.

(* ---- with internal errors ---- *)

(* A reports an internal error about job2; the broker with the round robin manager gives job2 to B and nothing to A,
   although job4 is waiting for A. After B has finished everything, job4 still waits, nobody works on
   anything, and no message is on its way. *)
Definition error_days : list act :=
  [Do "A"; Read "A"; Do "B"; Read "B"; Submit "job1"; Submit "job2"; Submit "job3"; Submit "job4"; Do "A"; Do "B";
   Say "A" (Done "job2" (VError "x")); Read "A"; Say "B" (Done "job1" VOk); Read "B"; Do "B"; Say "B" (Done "job3" VOk); Read "B"; Do "B";
   Say "B" (Done "job2" VOk); Read "B"].
Definition idle_node (n : node) : bool :=
  match n with mkNode (On None) [] [] => true | _ => false end.
Definition stuck (x : option (state * nodes)) : bool :=
  match x with
  | Some (s, ns) =>
      match running (s_queue s), queued (s_queue s) with
      | [], [r] => String.eqb (r_job r) "job4" && Nat.eqb (length (s_reg s)) 2 && forallb (fun w => idle_node (ns (w_identity w))) (s_reg s)
      | _, _ => false
      end
  | None => false
  end.
Example C56_drain_all_refuted : exists tr s ns, system demo_oracle demo_cfg KMulti demo_cards settled tr s ns /\
  running (s_queue s) = [] /\ map r_job (queued (s_queue s)) = ["job4"] /\ length (s_reg s) = 2 /\
  forall w, In w (s_reg s) -> ns (w_identity w) = mkNode (On None) [] [].
Proof.
  assert (H : stuck (sims demo_oracle demo_cfg demo_cards true (begin KMulti) error_days) = true) by (vm_compute; reflexivity).
  destruct (sims demo_oracle demo_cfg demo_cards true (begin KMulti) error_days) as [(s, ns)|] eqn:E; [|discriminate H].
  destruct (sims_sound _ _ KMulti _ _ _ _ _ (begin_reached _ _ KMulti _ _) E) as (tr & HS). exists tr, s, ns. split; [exact HS|]. clear E HS.
  unfold stuck in H. destruct (running (s_queue s)); [|discriminate H]. destruct (queued (s_queue s)) as [|r [|]]; try discriminate H.
  rewrite !andb_true_iff, String.eqb_eq, Nat.eqb_eq in H. destruct H as ((H1 & H2) & H3). rewrite forallb_forall in H3.
  split; [reflexivity|]. split; [simpl; rewrite H1; reflexivity|]. split; [exact H2|]. intros w Hin. specialize (H3 w Hin).
  destruct (ns (w_identity w)) as [[|[|]] [|] [|]]; try discriminate H3. reflexivity.
Qed.
Print Assumptions C56_drain_all_refuted.
