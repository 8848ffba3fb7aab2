(* C58: the broker and its workers left to themselves come to rest. *)
From Verif Require Import Base Bytes Containers Worker Multi Single Queue Handler SpecText Spec SpecRun SpecMsg SpecFatal SpecQueue SpecSystem
  SpecDrain SpecFinish Demo System SystemSim Drain FinishSim Finish PropSystem PropDrain.
Local Open Scope string_scope.
Local Open Scope list_scope.

(* C58. Whatever has happened, left to themselves the workers and the broker have only so much to do: there is a number of
   steps that no continuation exceeds, in whatever order the steps are taken and however jobs end, if the workers do not
   chat; each chat adds at most four. In particular, jobs that end with internal errors are not handed out again and again
   for ever. *)
Theorem C58_bounded : forall o cfg k cards, (forall i, proper (cards i)) -> forall tr s ns, system o cfg k cards settled tr s ns ->
  exists N, forall n c tr' s' ns', carries o cfg cards n c tr s ns tr' s' ns' -> n <= N + 4 * c.
Proof. exact bounded. Qed.
Print Assumptions C58_bounded.

(* As long as they are not at rest, a worker can do its duty or the broker can read a message. *)
Theorem C58_goes_on : forall o cfg k cards, (forall i, proper (cards i)) -> forall tr s ns, system o cfg k cards settled tr s ns ->
  at_rest ns \/ (exists i nd, duty (ns i) nd) \/
  exists i m out outs s', n_outbox (ns i) = m :: out /\ on_request o cfg (Msg "workers" i (frames (cards i) m)) s = (outs, inr (tt, s')).
Proof. exact goes_on. Qed.
Print Assumptions C58_goes_on.

(* So they come to rest. *)
Theorem C58_comes_to_rest : forall o cfg k cards, (forall i, proper (cards i)) -> forall tr s ns, system o cfg k cards settled tr s ns ->
  exists n tr' s' ns', carries o cfg cards n 0 tr s ns tr' s' ns' /\ at_rest ns'.
Proof. exact comes_to_rest. Qed.
Print Assumptions C58_comes_to_rest.

(* At rest, all started workers are idle, the broker believes so, and jobs wait only for workers left idle after an internal
   error. If there has been no internal error, nothing waits and all that was accepted has been reported. *)
Theorem C58_rest : forall o cfg k cards, (forall i, proper (cards i)) -> forall tr s ns, system o cfg k cards settled tr s ns -> at_rest ns ->
  (forall i, n_proc (ns i) = Off \/ ns i = mkNode (On None) [] []) /\ running (s_queue s) = [] /\
  (forall r, In r (queued (s_queue s)) -> exists w, In w (s_reg s) /\ waits_for (s_queue s) r w /\ idle_after_error tr w) /\
  (calm tr ns -> held (s_queue s) = [] /\ forall j, reports j tr = acceptances j tr + adoptions j tr).
Proof. exact rest. Qed.
Print Assumptions C58_rest.

(* ---- examples ---- *)

(* In the state of C56_days, two jobs are with workers and two are waiting. One schedule, in which the first two jobs that end
   do so with an internal error, comes to an end after 13 steps with the single queue and after 9 with the other manager,
   which leaves job2 waiting. *)
Definition all_idle (ns : nodes) : bool := forallb (fun i => idle_node (ns i)) ["A"; "B"].
Definition the_end (k : kind) : nat * nat := match k with KSingle => (13, 0) | KMulti => (9, 1) end.
Definition to_the_end (k : kind) (x : option (state * nodes)) : bool :=
  match x with
  | Some x =>
      Nat.eqb (length (running (s_queue (fst x)))) 2 && Nat.eqb (length (queued (s_queue (fst x)))) 2 &&
      match works demo_oracle demo_cfg demo_cards 100 2 ["A"; "B"] x with
      | (n, Some (s, ns)) => Nat.eqb n (fst (the_end k)) && Nat.eqb (length (queued (s_queue s))) (snd (the_end k)) && all_idle ns
      | _ => false
      end
  | None => false
  end.
Example C58_days : forall k, exists tr s ns, system demo_oracle demo_cfg k demo_cards settled tr s ns /\
  length (running (s_queue s)) = 2 /\ length (queued (s_queue s)) = 2 /\
  (exists tr' s' ns', carries demo_oracle demo_cfg demo_cards (fst (the_end k)) 0 tr s ns tr' s' ns' /\
     length (queued (s_queue s')) = snd (the_end k) /\ ns' "A" = mkNode (On None) [] [] /\ ns' "B" = mkNode (On None) [] []) /\
  exists N, forall n c tr' s' ns', carries demo_oracle demo_cfg demo_cards n c tr s ns tr' s' ns' -> n <= N + 4 * c.
Proof.
  intros k.
  assert (H : to_the_end k (sims demo_oracle demo_cfg demo_cards true (begin k) (firstn 19 (good_days "job1"))) = true)
    by (destruct k; vm_compute; reflexivity).
  destruct (sims demo_oracle demo_cfg demo_cards true (begin k) (firstn 19 (good_days "job1"))) as [(s, ns)|] eqn:E; [|discriminate H].
  destruct (sims_sound _ _ k _ _ _ _ _ (begin_reached _ _ k _ _) E) as (tr & HS). cbn [fst snd] in HS. exists tr, s, ns. split; [exact HS|]. clear E.
  unfold to_the_end in H. cbn [fst snd] in H. rewrite !andb_true_iff, !Nat.eqb_eq in H. destruct H as ((H1 & H2) & H3).
  split; [exact H1|]. split; [exact H2|]. split; [|exact (C58_bounded _ _ k _ demo_proper _ _ _ HS)].
  destruct (works demo_oracle demo_cfg demo_cards 100 2 ["A"; "B"] (s, ns)) as (n, [(s', ns')|]) eqn:Ew; [|discriminate H3].
  rewrite !andb_true_iff, !Nat.eqb_eq in H3. destruct H3 as ((H3 & H4) & H5).
  destruct (works_carries _ _ _ _ _ _ _ _ _ tr Ew) as (tr' & HC). cbn [fst snd] in HC. rewrite H3 in HC. exists tr', s', ns'.
  split; [exact HC|]. split; [exact H4|]. unfold all_idle in H5. cbn [forallb] in H5. rewrite !andb_true_iff in H5. destruct H5 as (HA & HB & _). clear - HA HB.
  split.
  - destruct (ns' "A") as [[|[|]] [|] [|]]; try discriminate HA. reflexivity.
  - destruct (ns' "B") as [[|[|]] [|] [|]]; try discriminate HB. reflexivity.
Qed.
