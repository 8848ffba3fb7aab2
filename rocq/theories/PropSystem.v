(* C54: the broker together with workers that follow the protocol. *)
From Verif Require Import Base Bytes Containers Worker Multi Single Queue Handler SpecText Spec SpecRun SpecMsg SpecFatal SpecSystem Demo
  TextFacts System SystemSim.
Local Open Scope string_scope.
Local Open Scope list_scope.

(* Workers that follow the protocol never bring the broker down, as long as no worker is given up while
   a request to introduce itself is on the way to it or an introduction on the way from it. *)
Theorem C54_survives : forall o cfg k cards, (forall i, proper (cards i)) -> forall tr s ns, system o cfg k cards settled tr s ns ->
  forall i m out, n_outbox (ns i) = m :: out ->
  exists outs s', on_request o cfg (Msg "workers" i (frames (cards i) m)) s = (outs, inr (tt, s')).
Proof. exact survives. Qed.
Print Assumptions C54_survives.

(* A report read from a registered worker is about the job the broker has recorded for it. *)
Theorem C54_matching : forall o cfg k cards, (forall i, proper (cards i)) -> forall tr s ns, system o cfg k cards settled tr s ns ->
  forall i j v out w, n_outbox (ns i) = Done j v :: out -> sender i s = Some w ->
  exists r, current_of (s_queue s) w = Some r /\ r_job r = j.
Proof. exact done_matches. Qed.
Print Assumptions C54_matching.

(* A worker about to be told to evaluate a job is working on nothing, and no other job is on the way to it. *)
Theorem C54_one_job : forall o cfg k cards, (forall i, proper (cards i)) -> forall tr s ns, system o cfg k cards settled tr s ns ->
  forall i j pl rest, n_inbox (ns i) = ("eval" :: j :: pl) :: rest ->
  n_proc (ns i) = On None /\ forall j' pl', ~ In ("eval" :: j' :: pl') rest.
Proof. exact one_job_only. Qed.
Print Assumptions C54_one_job.

(* With no job and no report on the way, the broker and a registered worker agree on what it is working on. *)
Theorem C54_agreement : forall o cfg k cards, (forall i, proper (cards i)) -> forall tr s ns, system o cfg k cards settled tr s ns ->
  forall i w, sender i s = Some w -> (forall j pl, ~ In ("eval" :: j :: pl) (n_inbox (ns i))) ->
  (forall j v, ~ In (Done j v) (n_outbox (ns i))) -> n_proc (ns i) = On (option_map r_job (current_of (s_queue s) w)).
Proof. exact agreement. Qed.
Print Assumptions C54_agreement.

(* A job the broker has recorded for a worker is on its way to it, being worked on by it, or its report is
   on its way back. *)
Theorem C54_no_phantom : forall o cfg k cards, (forall i, proper (cards i)) -> forall tr s ns, system o cfg k cards settled tr s ns ->
  forall i w r, sender i s = Some w -> current_of (s_queue s) w = Some r ->
  n_proc (ns i) = On (Some (r_job r)) \/ (exists pl, In ("eval" :: r_job r :: pl) (n_inbox (ns i))) \/
  exists v, In (Done (r_job r) v) (n_outbox (ns i)).
Proof. exact no_phantom. Qed.
Print Assumptions C54_no_phantom.

(* What a registered worker is working on is what the broker has recorded for it. *)
Theorem C54_busy_known : forall o cfg k cards, (forall i, proper (cards i)) -> forall tr s ns, system o cfg k cards settled tr s ns ->
  forall i w j, sender i s = Some w -> n_proc (ns i) = On (Some j) -> exists r, current_of (s_queue s) w = Some r /\ r_job r = j.
Proof. exact busy_known. Qed.
Print Assumptions C54_busy_known.

(* No two registered workers have the same identity. *)
Theorem C54_one_worker : forall o cfg k cards, (forall i, proper (cards i)) -> forall tr s ns, system o cfg k cards settled tr s ns ->
  forall w w', In w (s_reg s) -> In w' (s_reg s) -> w_identity w = w_identity w' -> w = w'.
Proof. exact one_worker. Qed.
Print Assumptions C54_one_worker.

(* ---- examples ---- *)
Definition demo_cards (i : string) : card := mkCard "g" ["env=c"; "threads=2"] i.
Lemma demo_proper i : proper (demo_cards i).
Proof.
  split.
  - intros [H|[H|[]]]; discriminate.
  - intros f v [<-|[<-|[]]] H.
    + apply split_header_spec in H. discriminate.
    + apply split_header_spec in H. injection H as <-. exists 2%N. apply stoul_spec. reflexivity.
Qed.

(* two workers, three jobs; A is given up while working on a job, and comes back with it; B finishes job b *)
Definition good_days (b : string) : list act :=
  [Do "A"; Read "A"; Do "B"; Read "B"; Submit "job1"; Submit "job2"; Submit "job3"; Say "A" Ping; Read "A"; Do "A"; Do "A";
   Tick "1001"; Tick "1001"; Say "A" Ping; Read "A"; Do "A"; Read "A"; Do "B"; Say "B" (Done b (VFailed "bad")); Read "B"].
Definition seen_by (x : option (state * nodes)) : option (list (string * option string * node)) :=
  match x with
  | Some (s, ns) => Some (map (fun w => (w_identity w, option_map r_job (current_of (s_queue s) w), ns (w_identity w))) (s_reg s))
  | None => None
  end.

Example C54_days_single :
  seen_by (sims demo_oracle demo_cfg demo_cards true (begin KSingle) (good_days "job1")) =
  Some [("B", Some "job3", mkNode (On None) [["eval"; "job3"; "url"]] []); ("A", Some "job2", mkNode (On (Some "job2")) [[]] [])].
Proof. vm_compute. reflexivity. Qed.
Example C54_days_multi :
  seen_by (sims demo_oracle demo_cfg demo_cards true (begin KMulti) (good_days "job1")) =
  Some [("B", Some "job3", mkNode (On None) [["eval"; "job3"; "url"]] []); ("A", Some "job2", mkNode (On (Some "job2")) [] [])].
Proof. vm_compute. reflexivity. Qed.
(* these are states of the system the theorems speak of *)
Definition about_to_report (x : option (state * nodes)) : bool :=
  match x with
  | Some (s, ns) =>
      match n_outbox (ns "B"), sender "B" s with
      | [Done j (VFailed t)], Some w => String.eqb j "job1" && String.eqb t "bad" &&
          match current_of (s_queue s) w with Some r => String.eqb (r_job r) "job1" | None => false end
      | _, _ => false
      end
  | None => false
  end.
Example C54_days_reached : forall k, exists tr s ns, system demo_oracle demo_cfg k demo_cards settled tr s ns /\
  n_outbox (ns "B") = [Done "job1" (VFailed "bad")] /\
  exists w r, sender "B" s = Some w /\ current_of (s_queue s) w = Some r /\ r_job r = "job1".
Proof.
  intros k.
  assert (H : about_to_report (sims demo_oracle demo_cfg demo_cards true (begin k) (firstn 19 (good_days "job1"))) = true)
    by (destruct k; vm_compute; reflexivity).
  destruct (sims demo_oracle demo_cfg demo_cards true (begin k) (firstn 19 (good_days "job1"))) as [(s, ns)|] eqn:E; [|discriminate H].
  destruct (sims_sound _ _ k _ _ _ _ _ (begin_reached _ _ k _ _) E) as (tr & HS). exists tr, s, ns. split; [exact HS|]. clear E HS.
  unfold about_to_report in H. destruct (n_outbox (ns "B")) as [|[| | |j [|t|]] [|]]; try discriminate H.
  destruct (sender "B" s) as [w|]; [|discriminate H]. rewrite !andb_true_iff in H. destruct H as ((H1 & H2) & H3).
  apply String.eqb_eq in H1, H2. subst. split; [reflexivity|]. exists w. destruct (current_of (s_queue s) w) as [r|]; [|discriminate H3].
  apply String.eqb_eq in H3. eauto.
Qed.

(* ---- without the restriction ---- *)

(* Two pings of a worker that had been given up make the broker ask it twice to introduce itself. If it is
   given up again before it has answered the second time, after a job was sent to it, the broker hears that
   it is idle, then that it has finished the job, and dereferences a null pointer. *)
Definition bad_days : list act :=
  [Do "A"; Read "A"; Say "A" Ping; Read "A"; Do "A"; Tick "1001"; Tick "1001"; Say "A" Ping; Say "A" Ping; Read "A"; Read "A";
   Do "A"; Read "A"; Say "A" Ping; Read "A"; Submit "k"; Tick "1001"; Tick "1001"; Do "A"; Do "A"; Do "A"; Say "A" (Done "k" VOk); Read "A"].
Definition about_to_die (x : option (state * nodes)) : bool :=
  match x with
  | Some (s, ns) =>
      match n_outbox (ns "A"), on_request demo_oracle demo_cfg (Msg "workers" "A" (frames (demo_cards "A") (Done "k" VOk))) s with
      | Done j VOk :: _, ([], inl NullDeref) => String.eqb j "k"
      | _, _ => false
      end
  | None => false
  end.
Example C54_survives_refuted : forall k, exists tr s ns out, system demo_oracle demo_cfg k demo_cards anytime tr s ns /\
  n_outbox (ns "A") = Done "k" VOk :: out /\
  crashes demo_oracle demo_cfg s (Msg "workers" "A" (frames (demo_cards "A") (Done "k" VOk))) [] NullDeref.
Proof.
  intros k.
  assert (H : about_to_die (sims demo_oracle demo_cfg demo_cards false (begin k) bad_days) = true) by (destruct k; vm_compute; reflexivity).
  destruct (sims demo_oracle demo_cfg demo_cards false (begin k) bad_days) as [(s, ns)|] eqn:E; [|discriminate H].
  destruct (sims_sound _ _ k _ _ _ _ _ (begin_reached _ _ k _ _) E) as (tr & HS). unfold about_to_die in H.
  exists tr, s, ns. destruct (n_outbox (ns "A")) as [|[| | |j [| |]] out]; try discriminate H. exists out. split; [exact HS|].
  unfold crashes. destruct (on_request demo_oracle demo_cfg _ s) as ([|], [[]|]); try discriminate H.
  apply String.eqb_eq in H. subst. split; reflexivity.
Qed.
Print Assumptions C54_survives_refuted.
