(* C63: the broker stopped and started again while its workers go on. *)
From Verif Require Import Base Bytes Containers Worker Multi Single Queue Handler SpecText Spec SpecRun SpecMsg SpecFatal SpecQueue SpecSystem
  SpecDrain SpecFinish SpecLives Demo SystemSim Lives LivesSim PropSystem.
Local Open Scope string_scope.
Local Open Scope list_scope.

(* C63. Workers that follow the protocol do not bring down a broker that has been started again, however often: what they
   say to the old broker may reach the new one, and what the old one sent may reach them late or never. *)
Theorem C63_survives : forall cards, (forall i, proper (cards i)) -> forall o cfg k past tr s ns, lives cards outlives o cfg k past tr s ns ->
  forall i m out, n_outbox (ns i) = m :: out ->
  exists outs s', on_request o cfg (Msg "workers" i (frames (cards i) m)) s = (outs, inr (tt, s')).
Proof. exact lives_survives. Qed.
Print Assumptions C63_survives.

(* Reports from workers that the new broker knows are about the job it has recorded for them. *)
Theorem C63_matching : forall cards, (forall i, proper (cards i)) -> forall o cfg k past tr s ns, lives cards outlives o cfg k past tr s ns ->
  forall i j v out w, n_outbox (ns i) = Done j v :: out -> sender i s = Some w ->
  exists r, current_of (s_queue s) w = Some r /\ r_job r = j.
Proof. exact lives_matching. Qed.
Print Assumptions C63_matching.

(* A worker about to be told to evaluate a job is working on nothing, whichever broker sent the job, and no other job is on
   the way to it. *)
Theorem C63_one_job : forall cards, (forall i, proper (cards i)) -> forall o cfg k past tr s ns, lives cards outlives o cfg k past tr s ns ->
  forall i j pl rest, n_inbox (ns i) = ("eval" :: j :: pl) :: rest ->
  n_proc (ns i) = On None /\ forall j' pl', ~ In ("eval" :: j' :: pl') rest.
Proof. exact lives_one_job. Qed.
Print Assumptions C63_one_job.

(* With no job and no report on the way, the broker and a worker it knows agree on what the worker is working on. *)
Theorem C63_agreement : forall cards, (forall i, proper (cards i)) -> forall o cfg k past tr s ns, lives cards outlives o cfg k past tr s ns ->
  forall i w, sender i s = Some w -> (forall j pl, ~ In ("eval" :: j :: pl) (n_inbox (ns i))) -> (forall j v, ~ In (Done j v) (n_outbox (ns i))) ->
  n_proc (ns i) = On (option_map r_job (current_of (s_queue s) w)).
Proof. exact lives_agreement. Qed.
Print Assumptions C63_agreement.

(* What a worker evaluates or is told to evaluate was submitted in this life of the broker or in an earlier one, accepted,
   and can be done by this worker. What the broker hands out in this life was submitted in this life: what waited is forgotten. *)
Theorem C63_origin : forall cards, (forall i, proper (cards i)) -> forall o cfg k past tr s ns, lives cards outlives o cfg k past tr s ns ->
  forall i j, n_proc (ns i) = On (Some j) \/ (exists pl, In ("eval" :: j :: pl) (n_inbox (ns i))) ->
  exists pl, ordered_job (past ++ tr) (cards i) j pl.
Proof. exact lives_evaluated. Qed.
Print Assumptions C63_origin.
Theorem C63_forgotten : forall cards, (forall i, proper (cards i)) -> forall o cfg k past tr s ns, lives cards outlives o cfg k past tr s ns ->
  forall e i j pl, In e tr -> In (Msg "workers" i ("eval" :: j :: pl)) (ev_out e) -> ordered_job tr (cards i) j pl.
Proof. exact lives_handed. Qed.
Print Assumptions C63_forgotten.
Theorem C63_reported : forall cards, (forall i, proper (cards i)) -> forall o cfg k past tr s ns, lives cards outlives o cfg k past tr s ns ->
  forall j, acceptances j (past ++ tr) = 0 -> reports j tr = 0 /\ forall r, In r (held (s_queue s)) -> r_job r <> j.
Proof. exact lives_reported. Qed.
Print Assumptions C63_reported.

(* A worker at work that the broker does not know, with nothing on the way, needs only to ping: it is asked to introduce
   itself, and when its job ends, in whatever way, the frontend is told so once, and nothing else. *)
Theorem C63_adopts : forall cards, (forall i, proper (cards i)) -> forall o cfg k past tr s ns, lives cards outlives o cfg k past tr s ns ->
  forall i j v, sender i s = None -> ns i = mkNode (On (Some j)) [] [] ->
  exists more s' ns', serves o cfg cards tr s ns (tr ++ more) s' ns' /\ notices more = [final_report j v] /\
    n_proc (ns' i) = On None /\ n_outbox (ns' i) = [].
Proof. exact lives_adopts. Qed.
Print Assumptions C63_adopts.

(* Left to themselves, the broker and the workers come to rest as they do without restarts (C58). *)
Theorem C63_bounded : forall cards, (forall i, proper (cards i)) -> forall o cfg k past tr s ns, lives cards outlives o cfg k past tr s ns ->
  exists N, forall n c tr' s' ns', carries o cfg cards n c tr s ns tr' s' ns' -> n <= N + 4 * c.
Proof. exact lives_bounded. Qed.
Print Assumptions C63_bounded.
Theorem C63_comes_to_rest : forall cards, (forall i, proper (cards i)) -> forall o cfg k past tr s ns, lives cards outlives o cfg k past tr s ns ->
  exists n tr' s' ns', carries o cfg cards n 0 tr s ns tr' s' ns' /\ at_rest ns'.
Proof. exact lives_comes_to_rest. Qed.
Print Assumptions C63_comes_to_rest.
Theorem C63_rest : forall cards, (forall i, proper (cards i)) -> forall o cfg k past tr s ns, lives cards outlives o cfg k past tr s ns -> at_rest ns ->
  (forall i, n_proc (ns i) = Off \/ ns i = mkNode (On None) [] []) /\ running (s_queue s) = [] /\
  (forall r, In r (queued (s_queue s)) -> exists w, In w (s_reg s) /\ waits_for (s_queue s) r w /\ idle_after_error tr w) /\
  (calm tr ns -> held (s_queue s) = [] /\ forall j, reports j tr = acceptances j tr + adoptions j tr).
Proof. exact lives_rest. Qed.
Print Assumptions C63_rest.

(* ---- examples ---- *)

(* Two workers, three jobs; the broker is started again. A, which pings, brings its job along. The report of B, which does
   not ping first, is not understood. The third job was waiting, and nobody knows of it any more. *)
Definition restart_days : list (option act) :=
  map Some [Do "A"; Read "A"; Do "B"; Read "B"; Submit "job1"; Submit "job2"; Submit "job3"; Do "A"; Do "B"] ++ [None] ++
  map Some [Say "A" Ping; Read "A"; Do "A"; Read "A"; Say "B" (Done "job1" VOk); Read "B"; Say "B" Ping; Read "B"; Do "B"; Read "B";
            Say "A" (Done "job2" VOk); Read "A"].
Definition idle_at (n : node) : bool := match n with mkNode (On None) _ [] => true | _ => false end.
Definition after_days (x : option stage) : bool :=
  match x with
  | Some (past, tr, s, ns) =>
      forallb (fun j => Nat.eqb (acceptances j past) 1) ["job1"; "job2"; "job3"] &&
      Nat.eqb (reports "job1" (past ++ tr)) 0 && Nat.eqb (reports "job2" (past ++ tr)) 1 && Nat.eqb (reports "job3" (past ++ tr)) 0 &&
      Nat.eqb (length (held (s_queue s))) 0 && idle_at (ns "A") && idle_at (ns "B")
  | None => false
  end.
(* So it is not so that every job accepted or under way is reported in the end. *)
Example C63_all_reported_refuted : forall k, exists past tr s ns, lives demo_cards outlives demo_oracle demo_cfg k past tr s ns /\
  (forall j, In j ["job1"; "job2"; "job3"] -> acceptances j past = 1) /\
  reports "job1" (past ++ tr) = 0 /\ reports "job2" (past ++ tr) = 1 /\ reports "job3" (past ++ tr) = 0 /\
  held (s_queue s) = [] /\ n_proc (ns "A") = On None /\ n_outbox (ns "A") = [] /\ n_proc (ns "B") = On None /\ n_outbox (ns "B") = [].
Proof.
  intros k.
  assert (H : after_days (lsims demo_oracle demo_cfg k demo_cards true (lbegin k) restart_days) = true) by (destruct k; vm_compute; reflexivity).
  destruct (lsims demo_oracle demo_cfg k demo_cards true (lbegin k) restart_days) as [(((past, tr), s), ns)|] eqn:E; [|discriminate H].
  pose proof (lsims_sound _ _ _ _ _ _ _ _ (lbegin_lived demo_oracle demo_cfg k demo_cards true) E) as HS. clear E.
  exists past, tr, s, ns. split; [exact HS|]. clear HS. unfold after_days in H. rewrite !andb_true_iff, !Nat.eqb_eq in H.
  destruct H as ((((((H1 & H2) & H3) & H4) & H5) & H6) & H7). split.
  { intros j Hj. rewrite forallb_forall in H1. apply Nat.eqb_eq. exact (H1 j Hj). }
  split; [exact H2|]. split; [exact H3|]. split; [exact H4|]. split; [destruct (held (s_queue s)); [reflexivity|discriminate]|].
  destruct (ns "A") as [[|[|]] inb [|]]; try discriminate H6. destruct (ns "B") as [[|[|]] inb' [|]]; try discriminate H7. repeat split.
Qed.
Print Assumptions C63_all_reported_refuted.

(* When the broker has just been started again, A is as C63_adopts has it, whichever way its job will end. *)
Definition at_work (x : option stage) : bool :=
  match x with
  | Some (past, tr, s, ns) => match sender "A" s, ns "A" with None, mkNode (On (Some j)) [] [] => String.eqb j "job2" | _, _ => false end
  | None => false
  end.
Example C63_adopts_example : forall k v, exists past s ns, lives demo_cards outlives demo_oracle demo_cfg k past [] s ns /\
  exists more s' ns', serves demo_oracle demo_cfg demo_cards [] s ns more s' ns' /\ notices more = [final_report "job2" v] /\ n_proc (ns' "A") = On None.
Proof.
  intros k v.
  assert (H : at_work (lsims demo_oracle demo_cfg k demo_cards true (lbegin k) (firstn 10 restart_days)) = true) by (destruct k; vm_compute; reflexivity).
  assert (Ht : option_map (fun x : stage => snd (fst (fst x))) (lsims demo_oracle demo_cfg k demo_cards true (lbegin k) (firstn 10 restart_days)) = Some [])
    by (destruct k; vm_compute; reflexivity).
  destruct (lsims demo_oracle demo_cfg k demo_cards true (lbegin k) (firstn 10 restart_days)) as [(((past, tr), s), ns)|] eqn:E; [|discriminate H].
  pose proof (lsims_sound _ _ _ _ _ _ _ _ (lbegin_lived demo_oracle demo_cfg k demo_cards true) E) as HS. clear E.
  cbn [option_map fst snd] in Ht. injection Ht as ->. exists past, s, ns. split; [exact HS|]. unfold at_work in H.
  destruct (sender "A" s) eqn:Es; [discriminate H|]. destruct (ns "A") as [[|[j|]] [|] [|]] eqn:En; try discriminate H. apply String.eqb_eq in H. subst j.
  destruct (C63_adopts _ demo_proper _ _ k _ _ _ _ HS "A" "job2" v Es En) as (more & s' & ns' & H1 & H2 & H3 & _). eauto 6.
Qed.

(* If the broker is started again while a request to introduce itself is on the way to a worker, the worker may declare itself
   idle and then report the end of a job of which the new broker has not heard; it dereferences a null pointer. *)
Definition bad_restart : list (option act) :=
  map Some [Do "A"; Read "A"] ++ [None] ++ map Some [Say "A" Ping; Say "A" Ping; Read "A"; Read "A"; Do "A"; Read "A"; Submit "k"] ++ [None] ++
  map Some [Do "A"; Do "A"; Say "A" (Done "k" VOk); Read "A"].
Definition dies_again (x : option stage) : bool :=
  match x with
  | Some (_, _, s, ns) =>
      match n_outbox (ns "A"), on_request demo_oracle demo_cfg (Msg "workers" "A" (frames (demo_cards "A") (Done "k" VOk))) s with
      | Done j VOk :: _, ([], inl NullDeref) => String.eqb j "k"
      | _, _ => false
      end
  | None => false
  end.
Example C63_survives_refuted : forall k, exists past tr s ns out, lives demo_cards outlives_anyhow demo_oracle demo_cfg k past tr s ns /\
  n_outbox (ns "A") = Done "k" VOk :: out /\
  crashes demo_oracle demo_cfg s (Msg "workers" "A" (frames (demo_cards "A") (Done "k" VOk))) [] NullDeref.
Proof.
  intros k.
  assert (H : dies_again (lsims demo_oracle demo_cfg k demo_cards false (lbegin k) bad_restart) = true) by (destruct k; vm_compute; reflexivity).
  destruct (lsims demo_oracle demo_cfg k demo_cards false (lbegin k) bad_restart) as [(((past, tr), s), ns)|] eqn:E; [|discriminate H].
  pose proof (lsims_sound _ _ _ _ _ _ _ _ (lbegin_lived demo_oracle demo_cfg k demo_cards false) E) as HS. clear E. unfold dies_again in H.
  exists past, tr, s, ns. destruct (n_outbox (ns "A")) as [|[| | |j [| |]] out]; try discriminate H. exists out. split; [exact HS|].
  unfold crashes. destruct (on_request demo_oracle demo_cfg _ s) as ([|], [[]|]); try discriminate H.
  apply String.eqb_eq in H. subst. split; reflexivity.
Qed.
Print Assumptions C63_survives_refuted.
