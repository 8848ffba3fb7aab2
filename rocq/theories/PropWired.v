(* C57: the broker, its workers and the socket between them. *)
From Verif Require Import Base Bytes Containers Worker Multi Single Queue Handler Wire SpecText Spec SpecRun SpecMsg SpecFatal SpecWire SpecSystem
  SpecWired Demo SystemSim Wired WiredSim PropSystem.
Local Open Scope string_scope.
Local Open Scope list_scope.

(* With the round robin manager, or as long as no registering worker announces a job, no part of a message waits in
   the socket, and the system with the socket behaves as the one without: what C54, C55 and C56 say holds. *)
Theorem C57_ideal : forall o cfg k cards ok, local_restriction ok -> forall tr s ns r, wired o cfg k cards ok tr s ns r ->
  (k = KMulti \/ forall e j, In e tr -> adopts j e = false) ->
  r = None /\ exists ns', (forall i, ns i = ns' i) /\ system o cfg k cards ok tr s ns'.
Proof. exact wired_ideal. Qed.
Print Assumptions C57_ideal.
(* and the other way round *)
Theorem C57_real : forall o cfg k cards ok, local_restriction ok -> forall tr s ns, system o cfg k cards ok tr s ns ->
  (k = KMulti \/ forall e j, In e tr -> adopts j e = false) ->
  exists ns', (forall i, ns i = ns' i) /\ wired o cfg k cards ok tr s ns' None.
Proof. exact ideal_wired. Qed.
Print Assumptions C57_real.

(* two of the consequences *)
Theorem C57_survives : forall o cfg k cards, (forall i, proper (cards i)) -> forall tr s ns r, wired o cfg k cards settled tr s ns r ->
  (k = KMulti \/ forall e j, In e tr -> adopts j e = false) ->
  forall i m out, n_outbox (ns i) = m :: out -> exists outs s', on_request o cfg (Msg "workers" i (frames (cards i) m)) s = (outs, inr (tt, s')).
Proof. exact wired_survives. Qed.
Print Assumptions C57_survives.
Theorem C57_no_phantom : forall o cfg k cards, (forall i, proper (cards i)) -> forall tr s ns r, wired o cfg k cards settled tr s ns r ->
  (k = KMulti \/ forall e j, In e tr -> adopts j e = false) ->
  forall i w q, sender i s = Some w -> current_of (s_queue s) w = Some q ->
  n_proc (ns i) = On (Some (r_job q)) \/ (exists pl, In ("eval" :: r_job q :: pl) (n_inbox (ns i))) \/
  exists v, In (Done (r_job q) v) (n_outbox (ns i)).
Proof. exact wired_no_phantom. Qed.
Print Assumptions C57_no_phantom.

(* the two restrictions used so far are of the kind C57_ideal and C57_real ask for *)
Example C57_restrictions : local_restriction settled /\ local_restriction anytime.
Proof. exact (conj local_settled local_anytime). Qed.
(* the days of C54 with the socket in between, and with a worker coming back with its job *)
Definition wired_view (x : option (state * nodes * router)) : option (list (string * option string * node) * router) :=
  match x with
  | Some (s, ns, r) => Some (map (fun w => (w_identity w, option_map r_job (current_of (s_queue s) w), ns (w_identity w))) (s_reg s), r)
  | None => None
  end.
Example C57_days_multi :
  wired_view (wsims demo_oracle demo_cfg demo_cards (wbegin KMulti) (good_days "job1")) =
  Some ([("B", Some "job3", mkNode (On None) [["eval"; "job3"; "url"]] []); ("A", Some "job2", mkNode (On (Some "job2")) [] [])], None).
Proof. vm_compute. reflexivity. Qed.

(* ---- the single queue ---- *)

(* With the single queue the days of C54 take another course: A coming back with its job leaves half a
   message in the socket, and the job for B goes to A, which does not know what to do with it. *)
Example C57_days_single :
  wired_view (wsims demo_oracle demo_cfg demo_cards (wbegin KSingle) (good_days "job1")) =
  Some ([("B", Some "job3", mkNode (On None) [] []); ("A", Some "job2", mkNode (On (Some "job2")) [["B"; "eval"; "job3"; "url"]] [])], None).
Proof. vm_compute. reflexivity. Qed.

(* So the broker can have recorded a job for a worker that is idle, with nothing on the way between them. Such a worker
   keeps answering, so the job stays there for good (C50). *)
Definition lost_days : list act := good_days "job1" ++ [Do "A"; Say "B" Ping; Read "B"; Do "B"].
Definition job_lost (x : option (state * nodes * router)) : bool :=
  match x with
  | Some (s, ns, None) =>
      match ns "B", sender "B" s with
      | mkNode (On None) [] [], Some w => match current_of (s_queue s) w with Some q => String.eqb (r_job q) "job3" | None => false end
      | _, _ => false
      end
  | _ => false
  end.
Example C57_no_phantom_refuted : exists tr s ns, wired demo_oracle demo_cfg KSingle demo_cards settled tr s ns None /\
  ns "B" = mkNode (On None) [] [] /\ exists w q, sender "B" s = Some w /\ current_of (s_queue s) w = Some q /\ r_job q = "job3".
Proof.
  assert (H : job_lost (wsims demo_oracle demo_cfg demo_cards (wbegin KSingle) lost_days) = true) by (vm_compute; reflexivity).
  destruct (wsims demo_oracle demo_cfg demo_cards (wbegin KSingle) lost_days) as [((s, ns), r)|] eqn:E; [|discriminate H].
  destruct (wsims_sound _ _ KSingle _ _ _ _ (wbegin_reached _ _ KSingle _) E) as (tr & HS). exists tr, s, ns. cbn [fst snd] in HS. clear E.
  unfold job_lost in H. destruct r; [discriminate H|]. split; [exact HS|]. clear HS.
  destruct (ns "B") as [[|[|]] [|] [|]]; try discriminate H. split; [reflexivity|].
  destruct (sender "B" s) as [w|]; [|discriminate H]. exists w. destruct (current_of (s_queue s) w) as [q|]; [|discriminate H].
  apply String.eqb_eq in H. eauto.
Qed.
Print Assumptions C57_no_phantom_refuted.

(* A worker called "eval" is enough to bring the broker down: the answer to its ping goes to A, which takes
   it for a job, and reports its end. *)
Definition eval_days : list act :=
  [Do "A"; Read "A"; Submit "job1"; Do "A"; Do "eval"; Read "eval"; Say "A" Ping; Read "A"; Do "A"; Tick "1001"; Tick "1001";
   Do "eval"; Say "eval" (Done "job1" VOk); Read "eval"; Say "A" Ping; Read "A"; Do "A"; Read "A"; Say "A" (Done "job1" VOk); Read "A";
   Say "eval" Ping; Read "eval"; Do "A"; Say "A" (Done "pong" VOk)].
Definition down (x : option (state * nodes * router)) : bool :=
  match x with
  | Some (s, ns, _) =>
      match n_outbox (ns "A"), on_request demo_oracle demo_cfg (Msg "workers" "A" (frames (demo_cards "A") (Done "pong" VOk))) s with
      | Done j VOk :: _, ([], inl NullDeref) => String.eqb j "pong"
      | _, _ => false
      end
  | None => false
  end.
Example C57_survives_refuted : exists tr s ns r out, wired demo_oracle demo_cfg KSingle demo_cards settled tr s ns r /\
  n_outbox (ns "A") = Done "pong" VOk :: out /\
  crashes demo_oracle demo_cfg s (Msg "workers" "A" (frames (demo_cards "A") (Done "pong" VOk))) [] NullDeref.
Proof.
  assert (H : down (wsims demo_oracle demo_cfg demo_cards (wbegin KSingle) eval_days) = true) by (vm_compute; reflexivity).
  destruct (wsims demo_oracle demo_cfg demo_cards (wbegin KSingle) eval_days) as [((s, ns), r)|] eqn:E; [|discriminate H].
  destruct (wsims_sound _ _ KSingle _ _ _ _ (wbegin_reached _ _ KSingle _) E) as (tr & HS). cbn [fst snd] in HS. clear E. unfold down in H.
  exists tr, s, ns, r. destruct (n_outbox (ns "A")) as [|[| | |j [| |]] out]; try discriminate H. exists out. split; [exact HS|]. clear HS.
  unfold crashes. destruct (on_request demo_oracle demo_cfg _ s) as ([|], [[]|]); try discriminate H.
  apply String.eqb_eq in H. subst. split; reflexivity.
Qed.
Print Assumptions C57_survives_refuted.
