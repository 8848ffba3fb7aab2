(* The exact effect of done and eval messages. *)
From Coq Require Import Lia Permutation Sorted.
From Verif Require Import Base Bytes Containers Worker Multi Single Queue Handler SpecText Spec SpecRun SpecMsg SpecQueue SpecOutcome
  Facts TextFacts QueueInv Atoms Members HandlerSim Provenance HeaderFacts OrderFacts Messages QueueContract QueueOrder WorkConserving.
Local Open Scope string_scope.
Local Open Scope list_scope.

(* ---- stepping forward ---- *)

Definition does {A} (m : M A) (s : state) (outs : list msg) (a : A) (s' : state) : Prop := m s = (outs, inr (a, s')).
Lemma does_bind {A B} (m : M A) (f : A -> M B) s o1 a s1 o2 b s2 :
  does m s o1 a s1 -> does (f a) s1 o2 b s2 -> does (bind m f) s (o1 ++ o2) b s2.
Proof. unfold does, bind. intros -> ->. reflexivity. Qed.
Lemma does_silent {A B} (m : M A) (f : A -> M B) s a s1 o2 b s2 :
  does m s [] a s1 -> does (f a) s1 o2 b s2 -> does (bind m f) s o2 b s2.
Proof. intros H1 H2. exact (does_bind m f s [] a s1 o2 b s2 H1 H2). Qed.
Lemma does_call {A} (f : manager -> res (A * manager)) s a m : f (s_queue s) = Val (a, m) -> does (queue_call f) s [] a (set_queue m s).
Proof. unfold does, queue_call. intros ->. reflexivity. Qed.
Lemma does_send w x s : does (send_if w x) s (map (handover w) (olist x)) tt s.
Proof. destruct x; reflexivity. Qed.
Lemma does_send_to (x : option worker) r s :
  does (match x with Some w => send_request w r | None => ret tt end) s (map (fun w => handover w r) (olist x)) tt s.
Proof. destruct x; reflexivity. Qed.
Lemma does_at d i x s : nth_error d i = Some x -> does (at_ d i) s [] x s.
Proof. unfold does, at_. intros ->. reflexivity. Qed.

Lemma counter_stat s c : counter s c = stat c s.
Proof.
  unfold counter, stat. induction (s_stats s) as [|(k, v) l IH]; simpl; [reflexivity|].
  destruct (String.eqb k c); [reflexivity|exact IH].
Qed.

Section WithConfig.
Context (o : oracle) (cfg : config).
Local Notation refresh := (refresh cfg).

Lemma sm_find_insert {A} k (v : A) m c : ~ In k (map fst m) -> sm_find c (sm_insert k v m) = if String.eqb k c then Some v else sm_find c m.
Proof.
  induction m as [|(k', v') m IH]; simpl; intros H; [reflexivity|]. destruct (String.ltb k k'); [reflexivity|]. simpl.
  rewrite IH by tauto. destruct (String.eqb_spec k' c) as [->|]; [|reflexivity].
  destruct (String.eqb_spec k c) as [->|]; [tauto|reflexivity].
Qed.
Lemma sm_find_set {A} k (v : A) m c : sm_find c (sm_set k v m) = if String.eqb k c then Some v else sm_find c m.
Proof.
  unfold sm_set. destruct (sm_mem k m) eqn:E.
  - unfold sm_mem in E. induction m as [|(k', v') m IH]; [discriminate|]. simpl in *. destruct (String.eqb_spec k' k) as [->|Hk].
    + simpl. destruct (String.eqb_spec k c) as [->|]; [reflexivity|]. clear E IH. induction m as [|(a, b) m IH]; [reflexivity|]. simpl.
      destruct (String.eqb_spec a k) as [->|]; simpl; [rewrite (proj2 (String.eqb_neq _ _)) by assumption; exact IH|].
      destruct (String.eqb a c); [reflexivity|exact IH].
    + simpl. rewrite (IH E). destruct (String.eqb_spec k' c) as [->|]; [|reflexivity].
      destruct (String.eqb_spec k c); [congruence|reflexivity].
  - apply sm_find_insert. intros Hin. apply in_map_iff in Hin. destruct Hin as ((k', v') & E1 & Hin). simpl in E1. subst k'.
    assert (sm_mem k m = true) by (apply existsb_exists; exists (k, v'); split; [exact Hin|apply String.eqb_refl]). congruence.
Qed.

Lemma counted_incr name s : counted name s (set_stats (sm_set name (stat name s + 1)%N (s_stats s)) s).
Proof.
  intros c. rewrite !counter_stat. unfold stat at 1. cbn [set_stats s_stats]. rewrite sm_find_set, (String.eqb_sym c name).
  destruct (String.eqb_spec name c) as [<-|]; [reflexivity|]. fold (stat c s). lia.
Qed.

Lemma attempts_incr r s : one_more_attempt r s (set_fails (tbl_set (r_id r) (failures r s + 1)%N (s_fails s)) s).
Proof.
  intros r'. unfold attempts, failures. cbn [set_fails s_fails]. destruct (Nat.eqb_spec (r_id r') (r_id r)) as [->|Hne].
  - apply tbl_get_set_eq.
  - rewrite tbl_get_set_ne by exact Hne. lia.
Qed.

Lemma own_queue_cancelled w w' m x m' : q_worker_cancelled w m = Val (x, m') -> own_queue m' w' = own_queue m w'.
Proof.
  destruct m; simpl; unfold lift_single, lift_multi, single_worker_cancelled, multi_worker_cancelled;
    destruct (pm_index _ _ _); simpl; intros [= _ <-]; reflexivity.
Qed.

Lemma nothing_waits m ws w m' : used o m ws -> asks o m ws w None m' -> forall r, ~ waits_for m r w.
Proof.
  destruct m as [q|q]; intros HU HA r Hw.
  - destruct (oldest_first o q ws w None m' HU HA) as (H & _). destruct Hw as (Hw & Hf). exact (H r Hw Hf).
  - destruct (front_first o q ws w None m' HU HA) as (H & _). simpl in Hw. destruct (own_queue (QMulti q) w) eqn:E; [|discriminate].
    simpl in E, Hw. rewrite E in Hw. destruct Hw.
Qed.

Lemma asks_in_turn m ws w x m' : used o m ws -> asks o m ws w x m' -> in_turn m m' w x.
Proof.
  destruct m as [q|q]; intros HU HA.
  - destruct (oldest_first o q ws w x m' HU HA) as (H & H1 & H2). split; [|auto]. intros r ->. exact (proj2 H).
  - exact (front_first o q ws w x m' HU HA).
Qed.
(* before and after worker_cancelled the same requests wait *)
Lemma in_turn_cancelled w0 m y m1 m' w x : q_worker_cancelled w0 m = Val (y, m1) -> in_turn m1 m' w x -> in_turn m m' w x.
Proof.
  destruct m; simpl; unfold lift_single, lift_multi, single_worker_cancelled, multi_worker_cancelled;
    destruct (pm_index _ _ _); simpl; intros [= _ <-] H; exact H.
Qed.

Lemma does_current s ws w : used o (s_queue s) ws -> In w ws -> does (queue_call (q_get_current w)) s [] (current_of (s_queue s) w) s.
Proof.
  intros HU Hin. rewrite <- (set_queue_id s) at 3. apply does_call. exact (current_contract o _ ws w HU Hin).
Qed.
Lemma does_finish s ws w : used o (s_queue s) ws -> In w ws -> does (queue_call (q_get_current w) ;; ret tt) s [] tt s.
Proof. intros HU Hin. eapply does_silent; [apply does_current with (ws := ws); assumption|]. reflexivity. Qed.

(* a reported request that ends: common beginning *)
Section Done.
Context (k : kind) (tr : list event) (s : state) (i : string) (w : worker) (r : request).
Hypothesis HR : run o cfg k tr s.
Hypothesis HS : sender i s = Some w.
Hypothesis HC : current_of (s_queue s) w = Some r.

Let s0 := refresh i s.

Lemma done_in : In w (s_reg s).
Proof. rewrite sender_find in HS. exact (proj1 (find_by_identity_in _ _ _ HS)). Qed.
Lemma done_used : used o (s_queue s0) (s_reg s).
Proof. unfold s0. rewrite refresh_queue. exact (run_used o cfg k tr s HR). Qed.

(* s' has the jobs, attempts and statistics given and is otherwise s0 *)
Lemma only_jobs_intro m f st : only_jobs cfg i s (set_stats st (set_fails f (set_queue m s0))).
Proof.
  unfold only_jobs, s0. cbn [set_stats set_fails set_queue s_reg s_frozen s_next_w s_next_r s_live s_timers].
  rewrite refresh_reg, refresh_frozen, refresh_next_w, refresh_next_r. repeat split. exists (refresh i s). split; [apply refresh_heard|auto].
Qed.

Lemma done_start st rest outs s' :
  does (let finish := queue_call (q_get_current w) ;; ret tt in
        if String.eqb st "OK" then
          job_done (r_job r) ;; next_request <- queue_call (q_worker_finished o w) ;; send_if w next_request ;; stat_incr STATS_EVALUATED_JOBS ;; finish
        else if String.eqb st "INTERNAL_ERROR" then
          if negb (Nat.eqb (length ("done" :: r_job r :: st :: rest)) 4) then ret tt
          else failed <- queue_call (q_worker_cancelled w) ;;
            match failed with
            | None => fail NullDeref
            | Some failed_request =>
                failures_incr failed_request ;; text <- at_ ("done" :: r_job r :: st :: rest) 3 ;;
                (if negb (r_complete failed_request) then
                   rejected_job (r_job failed_request) ("Job failed with '" ++ text ++ "' and cannot be reassigned")
                 else
                   ok <- check_failure_count cfg failed_request text ;;
                   if ok then (reassign_request o failed_request ;; ret tt)
                   else new_request <- queue_call (q_assign_request o w) ;; send_if w new_request) ;;
                stat_incr STATS_FAILED_JOBS ;; finish
            end
        else if String.eqb st "FAILED" then
          if negb (Nat.eqb (length ("done" :: r_job r :: st :: rest)) 4) then ret tt
          else text <- at_ ("done" :: r_job r :: st :: rest) 3 ;; job_failed (r_job r) text ;;
            failed <- queue_call (q_worker_cancelled w) ;;
            match failed with
            | None => fail NullDeref
            | Some failed_request =>
                failures_incr failed_request ;; new_request <- queue_call (q_assign_request o w) ;; send_if w new_request ;;
                stat_incr STATS_FAILED_JOBS ;; finish
            end
        else finish) s0 outs tt s' ->
  on_request o cfg (Msg "workers" i ("done" :: r_job r :: st :: rest)) s = (outs, inr (tt, s')).
Proof.
  intros H. rewrite (worker_message o cfg _ s "done" (r_job r :: st :: rest)) by reflexivity.
  change (does (process_worker_done o cfg i ("done" :: r_job r :: st :: rest)) s0 outs tt s'). unfold process_worker_done.
  eapply does_silent; [reflexivity|]. cbv beta. unfold s0 at 1. rewrite refresh_reg, <- sender_find, HS.
  cbn [length Nat.ltb Nat.leb]. eapply does_silent; [apply does_current with (ws := s_reg s); [exact done_used|exact done_in]|].
  eapply does_silent; [apply does_at; reflexivity|]. unfold s0 at 1. rewrite refresh_queue, HC, String.eqb_refl. cbn [negb].
  eapply does_silent; [apply does_at; reflexivity|]. exact H.
Qed.

Theorem done_ok rest : exists x s',
  on_request o cfg (Msg "workers" i ("done" :: r_job r :: "OK" :: rest)) s =
    (ok_report (r_job r) :: map (handover w) (olist x), inr (tt, s')) /\
  goes_on_with (s_queue s) (s_queue s') w x /\ only_jobs cfg i s s' /\ counted "evaluated-jobs" s s' /\ s_fails s' = s_fails s.
Proof.
  destruct (finished_contract o (s_queue s0) (s_reg s) w done_used done_in) as (x & m' & E & HU' & HN & HO).
  exists x. eexists. split; [|split; [|split; [|split]]].
  - apply done_start. cbn [String.eqb Ascii.eqb Bool.eqb]. change (ok_report (r_job r) :: map (handover w) (olist x)) with ([ok_report (r_job r)] ++ map (handover w) (olist x)).
    eapply does_bind; [reflexivity|]. eapply does_silent; [apply does_call; exact E|]. rewrite <- (app_nil_r (map (handover w) (olist x))).
    eapply does_bind; [apply does_send|]. eapply does_silent; [reflexivity|]. apply does_finish with (ws := s_reg s); [exact HU'|exact done_in].
  - cbn [set_stats set_queue s_queue]. unfold s0 in HN, HO, E. rewrite refresh_queue in HN, HO, E. split; [exact HN|]. split; [exact HO|]. split; [intros ->|].
    + eapply nothing_waits; [apply (run_used o cfg k tr s HR)|]. eapply as_finished; [exact done_in|exact E].
    + eapply asks_in_turn; [apply (run_used o cfg k tr s HR)|]. eapply as_finished; [exact done_in|exact E].
  - pose proof (only_jobs_intro m' (s_fails s0) (s_stats (set_stats (sm_set STATS_EVALUATED_JOBS (stat STATS_EVALUATED_JOBS (set_queue m' s0) + 1)%N (s_stats (set_queue m' s0))) (set_queue m' s0)))) as H. exact H.
  - intros c. etransitivity; [exact (counted_incr "evaluated-jobs" (set_queue m' s0) c)|]. f_equal. unfold counter. cbn [set_queue s_stats]. unfold s0. rewrite refresh_stats. reflexivity.
  - cbn [set_stats set_queue s_fails]. apply refresh_fails.
Qed.

Lemma cancelled_first : exists m1, q_worker_cancelled w (s_queue s0) = Val (Some r, m1) /\ used o m1 (s_reg s) /\
  now_has (s_queue s) m1 w None /\ still_wait (s_queue s) m1 /\
  match m1, s_queue s with QSingle _, QSingle _ | QMulti _, QMulti _ => True | _, _ => False end.
Proof.
  destruct (cancelled_contract o (s_queue s0) (s_reg s) w done_used done_in) as (m1 & E & HU & HN & HQ).
  exists m1. unfold s0 in *. rewrite refresh_queue in *. rewrite HC in E. repeat (split; [assumption|]). revert E.
  destruct (s_queue s); simpl; unfold lift_single, lift_multi, single_worker_cancelled, multi_worker_cancelled;
    destruct (pm_index _ _ _); simpl; intros [= _ <-]; exact I.
Qed.

Lemma waits_cancelled m1 r' : still_wait (s_queue s) m1 ->
  match m1, s_queue s with QSingle _, QSingle _ | QMulti _, QMulti _ => True | _, _ => False end ->
  waits_for (s_queue s) r' w -> waits_for m1 r' w.
Proof.
  intros (HQ & HO & _) HK. unfold waits_for. destruct (s_queue s), m1; try destruct HK.
  - rewrite HQ. auto.
  - rewrite HO. auto.
Qed.

Lemma still_wait_trans m m1 m2 : still_wait m m1 -> still_wait m1 m2 -> still_wait m m2.
Proof.
  intros (A1 & A2 & A3) (B1 & B2 & B3). split; [congruence|]. split; [intros w'; rewrite B2; apply A2|]. intros r' t. rewrite B3. apply A3.
Qed.

Lemma lines_up_cancelled m1 m2 r' : now_has (s_queue s) m1 w None -> still_wait (s_queue s) m1 ->
  match m1, s_queue s with QSingle _, QSingle _ | QMulti _, QMulti _ => True | _, _ => False end ->
  lines_up m1 m2 r' -> lines_up (s_queue s) m2 r'.
Proof.
  intros HN (HQ & HO & HW) HK (HP & HM). unfold lines_up. rewrite HQ in HP. split; [exact HP|]. clear HP.
  destruct (s_queue s) as [q|q] eqn:Eq, m1 as [q1|q1]; try destruct HK.
  - destruct HM as (H1 & t & Ht). split; [rewrite <- HQ; exact H1|]. exists t. intros r1 t1. rewrite Ht, HW. reflexivity.
  - destruct HM as (w1 & F & B & H1 & H2). exists w1. split; [exact F|]. split; [|split].
    + intros E. apply B. destruct (Nat.eq_dec (w_id w1) (w_id w)) as [E1|E1]; [|rewrite (proj2 HN w1 E1); exact E].
      exfalso. apply B. rewrite (OwnQueue.current_of_id _ _ _ E1). exact (proj1 HN).
    + rewrite <- HO. exact H1.
    + intros w' Hw'. rewrite <- HO. exact (H2 w' Hw').
Qed.

(* after the failed request has been taken away, w asks for work *)
Lemma next_after_failure : exists m1 x m2, q_worker_cancelled w (s_queue s0) = Val (Some r, m1) /\ q_assign_request o w m1 = Val (x, m2) /\
  used o m2 (s_reg s) /\ goes_on_with (s_queue s) m2 w x.
Proof.
  destruct cancelled_first as (m1 & E1 & HU1 & HN1 & HQ1 & HK1).
  destruct (assign_contract o m1 (s_reg s) w HU1 done_in (proj1 HN1)) as (x & m2 & E2 & HU2 & HN2 & HO2).
  exists m1, x, m2. split; [exact E1|]. split; [exact E2|]. split; [exact HU2|]. split; [|split; [|split]].
  - split; [exact (proj1 HN2)|]. intros w' Hw'. rewrite (proj2 HN2 w' Hw'). exact (proj2 HN1 w' Hw').
  - unfold handed_out in *. rewrite <- (proj1 HQ1). exact HO2.
  - intros -> r' Hw'. refine (nothing_waits m1 (s_reg s) w m2 HU1 _ r' _).
    + apply as_assign; [exact done_in|exact (proj1 HN1)|exact E2].
    + exact (waits_cancelled m1 r' HQ1 HK1 Hw').
  - unfold s0 in E1. rewrite refresh_queue in E1. eapply in_turn_cancelled; [exact E1|]. eapply asks_in_turn; [exact HU1|].
    apply as_assign; [exact done_in|exact (proj1 HN1)|exact E2].
Qed.

Lemma counter_queue m s1 f c : s_stats s1 = s_stats s0 -> counter (set_fails f (set_queue m s1)) c = counter s c.
Proof. intros E. unfold counter. cbn [set_fails set_queue s_stats]. rewrite E. unfold s0. rewrite refresh_stats. reflexivity. Qed.
Lemma attempts_s0 r' m : attempts (set_queue m s0) r' = attempts s r'.
Proof. unfold attempts. cbn [set_queue s_fails]. unfold s0. rewrite refresh_fails. reflexivity. Qed.

Theorem done_failed text : exists x s',
  on_request o cfg (Msg "workers" i ["done"; r_job r; "FAILED"; text]) s =
    (failed_report (r_job r) text :: map (handover w) (olist x), inr (tt, s')) /\
  goes_on_with (s_queue s) (s_queue s') w x /\ only_jobs cfg i s s' /\ counted "failed-jobs" s s' /\ one_more_attempt r s s'.
Proof.
  destruct next_after_failure as (m1 & x & m2 & E1 & E2 & HU2 & HG). exists x. eexists. split; [|split; [|split; [|split]]].
  - apply done_start. cbn [String.eqb Ascii.eqb Bool.eqb length Nat.eqb negb]. eapply does_silent; [apply does_at; reflexivity|].
    change (failed_report (r_job r) text :: map (handover w) (olist x)) with ([failed_report (r_job r) text] ++ map (handover w) (olist x)).
    eapply does_bind; [reflexivity|]. eapply does_silent; [apply does_call; exact E1|]. cbv iota.
    eapply does_silent; [reflexivity|]. eapply does_silent; [apply does_call; exact E2|]. rewrite <- (app_nil_r (map (handover w) (olist x))).
    eapply does_bind; [apply does_send|]. eapply does_silent; [reflexivity|]. apply does_finish with (ws := s_reg s); [exact HU2|exact done_in].
  - exact HG.
  - eapply only_jobs_intro.
  - intros c. etransitivity; [exact (counted_incr "failed-jobs" (set_queue m2 (set_fails _ (set_queue m1 s0))) c)|]. f_equal.
    unfold counter. cbn [set_fails set_queue s_stats]. unfold s0. rewrite refresh_stats. reflexivity.
  - intros r'. etransitivity; [exact (attempts_incr r (set_queue m1 s0) r')|]. rewrite attempts_s0. reflexivity.
Qed.

Theorem done_internal_incomplete text : r_complete r = false -> exists s',
  on_request o cfg (Msg "workers" i ["done"; r_job r; "INTERNAL_ERROR"; text]) s =
    ([failed_report (r_job r) ("Job failed with '" ++ text ++ "' and cannot be reassigned")], inr (tt, s')) /\
  now_has (s_queue s) (s_queue s') w None /\ still_wait (s_queue s) (s_queue s') /\
  only_jobs cfg i s s' /\ counted "failed-jobs" s s' /\ one_more_attempt r s s'.
Proof.
  intros HI. destruct cancelled_first as (m1 & E1 & HU1 & HN1 & HQ1 & _). eexists. split; [|split; [|split; [|split; [|split]]]].
  - apply done_start. cbn [String.eqb Ascii.eqb Bool.eqb length Nat.eqb negb]. eapply does_silent; [apply does_call; exact E1|]. cbv iota.
    eapply does_silent; [reflexivity|]. eapply does_silent; [apply does_at; reflexivity|]. rewrite HI. cbn [negb].
    rewrite <- (app_nil_r [_]). eapply does_bind; [reflexivity|]. eapply does_silent; [reflexivity|].
    apply does_finish with (ws := s_reg s); [exact HU1|exact done_in].
  - exact HN1.
  - exact HQ1.
  - eapply only_jobs_intro.
  - intros c. etransitivity; [exact (counted_incr "failed-jobs" (set_fails _ (set_queue m1 s0)) c)|]. f_equal.
    unfold counter. cbn [set_fails set_queue s_stats]. unfold s0. rewrite refresh_stats. reflexivity.
  - intros r'. etransitivity; [exact (attempts_incr r (set_queue m1 s0) r')|]. rewrite attempts_s0. reflexivity.
Qed.

Lemma failures_now m1 : failures r (set_fails (tbl_set (r_id r) (failures r (set_queue m1 s0) + 1)%N (s_fails (set_queue m1 s0))) (set_queue m1 s0)) = (attempts s r + 1)%N.
Proof.
  unfold failures at 1. cbn [set_fails s_fails]. rewrite tbl_get_set_eq. unfold failures. cbn [set_queue s_fails]. unfold s0. rewrite refresh_fails. reflexivity.
Qed.

Theorem done_internal_too_many text : r_complete r = true -> (c_max_failures cfg <= attempts s r + 1)%N -> exists x s',
  on_request o cfg (Msg "workers" i ["done"; r_job r; "INTERNAL_ERROR"; text]) s =
    ([failed_report (r_job r) ("Job was reassigned too many (" ++ to_string_N (attempts s r) ++ ") times. Last failure message was: " ++ text);
      tell (r_job r) "FAILED"] ++ map (handover w) (olist x), inr (tt, s')) /\
  goes_on_with (s_queue s) (s_queue s') w x /\ only_jobs cfg i s s' /\ counted "failed-jobs" s s' /\ one_more_attempt r s s'.
Proof.
  intros HI HM. destruct next_after_failure as (m1 & x & m2 & E1 & E2 & HU2 & HG). exists x. eexists. split; [|split; [|split; [|split]]].
  - apply done_start. cbn [String.eqb Ascii.eqb Bool.eqb length Nat.eqb negb]. eapply does_silent; [apply does_call; exact E1|]. cbv iota.
    eapply does_silent; [reflexivity|]. eapply does_silent; [apply does_at; reflexivity|]. rewrite HI. cbn [negb].
    rewrite <- (app_nil_r ([_; _] ++ _)). eapply does_bind; [eapply does_bind|].
    + unfold check_failure_count. eapply does_silent; [reflexivity|]. cbv beta. rewrite failures_now, (proj2 (N.leb_le _ _) HM).
      assert (size_pred (attempts s r + 1) = attempts s r) as -> by (unfold size_pred; destruct (N.eqb_spec (attempts s r + 1) 0); lia).
      reflexivity.
    + cbv iota. eapply does_silent; [apply does_call; exact E2|]. apply does_send.
    + eapply does_silent; [reflexivity|]. apply does_finish with (ws := s_reg s); [exact HU2|exact done_in].
  - exact HG.
  - eapply only_jobs_intro.
  - intros c. etransitivity; [exact (counted_incr "failed-jobs" (set_queue m2 (set_fails _ (set_queue m1 s0))) c)|]. f_equal.
    unfold counter. cbn [set_fails set_queue s_stats]. unfold s0. rewrite refresh_stats. reflexivity.
  - intros r'. etransitivity; [exact (attempts_incr r (set_queue m1 s0) r')|]. rewrite attempts_s0. reflexivity.
Qed.

Theorem done_internal_again text : r_complete r = true -> (attempts s r + 1 < c_max_failures cfg)%N -> exists x s',
  on_request o cfg (Msg "workers" i ["done"; r_job r; "INTERNAL_ERROR"; text]) s =
    (map (fun w' => handover w' r) (olist x), inr (tt, s')) /\
  match x with
  | Some w' => In w' (s_reg s) /\ fits w' r /\ (w' = w \/ current_of (s_queue s) w' = None) /\ moved (s_queue s) (s_queue s') r w w'
  | None => now_has (s_queue s) (s_queue s') w None /\ lines_up (s_queue s) (s_queue s') r
  end /\
  only_jobs cfg i s s' /\ counted "failed-jobs" s s' /\ one_more_attempt r s s'.
Proof.
  intros HI HM. destruct cancelled_first as (m1 & E1 & HU1 & HN1 & HQ1 & HK1).
  destruct (used_inv o _ _ (run_used o cfg k tr s HR)) as (HV & HB).
  assert (HF : fits w r).
  { apply (proj1 (fits_capable w r (HB w done_in))). exact (qi_current _ _ HV w r done_in HC HI). }
  destruct (enqueue_contract o m1 (s_reg s) r HU1 HI (fits_numeric w r HF)) as (y & m2 & E2 & HU2 & HE & HA).
  assert (HE' : enqueued y = true) by (apply HE; exists w; split; [exact done_in|exact HF]).
  exists (assigned_to y). eexists. split; [|split; [|split; [|split]]].
  - apply done_start. cbn [String.eqb Ascii.eqb Bool.eqb length Nat.eqb negb]. eapply does_silent; [apply does_call; exact E1|]. cbv iota.
    eapply does_silent; [reflexivity|]. eapply does_silent; [apply does_at; reflexivity|]. rewrite HI. cbn [negb].
    rewrite <- (app_nil_r (map _ _)). eapply does_bind; [eapply does_silent|].
    + unfold check_failure_count. eapply does_silent; [reflexivity|]. cbv beta. rewrite failures_now, (proj2 (N.leb_gt _ _) HM). reflexivity.
    + cbv iota. rewrite <- (app_nil_r (map _ _)). eapply does_bind; [unfold reassign_request|reflexivity].
      eapply does_silent; [apply does_call; exact E2|]. cbv beta. rewrite HE'. cbn [negb]. rewrite <- (app_nil_r (map _ _)).
      eapply does_bind; [apply does_send_to|reflexivity].
    + eapply does_silent; [reflexivity|]. apply does_finish with (ws := s_reg s); [exact HU2|exact done_in].
  - cbn [set_stats set_fails set_queue s_queue]. destruct (assigned_to y) as [w'|].
    + destruct HA as (Hin' & HF' & HI' & HN2 & HQ2). split; [exact Hin'|]. split; [exact HF'|]. split.
      * destruct (Nat.eq_dec (w_id w') (w_id w)) as [E|E]; [left|right; rewrite <- (proj2 HN1 w' E); exact HI'].
        exact (ids_inj _ _ _ (qi_nodup _ _ HV) Hin' done_in E).
      * split; [exact (proj1 HN2)|]. split; [intros Hne; rewrite (proj2 HN2 w) by congruence; exact (proj1 HN1)|].
        split; [|exact (still_wait_trans _ _ _ HQ1 HQ2)]. intros w'' Ha Hb. rewrite (proj2 HN2 w'' Hb). exact (proj2 HN1 w'' Ha).
    + destruct HA as (Hcur & HP). rewrite HE' in HP. split; [|exact (lines_up_cancelled _ _ _ HN1 HQ1 HK1 HP)].
      split; [rewrite Hcur; exact (proj1 HN1)|]. intros w' Hw'. rewrite Hcur. exact (proj2 HN1 w' Hw').
  - eapply only_jobs_intro.
  - intros c. etransitivity; [exact (counted_incr "failed-jobs" (set_queue m2 (set_fails _ (set_queue m1 s0))) c)|]. f_equal.
    unfold counter. cbn [set_fails set_queue s_stats]. unfold s0. rewrite refresh_stats. reflexivity.
  - intros r'. etransitivity; [exact (attempts_incr r (set_queue m1 s0) r')|]. rewrite attempts_s0. reflexivity.
Qed.
End Done.

(* ---- eval ---- *)

Lemma reject_text_concat l : forall acc, reject_text acc l = (acc ++ String.concat "" (map (fun p => fst p ++ "=" ++ snd p ++ "; ")%string l))%string.
Proof.
  assert (HC : forall a t, String.concat "" (a :: t) = (a ++ String.concat "" t)%string).
  { intros a [|b t]; simpl; [rewrite append_nil_r; reflexivity|reflexivity]. }
  induction l as [|(h, v) l IH]; intros acc; cbn [reject_text map]; [simpl; rewrite append_nil_r; reflexivity|].
  rewrite IH, HC. cbn [fst snd]. rewrite !append_assoc_s. reflexivity.
Qed.

Lemma enumerates_store need : enumerates need (String.concat "" (map (fun p => fst p ++ "=" ++ snd p ++ "; ")%string (fst (store need [] [])))).
Proof.
  eexists. split; [reflexivity|]. split; [exact (store_ordered need [] [] ordered_nil)|]. intros h. split.
  - intros (m & Hm) Hin. apply in_map_iff in Hin. destruct Hin as ((h', v) & E & Hin). simpl in E. subst h'.
    apply (store_headers_in need [] [] h v) in Hin. destruct Hin as [[]|(f & _ & _ & Hn)]. exact (Hn m Hm).
  - intros Hn. destruct (values_ex h need) as (vs & Hv). pose proof (store_range h need Hn [] [] vs ordered_nil Hv) as E.
    unfold mm_equal_range at 1 in E. rewrite E. exact Hv.
Qed.

Lemma none_idle_fits q ws r x m' : used o (QSingle q) ws -> q_enqueue_request o r (QSingle q) = Val (x, m') -> assigned_to x = None ->
  forall w, In w ws -> fits w r -> current_of (QSingle q) w <> None.
Proof.
  intros HU E Hx w Hw Hf Hi. destruct (used_inv o _ _ HU) as (HV & HB). simpl in E. unfold lift_single, single_enqueue in E.
  destruct (select_idle r (sq_worker_jobs q)) as [[w'|]|f] eqn:Es; simpl in E; [|apply select_idle_spec in Es|discriminate].
  - injection E as <- _. discriminate.
  - assert (Hin : In (w, None) (sq_worker_jobs q)).
    { pose proof (qi_keys _ _ HV) as HP. simpl in HP. apply (Permutation_in _ (Permutation_sym HP)) in Hw. unfold keys in Hw.
      apply in_map_iff in Hw. destruct Hw as ((w1, c) & E1 & Hin). simpl in E1. subst w1. destruct c as [c|]; [|exact Hin].
      unfold current_of in Hi. simpl in Hi. rewrite (pm_find_in w (Some c)) in Hi; [discriminate|apply (qi_keys_nodup _ _ HV)|exact Hin]. }
    apply (fits_capable w r (HB w Hw)) in Hf. unfold capable in Hf. rewrite (Es w Hin) in Hf. discriminate.
Qed.

Theorem eval_outcome k tr s i job frames need payload : run o cfg k tr s -> s_frozen s = false -> header_block frames need payload ->
  (forall v, requires need "threads" v -> exists n, denotes v n) ->
  exists r s', request_for s job need payload r /\ only_queue s s' /\
  (((exists w, In w (s_reg s) /\ fits w r) /\ exists x,
    on_request o cfg (Msg "clients" i ("eval" :: job :: frames)) s =
      (Msg "clients" i ["ack"] :: map (fun w => handover w r) (olist x) ++ [Msg "clients" i ["accept"]], inr (tt, s')) /\
    match x with
    | Some w => In w (s_reg s) /\ fits w r /\ current_of (s_queue s) w = None /\
                now_has (s_queue s) (s_queue s') w (Some r) /\ still_wait (s_queue s) (s_queue s')
    | None => (forall w, current_of (s_queue s') w = current_of (s_queue s) w) /\
              lines_up (s_queue s) (s_queue s') r /\
              (k = KSingle -> forall w, In w (s_reg s) -> fits w r -> current_of (s_queue s) w <> None)
    end) \/
   ((forall w, In w (s_reg s) -> ~ fits w r) /\ s_queue s' = s_queue s /\ exists text, enumerates need text /\
    on_request o cfg (Msg "clients" i ("eval" :: job :: frames)) s =
      ([Msg "clients" i ["ack"]; Msg "clients" i ["reject"; ("No worker available for given headers: " ++ text)%string];
        tell job "FAILED"], inr (tt, s')))).
Proof.
  intros HR HZ HB HN. pose proof (run_used o cfg k tr s HR) as HU. destruct (store need [] []) as (reqs, md) eqn:Es.
  assert (HH : forall h v, In (h, v) reqs <-> requires need h v).
  { intros h v. pose proof (store_headers_in need [] [] h v) as H. rewrite Es in H. simpl in H. tauto. }
  assert (HM : forall m x, sm_find m md = Some x <-> first_meta m need x).
  { intros m x. pose proof (store_meta need [] [] m x) as H. rewrite Es in H. simpl in H. rewrite H. split; [|auto]. intros [|]; [discriminate|tauto]. }
  set (r := complete_request (s_next_r s) reqs md job payload).
  assert (HNr : numeric r). { intros v Hv. apply HN, HH. exact Hv. }
  destruct (enqueue_contract o (s_queue s) (s_reg s) r HU eq_refl HNr) as (y & m' & E & HU' & HE & HA).
  exists r, (set_queue m' (set_next_r (S (s_next_r s)) s)).
  split; [|split; [repeat split; reflexivity|]].
  { split; [reflexivity|]. split; [exact (inv_f _ _ (run_inv _ _ _ _ _ HR) _ (le_n _))|]. split; [reflexivity|]. split; [reflexivity|]. split; [reflexivity|]. split; [exact HH|exact HM]. }
  assert (HS : forall outs s', does (if enqueued y then
              match assigned_to y with Some w => send_request w r | None => ret tt end ;; respond (Msg KEY_CLIENTS i ["accept"])
            else respond (Msg KEY_CLIENTS i ["reject"; reject_text "No worker available for given headers: " reqs]) ;; notify_monitor job "FAILED")
            (set_queue m' (set_next_r (S (s_next_r s)) s)) outs tt s' ->
          on_request o cfg (Msg "clients" i ("eval" :: job :: frames)) s = (Msg "clients" i ["ack"] :: outs, inr (tt, s'))).
  { intros outs s' H. rewrite (client_message o cfg (Msg "clients" i ("eval" :: job :: frames)) s "eval" (job :: frames)) by reflexivity.
    change (does (process_client_eval o i ("eval" :: job :: frames)) s ([Msg "clients" i ["ack"]] ++ outs) tt s'). unfold process_client_eval.
    eapply does_bind; [reflexivity|]. eapply does_silent; [apply does_at; reflexivity|]. cbn [skipn].
    rewrite (parse_eval_block _ _ _ _ _ HB), Es. eapply does_silent; [reflexivity|]. cbv iota beta.
    eapply does_silent; [reflexivity|]. cbv beta. rewrite HZ. eapply does_silent; [reflexivity|].
    eapply does_silent; [apply does_call; exact E|]. exact H. }
  destruct (enqueued y) eqn:Ey.
  - left. split; [apply HE; reflexivity|]. exists (assigned_to y). split.
    + apply HS. eapply does_bind; [apply does_send_to|reflexivity].
    + destruct (assigned_to y) as [w|] eqn:Ew; [exact HA|]. split; [exact (proj1 HA)|]. split; [exact (proj2 HA)|]. intros Hk.
      pose proof (run_kind o cfg k tr s HR) as HKind. rewrite Hk in HKind. destruct (s_queue s) as [q|q]; [|destruct HKind].
      apply (none_idle_fits q _ r y m' HU E Ew).
  - right. destruct (assigned_to y) as [w|].
    + destruct HA as (Hw & Hf & _). assert (false = true) by (apply HE; eauto). discriminate.
    + destruct HA as (_ & ->). split; [|split; [reflexivity|]].
      { intros w Hw Hf. assert (false = true) by (apply HE; eauto). discriminate. }
      eexists. split; [exact (enumerates_store need)|]. apply HS. rewrite Es. cbn [fst]. rewrite <- reject_text_concat. reflexivity.
Qed.
End WithConfig.
