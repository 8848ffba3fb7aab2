(* Everything the broker says is allowed by SpecOut.may_say. *)
From Coq Require Import Permutation Lia.
From Verif Require Import Base Bytes Containers Worker Multi Single Queue Handler SpecText Spec Facts QueueInv Atoms
  HandlerSim Keeps Conserve SpecRun SpecMsg SpecOut SpecQueue Provenance Messages WorkConserving.
Local Open Scope string_scope.
Local Open Scope list_scope.

(* ---- the messages a piece of handler code can emit ---- *)

Definition emits {A} (P : msg -> Prop) (m : M A) : Prop :=
  forall s outs a s', m s = (outs, inr (a, s')) -> Forall P outs.

Section Emits.
Context (P : msg -> Prop).
Lemma emits_bind {A B} (m : M A) (k : A -> M B) : emits P m -> (forall a, emits P (k a)) -> emits P (bind m k).
Proof.
  intros Hm Hk s outs b s' H. apply bind_inv in H. destruct H as (o1 & a & s1 & o2 & H1 & H2 & ->).
  rewrite Forall_app. split; [exact (Hm _ _ _ _ H1)|exact (Hk a _ _ _ _ H2)].
Qed.
Lemma emits_ret {A} (a : A) : emits P (ret a).
Proof. intros s outs b s' H. minv. constructor. Qed.
Lemma emits_get : emits P get.
Proof. intros s outs b s' H. minv. constructor. Qed.
Lemma emits_fail {A} e : emits P (@fail A e).
Proof. intros s outs b s' H. discriminate. Qed.
Lemma emits_respond m : P m -> emits P (respond m).
Proof. intros Hp s outs b s' H. minv. constructor; [exact Hp|constructor]. Qed.
Lemma emits_lift {A} (x : res A) : emits P (lift x).
Proof. intros s outs b s' H. minv. constructor. Qed.
Lemma emits_at v i : emits P (at_ v i).
Proof. intros s outs b s' H. minv. constructor. Qed.
Lemma emits_modify g : emits P (modify g).
Proof. intros s outs b s' H. minv. constructor. Qed.
Lemma emits_queue_call {A} (g : manager -> res (A * manager)) : emits P (queue_call g).
Proof. intros s outs b s' H. minv. constructor. Qed.
End Emits.

Ltac emit :=
  repeat (intros; cbv zeta; lazymatch goal with
  | |- emits _ (bind _ _) => apply emits_bind
  | |- emits _ (ret _) => apply emits_ret
  | |- emits _ get => apply emits_get
  | |- emits _ (fail _) => apply emits_fail
  | |- emits _ (respond _) => apply emits_respond
  | |- emits _ (lift _) => apply emits_lift
  | |- emits _ (at_ _ _) => apply emits_at
  | |- emits _ (modify _) => apply emits_modify
  | |- emits _ (queue_call _) => apply emits_queue_call
  | |- emits _ (let '(_, _) := ?x in _) => destruct x
  | |- emits _ (match ?x with _ => _ end) => destruct x
  | |- emits _ _ => solve [auto]
  end).

Section WithConfig.
Context (o : oracle) (cfg : config).
Local Notation atoms := (atoms o cfg).

(* ---- timer ---- *)

Definition tick_out (out : msg) : Prop :=
  m_key out = "workers" \/ final_status out \/ monitor_told "FAILED" out \/ monitor_told "ABORTED" out.

Lemma tick_failed_status j t : tick_out (Msg KEY_STATUS_NOTIFIER "" ["type"; "job-status"; "id"; j; "status"; "FAILED"; "message"; t]).
Proof. right. left. eexists. split; [reflexivity|]. split; [constructor|reflexivity]. Qed.
Lemma tick_monitor_failed j : tick_out (Msg KEY_MONITOR MONITOR_IDENTITY [j; "FAILED"]).
Proof. right. right. left. exists j. reflexivity. Qed.
Lemma tick_monitor_aborted j : tick_out (Msg KEY_MONITOR MONITOR_IDENTITY [j; "ABORTED"]).
Proof. right. right. right. exists j. reflexivity. Qed.
Lemma tick_worker i d : tick_out (Msg KEY_WORKERS i d).
Proof. left. reflexivity. Qed.
Local Hint Resolve tick_failed_status tick_monitor_failed tick_monitor_aborted tick_worker : ticks.

Ltac ticks := unfold check_failure_count, reassign_request, rejected_job, job_failed,
  notify_monitor, send_request, failures_incr, stat_incr, stat_set; emit; auto with ticks.

Lemma expire_requests_out rs : emits tick_out (expire_requests o cfg rs).
Proof. induction rs; simpl; ticks. Qed.
Lemma reject_all_out d rs : emits tick_out (reject_all d rs).
Proof. induction rs; simpl; ticks. Qed.
Lemma expire_workers_out ws : emits tick_out (expire_workers o cfg ws).
Proof.
  pose proof expire_requests_out. pose proof reject_all_out. induction ws; simpl; ticks.
Qed.
Lemma timer_scan_out t ws : emits tick_out (timer_scan cfg t ws).
Proof. induction ws; simpl; ticks. Qed.
Lemma count_idle_out ws : emits tick_out (count_idle ws).
Proof. induction ws; simpl; ticks. Qed.
Lemma process_timer_out m : emits tick_out (process_timer o cfg m).
Proof.
  pose proof expire_workers_out. pose proof timer_scan_out. pose proof count_idle_out.
  unfold process_timer. ticks.
Qed.

(* ---- sent requests ---- *)

Lemma sent_complete s h l s' h' w r : inv s h -> atom o cfg s h l s' h' -> In (w, r) (sends_of l) ->
  r_complete r = true \/
  exists q, s_queue s = QSingle q /\ l = LRegister w (Some r) (Some r) /\ r_complete r = false /\ r_frames r = [].
Proof.
  intros HI Ha Hin. destruct HI as [Hq Hw Hnd Hr Hf]. destruct Ha; simpl in *; try tauto.
  - destruct x as [x|]; [|destruct Hin]. destruct Hin as [[= -> ->]|[]].
    assert (Hni : ~ In (w_id w) (ids (s_reg s))).
    { intros Hc. apply in_ids_inv in Hc. destruct Hc as (w' & Hi & E). specialize (Hw w' Hi). lia. }
    assert (HA : add_post (s_queue s) (s_reg s) w cur (Some r) m').
    { eapply q_add_spec; eauto. intros r0 Hc. apply (H2 r0 Hc). }
    destruct HA as (HQ & HA). destruct cur as [c|].
    + destruct HA as (_ & _ & E). destruct (s_queue s) as [q|q]; [injection E as <-|discriminate].
      right. exists q. destruct (H2 r eq_refl) as (A & _ & B). auto.
    + left. apply HA.
  - destruct x as [x|]; [|destruct Hin]. destruct Hin as [[= -> ->]|[]].
    left. apply (q_assign_spec o _ _ _ _ _ Hq H H0 H1).
  - destruct x as [x|]; [|destruct Hin]. destruct Hin as [[= -> ->]|[]]. auto.
Qed.

Lemma sent_all s h ls s' h' : atoms s h ls s' h' -> inv s h -> forall w r, In (w, r) (sends ls) ->
  r_complete r = true \/ (In (LRegister w (Some r) (Some r)) ls /\ r_frames r = []).
Proof.
  induction 1 as [s h|s h l s1 h1 ls s2 h2 Ha _ IH]; intros HI w r Hin; [destruct Hin|].
  unfold sends in Hin. simpl in Hin. rewrite in_app_iff in Hin. destruct Hin as [Hin|Hin].
  - destruct (sent_complete _ _ _ _ _ _ _ HI Ha Hin) as [?|(q & _ & -> & _ & ?)]; [auto|]. right. simpl. auto.
  - destruct (IH (atom_inv _ _ _ _ _ _ _ HI Ha) w r Hin) as [?|(? & ?)]; [auto|]. right. simpl. auto.
Qed.

Definition formed (r : request) : Prop :=
  r_complete r = true -> exists payload, r_frames r = "eval" :: r_job r :: payload.

Lemma created_formed s h ls s' h' : atoms s h ls s' h' -> forall r, In r (created ls) -> formed r.
Proof.
  induction 1 as [s h|s h l s1 h1 ls s2 h2 Ha _ IH]; intros r Hin; [destruct Hin|].
  unfold created in Hin. simpl in Hin. rewrite in_app_iff in Hin. destruct Hin as [Hin|Hin]; [|auto].
  destruct Ha; simpl in Hin; try tauto.
  - destruct Hin as [<-|[]]. intros _. exists (skipn 2 (r_frames r0)). assumption.
  - destruct cur as [c|]; [|destruct Hin]. destruct Hin as [<-|[]]. intros Hc. destruct (H2 c eq_refl) as (E & _). congruence.
Qed.

(* requests sent by actions from a state with well-formed requests *)
Lemma sends_formed s ls s' : atoms s [] ls s' [] -> inv s [] -> (forall r, In r (held (s_queue s)) -> formed r) ->
  forall w r, In (w, r) (sends ls) ->
  (exists payload, dispatch_msg w r = Msg "workers" (w_identity w) ("eval" :: r_job r :: payload)) \/
  (In (LRegister w (Some r) (Some r)) ls /\ dispatch_msg w r = Msg "workers" (w_identity w) []).
Proof.
  intros A HI HF w r Hin.
  destruct (atoms_carry o cfg (fun _ => True) formed _ _ _ _ _ A HI) as (_ & _ & HC); auto.
  { intros r' Hr'. rewrite app_nil_r in Hr'. auto. }
  { intros r' Hr'. eapply created_formed; eauto. }
  destruct (HC w r Hin) as (_ & HFr & _). unfold dispatch_msg.
  destruct (sent_all _ _ _ _ _ A HI w r Hin) as [Hc|(Hl & E)].
  - destruct (HFr Hc) as (pl & E). left. exists pl. rewrite E. reflexivity.
  - right. rewrite E. auto.
Qed.

Lemma run_formed k tr s : run o cfg k tr s -> forall r, In r (held (s_queue s)) -> formed r.
Proof.
  intros HR r Hin Hc. destruct (proj2 (run_carried _ _ _ _ _ HR) r Hin) as (_ & H).
  destruct (H Hc) as (e & need & pl & _ & _ & E & _). eauto.
Qed.

Lemma refresh_queue i s : s_queue (refresh cfg i s) = s_queue s.
Proof. pose proof (refresh_core cfg i s) as H. unfold core in H. injection H as _ -> _ _ _. reflexivity. Qed.

(* ---- one message ---- *)

Lemma length4 (l : list string) : length l = 4 -> exists a b c d, l = [a; b; c; d].
Proof. destruct l as [|? [|? [|? [|? [|? ?]]]]]; try discriminate. eauto 10. Qed.

Lemma atoms_in s h ls s' h' : atoms s h ls s' h' -> forall l, In l ls -> exists s1 h1 s2 h2, atom o cfg s1 h1 l s2 h2.
Proof.
  induction 1 as [s h|s h l s1 h1 ls s2 h2 Ha _ IH]; intros l' Hin; [destruct Hin|]. destruct Hin as [<-|Hin]; eauto 10.
Qed.

Lemma sends_in ls l w r : In l ls -> In (w, r) (sends_of l) -> In (w, r) (sends ls).
Proof. intros H1 H2. unfold sends. apply in_flat_map. eauto. Qed.

Lemma tick_says s i data outs s' : inv s [] -> (forall r, In r (held (s_queue s)) -> formed r) ->
  process_timer o cfg (Msg "timer" i data) s = (outs, inr (tt, s')) ->
  forall out, In out outs -> may_say (Msg "timer" i data) out.
Proof.
  intros HI HF H out Hin. pose proof (process_timer_out _ _ _ _ _ H) as HP. rewrite Forall_forall in HP. specialize (HP out Hin).
  destruct (process_timer_sim _ _ _ _ _ _ HI H) as (ls & A & O & F).
  destruct data as [|t rest]; [discriminate H|]. apply ms_tick. destruct HP as [Hk|HP]; [left|tauto].
  pose proof (sends_formed _ _ _ A HI HF) as HS. rewrite Forall_forall in F.
  rewrite <- O in Hin. unfold outs_all in Hin. apply in_flat_map in Hin. destruct Hin as (l & Hl & Ho).
  destruct (atoms_in _ _ _ _ _ A l Hl) as (s1 & h1 & s2 & h2 & Ha). pose proof (F l Hl) as Fl.
  destruct l; simpl in Ho, Fl; try tauto.
  - destruct Ho as [<-|[]]. rewrite Hk in Fl. discriminate.
  - destruct x as [x|]; [|destruct Ho]. destruct Ho as [<-|[]].
    destruct (HS x r) as [(pl & E)|(Hc & _)]; [eapply sends_in; [exact Hl|left; reflexivity]| |destruct (F _ Hc)].
    rewrite E. repeat eexists.
  - destruct Ho as [<-|[]]. inversion Ha; subst. match goal with HH : report_for _ _ |- _ => destruct HH as (E & _) end. congruence.
Qed.

Lemma done_says s i rest outs s' : inv s [] -> (forall r, In r (held (s_queue s)) -> formed r) ->
  process_worker_done o cfg i ("done" :: rest) s = (outs, inr (tt, s')) ->
  forall out, In out outs -> may_say (Msg "workers" i ("done" :: rest)) out.
Proof.
  intros HI HF H out Hin. destruct (done_sim _ _ _ _ _ _ _ HI H) as (ls & A & O & D).
  pose proof (sends_formed _ _ _ A HI HF) as HS. subst outs.
  assert (HS' : forall l w r, (forall w' c x, ~ In (LRegister w' c x) ls) -> In l ls -> In (w, r) (sends_of l) -> hands_out (dispatch_msg w r)).
  { intros l w r Hno Hl Hs. destruct (HS w r (sends_in _ _ _ _ Hl Hs)) as [(pl & E)|(Hc & _)]; [rewrite E; repeat eexists|].
    destruct (Hno _ _ _ Hc). }
  destruct D as [_|w r m x st Hf Hc E1 E2 Hm|w r ls Hf Hc E1 E2 H4 D].
  - destruct Hin.
  - simpl in E1, E2. destruct rest as [|j [|c rest]]; try discriminate. injection E1 as ->. injection E2 as ->.
    unfold outs_all in Hin. simpl in Hin. destruct Hin as [<-|Hin].
    + destruct Hm as [(-> & ->)|(-> & d & Hl & E3 & ->)].
      * apply ms_done_ok.
      * destruct rest as [|? [|? ?]]; try discriminate. apply ms_done_failed. simpl. auto.
    + destruct x as [x|]; [|destruct Hin]. destruct Hin as [<-|[]].
      apply ms_done_next.
      * eapply HS' with (l := LAssign w (Some x)).
        -- simpl. intros w' c x' [Hx|[Hx|[Hx|[]]]]; discriminate.
        -- simpl. auto.
        -- left. reflexivity.
      * destruct Hm as [(-> & _)|(-> & _)]; simpl; auto.
  - destruct (length4 _ H4) as (a & j & c & t & E). injection E as <- ->. simpl in E1, E2. injection E1 as ->. injection E2 as ->.
    destruct D as [d Hi|d x Hcm|x Hcm]; unfold outs_all in Hin; simpl in Hin.
    + destruct Hin as [<-|[]]. apply ms_done_failed. simpl. auto.
    + destruct Hin as [<-|[<-|Hin]].
      * apply ms_done_failed. simpl. auto.
      * apply ms_done_monitor.
      * destruct x as [x|]; [|destruct Hin]. destruct Hin as [<-|[]]. apply ms_done_next; [|simpl; auto].
        eapply HS' with (l := LAssign w (Some x)).
        -- simpl. intros w' c' x' [Hx|[Hx|[Hx|[Hx|[Hx|[]]]]]]; discriminate.
        -- simpl. auto 10.
        -- left. reflexivity.
    + destruct x as [x|]; [|destruct Hin]. destruct Hin as [<-|[]]. apply ms_done_next; [|simpl; auto].
      eapply HS' with (l := LEnqueue r (Some x)).
      * simpl. intros w' c' x' [Hx|[Hx|[Hx|[]]]]; discriminate.
      * simpl. auto 10.
      * left. reflexivity.
Qed.

Lemma registers_identity i data s w cur next : registers o i data s w cur next ->
  w_identity w = i /\ option_map r_job cur = announced data /\ 2 <= length data.
Proof.
  intros [hw hs rest w0 desc E1 E2 E3 E4 -> _]. destruct (make_worker_fields _ _ _ _ _ _ E3) as (_ & _ & E & _).
  split; [exact E|]. split.
  - exact (announced_spec _ _ _ _ _ _ _ _ _ E2 E4).
  - apply (nth_error_Some data 1). congruence.
Qed.

Lemma init_says s i rest outs s' : inv s [] -> (forall r, In r (held (s_queue s)) -> formed r) ->
  process_worker_init o i ("init" :: rest) s = (outs, inr (tt, s')) ->
  forall out, In out outs -> may_say (Msg "workers" i ("init" :: rest)) out.
Proof.
  intros HI HF H out Hin. destruct (init_sim _ cfg _ _ _ _ _ HI H) as (ls & A & O & [(-> & _)|(pre & w & cur & x & next & -> & Hq & Hr & He)]).
  { subst outs. destruct Hin. }
  pose proof (sends_formed _ _ _ A HI HF) as HS. subst outs.
  destruct (registers_identity _ _ _ _ _ _ Hr) as (Ei & Ea & El).
  destruct rest as [|hw rest]; [simpl in El; lia|].
  unfold outs_all in Hin. rewrite flat_map_app in Hin. apply in_app_iff in Hin. destruct Hin as [Hin|Hin].
  - destruct He as [E|(d & E)]; unfold outs_all in E; rewrite E in Hin; [destruct Hin|]. destruct Hin as [<-|[]]. apply ms_two_inits.
  - simpl in Hin. rewrite app_nil_r in Hin. destruct x as [x|]; [|destruct Hin]. destruct Hin as [<-|[]].
    destruct (HS w x) as [(pl & E)|(Hc & E)].
    + eapply sends_in; [rewrite in_app_iff; right; left; reflexivity|left; reflexivity].
    + rewrite E, Ei. apply ms_first_job.
    + rewrite E, Ei. rewrite in_app_iff in Hc. destruct Hc as [Hc|[Hc|[]]].
      * rewrite Forall_forall in Hq. destruct (Hq _ Hc).
      * injection Hc as ->. simpl in Ea. eapply ms_announced. symmetry. exact Ea.
Qed.

Lemma eval_says s i rest outs s' : inv s [] -> (forall r, In r (held (s_queue s)) -> formed r) ->
  process_client_eval o i ("eval" :: rest) s = (outs, inr (tt, s')) ->
  forall out, In out outs -> may_say (Msg "clients" i ("eval" :: rest)) out.
Proof.
  intros HI HF H out Hin.
  assert (Hl : exists j rest', rest = j :: rest').
  { unfold process_client_eval in H. minv1 H. minv1 Hm. minv1 Hk. minv1 Hm. simpl in Ea. destruct rest; [discriminate|eauto]. }
  destruct Hl as (j & rest' & ->). destruct (eval_sim _ cfg _ _ _ _ _ HI H) as (ls & A & O & D). subst outs.
  assert (HS : forall r, submits ("eval" :: j :: rest') s r -> r_job r = j /\ exists pl, r_frames r = "eval" :: j :: pl).
  { intros r [job hs md add E1 _ ->]. simpl in E1. injection E1 as <-. split; [reflexivity|]. eexists. reflexivity. }
  destruct D as [Hp|r Hs Hf|r x Hs Hf|r Hs Hf Hno]; unfold outs_all in Hin; simpl in Hin.
  - destruct Hin as [<-|[]]. apply ms_ack. simpl. auto.
  - destruct Hin as [<-|[<-|[]]]; [apply ms_ack; simpl; auto|apply ms_reject].
  - destruct (HS r Hs) as (Ej & pl & E). destruct Hin as [<-|Hin]; [apply ms_ack; simpl; auto|].
    rewrite in_app_iff in Hin. destruct Hin as [Hin|[<-|[]]]; [|apply ms_accept].
    destruct x as [x|]; [|destruct Hin]. destruct Hin as [<-|[]]. unfold dispatch_msg. rewrite E. apply ms_eval.
  - destruct (HS r Hs) as (Ej & pl & E). destruct Hin as [<-|[<-|[<-|[]]]]; [apply ms_ack; simpl; auto|apply ms_reject|].
    rewrite Ej. apply ms_refused.
Qed.

Theorem says_allowed k tr1 e tr2 s : run o cfg k (tr1 ++ e :: tr2) s -> forall out, In out (ev_out e) -> may_say (ev_in e) out.
Proof.
  intros HR out Hin. destruct (run_split _ _ _ _ _ _ _ HR) as (HR1 & Hstep).
  pose proof (run_inv _ _ _ _ _ HR1) as HI. pose proof (run_formed _ _ _ HR1) as HF.
  destruct e as [pre m outs post]. cbn [ev_pre ev_in ev_out ev_post] in *. destruct m as [key i data].
  rewrite on_request_eq in Hstep. unfold on_request_cases in Hstep. cbn [m_key m_ident m_data] in Hstep.
  destruct (String.eqb_spec key "workers") as [->|Hw]; [|destruct (String.eqb_spec key "clients") as [->|Hcl];
    [|destruct (String.eqb_spec key "timer") as [->|Ht]]].
  - (* workers *)
    destruct data as [|c rest]; [discriminate|]. unfold call_function, worker_commands in Hstep. cbn [sm_find] in Hstep.
    assert (HI1 : inv (refresh cfg i pre) []) by (eapply (atom_inv o cfg); [exact HI|apply a_tau; apply refresh_core]).
    assert (HF1 : forall r, In r (held (s_queue (refresh cfg i pre))) -> formed r) by (rewrite refresh_queue; exact HF).
    destruct (String.eqb_spec "init" c) as [<-|H1]; [|destruct (String.eqb_spec "done" c) as [<-|H2];
      [|destruct (String.eqb_spec "ping" c) as [<-|H3]; [|destruct (String.eqb_spec "progress" c) as [<-|H4]]]].
    + eapply init_says; eauto.
    + eapply done_says; eauto.
    + unfold process_worker_ping in Hstep. minv1 Hstep. minv1 Hm. destruct (find_worker_by_identity _ _); minv;
        destruct Hin as [<-|[]]; apply ms_ping; simpl; auto.
    + unfold process_worker_progress in Hstep. minv. destruct Hin as [<-|[]]. apply ms_progress.
    + minv. destruct Hin.
  - destruct data as [|c rest]; [discriminate|]. unfold call_function, client_commands in Hstep. cbn [sm_find] in Hstep.
    destruct (String.eqb_spec "eval" c) as [<-|H1]; [|destruct (String.eqb_spec "get-runtime-stats" c) as [<-|H2];
      [|destruct (String.eqb_spec "freeze" c) as [<-|H3]; [|destruct (String.eqb_spec "unfreeze" c) as [<-|H4]]]].
    + eapply eval_says; eauto.
    + unfold process_client_get_runtime_stats in Hstep. minv. destruct Hin as [<-|[]]. apply ms_stats.
    + unfold process_client_freeze in Hstep. minv. destruct Hin as [<-|[]]. apply ms_ack. simpl. auto.
    + unfold process_client_unfreeze in Hstep. minv. destruct Hin as [<-|[]]. apply ms_ack. simpl. auto.
    + minv. destruct Hin.
  - eapply tick_says; eauto.
  - minv. destruct Hin.
Qed.

(* ---- messages without frames ---- *)

Lemma adopts_iff j e : adopts j e = true <->
  m_key (ev_in e) = "workers" /\ (exists rest, m_data (ev_in e) = "init" :: rest) /\
  length (s_reg (ev_pre e)) < length (s_reg (ev_post e)) /\ announced (m_data (ev_in e)) = Some j.
Proof.
  unfold adopts. rewrite !andb_true_iff, String.eqb_eq, starts_with_iff, Nat.ltb_lt. simpl.
  destruct (announced (m_data (ev_in e))) as [j'|].
  - rewrite String.eqb_eq. split.
    + intros (((A & B) & C) & ->). auto.
    + intros (A & B & C & [= ->]). auto.
  - split; [intros (_ & ?); discriminate|intros (_ & _ & _ & ?); discriminate].
Qed.

Lemma adoption_sends k tr1 e tr2 s j : run o cfg k (tr1 ++ e :: tr2) s -> adopts j e = true ->
  k = KSingle -> filter (fun m => String.eqb (m_key m) "workers") (ev_out e) = [Msg "workers" (m_ident (ev_in e)) []].
Proof.
  intros HR Ha ->. apply adopts_iff in Ha. destruct Ha as (Hk & (rest & Hd) & Hl & Ha).
  destruct (run_split _ _ _ _ _ _ _ HR) as (HR1 & Hstep).
  pose proof (run_inv _ _ _ _ _ HR1) as HI. pose proof (run_kind _ _ _ _ _ HR1) as HK.
  rewrite (worker_message _ _ _ _ _ _ Hk Hd) in Hstep.
  change (process_worker_init o (m_ident (ev_in e)) ("init" :: rest) (refresh cfg (m_ident (ev_in e)) (ev_pre e)) =
          (ev_out e, inr (tt, ev_post e))) in Hstep.
  assert (HI1 : inv (refresh cfg (m_ident (ev_in e)) (ev_pre e)) []).
  { eapply (atom_inv o cfg); [exact HI|apply a_tau; apply refresh_core]. }
  destruct (init_sim _ cfg _ _ _ _ _ HI1 Hstep) as (ls & A & O & [(_ & Es)|(pre & w' & cur & x & next & -> & Hq & Hr & He)]).
  { exfalso. rewrite Es, refresh_reg in Hl. lia. }
  destruct (registers_identity _ _ _ _ _ _ Hr) as (Ei & Ea & _). rewrite <- Hd, Ha in Ea.
  destruct cur as [r|]; [|discriminate].
  destruct (atoms_app_inv _ _ _ _ _ _ _ _ A) as (s1 & h1 & A1 & A2).
  destruct (atoms_quiet_core _ _ _ _ _ _ _ A1 Hq) as (E1 & _).
  pose proof (atoms_inv _ _ _ _ _ _ _ A1 HI1) as HI2.
  destruct (atoms_cons_inv _ _ _ _ _ _ _ _ A2) as (s2 & h2 & A3 & _).
  assert (Hx : x = Some r /\ r_frames r = []).
  { clear - A3 HI2 E1 HK. destruct HI2 as [Hq Hw Hnd Hr Hf]. inversion A3; subst.
    match goal with HH : core _ = (_, _, _, _, _) |- _ => clear HH end.
    match goal with HH : forall r0, Some r = Some r0 -> @?P r0 |- _ => rename HH into Hcur end.
    assert (Hni : ~ In (w_id w') (ids (s_reg s1))).
    { intros Hc. apply in_ids_inv in Hc. destruct Hc as (w2 & Hi & E). specialize (Hw w2 Hi). lia. }
    match goal with HH : q_add_worker _ _ _ _ = _ |- _ =>
      assert (HA : add_post (s_queue s1) (s_reg s1) w' (Some r) x m') by (eapply q_add_spec; eauto; intros r0 Hc; apply (Hcur r0 Hc)) end.
    destruct HA as (_ & _ & _ & ->). destruct (Hcur r eq_refl) as (_ & _ & Hfr). split; [|exact Hfr].
    unfold core in E1. injection E1 as _ E1 _ _ _. rewrite refresh_queue in E1. rewrite <- E1 in HK.
    destruct (s_queue s1); [reflexivity|destruct HK]. }
  destruct Hx as (-> & Hfr). rewrite <- O. unfold outs_all in *. rewrite flat_map_app, filter_app. simpl.
  unfold dispatch_msg. rewrite Hfr, Ei. destruct He as [->|(d & ->)]; reflexivity.
Qed.

Lemma announced_sent k tr1 e tr2 s hw rest i : run o cfg k (tr1 ++ e :: tr2) s ->
  ev_in e = Msg "workers" i ("init" :: hw :: rest) -> In (Msg "workers" i []) (ev_out e) ->
  k = KSingle /\ exists j, adopts j e = true.
Proof.
  intros HR Hin Ho. destruct (run_split _ _ _ _ _ _ _ HR) as (HR1 & Hstep).
  pose proof (run_inv _ _ _ _ _ HR1) as HI. pose proof (run_kind _ _ _ _ _ HR1) as HK. pose proof (run_formed _ _ _ HR1) as HF.
  assert (Hk : m_key (ev_in e) = "workers") by (rewrite Hin; reflexivity).
  assert (Hd : m_data (ev_in e) = "init" :: hw :: rest) by (rewrite Hin; reflexivity).
  assert (Hi : m_ident (ev_in e) = i) by (rewrite Hin; reflexivity).
  rewrite (worker_message _ _ _ _ _ _ Hk Hd), Hi in Hstep.
  change (process_worker_init o i ("init" :: hw :: rest) (refresh cfg i (ev_pre e)) = (ev_out e, inr (tt, ev_post e))) in Hstep.
  assert (HI1 : inv (refresh cfg i (ev_pre e)) []).
  { eapply (atom_inv o cfg); [exact HI|apply a_tau; apply refresh_core]. }
  assert (HF1 : forall r, In r (held (s_queue (refresh cfg i (ev_pre e)))) -> formed r) by (rewrite refresh_queue; exact HF).
  destruct (init_sim _ cfg _ _ _ _ _ HI1 Hstep) as (ls & A & O & [(-> & Es)|(pre & w' & cur & x & next & -> & Hq & Hr & He)]).
  { exfalso. rewrite <- O in Ho. destruct Ho. }
  destruct (registers_identity _ _ _ _ _ _ Hr) as (Ei & Ea & _).
  pose proof (sends_formed _ _ _ A HI1 HF1) as HS. destruct (register_grows _ _ _ _ _ _ _ _ HI1 Hq A) as (Eg & _).
  rewrite refresh_reg in Eg.
  rewrite <- O in Ho. unfold outs_all in Ho. rewrite flat_map_app, in_app_iff in Ho. destruct Ho as [Ho|Ho].
  { exfalso. destruct He as [E|(d & E)]; unfold outs_all in E; rewrite E in Ho; [destruct Ho|]. destruct Ho as [Ho|[]]. discriminate. }
  simpl in Ho. rewrite app_nil_r in Ho. destruct x as [x|]; [|destruct Ho]. destruct Ho as [Ho|[]].
  assert (Hs : In (w', x) (sends (pre ++ [LRegister w' cur (Some x)]))).
  { eapply sends_in; [rewrite in_app_iff; right; left; reflexivity|left; reflexivity]. }
  destruct (atoms_app_inv _ _ _ _ _ _ _ _ A) as (s1 & h1 & A1 & A2).
  destruct (atoms_quiet_core _ _ _ _ _ _ _ A1 Hq) as (E1 & _).
  pose proof (atoms_inv _ _ _ _ _ _ _ A1 HI1) as HI2.
  destruct (atoms_cons_inv _ _ _ _ _ _ _ _ A2) as (s2 & h2 & A3 & _).
  destruct (sent_complete _ _ _ _ _ w' x HI2 A3) as [Hc|(q & Eq & El & _ & _)]; [left; reflexivity| |].
  { exfalso. destruct (HS _ _ Hs) as [(pl & E)|(Hl & _)]; [rewrite E in Ho; discriminate|].
    rewrite in_app_iff in Hl. destruct Hl as [Hl|[Hl|[]]].
    - rewrite Forall_forall in Hq. destruct (Hq _ Hl).
    - injection Hl as ->. inversion A3; subst. match goal with HH : forall r0, Some x = Some r0 -> @?P r0 |- _ => destruct (HH x eq_refl) end. congruence. }
  injection El as ->. split.
  - unfold core in E1. injection E1 as _ E1 _ _ _. rewrite refresh_queue in E1. rewrite <- E1, Eq in HK.
    destruct k; [reflexivity|destruct HK].
  - exists (r_job x). apply adopts_iff. split; [exact Hk|]. split; [eauto|]. split.
    + rewrite Eg, app_length. simpl. lia.
    + rewrite Hd. symmetry. exact Ea.
Qed.

Theorem empty_iff k tr1 e tr2 s : run o cfg k (tr1 ++ e :: tr2) s -> forall out,
  (In out (ev_out e) /\ m_data out = [] <->
   (k = KSingle /\ (exists j, adopts j e = true) /\ out = Msg "workers" (m_ident (ev_in e)) []) \/
   ((exists i, ev_in e = Msg "workers" i ["progress"]) /\ out = Msg "monitor" "recodex-monitor" [])).
Proof.
  intros HR out. split.
  - intros (Hin & Hd). pose proof (says_allowed _ _ _ _ _ HR out Hin) as HM.
    remember (ev_in e) as m eqn:Em. destruct HM; simpl in Hd; try discriminate Hd.
    + destruct stats; discriminate.
    + subst rest. right. eauto.
    + destruct (announced_sent _ _ _ _ _ _ _ _ HR (eq_sym Em) Hin) as (Hk & Ha). left. auto.
    + destruct H as (w & j' & pl & ->). discriminate.
    + exfalso. destruct H as [(w & j' & pl & ->)|[(d & -> & Hn & _)|[(j' & ->)|(j' & ->)]]]; try discriminate.
      simpl in Hd. subst d. inversion Hn.
  - intros [(Hk & (j & Ha) & ->)|((i & Hi) & ->)].
    + split; [|reflexivity]. eapply proj1. apply filter_In. rewrite (adoption_sends _ _ _ _ _ _ HR Ha Hk). left. reflexivity.
    + split; [|reflexivity]. destruct (run_split _ _ _ _ _ _ _ HR) as (_ & Hstep).
      destruct (progress_forwarded o cfg i [] (ev_pre e)) as (s' & E & _). rewrite Hi in Hstep. rewrite Hstep in E.
      injection E as -> _. left. reflexivity.
Qed.

End WithConfig.
