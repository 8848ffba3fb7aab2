(* The exact effect of an init message. *)
From Coq Require Import Lia Permutation.
From Verif Require Import Base Bytes Containers Worker Multi Single Queue Handler SpecText Spec SpecRun SpecMsg SpecQueue SpecPings SpecOutcome SpecJoin
  Facts TextFacts QueueInv Atoms Members HandlerSim Provenance HeaderFacts OrderFacts Messages QueueContract QueueOrder WorkConserving Pings Outcome.
Local Open Scope string_scope.
Local Open Scope list_scope.

Lemma fold_last (p : string -> bool) (g : string -> string) fr : forall acc,
  fold_left (fun acc f => if p f then Some (g f) else acc) fr acc =
  match fold_left (fun acc f => if p f then Some (g f) else acc) fr None with Some d => Some d | None => acc end.
Proof.
  induction fr as [|f fr IH]; intros acc; simpl; [reflexivity|]. destruct (p f); [|apply IH].
  rewrite (IH (Some (g f))). destruct (fold_left _ fr None); reflexivity.
Qed.

Lemma extra_description fr : forall desc cur next d cur' next', parse_init_extra fr desc cur next = (d, cur', next') ->
  Some d = fold_left (fun acc f => if String.eqb (fst (split_header f)) "description" then Some (snd (split_header f)) else acc) fr (Some desc).
Proof.
  induction fr as [|f fr IH]; simpl; intros desc cur next d cur' next' H; [injection H as <- _ _; reflexivity|].
  destruct (split_header f) as (k, v) eqn:E. cbn [fst snd]. destruct (String.eqb_spec k "description") as [->|Hd]; [eapply IH; exact H|].
  destruct (String.eqb k "current_job"); eapply IH; exact H.
Qed.

Lemma shown_description w : get_description w = shown w.
Proof. unfold get_description, shown. destruct (String.eqb (w_description w) ""); [rewrite append_nil_r|]; reflexivity. Qed.

Section WithConfig.
Context (o : oracle) (cfg : config).
Local Notation refresh := (refresh cfg).

(* the registering part of process_worker_init *)
Definition register (i hwgroup : string) (headers : mmap string) (rest : list string) (s : state) : M unit :=
  new_worker <- lift (make_worker (s_next_w s) (o_addr o (s_next_w s)) i hwgroup headers) ;;
  modify (set_next_w (S (s_next_w s))) ;;
  let '(desc, cur, next) := parse_init_extra rest "" None (s_next_r s) in
  modify (set_next_r next) ;;
  let new_worker := set_description desc new_worker in
  modify (fun s => set_reg (reg_add new_worker (s_reg s)) s) ;;
  request <- queue_call (q_add_worker o new_worker cur) ;;
  send_if new_worker request ;;
  modify (fun s => set_timers (pm_emplace new_worker 0%Z (s_timers s)) s).

Lemma register_does k tr s i hw frames hdrs headers rest : run o cfg k tr s -> init_block frames hdrs ->
  parse_init_headers frames [] = (headers, rest) -> (forall f v, In f hdrs -> header_frame f "threads" v -> exists n, denotes v n) ->
  exists w x s', worker_for s i ("init" :: hw :: frames) hdrs w /\
    does (register i hw headers rest (refresh i s)) (refresh i s) (map (handover w) (olist x)) tt s' /\
    taken_in cfg i ("init" :: hw :: frames) s s' w x.
Proof.
  intros HR HB Ep HN. destruct (init_block_headers _ _ HB) as (EB & NB). rewrite Ep in EB. cbn [fst] in EB.
  pose proof (run_inv _ _ _ _ _ HR) as HI. pose proof (run_used o cfg k tr s HR) as HU.
  assert (HD : declares headers hdrs).
  { intros h v. rewrite EB, (parse_init_in _ _ _ _ NB). simpl. split; [intros [[]|H]; exact H|auto]. }
  destruct (make_matchers_ok headers (mm_emplace "hwgroup" (MMulti hw) [])) as (ms & Em).
  { intros v Hv. apply HD in Hv. destruct Hv as (f & Hf & Hh). destruct (HN f v Hf Hh) as (n & Hn). exists n. apply stoul_denotes. exact Hn. }
  destruct (make_worker (s_next_w s) (o_addr o (s_next_w s)) i hw headers) as [w0|f0] eqn:Ew;
    [|unfold make_worker in Ew; rewrite Em in Ew; discriminate].
  destruct (make_worker_fields _ _ _ _ _ _ Ew) as (F1 & F2 & F3 & F4 & F5 & F6).
  destruct (parse_init_extra rest "" None (s_next_r s)) as ((desc, cur), next) eqn:Ee.
  pose proof (parse_init_extra_spec _ _ _ _ _ _ _ Ee) as (Hn & Hc & _).
  pose proof (announced_spec _ _ _ _ _ _ _ _ _ Ep Ee) as Hj.
  assert (Hd : desc = match last_extra "description" ("init" :: hw :: frames) with Some d => d | None => "" end).
  { pose proof (extra_description _ _ _ _ _ _ _ Ee) as H. unfold last_extra. cbn [skipn].
    destruct (parse_init_headers_rest _ _ _ _ Ep) as [(Er1 & Er2)|Er1]; rewrite Er1 in H; [rewrite Er2; simpl in H |- *; congruence|].
    cbn [fold_left] in H. rewrite fold_last in H. simpl in H. match goal with |- _ = match ?x with _ => _ end => destruct x end; congruence. }
  set (w := set_description desc w0).
  assert (Hcons : constructed w) by (exists (s_next_w s), (o_addr o (s_next_w s)), i, hw, headers, w0, desc; auto).
  assert (Hnew : forall w', In w' (s_reg s) -> w_id w' <> w_id w).
  { intros w' Hw'. pose proof (inv_w _ _ HI w' Hw'). unfold w. simpl. lia. }
  assert (Hcur : forall r, cur = Some r -> r = incomplete_request (r_id r) (r_job r) /\ s_next_r s <= r_id r < next).
  { intros r Hr. destruct (Hc r Hr) as [?|?]; [discriminate|assumption]. }
  destruct (add_contract o (s_queue s) (s_reg s) w cur HU Hcons Hnew) as (x & m' & Ea & HU' & HA).
  { intros r Hr. destruct (Hcur r Hr) as (-> & _). reflexivity. }
  set (s0 := refresh i s).
  set (s1 := set_reg (reg_add w (s_reg s0)) (set_next_r next (set_next_w (S (s_next_w s)) s0))).
  exists w, x, (set_timers (pm_emplace w 0%Z (s_timers (set_queue m' s1))) (set_queue m' s1)). split; [|split].
  - split; [exact F1|]. split; [exact F3|]. split; [cbn [nth_error]; unfold w; simpl; rewrite F4; reflexivity|]. split; [exact Hcons|]. split; [|exact Hd].
    intros h v. unfold w. cbn [set_description w_headers_copy]. rewrite F5. apply HD.
  - fold s0. unfold register. unfold s0 at 1 2 3 4. rewrite refresh_next_w, refresh_next_r, Ew, Ee.
    eapply does_silent; [reflexivity|]. eapply does_silent; [reflexivity|]. eapply does_silent; [reflexivity|]. cbv zeta. fold w.
    eapply does_silent; [reflexivity|]. cbn [set_next_r set_next_w s_reg]. fold s1. 
    eapply does_silent; [apply does_call; unfold s1, s0; cbn [set_reg set_next_r set_next_w s_queue]; rewrite refresh_queue; exact Ea|].
    rewrite <- (app_nil_r (map _ _)). eapply does_bind; [apply does_send|]. reflexivity.
  - unfold taken_in. cbn [set_timers set_queue s_reg s_fails s_stats s_frozen s_next_w s_next_r s_live s_queue]. unfold s1.
    cbn [set_reg set_next_r set_next_w s_reg s_fails s_stats s_frozen s_next_w s_next_r s_live s_timers]. unfold s0.
    rewrite refresh_reg, refresh_fails, refresh_stats, refresh_frozen.
    split; [reflexivity|]. split; [reflexivity|]. split; [reflexivity|]. split; [reflexivity|]. split; [reflexivity|]. split; [exact Hn|].
    pose proof (run_ping_inv o cfg k tr s HR) as (_ & HP). destruct (HP w) as (HL & HT); [unfold w; simpl; lia|].
    assert (HS : forall w', sender i s = Some w' -> w_id w' <> w_id w).
    { intros w' Hw'. rewrite sender_find in Hw'. apply Hnew. exact (proj1 (find_by_identity_in _ _ _ Hw')). }
    assert (HRp : liveness (refresh i s) w = 0%N /\ ping_timer (refresh i s) w = None).
    { pose proof (refresh_pings cfg i s w HI) as H. destruct (sender i s) as [w'|].
      - destruct (Nat.eqb_spec (w_id w') (w_id w)) as [E|E]; [destruct (HS w' eq_refl E)|]. rewrite (proj1 H), (proj2 H). auto.
      - rewrite (proj1 H), (proj2 H). auto. }
    split; [exists (refresh i s); split; [apply refresh_heard|]; split; [reflexivity|]; intros w' Hw'|].
    { unfold ping_timer. cbn [set_timers set_queue set_reg set_next_r set_next_w s_timers]. rewrite pm_find_emplaced. destruct (pm_find w' (s_timers (refresh i s))); [reflexivity|].
      destruct (Nat.eqb_spec (w_id w) (w_id w')); [congruence|reflexivity]. }
    split; [exact (proj1 HRp)|]. split.
    { unfold ping_timer. cbn [set_timers set_queue set_reg set_next_r set_next_w s_timers]. rewrite pm_find_emplaced. destruct HRp as (_ & HRp). unfold ping_timer in HRp. rewrite HRp, Nat.eqb_refl. reflexivity. }
    change (last_extra "current_job" ("init" :: hw :: frames)) with
      (fold_left (fun acc f => if String.eqb (fst (split_header f)) "current_job" then Some (snd (split_header f)) else acc) (after_empty frames) None).
    rewrite <- Hj. destruct cur as [r|]; simpl option_map; cbv iota.
    + destruct HA as (HA1 & HA2 & HA3). exists r. split; [|auto]. destruct (Hcur r eq_refl) as (Er & Hr).
      split; [reflexivity|]. split; [rewrite Er; reflexivity|]. split; [rewrite Er; reflexivity|]. split; [rewrite Er; reflexivity|].
      cbn [set_timers set_queue set_reg set_next_r s_next_r]. split; [exact Hr|].
      unfold attempts. cbn [set_timers set_queue set_reg set_next_r set_next_w s_fails]. rewrite refresh_fails. apply (inv_f _ _ HI). lia.
    + destruct HA as (HA1 & HA2). split; [exact HA1|]. split; [exact HA2|]. split; [intros ->|].
      * eapply nothing_waits; [exact HU|]. apply as_added with (1 := Hcons) (2 := Hnew) (3 := Ea).
      * eapply asks_in_turn; [exact HU|]. apply as_added with (1 := Hcons) (2 := Hnew) (3 := Ea).
Qed.

Lemma init_steps i hw frames headers rest s outs s' : parse_init_headers frames [] = (headers, rest) ->
  does (match sender i s with
        | Some w => if headers_equal w headers then ret tt else
            notify_error ("Received two different INIT messages from the same worker (" ++ get_description w ++ ")")%string ;;
            register i hw headers rest (refresh i s)
        | None => register i hw headers rest (refresh i s)
        end) (refresh i s) outs tt s' ->
  on_request o cfg (Msg "workers" i ("init" :: hw :: frames)) s = (outs, inr (tt, s')).
Proof.
  intros Ep H. rewrite (worker_message o cfg _ s "init" (hw :: frames)) by reflexivity.
  change (does (process_worker_init o i ("init" :: hw :: frames)) (refresh i s) outs tt s'). unfold process_worker_init.
  cbn [length Nat.ltb Nat.leb skipn]. eapply does_silent; [apply does_at; reflexivity|]. rewrite Ep.
  eapply does_silent; [reflexivity|]. cbv zeta. rewrite refresh_reg, <- sender_find. exact H.
Qed.

Theorem init_new k tr s i hw frames hdrs : run o cfg k tr s -> sender i s = None -> init_block frames hdrs ->
  (forall f v, In f hdrs -> header_frame f "threads" v -> exists n, denotes v n) ->
  exists w x s', worker_for s i ("init" :: hw :: frames) hdrs w /\
    on_request o cfg (Msg "workers" i ("init" :: hw :: frames)) s = (map (handover w) (olist x), inr (tt, s')) /\
    taken_in cfg i ("init" :: hw :: frames) s s' w x.
Proof.
  intros HR HS HB HN. destruct (parse_init_headers frames []) as (headers, rest) eqn:Ep.
  destruct (register_does k tr s i hw frames hdrs headers rest HR HB Ep HN) as (w & x & s' & HW & HD & HT).
  exists w, x, s'. split; [exact HW|]. split; [|exact HT]. apply (init_steps i hw frames headers rest s _ _ Ep). rewrite HS. exact HD.
Qed.

Theorem init_again k tr s i w0 reg hw0 hdrs0 hw frames hdrs : run o cfg k tr s ->
  sender i s = Some w0 -> In reg tr -> joined reg w0 hw0 hdrs0 -> init_block frames hdrs -> ~ same_headers hdrs0 hdrs ->
  (forall f v, In f hdrs -> header_frame f "threads" v -> exists n, denotes v n) ->
  exists w x s', worker_for s i ("init" :: hw :: frames) hdrs w /\
    on_request o cfg (Msg "workers" i ("init" :: hw :: frames)) s = (two_inits w0 :: map (handover w) (olist x), inr (tt, s')) /\
    taken_in cfg i ("init" :: hw :: frames) s s' w x.
Proof.
  intros HR HS Hin HJ HB HE HN. destruct (parse_init_headers frames []) as (headers, rest) eqn:Ep.
  destruct (register_does k tr s i hw frames hdrs headers rest HR HB Ep HN) as (w & x & s' & HW & HD & HT).
  exists w, x, s'. split; [exact HW|]. split; [|exact HT]. apply (init_steps i hw frames headers rest s _ _ Ep). rewrite HS.
  destruct (joined_made o cfg _ _ _ _ _ _ _ HR Hin HJ) as ((_ & HC & _) & _ & N0). destruct (init_block_headers _ _ HB) as (EB & NB).
  assert (headers_equal w0 headers = false) as ->.
  { unfold headers_equal. rewrite Ep in EB. cbn [fst] in EB. rewrite HC, EB. destruct (headers_eqb _ _) eqn:E; [|reflexivity].
    exfalso. apply HE. eapply same_headers_iff; eassumption. }
  change (two_inits w0 :: map (handover w) (olist x)) with ([two_inits w0] ++ map (handover w) (olist x)).
  eapply does_bind; [|exact HD]. unfold two_inits. rewrite <- shown_description. reflexivity.
Qed.
End WithConfig.
