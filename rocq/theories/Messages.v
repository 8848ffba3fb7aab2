(* Effect of single messages (C05-C07, C20-C22, C25-C27). *)
From Coq Require Import Permutation Lia.
From Verif Require Import Base Bytes Containers Worker Multi Single Queue Handler SpecText TextFacts HeaderFacts OrderFacts
  Spec SpecRun SpecMsg Facts QueueInv Atoms HandlerSim Keeps Conserve Provenance OneJob Members.
Local Open Scope string_scope.
Local Open Scope list_scope.

(* ---- the liveness refresh ---- *)

Lemma pm_mem_iff {A} w (m : pmap A) : pm_mem w m = true <-> In (w_id w) (ids (keys m)).
Proof.
  split; [|apply pm_mem_true]. intros H. destruct (in_dec Nat.eq_dec (w_id w) (ids (keys m))) as [|Hn]; [assumption|].
  rewrite (pm_mem_false _ _ Hn) in H. discriminate.
Qed.

Lemma pm_find_set {A} w w' (a : A) m :
  pm_find w' (pm_set w a m) = if Nat.eqb (w_id w) (w_id w') then Some a else pm_find w' m.
Proof.
  destruct (in_dec Nat.eq_dec (w_id w) (ids (keys m))) as [Hin|Hn].
  - unfold pm_set. rewrite (pm_mem_true _ _ Hin). revert Hin. unfold ids, keys.
    induction m as [|(x, b) t IH]; simpl; intros Hin; [destruct Hin|].
    destruct (same_worker x w) eqn:E; simpl.
    + apply same_worker_id in E. unfold same_worker at 1 3. rewrite E.
      destruct (Nat.eqb_spec (w_id w) (w_id w')) as [Ei|Ei]; [reflexivity|].
      clear - Ei. induction t as [|(y, c) t IH]; simpl; [reflexivity|].
      destruct (same_worker y w) eqn:E; simpl; [|rewrite IH; reflexivity].
      apply same_worker_id in E. unfold same_worker. rewrite E, (proj2 (Nat.eqb_neq _ _) Ei). exact IH.
    + apply same_worker_neq in E. destruct Hin as [Hin|Hin]; [congruence|]. rewrite (IH Hin). unfold same_worker.
      destruct (Nat.eqb_spec (w_id x) (w_id w')) as [E1|E1]; [|reflexivity].
      destruct (Nat.eqb_spec (w_id w) (w_id w')); [congruence|reflexivity].
  - rewrite pm_set_new by exact Hn. apply pm_find_insert. exact Hn.
Qed.

Section WithConfig.
Context (o : oracle) (cfg : config).
Local Notation refresh := (refresh cfg).

Lemma refresh_heard i s : heard cfg i s (refresh i s).
Proof.
  unfold heard. split.
  - unfold same_but_pings. rewrite refresh_reg, refresh_queue, refresh_fails, refresh_stats, refresh_frozen, refresh_next_w, refresh_next_r.
    auto 10.
  - intros w. unfold sender. rewrite find_named. unfold HandlerSim.refresh.
    destruct (find_worker_by_identity i (s_reg s)) as [w0|]; [|reflexivity].
    unfold liveness, ping_timer. cbn [s_live s_timers set_timers set_live]. rewrite pm_find_set.
    destruct (Nat.eqb_spec (w_id w0) (w_id w)) as [E|E].
    + rewrite E, tbl_get_set_eq. auto.
    + rewrite tbl_get_set_ne by congruence. auto.
Qed.

Lemma sender_find i s : sender i s = find_worker_by_identity i (s_reg s).
Proof. apply find_named. Qed.
Lemma sender_refresh i j s : sender j (refresh i s) = sender j s.
Proof. unfold sender. rewrite refresh_reg. reflexivity. Qed.

(* the command dispatch *)
Lemma worker_message m s c rest : m_key m = "workers" -> m_data m = c :: rest ->
  on_request o cfg m s = call_function (worker_commands o cfg) c (m_ident m) (c :: rest) (refresh (m_ident m) s).
Proof.
  intros Ek Ed. rewrite on_request_eq. unfold on_request_cases. rewrite Ek, Ed. reflexivity.
Qed.
Lemma client_message m s c rest : m_key m = "clients" -> m_data m = c :: rest ->
  on_request o cfg m s = call_function (client_commands o) c (m_ident m) (c :: rest) s.
Proof.
  intros Ek Ed. rewrite on_request_eq. unfold on_request_cases. rewrite Ek, Ed. reflexivity.
Qed.

(* ---- ping, progress ---- *)

Theorem ping_reply i rest s : exists s',
  on_request o cfg (Msg "workers" i ("ping" :: rest)) s =
    ([Msg "workers" i [match sender i s with Some _ => "pong" | None => "intro" end]], inr (tt, s')) /\
  heard cfg i s s'.
Proof.
  exists (refresh i s). split; [|apply refresh_heard].
  rewrite (worker_message _ s "ping" rest) by reflexivity.
  change (call_function (worker_commands o cfg) "ping") with process_worker_ping.
  unfold process_worker_ping, bind, get. cbn [m_ident app]. rewrite refresh_reg, sender_find.
  destruct (find_worker_by_identity i (s_reg s)); reflexivity.
Qed.

Theorem progress_forwarded i rest s : exists s',
  on_request o cfg (Msg "workers" i ("progress" :: rest)) s =
    ([Msg "monitor" "recodex-monitor" rest], inr (tt, s')) /\
  heard cfg i s s'.
Proof.
  exists (refresh i s). split; [|apply refresh_heard].
  rewrite (worker_message _ s "progress" rest) by reflexivity. reflexivity.
Qed.

(* ---- ignored messages ---- *)

Lemma call_unknown (cmds : list (string * (string -> list string -> M unit))) c i d s :
  ~ In c (map fst cmds) -> call_function cmds c i d s = ([], inr (tt, s)).
Proof.
  intros H. unfold call_function.
  assert (sm_find c cmds = None) as ->; [|reflexivity].
  induction cmds as [|(k, f) t IH]; simpl; [reflexivity|]. simpl in H.
  destruct (String.eqb_spec k c) as [->|]; [tauto|]. apply IH. tauto.
Qed.

Theorem ignored_harmless k tr s m : run o cfg k tr s -> ignored s m ->
  exists s', on_request o cfg m s = ([], inr (tt, s')) /\
    (m_key m = "workers" -> heard cfg (m_ident m) s s') /\ (m_key m <> "workers" -> s' = s).
Proof.
  intros HR HI. pose proof (run_inv _ _ _ _ _ HR) as HV.
  assert (Hw : forall c rest, m_key m = "workers" -> m_data m = c :: rest ->
     call_function (worker_commands o cfg) c (m_ident m) (c :: rest) (refresh (m_ident m) s) =
       ([], inr (tt, refresh (m_ident m) s)) ->
     exists s', on_request o cfg m s = ([], inr (tt, s')) /\
     (m_key m = "workers" -> heard cfg (m_ident m) s s') /\ (m_key m <> "workers" -> s' = s)).
  { intros c rest Ek Ed H. exists (refresh (m_ident m) s). rewrite (worker_message _ _ _ _ Ek Ed). split; [exact H|].
    split; [intros _; apply refresh_heard|contradiction]. }
  assert (Hd : forall w j st rest, m_key m = "workers" -> m_data m = "done" :: j :: st :: rest ->
     sender (m_ident m) s = Some w -> forall x, current_of (s_queue s) w = x ->
     call_function (worker_commands o cfg) "done" (m_ident m) ("done" :: j :: st :: rest) (refresh (m_ident m) s) =
     process_worker_done o cfg (m_ident m) ("done" :: j :: st :: rest) (refresh (m_ident m) s) /\
     find_worker_by_identity (m_ident m) (s_reg (refresh (m_ident m) s)) = Some w /\
     q_get_current w (s_queue (refresh (m_ident m) s)) = Val (x, s_queue (refresh (m_ident m) s))).
  { intros w j st rest Ek Ed Hs x Hx. split; [reflexivity|]. rewrite refresh_reg, refresh_queue, <- sender_find.
    split; [exact Hs|]. rewrite sender_find in Hs. destruct (find_by_identity_in _ _ _ Hs) as (Hin & _).
    rewrite (q_get_current_spec _ _ _ (inv_q _ _ HV) Hin), Hx. reflexivity. }
  destruct HI as [c rest Ek Ed Hn|c rest Ek Ed Hn|Hn|Ek Ed|rest Ek Ed Hs|rest Ek Ed Hl|w r j st rest Ek Ed Hs Hc Hj|
                  w r j st rest Ek Ed Hs Hc Hst|w r j st rest Ek Ed Hs Hc Hst Hl].
  - eapply Hw; [exact Ek|exact Ed|]. apply call_unknown. exact Hn.
  - exists s. rewrite (client_message _ _ _ _ Ek Ed), call_unknown by exact Hn. rewrite Ek. split; [reflexivity|]. split; [discriminate|auto].
  - exists s. simpl in Hn. split; [|split; [intros E; exfalso; apply Hn; auto|auto]].
    rewrite on_request_eq. unfold on_request_cases.
    destruct (String.eqb_spec (m_key m) "workers") as [E|E]; [exfalso; apply Hn; auto|].
    destruct (String.eqb_spec (m_key m) "clients") as [E2|E2]; [exfalso; apply Hn; auto|].
    destruct (String.eqb_spec (m_key m) "timer") as [E3|E3]; [exfalso; apply Hn; auto|]. reflexivity.
  - eapply Hw; [exact Ek|exact Ed|]. reflexivity.
  - eapply Hw; [exact Ek|exact Ed|].
    change (process_worker_done o cfg (m_ident m) ("done" :: rest) (refresh (m_ident m) s) = ([], inr (tt, refresh (m_ident m) s))).
    unfold process_worker_done, bind, get. rewrite refresh_reg, <- sender_find, Hs. reflexivity.
  - eapply Hw; [exact Ek|exact Ed|].
    change (process_worker_done o cfg (m_ident m) ("done" :: rest) (refresh (m_ident m) s) = ([], inr (tt, refresh (m_ident m) s))).
    unfold process_worker_done, bind, get. destruct (find_worker_by_identity _ _); [|reflexivity].
    cbn [length]. rewrite (proj2 (Nat.ltb_lt _ _)) by lia. reflexivity.
  - destruct (Hd w j st rest Ek Ed Hs _ Hc) as (E1 & E2 & E3). eapply Hw; [exact Ek|exact Ed|].
    rewrite E1. unfold process_worker_done, bind at 1, get. rewrite E2. cbn [length Nat.ltb Nat.leb].
    unfold bind, queue_call. rewrite E3, set_queue_id. cbn [at_ nth_error ret app].
    rewrite (proj2 (String.eqb_neq _ _)) by congruence. reflexivity.
  - destruct (Hd w j st rest Ek Ed Hs _ Hc) as (E1 & E2 & E3). eapply Hw; [exact Ek|exact Ed|].
    rewrite E1. unfold process_worker_done, bind at 1, get. rewrite E2. cbn [length Nat.ltb Nat.leb].
    unfold bind, queue_call. rewrite E3, set_queue_id. cbn [at_ nth_error ret app].
    simpl in Hst.
    destruct (String.eqb j (r_job r)); [|reflexivity]. cbn [negb].
    destruct (String.eqb_spec st "OK"); [exfalso; apply Hst; auto|].
    destruct (String.eqb_spec st "INTERNAL_ERROR"); [exfalso; apply Hst; auto|].
    destruct (String.eqb_spec st "FAILED"); [exfalso; apply Hst; auto|].
    rewrite E3, set_queue_id. reflexivity.
  - destruct (Hd w j st rest Ek Ed Hs _ Hc) as (E1 & E2 & E3). eapply Hw; [exact Ek|exact Ed|].
    rewrite E1. unfold process_worker_done, bind at 1, get. rewrite E2. cbn [length Nat.ltb Nat.leb].
    unfold bind, queue_call. rewrite E3, set_queue_id. cbn [at_ nth_error ret app].
    destruct (String.eqb j (r_job r)); [|reflexivity]. cbn [negb].
    destruct Hst as [<-|[<-|[]]]; cbn [String.eqb Ascii.eqb Bool.eqb];
      rewrite (proj2 (Nat.eqb_neq _ _)) by lia; reflexivity.
Qed.

(* ---- submissions ---- *)

Lemma init_block_fun frames h1 h2 : init_block frames h1 -> init_block frames h2 -> h1 = h2.
Proof.
  intros [(r1 & B1)|(E1 & N1)] [(r2 & B2)|(E2 & N2)].
  - destruct (header_block_fun _ _ _ _ _ B1 B2). assumption.
  - destruct B1 as (B1 & _). exfalso. apply N2. rewrite <- E2, B1. apply in_elt.
  - destruct B2 as (B2 & _). exfalso. apply N1. rewrite <- E1, B2. apply in_elt.
  - congruence.
Qed.

Lemma init_block_headers frames hdrs : init_block frames hdrs ->
  fst (parse_init_headers frames []) = fst (parse_init_headers hdrs []) /\ ~ In "" hdrs.
Proof.
  intros [(rest & B)|(-> & N)]; [|auto]. rewrite (parse_init_block _ _ _ _ B). split; [reflexivity|apply B].
Qed.

(* what the registration says about a worker *)
Lemma joined_made k tr s e w hw hdrs : run o cfg k tr s -> In e tr -> joined e w hw hdrs ->
  made w hw (fst (parse_init_headers hdrs [])) /\ declares (fst (parse_init_headers hdrs [])) hdrs /\ ~ In "" hdrs.
Proof.
  intros HR Hin (Ek & Ei & (frames & Ed & HB) & Er). apply in_split in Hin. destruct Hin as (tr1 & tr2 & ->).
  destruct (run_split _ _ _ _ _ _ _ HR) as (HP & Hstep). pose proof (run_inv _ _ _ _ _ HP) as HI.
  destruct (init_block_headers _ _ HB) as (EB & NB).
  assert (HD : declares (fst (parse_init_headers hdrs [])) hdrs).
  { intros k' v. rewrite (parse_init_in hdrs [] k' v NB). simpl. tauto. }
  split; [|split; assumption].
  rewrite (worker_message _ _ _ _ Ek Ed) in Hstep.
  change (process_worker_init o (m_ident (ev_in e)) ("init" :: hw :: frames) (refresh (m_ident (ev_in e)) (ev_pre e)) =
          (ev_out e, inr (tt, ev_post e))) in Hstep.
  assert (HI1 : inv (refresh (m_ident (ev_in e)) (ev_pre e)) []).
  { eapply (atom_inv o cfg); [exact HI|apply a_tau; apply refresh_core]. }
  destruct (init_sim _ cfg _ _ _ _ _ HI1 Hstep) as (ls & A & _ & [(_ & Es)|(pre & w' & cur & x & next & -> & Hq & Hr & _)]).
  - exfalso. rewrite Es, refresh_reg in Er. apply (f_equal (@length _)) in Er. rewrite app_length in Er. simpl in Er. lia.
  - destruct (register_grows _ _ _ _ _ _ _ _ HI1 Hq A) as (Eg & _). rewrite refresh_reg, Er in Eg.
    apply app_inj_tail in Eg. destruct Eg as (_ & <-).
    destruct Hr as [hwgroup headers rest w0 desc Hh Hp Hm _ Hw _]. simpl in Hh, Hp. injection Hh as <-.
    apply make_worker_made in Hm. rewrite Hp in EB. simpl in EB. subst headers w. destruct Hm as (M1 & M2 & M3).
    split; [exact M1|]. split; [exact M2|exact M3].
Qed.

Lemma capable_offers k tr s w reg hw hdrs reqs need : run o cfg k tr s -> In reg tr -> joined reg w hw hdrs ->
  (forall h v, In (h, v) reqs <-> requires need h v) ->
  (check_headers w reqs = Val true <-> forall h v, requires need h v -> offers hw hdrs h v).
Proof.
  intros HR Hin HJ HQ. destruct (joined_made _ _ _ _ _ _ _ HR Hin HJ) as (HM & HD & _).
  eapply check_headers_offers; eassumption.
Qed.

Lemma servable_iff k tr s reqs need : run o cfg k tr s -> (forall h v, In (h, v) reqs <-> requires need h v) ->
  (servable tr s need <-> exists w, In w (s_reg s) /\ check_headers w reqs = Val true).
Proof.
  intros HR HQ. split.
  - intros (w & reg & hw & hdrs & Hw & Hin & HJ & Ho). exists w. split; [exact Hw|].
    eapply capable_offers; eassumption.
  - intros (w & Hw & Hc). destruct (run_carried _ _ _ _ _ HR) as (Cw & _).
    destruct (Cw w Hw) as (reg & hw & hdrs & Hin & HJ & _). exists w, reg, hw, hdrs.
    split; [exact Hw|]. split; [exact Hin|]. split; [exact HJ|]. eapply capable_offers; eassumption.
Qed.

Lemma eval_cases s i job frames need payload outs s' : inv s [] -> header_block frames need payload ->
  on_request o cfg (Msg "clients" i ("eval" :: job :: frames)) s = (outs, inr (tt, s')) ->
  exists reqs, (forall h v, In (h, v) reqs <-> requires need h v) /\
  ((s_frozen s = true /\ s' = s /\ outs = [Msg "clients" i ["ack"]; Msg "clients" i ["reject"; "The broker is frozen."]]) \/
   (s_frozen s = false /\ (exists w, In w (s_reg s) /\ check_headers w reqs = Val true) /\
    exists mid, outs = Msg "clients" i ["ack"] :: mid ++ [Msg "clients" i ["accept"]] /\
      (mid = [] \/ exists w, In w (s_reg s) /\ mid = [Msg "workers" (w_identity w) ("eval" :: job :: payload)])) \/
   (s_frozen s = false /\ (forall w, In w (s_reg s) -> check_headers w reqs = Val false) /\
    same_jobs s s' /\
    exists t, outs = [Msg "clients" i ["ack"];
                      Msg "clients" i ["reject"; ("No worker available for given headers: " ++ t)%string];
                      Msg "monitor" "recodex-monitor" [job; "FAILED"]])).
Proof.
  intros HI HB H. rewrite (client_message _ _ "eval" (job :: frames)) in H by reflexivity.
  change (process_client_eval o i ("eval" :: job :: frames) s = (outs, inr (tt, s'))) in H.
  unfold process_client_eval in H. minv1 H. minv1 Hm. minv1 Hk. minv1 Hm. simpl in Ea. injection Ea as <-.
  minv1 Hk0. minv1 Hm. simpl skipn in El. rewrite (parse_eval_block _ _ _ _ _ HB) in El.
  destruct (store need [] []) as (reqs, md) eqn:Es. injection El as <-.
  exists reqs. split.
  { intros h v. pose proof (store_headers_in need [] [] h v) as HS. rewrite Es in HS. simpl in HS. tauto. }
  minv1 Hk. minv1 Hm. destruct (s_frozen s) eqn:Ef.
  { left. minv. auto. }
  right. minv1 Hk0. minv1 Hm. minv1 Hk. minv1 Hm. simpl s_queue in Eq.
  destruct x as [x b]. set (r := complete_request _ _ _ _ _) in *.
  pose proof (q_enqueue_spec o _ _ r _ _ (inv_q _ _ HI) eq_refl Eq) as (_ & HE).
  cbn [enqueued assigned_to] in Hk0. destruct b.
  - left. split; [reflexivity|]. destruct x as [w|]; unfold send_request in Hk0; minv.
    + destruct HE as (Hin & _ & Hc & _). split; [exists w; split; [exact Hin|exact Hc]|].
      eexists [_]. split; [reflexivity|]. right. exists w. split; [exact Hin|reflexivity].
    + destruct HE as (Hc & _). split; [exact Hc|]. exists []. split; [reflexivity|auto].
  - right. split; [reflexivity|]. destruct x as [w|]; [destruct HE|]. destruct HE as (-> & HE).
    split; [exact HE|]. unfold notify_monitor in Hk0. minv. split; [repeat split|].
    assert (HT : forall acc, exists t, reject_text acc reqs = (acc ++ t)%string).
    { clear. induction reqs as [|(k, v) t IH]; intros acc; cbn [reject_text].
      - exists "". rewrite append_nil_r. reflexivity.
      - destruct (IH (acc ++ k ++ "=" ++ v ++ "; ")%string) as (u & ->). rewrite append_assoc_s. eexists. reflexivity. }
    destruct (HT "No worker available for given headers: ") as (t & Et). exists t. rewrite Et. reflexivity.
Qed.

Theorem eval_protocol k tr1 e tr2 s i job frames need payload : run o cfg k (tr1 ++ e :: tr2) s ->
  ev_in e = Msg "clients" i ("eval" :: job :: frames) -> header_block frames need payload ->
  exists reply, filter (fun m => String.eqb (m_key m) "clients") (ev_out e) =
                  [Msg "clients" i ["ack"]; Msg "clients" i reply] /\
                (reply = ["accept"] \/ exists t, reply = ["reject"; t]).
Proof.
  intros HR Ein HB. destruct (run_split _ _ _ _ _ _ _ HR) as (HP & Hstep). rewrite Ein in Hstep.
  destruct (eval_cases _ _ _ _ _ _ _ _ (run_inv _ _ _ _ _ HP) HB Hstep) as
    (reqs & _ & [(_ & _ & ->)|[(_ & _ & mid & -> & [->|(w & _ & ->)])|(_ & _ & _ & t & ->)]]); simpl; eauto.
Qed.

Theorem eval_truncated i job frames s : frames <> [] -> ~ In "" frames ->
  on_request o cfg (Msg "clients" i ("eval" :: job :: frames)) s = ([Msg "clients" i ["ack"]], inr (tt, s)).
Proof.
  intros Hne Hn. rewrite (client_message _ _ "eval" (job :: frames)) by reflexivity.
  change (process_client_eval o i ("eval" :: job :: frames) s = ([Msg "clients" i ["ack"]], inr (tt, s))).
  unfold process_client_eval, bind, respond, at_. cbn [nth_error skipn]. unfold ret.
  rewrite (parse_eval_no_block _ _ _ Hne Hn). reflexivity.
Qed.

Theorem accept_iff_servable k tr1 e tr2 s i job frames need payload : run o cfg k (tr1 ++ e :: tr2) s ->
  ev_in e = Msg "clients" i ("eval" :: job :: frames) -> header_block frames need payload ->
  s_frozen (ev_pre e) = false ->
  (In (Msg "clients" i ["accept"]) (ev_out e) <-> servable tr1 (ev_pre e) need) /\
  (~ servable tr1 (ev_pre e) need ->
   (exists t, ev_out e = [Msg "clients" i ["ack"]; Msg "clients" i ["reject"; t]; Msg "monitor" "recodex-monitor" [job; "FAILED"]]) /\
   same_jobs (ev_pre e) (ev_post e)).
Proof.
  intros HR Ein HB Hf. destruct (run_split _ _ _ _ _ _ _ HR) as (HP & Hstep). rewrite Ein in Hstep.
  destruct (eval_cases _ _ _ _ _ _ _ _ (run_inv _ _ _ _ _ HP) HB Hstep) as
    (reqs & HQ & [(Hf' & _)|[(_ & Hc & mid & Eo & _)|(_ & Hno & HJ & t & Eo)]]); [congruence| |];
    pose proof (servable_iff _ _ _ _ _ HP HQ) as HS.
  - split; [|tauto]. rewrite Eo. split; [intros _; apply HS; exact Hc|]. intros _. right. apply in_app_iff. simpl. auto.
  - assert (Hns : ~ servable tr1 (ev_pre e) need).
    { rewrite HS. intros (w & Hw & Hc). rewrite (Hno w Hw) in Hc. discriminate. }
    split; [|intros _; split; [rewrite Eo; eauto|exact HJ]].
    split; [|tauto]. rewrite Eo. intros [E|[E|[E|[]]]]; discriminate.
Qed.

Theorem frozen_rejects i job frames need payload s : s_frozen s = true -> header_block frames need payload ->
  on_request o cfg (Msg "clients" i ("eval" :: job :: frames)) s =
    ([Msg "clients" i ["ack"]; Msg "clients" i ["reject"; "The broker is frozen."]], inr (tt, s)).
Proof.
  intros Hf HB. rewrite (client_message _ _ "eval" (job :: frames)) by reflexivity.
  change (process_client_eval o i ("eval" :: job :: frames) s =
    ([Msg "clients" i ["ack"]; Msg "clients" i ["reject"; "The broker is frozen."]], inr (tt, s))).
  unfold process_client_eval, bind, respond, at_. cbn [nth_error skipn]. unfold ret.
  rewrite (parse_eval_block _ _ _ _ _ HB). destruct (store need [] []) as (reqs, md). unfold lift, ret, get. rewrite Hf. reflexivity.
Qed.

(* ---- freezing ---- *)

Lemma is_command_eq c w m : is_command c w m = true <-> m_key m = c /\ exists rest, m_data m = w :: rest.
Proof.
  unfold is_command. rewrite andb_true_iff, String.eqb_eq, starts_with_iff. reflexivity.
Qed.

Lemma step_frozen m s outs s' : on_request o cfg m s = (outs, inr (tt, s')) ->
  s_frozen s' = if is_command "clients" "freeze" m then true
                else if is_command "clients" "unfreeze" m then false else s_frozen s.
Proof.
  intros H. rewrite on_request_eq in H. unfold on_request_cases in H. unfold is_command.
  destruct (String.eqb_spec (m_key m) "workers") as [Ek|Ek].
  - rewrite Ek. change (String.eqb "workers" "clients") with false. cbn [andb].
    destruct (m_data m) as [|c rest]; [discriminate|].
    unfold call_function, worker_commands in H. cbn [sm_find] in H. rewrite <- (refresh_frozen cfg (m_ident m) s).
    destruct (String.eqb "init" c); [exact (init_frozen _ _ _ _ _ _ _ H)|].
    destruct (String.eqb "done" c); [exact (done_frozen _ _ _ _ _ _ _ _ H)|].
    destruct (String.eqb "ping" c).
    { unfold process_worker_ping in H. minv1 H. minv1 Hm. destruct (find_worker_by_identity _ _); minv; reflexivity. }
    destruct (String.eqb "progress" c); [unfold process_worker_progress in H|]; minv; reflexivity.
  - destruct (String.eqb_spec (m_key m) "clients") as [Ek2|Ek2]; cbn [andb].
    + destruct (m_data m) as [|c rest]; [discriminate|].
      unfold call_function, client_commands in H. cbn [sm_find] in H.
      destruct (String.eqb_spec "eval" c) as [<-|N1]; [exact (eval_frozen _ _ _ _ _ _ _ H)|].
      destruct (String.eqb_spec "get-runtime-stats" c) as [<-|N2].
      { unfold process_client_get_runtime_stats in H. minv. reflexivity. }
      destruct (String.eqb_spec "freeze" c) as [<-|N3].
      { unfold process_client_freeze in H. minv. reflexivity. }
      destruct (String.eqb_spec "unfreeze" c) as [<-|N4].
      { unfold process_client_unfreeze in H. minv. reflexivity. }
      minv. unfold starts_with, list_string_eqb. cbn [length firstn combine forallb fst snd Nat.eqb andb].
      rewrite !(proj2 (String.eqb_neq c _)) by congruence. reflexivity.
    + destruct (String.eqb (m_key m) "timer"); [exact (process_timer_frozen _ _ _ _ _ _ _ H)|]. minv. reflexivity.
Qed.

Lemma frozen_snoc tr e : frozen_after (tr ++ [e]) =
  if is_command "clients" "freeze" (ev_in e) then true
  else if is_command "clients" "unfreeze" (ev_in e) then false else frozen_after tr.
Proof. unfold frozen_after. rewrite fold_left_app. reflexivity. Qed.

Theorem frozen_history k tr s : run o cfg k tr s -> s_frozen s = frozen_after tr.
Proof.
  induction 1 as [|tr s m outs s' HR IH Hs]; [reflexivity|].
  rewrite frozen_snoc. simpl ev_in. rewrite (step_frozen _ _ _ _ Hs), IH. reflexivity.
Qed.

Theorem frozen_iff k tr1 e tr2 s i job frames need payload : run o cfg k (tr1 ++ e :: tr2) s ->
  ev_in e = Msg "clients" i ("eval" :: job :: frames) -> header_block frames need payload ->
  (In (Msg "clients" i ["reject"; "The broker is frozen."]) (ev_out e) <-> frozen_after tr1 = true).
Proof.
  intros HR Ein HB. destruct (run_split _ _ _ _ _ _ _ HR) as (HP & Hstep). rewrite Ein in Hstep.
  rewrite <- (frozen_history _ _ _ HP).
  destruct (eval_cases _ _ _ _ _ _ _ _ (run_inv _ _ _ _ _ HP) HB Hstep) as
    (reqs & _ & [(-> & _ & ->)|[(-> & _ & mid & -> & [->|(w & _ & ->)])|(-> & _ & _ & t & ->)]]); simpl;
    (split; [|try discriminate; auto]); intros H; repeat (destruct H as [H|H]; try discriminate); auto; contradiction.
Qed.

(* ---- repeated registrations ---- *)

Lemma same_headers_iff h1 h2 : ~ In "" h1 -> ~ In "" h2 ->
  (headers_eqb (fst (parse_init_headers h2 [])) (fst (parse_init_headers h1 [])) = true <-> same_headers h1 h2).
Proof.
  intros N1 N2. rewrite headers_eqb_eq, (init_eq_iff _ _ N2 N1). unfold same_headers.
  split; intros H k vs; specialize (H k vs); tauto.
Qed.

Theorem reinit_same k tr s i w reg hw0 hdrs0 hw frames hdrs : run o cfg k tr s ->
  sender i s = Some w -> In reg tr -> joined reg w hw0 hdrs0 ->
  init_block frames hdrs -> same_headers hdrs0 hdrs ->
  exists s', on_request o cfg (Msg "workers" i ("init" :: hw :: frames)) s = ([], inr (tt, s')) /\ heard cfg i s s'.
Proof.
  intros HR Hs Hin HJ HB HE. destruct (joined_made _ _ _ _ _ _ _ HR Hin HJ) as ((_ & HC & _) & _ & N0).
  destruct (init_block_headers _ _ HB) as (EB & NB).
  exists (refresh i s). split; [|apply refresh_heard].
  rewrite (worker_message _ _ "init" (hw :: frames)) by reflexivity.
  change (process_worker_init o i ("init" :: hw :: frames) (refresh i s) = ([], inr (tt, refresh i s))).
  unfold process_worker_init. cbn [length Nat.ltb Nat.leb skipn]. unfold bind, at_. cbn [nth_error]. unfold ret at 1.
  destruct (parse_init_headers frames []) as (hs, rest) eqn:Ep. unfold get. rewrite refresh_reg, <- sender_find, Hs.
  unfold headers_equal. rewrite HC. simpl in EB. rewrite EB.
  rewrite (proj2 (same_headers_iff _ _ N0 NB) HE). reflexivity.
Qed.

Lemma find_app {A} (p : A -> bool) l1 l2 x : find p l1 = Some x -> find p (l1 ++ l2) = Some x.
Proof. induction l1 as [|a l1 IH]; simpl; [discriminate|]. destruct (p a); auto. Qed.

Theorem reinit_changed k tr s i w reg hw0 hdrs0 hw frames hdrs outs s' : run o cfg k tr s ->
  sender i s = Some w -> In reg tr -> joined reg w hw0 hdrs0 ->
  init_block frames hdrs -> ~ same_headers hdrs0 hdrs ->
  let m := Msg "workers" i ("init" :: hw :: frames) in
  on_request o cfg m s = (outs, inr (tt, s')) ->
  (exists text rest, outs = Msg "status_notifier" "" ["type"; "error"; "message"; text] :: rest) /\
  (exists w2, joined (mkEvent s m outs s') w2 hw hdrs /\ w2 <> w) /\
  sender i s' = Some w.
Proof.
  intros HR Hs Hin HJ HB HE m Hstep. destruct (joined_made _ _ _ _ _ _ _ HR Hin HJ) as ((_ & HC & _) & _ & N0).
  destruct (init_block_headers _ _ HB) as (EB & NB). pose proof (run_inv _ _ _ _ _ HR) as HI.
  assert (HI1 : inv (refresh i s) []).
  { eapply (atom_inv o cfg); [exact HI|apply a_tau; apply refresh_core]. }
  pose proof Hstep as H. unfold m in H. rewrite (worker_message _ _ "init" (hw :: frames)) in H by reflexivity.
  change (process_worker_init o i ("init" :: hw :: frames) (refresh i s) = (outs, inr (tt, s'))) in H.
  assert (Hneq : headers_eqb (fst (parse_init_headers frames [])) (w_headers_copy w) = false).
  { rewrite HC, EB. destruct (headers_eqb _ _) eqn:E; [|reflexivity]. exfalso. apply HE. eapply same_headers_iff; eassumption. }
  assert (Hfind : find_worker_by_identity i (s_reg (refresh i s)) = Some w).
  { rewrite refresh_reg, <- sender_find. exact Hs. }
  assert (HO : exists text rest, outs = Msg "status_notifier" "" ["type"; "error"; "message"; text] :: rest).
  { clear - H Hfind Hneq. unfold process_worker_init in H. cbn [length Nat.ltb Nat.leb skipn] in H. minv1 H. minv1 Hm. simpl in Ea. injection Ea as <-.
    destruct (parse_init_headers frames []) as (hs, rest) eqn:Ep. minv1 Hk. minv1 Hm. rewrite Hfind in Hk0.
    unfold headers_equal in Hk0. simpl in Hneq. rewrite Hneq in Hk0. unfold notify_error in Hk0.
    apply bind_inv in Hk0. destruct Hk0 as (o1 & a & s1 & o9 & Hm1 & _ & Eo). minv1 Hm1. simpl. eauto. }
  split; [exact HO|].
  destruct (init_sim _ cfg _ _ _ _ _ HI1 H) as (ls & A & EO & [(E0 & Es)|(pre & w2 & cur & x & next & -> & Hq & Hr & _)]).
  { exfalso. subst ls. destruct HO as (t & r & HO). rewrite HO in EO. discriminate. }
  destruct (register_grows _ _ _ _ _ _ _ _ HI1 Hq A) as (Eg & Ew). rewrite refresh_reg in Eg. rewrite refresh_next_w in Ew.
  pose proof Hs as Hs'. rewrite sender_find in Hs'. destruct (find_by_identity_in _ _ _ Hs') as (Hwin & Hwi).
  split.
  - exists w2. split.
    + destruct Hr as [hwgroup headers rest w0 desc _ _ Hm _ Hw _]. apply make_worker_fields in Hm.
      destruct Hm as (_ & _ & Hid & _). split; [reflexivity|]. split; [subst w2; symmetry; exact Hid|].
      split; [exists frames; auto|exact Eg].
    + intros ->. pose proof (inv_w _ _ HI w Hwin). lia.
  - unfold sender. rewrite Eg. apply find_app. exact Hs.
Qed.

(* ---- the older of two workers with one identity gets all messages ---- *)

Lemma find_remove (p : worker -> bool) w w' ws : NoDup (ids ws) -> In w' ws -> find p ws = Some w ->
  find p (reg_remove w' ws) = Some w \/ w = w'.
Proof.
  intros HN Hin Hf. induction ws as [|a ws IH]; [discriminate|].
  simpl in HN. inversion HN as [|? ? Hni HN']; subst. simpl in *.
  destruct (same_worker a w') eqn:E.
  - assert (a = w').
    { apply same_worker_id in E. destruct Hin as [<-|Hin]; [reflexivity|]. exfalso. apply Hni. rewrite E. apply in_ids. exact Hin. }
    subst a. destruct (p w'); [injection Hf as <-; auto|]. auto.
  - simpl. destruct (p a); [auto|]. apply IH; auto.
    destruct Hin as [->|Hin]; [|exact Hin]. rewrite same_worker_refl in E. discriminate.
Qed.

Lemma atom_sender i s h l s' h' w : inv s h -> atom o cfg s h l s' h' -> sender i s = Some w ->
  sender i s' = Some w \/ gone w s'.
Proof.
  intros HI Ha Hs. pose proof Hs as Hs2. rewrite sender_find in Hs2. destruct (find_by_identity_in _ _ _ Hs2) as (Hin & _).
  destruct Ha; unfold sender in *; simpl; auto.
  - left. unfold core in H. injection H as <- _ _ _ _. exact Hs.
  - left. injection H4 as -> _ _ _ _. apply find_app. exact Hs.
  - left. destruct H3 as [->| ->]; exact Hs.
  - destruct (find_remove (named i) w w0 (s_reg s) (qi_nodup _ _ (inv_q _ _ HI)) H Hs) as [Hf|Heq].
    + left. destruct (current_of (s_queue s) w0); exact Hf.
    + right. subst w0. pose proof (inv_w _ _ HI w Hin) as Hlt.
      assert (G : ~ In (w_id w) (map w_id (reg_remove w (s_reg s)))).
      { intros Hc. apply in_map_iff in Hc. destruct Hc as (w' & E & Hc).
        apply (reg_remove_in w w' _ (qi_nodup _ _ (inv_q _ _ HI)) Hin) in Hc. destruct Hc as (Hc & Hne). apply Hne.
        eapply ids_inj; eauto using (qi_nodup _ _ (inv_q _ _ HI)). }
      destruct (current_of (s_queue s) w); split; simpl; assumption.
Qed.

Lemma gone_atoms s h ls s' h' w : atoms o cfg s h ls s' h' -> gone w s -> gone w s'.
Proof.
  intros A (G1 & G2). destruct (atoms_next _ _ _ _ _ _ _ A) as (I1 & I2). split; [lia|]. intros Hc. apply in_map_iff in Hc.
  destruct Hc as (w' & E & Hw'). destruct (I2 w' Hw') as [Hi|?]; [|lia]. apply G2. rewrite <- E. apply in_map. exact Hi.
Qed.

Lemma atoms_sender i s h ls s' h' w : atoms o cfg s h ls s' h' -> inv s h -> sender i s = Some w ->
  sender i s' = Some w \/ gone w s'.
Proof.
  induction 1 as [|s h l s1 h1 ls s2 h2 Ha Has IH]; intros HI Hs; [auto|].
  pose proof (atom_inv _ _ _ _ _ _ _ HI Ha) as HI1.
  destruct (atom_sender _ _ _ _ _ _ _ HI Ha Hs) as [Hs1|G]; [auto|]. right. eapply gone_atoms; eassumption.
Qed.

Lemma step_sender i m s outs s' w : inv s [] -> on_request o cfg m s = (outs, inr (tt, s')) -> sender i s = Some w ->
  sender i s' = Some w \/ gone w s'.
Proof.
  intros HI Hstep Hs. destruct (on_request_sim _ _ _ _ _ _ HI Hstep) as (ls & A & _). eapply atoms_sender; eassumption.
Qed.

Lemma sender_later k i w tr2 : forall tr1 e s, run o cfg k (tr1 ++ e :: tr2) s -> sender i (ev_post e) = Some w \/ gone w (ev_post e) ->
  forall e', In e' tr2 -> sender i (ev_pre e') = Some w \/ gone w (ev_pre e').
Proof.
  induction tr2 as [|e2 tr2 IH]; intros tr1 e s HR HG e' Hin; [destruct Hin|].
  pose proof (run_adjacent _ _ _ _ _ _ _ _ HR) as Epre.
  assert (HR2 : run o cfg k ((tr1 ++ [e]) ++ e2 :: tr2) s) by (rewrite <- app_assoc; exact HR).
  destruct (run_split _ _ _ _ _ _ _ HR2) as (HP & Hstep). pose proof (run_inv _ _ _ _ _ HP) as HI.
  assert (G2 : sender i (ev_pre e2) = Some w \/ gone w (ev_pre e2)) by (rewrite Epre; exact HG).
  assert (G3 : sender i (ev_post e2) = Some w \/ gone w (ev_post e2)).
  { destruct G2 as [G2|G2]; [eapply step_sender; eassumption|right; eapply gone_step; eassumption]. }
  destruct Hin as [<-|Hin]; [exact G2|]. eapply IH; eauto.
Qed.

(* current jobs change only by reports of the worker itself, or when it is removed *)
Lemma atom_current s h l s' h' w r : inv s h -> atom o cfg s h l s' h' -> In w (s_reg s) -> current_of (s_queue s) w = Some r ->
  match l with LDone w' _ _ | LCancel w' _ | LExpire w' _ => w' <> w | _ => True end ->
  In w (s_reg s') /\ current_of (s_queue s') w = Some r.
Proof.
  intros HI Ha Hin Hc Hl. pose proof (inv_q _ _ HI) as HQ.
  assert (Hid : forall w', In w' (s_reg s) -> w' <> w -> w_id w' <> w_id w).
  { intros w' Hw' Hne E. apply Hne. eapply ids_inj; eauto using (qi_nodup _ _ HQ). }
  assert (Hupd : forall w' x f, In w' (s_reg s) -> w' <> w -> upd f w' x w = f w).
  { intros w' x f Hw' Hne. unfold upd. destruct (Nat.eqb_spec (w_id w') (w_id w)); [|reflexivity]. exfalso. eapply Hid; eauto. }
  destruct Ha; simpl; auto.
  - unfold core in H. injection H as <- <- _ _ _. auto.
  - injection H4 as -> -> _ _ _. split; [apply in_or_app; auto|].
    assert (Hnew : ~ In (w_id w0) (ids (s_reg s))).
    { intros Hx. apply in_ids_inv in Hx. destruct Hx as (w' & Hw' & E). pose proof (inv_w _ _ HI w' Hw'). lia. }
    assert (Hne : w_id w0 <> w_id w) by (intros E; apply Hnew; rewrite E; apply in_ids; exact Hin).
    assert (HP : add_post (s_queue s) (s_reg s) w0 cur x m').
    { eapply q_add_spec; eauto. intros r0 E. apply (H2 r0 E). }
    destruct HP as (_ & HP). assert (Hu : exists y, current_of m' w = upd (current_of (s_queue s)) w0 y w).
    { destruct cur; destruct HP as (HP & _); eexists; apply HP. }
    destruct Hu as (y & ->). unfold upd. rewrite (proj2 (Nat.eqb_neq _ _) Hne). exact Hc.
  - destruct (q_cancelled_spec _ _ _ HQ H) as (m1 & E1 & _ & _ & HU). rewrite E1 in H2. injection H2 as _ <-.
    assert (Hq : s_queue s' = m1 /\ s_reg s' = s_reg s) by (destruct H3 as [->| ->]; auto). destruct Hq as (-> & ->).
    split; [exact Hin|]. rewrite HU, Hupd; auto.
  - destruct (q_cancelled_spec _ _ _ HQ H) as (m1 & E1 & _ & _ & HU). rewrite E1 in H1. injection H1 as _ <-.
    split; [exact Hin|]. rewrite HU, Hupd; auto.
  - destruct (q_assign_spec _ _ _ _ _ _ HQ H H0 H1) as (_ & HU & _). split; [exact Hin|]. rewrite HU, Hupd; auto. congruence.
  - destruct (q_enqueue_spec _ _ _ _ _ _ HQ H H1) as (_ & HP). split; [exact Hin|]. destruct x as [w'|].
    + destruct HP as (Hw' & Hn & _ & HU & _). rewrite HU, Hupd; auto. congruence.
    + destruct HP as (_ & HU & _). rewrite HU. exact Hc.
  - destruct (q_terminated_spec _ _ _ _ _ HQ H H0) as (gone' & _ & _ & HU & _).
    assert (HH : In w (reg_remove w0 (s_reg s)) /\ current_of m' w = Some r).
    { split; [apply reg_remove_in; auto; apply (qi_nodup _ _ HQ)|]. rewrite HU; auto using not_eq_sym. }
    destruct (current_of (s_queue s) w0); exact HH.
Qed.

Lemma atoms_current ls : forall s h s' h' w r, inv s h -> atoms o cfg s h ls s' h' -> In w (s_reg s) -> current_of (s_queue s) w = Some r ->
  (forall l, In l ls -> match l with LDone w' _ _ | LCancel w' _ | LExpire w' _ => w' <> w | _ => True end) ->
  In w (s_reg s') /\ current_of (s_queue s') w = Some r.
Proof.
  induction ls as [|l ls IH]; intros s h s' h' w r HI A Hin Hc Hl.
  - apply atoms_nil_inv in A. destruct A as (-> & _). auto.
  - apply atoms_cons_inv in A. destruct A as (s1 & h1 & Ha & A). pose proof (atom_inv _ _ _ _ _ _ _ HI Ha) as HI1.
    destruct (atom_current _ _ _ _ _ _ _ HI Ha Hin Hc (Hl l (or_introl eq_refl))) as (Hin1 & Hc1).
    apply (IH _ _ _ _ _ _ HI1 A Hin1 Hc1). intros l' Hl'. apply Hl. simpl. auto.
Qed.

Lemma pm_find_emplace {A} (w w' : worker) (a : A) m : w_id w <> w_id w' -> pm_find w' (pm_emplace w a m) = pm_find w' m.
Proof.
  intros H. destruct (in_dec Nat.eq_dec (w_id w) (ids (keys m))) as [Hin|Hn].
  - unfold pm_emplace. rewrite (pm_mem_true _ _ Hin). reflexivity.
  - rewrite pm_emplace_new by exact Hn. rewrite pm_find_insert by exact Hn. rewrite (proj2 (Nat.eqb_neq _ _) H). reflexivity.
Qed.

Lemma init_timers i d s outs s' : process_worker_init o i d s = (outs, inr (tt, s')) ->
  s_timers s' = s_timers s \/ exists w0, w_id w0 = s_next_w s /\ s_timers s' = pm_emplace w0 0%Z (s_timers s).
Proof.
  intros H. unfold process_worker_init in H. destruct (Nat.ltb (length d) 2); [minv; auto|].
  minv1 H. minv1 Hm. destruct (parse_init_headers (skipn 2 d) []) as (hs, rest). minv1 Hk. minv1 Hm.
  set (register := bind _ _) in Hk0.
  assert (HREG : forall outs s', register s = (outs, inr (tt, s')) ->
     exists w0, w_id w0 = s_next_w s /\ s_timers s' = pm_emplace w0 0%Z (s_timers s)).
  { clear. intros outs s' H. unfold register in H. minv1 H. minv1 Hm. minv1 Hk. minv1 Hm.
    destruct (parse_init_extra rest "" None (s_next_r s)) as ((desc, cur), next). minv1 Hk0. minv1 Hm. minv1 Hk. minv1 Hm. minv1 Hk0. minv1 Hm.
    minv1 Hk. apply send_if_inv in Hm. destruct Hm as (-> & _). minv. simpl.
    match type of El with _ = Val ?y => exists (set_description desc y) end. split; [|reflexivity]. simpl. apply make_worker_fields in El. apply El. }
  destruct (find_worker_by_identity i (s_reg s)) as [w|]; [|right; eapply HREG; exact Hk0].
  destruct (headers_equal w hs); [minv; auto|]. right. unfold notify_error in Hk0.
  apply bind_inv in Hk0. destruct Hk0 as (o8 & a & s1 & o9 & Hm1 & Hk1 & _). minv1 Hm1. eapply HREG. exact Hk1.
Qed.

Lemma atoms_stays w s h ls s' h' : atoms o cfg s h ls s' h' -> inv s h ->
  (forall l, In l ls -> match l with LDone w' _ _ | LCancel w' _ | LExpire w' _ => w' <> w | _ => True end) ->
  In w (s_reg s) -> In w (s_reg s').
Proof.
  induction 1 as [|s h l s1 h1 ls s2 h2 Ha Has IH]; intros HI HL Hin; [exact Hin|].
  apply IH; [eapply atom_inv; eassumption|intros l' Hl'; apply HL; simpl; auto|].
  specialize (HL l (or_introl eq_refl)). destruct Ha; simpl in *; auto.
  - unfold core in H. injection H as <- _ _ _ _. exact Hin.
  - injection H4 as -> _ _ _ _. apply in_or_app. auto.
  - destruct H3 as [->| ->]; exact Hin.
  - assert (In w (reg_remove w0 (s_reg s))) by (apply reg_remove_in; auto; apply (qi_nodup _ _ (inv_q _ _ HI))).
    destruct (current_of (s_queue s) w0); assumption.
Qed.

(* what a worker message does to registered workers other than its sender *)
Lemma others_untouched m s outs s' w : inv s [] -> m_key m = "workers" -> on_request o cfg m s = (outs, inr (tt, s')) ->
  In w (s_reg s) -> sender (m_ident m) s <> Some w ->
  In w (s_reg s') /\ liveness s' w = liveness s w /\ ping_timer s' w = ping_timer s w /\
  (forall r, current_of (s_queue s) w = Some r -> current_of (s_queue s') w = Some r).
Proof.
  intros HI Ek Hstep Hin Hns.
  assert (Hsid : forall w0, sender (m_ident m) s = Some w0 -> In w0 (s_reg s) /\ w0 <> w /\ w_id w0 <> w_id w).
  { intros w0 E. assert (Hw0 := E). rewrite sender_find in Hw0. destruct (find_by_identity_in _ _ _ Hw0) as (Hi & _).
    assert (w0 <> w) by congruence. split; [exact Hi|]. split; [assumption|]. intros Eid. apply H.
    eapply ids_inj; eauto using (qi_nodup _ _ (inv_q _ _ HI)). }
  assert (HREF : liveness (refresh (m_ident m) s) w = liveness s w /\ ping_timer (refresh (m_ident m) s) w = ping_timer s w).
  { destruct (refresh_heard (m_ident m) s) as (_ & HH). specialize (HH w).
    destruct (sender (m_ident m) s) as [w0|]; [|rewrite HH; auto].
    destruct (Hsid w0 eq_refl) as (_ & _ & Hne). rewrite (proj2 (Nat.eqb_neq _ _) Hne) in HH. exact HH. }
  assert (HP : liveness s' w = liveness s w /\ ping_timer s' w = ping_timer s w).
  { rewrite <- (proj1 HREF), <- (proj2 HREF). pose proof Hstep as H. rewrite on_request_eq in H. unfold on_request_cases in H.
    rewrite Ek in H. change (String.eqb "workers" "workers") with true in H. cbv iota in H.
    destruct (m_data m) as [|c rest]; [discriminate|].
    unfold call_function, worker_commands in H. cbn [sm_find] in H. unfold liveness, ping_timer.
    destruct (String.eqb "init" c).
    { split; [rewrite (init_live _ _ _ _ _ _ _ H); reflexivity|].
      destruct (init_timers _ _ _ _ _ H) as [->|(w0 & E & ->)]; [reflexivity|]. apply pm_find_emplace.
      rewrite refresh_next_w in E. pose proof (inv_w _ _ HI w Hin). lia. }
    destruct (String.eqb "done" c).
    { pose proof (done_pings _ _ _ _ _ _ _ _ H) as E. unfold pings in E. injection E as -> ->. auto. }
    destruct (String.eqb "ping" c).
    { unfold process_worker_ping in H. minv1 H. minv1 Hm. destruct (find_worker_by_identity _ _); minv; auto. }
    destruct (String.eqb "progress" c); [unfold process_worker_progress in H|]; minv; auto. }
  destruct (on_request_sim _ _ _ _ _ _ HI Hstep) as (ls & A & _ & Sh).
  assert (HL : forall l, In l ls -> match l with LDone w' _ _ | LCancel w' _ | LExpire w' _ => w' <> w | _ => True end).
  { assert (Hquiet : forall ls, Forall quiet ls -> forall l, In l ls ->
      match l with LDone w' _ _ | LCancel w' _ | LExpire w' _ => w' <> w | _ => True end).
    { intros ls0 Hq l Hl. rewrite Forall_forall in Hq. specialize (Hq l Hl). destruct l; simpl in *; tauto. }
    destruct Sh as [ls Hq _|ls Hk _|ls rest Hk _ He|pre w0 cur x next rest _ _ Hq _|ls rest _ _ Hd]; try congruence.
    - apply Hquiet. exact Hq.
    - intros l Hl. apply in_app_iff in Hl. destruct Hl as [Hl|[<-|[]]]; [|exact I]. eapply Hquiet; eassumption.
    - intros l [<-|Hl]; [exact I|]. destruct Hd as [|w0 r m0 x st Hf _ _ _ _|w0 r ls Hf _ _ _ _ He].
      + destruct Hl.
      + rewrite refresh_reg, <- sender_find in Hf. apply Hsid in Hf. destruct Hl as [<-|[<-|[<-|[]]]]; try exact I. apply Hf.
      + rewrite refresh_reg, <- sender_find in Hf. apply Hsid in Hf. destruct Hl as [<-|Hl]; [apply Hf|].
        destruct He; simpl in Hl; repeat (destruct Hl as [<-|Hl]; [exact I|]); destruct Hl. }
  split; [|split; [|split]].
  - eapply atoms_stays; eassumption.
  - apply HP.
  - apply HP.
  - intros r Hr. eapply atoms_current; eassumption.
Qed.

Theorem shadowed k tr1 e tr2 s i w w2 : run o cfg k (tr1 ++ e :: tr2) s ->
  sender i (ev_post e) = Some w -> w2 <> w ->
  forall e', In e' tr2 -> m_key (ev_in e') = "workers" -> m_ident (ev_in e') = i ->
  In w (s_reg (ev_pre e')) -> In w2 (s_reg (ev_pre e')) ->
  sender i (ev_pre e') = Some w /\
  In w2 (s_reg (ev_post e')) /\ liveness (ev_post e') w2 = liveness (ev_pre e') w2 /\
  ping_timer (ev_post e') w2 = ping_timer (ev_pre e') w2 /\
  forall r, current_of (s_queue (ev_pre e')) w2 = Some r -> current_of (s_queue (ev_post e')) w2 = Some r.
Proof.
  intros HR Hs Hne e' Hin Ek Ei Hw Hw2.
  destruct (sender_later _ _ _ _ _ _ _ HR (or_introl Hs) _ Hin) as [Hs'|(_ & G)].
  2:{ exfalso. apply G. apply in_map. exact Hw. }
  split; [exact Hs'|]. apply in_split in Hin. destruct Hin as (l1 & l2 & ->).
  assert (HR' : run o cfg k ((tr1 ++ e :: l1) ++ e' :: l2) s) by (rewrite <- app_assoc; exact HR).
  destruct (run_split _ _ _ _ _ _ _ HR') as (HP & Hstep).
  apply (others_untouched (ev_in e') _ (ev_out e')); auto.
  - exact (run_inv _ _ _ _ _ HP).
  - rewrite Ei. congruence.
Qed.

End WithConfig.
