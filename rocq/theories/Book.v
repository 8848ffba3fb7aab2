(* The broker's front side is the guest book of SpecBook (C69). *)
From Coq Require Import Permutation Lia.
From Verif Require Import Base Bytes Containers Worker Multi Single Queue Handler SpecText Spec SpecRun SpecMsg SpecQueue SpecPings SpecOutcome SpecJoin SpecTick SpecFront SpecBook
  Facts TextFacts QueueInv Atoms HandlerSim Keeps Conserve Provenance Members HeaderFacts OrderFacts Messages Pings Blind Outcome Joining Front.
Local Open Scope string_scope.
Local Open Scope list_scope.

Lemma Forall2_impl {A B} (P Q : A -> B -> Prop) l l' : (forall a b, P a b -> Q a b) -> Forall2 P l l' -> Forall2 Q l l'.
Proof. intros H. induction 1; constructor; auto. Qed.

(* ---- the book alone ---- *)
Lemma enumerates_fun need t1 t2 : enumerates need t1 -> enumerates need t2 -> t1 = t2.
Proof.
  intros (l1 & -> & S1 & H1) (l2 & -> & S2 & H2).
  assert (l1 = l2) as ->; [|reflexivity].
  apply ordered_ext; [exact S1|exact S2|]. intros k. specialize (H1 k). specialize (H2 k). unfold mm_equal_range.
  destruct (is_meta k) eqn:Em.
  - assert (HM : exists m, meta_name k m) by (apply is_meta_spec; exact Em).
    assert (HN : forall l : list (string * string), ~ In k (map fst l) -> filter (fun p => String.eqb (fst p) k) l = []).
    { intros l. induction l as [|p l IH]; simpl; intros Hn; [reflexivity|]. destruct (String.eqb_spec (fst p) k); [tauto|apply IH; tauto]. }
    rewrite (HN l1), (HN l2); [reflexivity|apply H2; exact HM|apply H1; exact HM].
  - assert (HM : forall m, ~ meta_name k m) by (apply is_meta_false; exact Em).
    exact (values_fun _ _ _ _ (proj2 H1 HM) (proj2 H2 HM)).
Qed.

Lemma serve_fun cfg b m a1 b1 : serve cfg b m a1 b1 -> forall a2 b2, serve cfg b m a2 b2 -> a1 = a2 /\ b1 = b2.
Proof.
  assert (HBN : forall frames need payload, header_block frames need payload -> ~ In "" frames -> False).
  { intros frames need payload (-> & _) Hn. apply Hn. apply in_or_app. simpl. auto. }
  Ltac out_in := match goal with
    | H : ~ In _ _ |- _ => exfalso; apply H; simpl; tauto
    | H : ~ In _ _ \/ _ |- _ => exfalso; destruct H as [H|(H & H')]; [apply H; simpl; tauto|discriminate]
    end.
  destruct 1; intros a2 b2 H2; inversion H2; subst; try (split; reflexivity); try out_in; try (exfalso; eauto; fail).
  all: try (match goal with A : init_block ?f _, B : init_block ?f _ |- _ => rewrite (init_block_fun _ _ _ A B) in * end).
  all: try (exfalso; match goal with H : forall g, guest_of _ _ = Some g -> ~ _ |- _ => eapply H; eassumption end).
  all: try (split; reflexivity).
  all: try (match goal with A : header_block ?f _ _, B : header_block ?f _ _ |- _ => destruct (header_block_fun _ _ _ _ _ A B) as (-> & ->) end).
  all: try (exfalso; match goal with H : forall g, In g _ -> ~ _ |- _ => eapply H; eassumption end).
  - match goal with A : enumerates _ _, B : enumerates _ _ |- _ => rewrite (enumerates_fun _ _ _ A B) end. auto.
  - match goal with A : reads _ _, B : reads _ _ |- _ => rewrite (reads_fun _ _ _ A B) end. auto.
Qed.

Lemma served_fun cfg ms as1 b1 : served cfg ms as1 b1 -> forall as2 b2, served cfg ms as2 b2 -> as1 = as2 /\ b1 = b2.
Proof.
  induction 1 as [|ms ass b m a b' _ IH HS]; intros as2 b2 H2; inversion H2 as [E1 E2 E3|ms2 ass2 c m2 a2 c' H2' HS2 E1 E2 E3]; subst.
  - auto.
  - destruct ms2; discriminate.
  - destruct ms; discriminate.
  - apply app_inj_tail in E1. destruct E1 as (-> & ->). destruct (IH _ _ H2') as (-> & ->).
    destruct (serve_fun _ _ _ _ _ HS _ _ HS2) as (-> & ->). auto.
Qed.

(* ---- the book and the registry ---- *)
Record rel (s : state) (g : guest) (w : worker) : Prop := {
  rl_name : w_identity w = g_name g;
  rl_made : made w (g_group g) (fst (parse_init_headers (g_frames g) []));
  rl_block : ~ In "" (g_frames g);
  rl_note : w_description w = g_note g;
  rl_live : liveness s w = g_chances g;
  rl_timer : ping_timer s w = Some (g_waited g) }.

Lemma rel_pings s s' g w : liveness s' w = liveness s w -> ping_timer s' w = ping_timer s w -> rel s g w -> rel s' g w.
Proof. intros E1 E2 [H1 H2 H3 H4 H5 H6]. constructor; congruence. Qed.
Lemma rels_face s s' gs ws : s_live s' = s_live s -> s_timers s' = s_timers s -> Forall2 (rel s) gs ws -> Forall2 (rel s') gs ws.
Proof. intros E1 E2. apply Forall2_impl. intros g w. apply rel_pings; unfold liveness, ping_timer; congruence. Qed.

Lemma rel_find s i gs ws : Forall2 (rel s) gs ws ->
  match guest_of i gs, find_worker_by_identity i ws with
  | Some g, Some w => rel s g w /\ In g gs | None, None => True | _, _ => False end.
Proof.
  induction 1 as [|g w gs ws Hr _ IH]; [exact I|]. unfold guest_of in *. cbn [find find_worker_by_identity].
  rewrite (rl_name _ _ _ Hr). destruct (String.eqb (g_name g) i); [split; [exact Hr|left; reflexivity]|].
  destruct (find _ gs); destruct (find_worker_by_identity i ws); try contradiction; [|exact I]. split; [apply IH|right; apply IH].
Qed.

Lemma rel_hear n i s s' gs ws : NoDup (ids ws) -> Forall2 (rel s) gs ws ->
  (forall w, In w ws -> match find_worker_by_identity i ws with
     | Some w0 => if Nat.eqb (w_id w0) (w_id w) then liveness s' w = n /\ ping_timer s' w = Some 0%Z
                  else liveness s' w = liveness s w /\ ping_timer s' w = ping_timer s w
     | None => liveness s' w = liveness s w /\ ping_timer s' w = ping_timer s w
     end) -> Forall2 (rel s') (hear n i gs) ws.
Proof.
  intros Hnd H. induction H as [|g w gs ws Hr HF IH]; intros HP; [constructor|].
  inversion Hnd as [|? ? Hni Hnd']; subst. cbn [find_worker_by_identity] in HP. cbn [hear]. rewrite (rl_name _ _ _ Hr) in HP.
  assert (Hne : forall u, In u ws -> w_id w <> w_id u) by (intros u Hu E; apply Hni; rewrite E; apply in_map; exact Hu).
  destruct (String.eqb (g_name g) i).
  - constructor.
    + specialize (HP w (or_introl eq_refl)). rewrite Nat.eqb_refl in HP. destruct Hr. constructor; cbn [renew g_name g_group g_frames g_note g_chances g_waited]; tauto.
    + assert (HQ : forall u, In u ws -> liveness s' u = liveness s u /\ ping_timer s' u = ping_timer s u).
      { intros u Hu. specialize (HP u (or_intror Hu)). rewrite (proj2 (Nat.eqb_neq _ _) (Hne u Hu)) in HP. exact HP. }
      clear - HF HQ. induction HF as [|g' w' gs ws Hr HF IH]; constructor.
      * destruct (HQ w' (or_introl eq_refl)). eapply rel_pings; eassumption.
      * apply IH. intros u Hu. apply HQ. right. exact Hu.
  - constructor.
    + specialize (HP w (or_introl eq_refl)).
      assert (HQ : liveness s' w = liveness s w /\ ping_timer s' w = ping_timer s w).
      { destruct (find_worker_by_identity i ws) as [w0|] eqn:Ef; [|exact HP].
        destruct (Nat.eqb_spec (w_id w0) (w_id w)) as [E|]; [|exact HP]. apply find_by_identity_in in Ef. destruct (Hne w0 (proj1 Ef)). congruence. }
      eapply rel_pings; [apply HQ|apply HQ|exact Hr].
    + apply IH; [exact Hnd'|]. intros u Hu. apply HP. right. exact Hu.
Qed.

Lemma provides_serves s g w need h : rel s g w -> (forall k v, In (k, v) h <-> requires need k v) ->
  (check_headers w h = Val true <-> provides g need).
Proof.
  intros [H1 H2 H3 H4 H5 H6] HQ. eapply check_headers_offers; [exact H2| |exact HQ].
  intros k v. rewrite (parse_init_in _ _ _ _ H3). simpl. tauto.
Qed.

(* ---- ticks ---- *)
Lemma removes_filter rm : forall ws, NoDup (ids ws) -> exists p, fold_left (fun l w => reg_remove w l) rm ws = filter p ws.
Proof.
  assert (H1 : forall w ws, NoDup (ids ws) -> reg_remove w ws = filter (fun u => negb (same_worker w u)) ws).
  { intros w ws. induction ws as [|u ws IH]; intros Hnd; [reflexivity|]. inversion Hnd as [|? ? Hni Hnd']; subst.
    cbn [reg_remove filter]. unfold same_worker. rewrite (Nat.eqb_sym (w_id w)). destruct (Nat.eqb_spec (w_id u) (w_id w)) as [E|E]; cbn [negb].
    - symmetry. clear - Hni E. induction ws as [|v ws IH]; [reflexivity|]. cbn [filter]. cbn [ids map] in Hni.
      destruct (Nat.eqb_spec (w_id w) (w_id v)) as [E'|E']; [exfalso; apply Hni; left; congruence|]. cbn [negb].
      rewrite IH; [reflexivity|]. intros Hc. apply Hni. right. exact Hc.
    - rewrite (IH Hnd'). reflexivity. }
  assert (H2 : forall (p q : worker -> bool) ws, filter q (filter p ws) = filter (fun u => p u && q u) ws).
  { intros p q ws. induction ws as [|u ws IH]; [reflexivity|]. cbn [filter]. destruct (p u); cbn [filter andb]; [destruct (q u)|]; rewrite IH; reflexivity. }
  induction rm as [|w rm IH]; intros ws Hnd; cbn [fold_left].
  - exists (fun _ => true). induction ws as [|u ws IH]; [reflexivity|]. cbn [filter]. inversion Hnd; subst. rewrite <- IH by assumption. reflexivity.
  - destruct (IH (reg_remove w ws) (reg_remove_ids _ _ Hnd)) as (p & ->). rewrite (H1 w ws Hnd), H2. eauto.
Qed.

Lemma one_less_pred n : one_less n = size_pred n.
Proof. reflexivity. Qed.

Lemma rel_tick cfg z s s' p gs ws : Forall2 (rel s) gs ws ->
  (forall w, In w ws -> scanned cfg z s s' w (p w = false)) -> Forall2 (rel s') (flat_map (pause cfg z) gs) (filter p ws).
Proof.
  induction 1 as [|g w gs ws Hr _ IH]; intros HS; [constructor|]. cbn [flat_map filter].
  specialize (IH (fun u Hu => HS u (or_intror Hu))). specialize (HS w (or_introl eq_refl)).
  destruct Hr as [H1 H2 H3 H4 H5 H6]. unfold scanned, old_timer in HS. unfold ping_timer in H6. rewrite H6, H5 in HS.
  unfold pause. rewrite one_less_pred. destruct HS as (_ & HS).
  destruct (Z.ltb (c_ping_interval cfg) (g_waited g + z)).
  - destruct HS as (E1 & E2 & E3). rewrite E1 in E3. destruct (N.eqb_spec (size_pred (g_chances g)) 0) as [E|E].
    + rewrite (proj2 E3 E). exact IH.
    + destruct (p w); [|destruct (E (proj1 E3 eq_refl))]. constructor; [|exact IH].
      constructor; cbn [renew g_name g_group g_frames g_note g_chances g_waited]; assumption.
  - destruct HS as (E1 & E2 & E3). destruct (p w); [|destruct (E3 eq_refl)]. constructor; [|exact IH].
    constructor; cbn [g_name g_group g_frames g_note g_chances g_waited]; assumption.
Qed.

Section WithConfig.
Context (o : oracle) (cfg : config).

Lemma timer_rel m s outs s' gs : inv s [] -> Forall2 (rel s) gs (s_reg s) -> process_timer o cfg m s = (outs, inr (tt, s')) ->
  exists t rest z, m_data m = t :: rest /\ reads t z /\ Forall2 (rel s') (flat_map (pause cfg z) gs) (s_reg s').
Proof.
  intros HI HF H. destruct (process_timer_effect _ _ _ _ _ _ HI H) as (t & rest & z & Ed & Ez & HT & _ & _ & _).
  exists t, rest, z. split; [exact Ed|]. split; [apply reads_stoll; exact Ez|].
  destruct (timer_face _ _ _ _ _ _ H) as (t' & rest' & z' & o1 & rm & s1 & _ & _ & _ & ER & _).
  pose proof (qi_nodup _ _ (inv_q _ _ HI)) as Hnd.
  destruct (removes_filter rm (s_reg s) Hnd) as (p & Ep). rewrite Ep in ER. rewrite ER. apply (rel_tick cfg z s s' p); [exact HF|].
  intros w Hw. specialize (HT w Hw). unfold scanned in *. destruct HT as (A & B). split; [exact A|].
  assert (HP : ~ In w (s_reg s') <-> p w = false).
  { rewrite ER, filter_In. destruct (p w); [|split; [reflexivity|intros _ (_ & E); discriminate]]. split; [tauto|discriminate]. }
  destruct (Z.ltb _ _); rewrite <- HP; exact B.
Qed.

(* ---- registrations ---- *)
Lemma init_built i hw frames s outs s' : process_worker_init o i ("init" :: hw :: frames) s = (outs, inr (tt, s')) ->
  match find_worker_by_identity i (s_reg s) with Some c => headers_equal c (fst (parse_init_headers frames [])) | None => false end = false ->
  exists w, make_worker (s_next_w s) (o_addr o (s_next_w s)) i hw (fst (parse_init_headers frames [])) = Val w.
Proof.
  intros H HN. unfold process_worker_init in H. cbn [length Nat.ltb Nat.leb skipn] in H.
  minv1 H. minv1 Hm. cbn [nth_error] in Ea. injection Ea as <-. destruct (parse_init_headers frames []) as (h, rest). cbn [fst] in *.
  minv1 Hk. minv1 Hm. set (register := bind _ _) in Hk0.
  assert (HR : forall oo se, register s = (oo, inr (tt, se)) -> exists w, make_worker (s_next_w s) (o_addr o (s_next_w s)) i hw h = Val w).
  { clear. intros oo se HH. unfold register in HH. minv1 HH. minv1 Hm. eauto. }
  destruct (find_worker_by_identity i (s_reg s)) as [c|].
  - rewrite HN in Hk0. unfold notify_error in Hk0. apply bind_inv in Hk0. destruct Hk0 as (o8 & a & s1 & o9 & Hm1 & Hk1 & _). minv1 Hm1. exact (HR _ _ Hk1).
  - exact (HR _ _ Hk0).
Qed.

Lemma init_block_ex frames : exists hdrs, init_block frames hdrs.
Proof. destruct (block_dec frames) as [(hdrs & rest & HB)|HN]; [exists hdrs; left; eauto|exists frames; right; auto]. Qed.

Lemma note_of hw frames rest h : parse_init_headers frames [] = (h, rest) ->
  fst (fst (parse_init_extra rest "" None 0)) = match last_extra "description" ("init" :: hw :: frames) with Some d => d | None => "" end.
Proof.
  intros Ep. destruct (parse_init_extra rest "" None 0) as ((desc, cur), next) eqn:Ee. cbn [fst].
  pose proof (extra_description _ _ _ _ _ _ _ Ee) as H. unfold last_extra. cbn [skipn].
  destruct (parse_init_headers_rest _ _ _ _ Ep) as [(Er1 & Er2)|Er1]; rewrite Er1 in H; [rewrite Er2; simpl in H |- *; congruence|].
  cbn [fold_left] in H. rewrite fold_last in H. simpl in H. match goal with |- _ = match ?x with _ => _ end => destruct x end; congruence.
Qed.

Lemma step_book m s outs s' gs : inv s [] -> ping_inv s -> Forall2 (rel s) gs (s_reg s) ->
  on_request o cfg m s = (outs, inr (tt, s')) ->
  exists b, serve cfg (Book gs (s_frozen s)) m (answers (mkEvent s m outs s')) b /\ b_frozen b = s_frozen s' /\
    Forall2 (rel s') (b_guests b) (s_reg s').
Proof.
  intros HI (_ & HP2) HF H. rewrite on_request_eq in H. unfold on_request_cases in *. unfold answers, is_command. cbn [ev_in ev_out].
  assert (NC : forall (c : M unit) u x outs y, utters not_client c -> c u = (outs, inr (x, y)) -> filter to_clients outs = []).
  { intros c u x outs0 y HU E. apply filter_none. specialize (HU u). rewrite E in HU. exact HU. }
  assert (HB : forall c l a, starts_with [c] (a :: l) = String.eqb a c && true) by (intros; reflexivity).
  destruct m as (key, i, data). cbn [m_key m_ident m_data] in *.
  destruct (String.eqb_spec key "workers") as [->|Ek].
  { cbn [String.eqb Ascii.eqb Bool.eqb andb].
    set (s0 := refresh cfg i s) in *.
    assert (HH : Forall2 (rel s0) (hear (c_max_liveness cfg) i gs) (s_reg s0)).
    { unfold s0. rewrite refresh_reg. apply (rel_hear _ _ s); [exact (qi_nodup _ _ (inv_q _ _ HI))|exact HF|].
      intros w _. rewrite <- sender_find. exact (refresh_pings cfg i s w HI). }
    assert (EF : s_frozen s0 = s_frozen s) by apply refresh_frozen.
    pose proof (rel_find s i gs (s_reg s) HF) as HFd.
    assert (Er : s_reg s0 = s_reg s) by apply refresh_reg.
    assert (En : s_next_w s0 = s_next_w s) by apply refresh_next_w.
    destruct data as [|c rest]; [discriminate|]. unfold call_function, worker_commands in H. cbn [sm_find] in H. rewrite !HB.
    destruct (String.eqb_spec "init" c) as [<-|N1].
    { cbn [String.eqb Ascii.eqb Bool.eqb andb orb]. rewrite (NC _ _ _ _ _ (mute_init o _ _) H).
      destruct (init_face _ _ _ _ _ _ H) as (L1 & F1 & E1). unfold newcomer in E1.
      destruct rest as [|hw frames].
      { cbn [length Nat.ltb Nat.leb] in E1. destruct E1 as (A1 & A2 & A3). eexists. split; [apply sv_worker; right; auto|].
        cbn [b_frozen b_guests]. split; [congruence|]. rewrite A1. eapply rels_face; [exact L1|exact A2|exact HH]. }
      cbn [length Nat.ltb Nat.leb nth_error skipn] in E1. pose proof (init_built _ _ _ _ _ _ H) as HBu.
      destruct (init_block_ex frames) as (hdrs & HBl). destruct (init_block_headers _ _ HBl) as (EB & NB).
      destruct (parse_init_headers frames []) as (h, rest') eqn:Ep. cbn [fst] in *. rewrite Er in *.
      destruct (match find_worker_by_identity i (s_reg s) with Some c => headers_equal c h | None => false end) eqn:Eq.
      - destruct (find_worker_by_identity i (s_reg s)) as [w|]; [|discriminate]. destruct (guest_of i gs) as [g|] eqn:Eg; [|contradiction].
        destruct HFd as (Hr & _). destruct E1 as (A1 & A2 & A3).
        exists (Book (hear (c_max_liveness cfg) i gs) (s_frozen s)). cbn [b_frozen b_guests]. split.
        + eapply sv_again; [exact HBl|exact Eg|]. apply same_headers_iff; [apply Hr|exact NB|].
          unfold headers_equal in Eq. rewrite (proj1 (proj2 (rl_made _ _ _ Hr))), EB in Eq. exact Eq.
        + split; [congruence|]. rewrite A1. eapply rels_face; [exact L1|exact A2|exact HH].
      - destruct (HBu eq_refl) as (w & Ew). rewrite Ew in E1. set (w' := set_description _ w) in E1. destruct E1 as (A1 & A2 & A3).
        destruct (make_worker_fields _ _ _ _ _ _ Ew) as (W1 & W2 & W3 & W4 & W5 & W6).
        assert (Hid : w_id w' = s_next_w s) by (cbn; rewrite W1; exact En).
        assert (HRp : liveness s0 w' = 0%N /\ ping_timer s0 w' = None).
        { destruct (HP2 w') as (P1 & P2); [lia|]. pose proof (refresh_pings cfg i s w' HI) as HR. fold s0 in HR.
          destruct (sender i s) as [w0|] eqn:Es; [|rewrite (proj1 HR), (proj2 HR); auto].
          rewrite sender_find in Es. apply find_by_identity_in in Es. pose proof (inv_w _ _ HI w0 (proj1 Es)).
          destruct (Nat.eqb_spec (w_id w0) (w_id w')); [lia|]. rewrite (proj1 HR), (proj2 HR); auto. }
        assert (HT : forall u, w_id u <> w_id w' -> ping_timer s' u = ping_timer s0 u).
        { intros u Hu. unfold ping_timer. rewrite A2, pm_find_emplaced. destruct (pm_find u (s_timers s0)); [reflexivity|].
          destruct (Nat.eqb_spec (w_id w') (w_id u)); [congruence|reflexivity]. }
        exists (Book (hear (c_max_liveness cfg) i gs ++ [Guest i hw hdrs (match last_extra "description" ("init" :: hw :: frames) with Some d => d | None => "" end) 0 0]) (s_frozen s)).
        cbn [b_frozen b_guests]. split; [|split; [congruence|]].
        + apply sv_new; [exact HBl|]. intros g Eg Hs. rewrite Eg in HFd. destruct (find_worker_by_identity i (s_reg s)) as [w0|]; [|contradiction].
          destruct HFd as (Hr & _). apply (same_headers_iff _ _ (rl_block _ _ _ Hr) NB) in Hs.
          unfold headers_equal in Eq. rewrite (proj1 (proj2 (rl_made _ _ _ Hr))), EB in Eq. congruence.
        + rewrite A1. apply Forall2_app.
          * assert (HL : forall u, In u (s_reg s) -> w_id u <> w_id w') by (intros u Hu; pose proof (inv_w _ _ HI u Hu); lia).
            clear - HH HL HT L1. revert HL. induction HH as [|g u gs' ws Hr _ IH]; intros HL; constructor.
            -- eapply rel_pings; [unfold liveness; rewrite L1; reflexivity|apply HT, HL; left; reflexivity|exact Hr].
            -- apply IH. intros v Hv. apply HL. right. exact Hv.
          * constructor; [|constructor]. pose proof (make_worker_made _ _ _ _ _ _ Ew) as (M1 & M2 & M3).
            constructor; cbn [g_name g_group g_frames g_note g_chances g_waited].
            -- exact W3.
            -- rewrite <- EB. split; [exact M1|]. split; [exact M2|exact M3].
            -- exact NB.
            -- exact (note_of hw frames rest' h Ep).
            -- unfold liveness in *. rewrite L1. apply HRp.
            -- destruct HRp as (_ & HRp). unfold ping_timer in *. rewrite A2, pm_find_emplaced, HRp, Nat.eqb_refl. reflexivity. }
    assert (HK : forall so, face so = face s0 -> s_frozen so = s_frozen s /\ Forall2 (rel so) (hear (c_max_liveness cfg) i gs) (s_reg so)).
    { intros so Ef. unfold face in Ef. injection Ef as X1 X2 X3 X4 X5. split; [congruence|]. rewrite X1. eapply rels_face; [exact X2|exact X3|exact HH]. }
    destruct (String.eqb_spec "done" c) as [<-|N2].
    { cbn [String.eqb Ascii.eqb Bool.eqb andb orb]. rewrite (NC _ _ _ _ _ (mute_done o cfg _ _) H).
      destruct (HK s' (done_face _ _ _ _ _ _ _ _ H)) as (K1 & K2). exists (Book (hear (c_max_liveness cfg) i gs) (s_frozen s)).
      split; [apply sv_worker; left; simpl; intuition discriminate|]. cbn [b_frozen b_guests]. auto. }
    destruct (String.eqb_spec "ping" c) as [<-|N3].
    { cbn [String.eqb Ascii.eqb Bool.eqb andb orb]. unfold process_worker_ping in H. minv1 H. minv1 Hm. rewrite Er in Hk.
      exists (Book (hear (c_max_liveness cfg) i gs) (s_frozen s)). cbn [b_frozen b_guests].
      destruct (find_worker_by_identity i (s_reg s)) eqn:Efw; destruct (guest_of i gs) eqn:Eg; try contradiction; minv;
        (split; [|split; [symmetry; exact EF|exact HH]]).
      - pose proof (sv_ping cfg gs (s_frozen s) i rest) as V. rewrite Eg in V. exact V.
      - pose proof (sv_ping cfg gs (s_frozen s) i rest) as V. rewrite Eg in V. exact V. }
    destruct (String.eqb_spec "progress" c) as [<-|N4].
    { cbn [String.eqb Ascii.eqb Bool.eqb andb orb]. unfold process_worker_progress in H. minv1 H.
      exists (Book (hear (c_max_liveness cfg) i gs) (s_frozen s)). cbn [b_frozen b_guests].
      split; [exact (sv_progress cfg gs (s_frozen s) i rest)|]. split; [symmetry; exact EF|exact HH]. }
    minv1 H. exists (Book (hear (c_max_liveness cfg) i gs) (s_frozen s)). cbn [b_frozen b_guests].
    split; [|split; [symmetry; exact EF|exact HH]].
    assert (HS : serve cfg (Book gs (s_frozen s)) (Msg "workers" i (c :: rest)) [] (Book (hear (c_max_liveness cfg) i gs) (s_frozen s))).
    { apply sv_worker. left. simpl. intuition congruence. }
    destruct (_ || _); exact HS. }
  destruct (String.eqb_spec key "clients") as [->|Ec].
  { cbn [String.eqb Ascii.eqb Bool.eqb andb orb]. destruct data as [|c rest]; [discriminate|]. unfold call_function, client_commands in H. cbn [sm_find] in H. rewrite !HB.
    assert (HK : forall so, face so = face s -> s_frozen so = s_frozen s /\ Forall2 (rel so) gs (s_reg so)).
    { intros so Ef. unfold face in Ef. injection Ef as X1 X2 X3 X4 X5. split; [congruence|]. rewrite X1. eapply rels_face; [exact X2|exact X3|exact HF]. }
    destruct (String.eqb_spec "eval" c) as [<-|N1].
    { cbn [String.eqb Ascii.eqb Bool.eqb andb orb]. destruct (HK s' (eval_face _ _ _ _ _ _ _ H)) as (K1 & K2).
      exists (Book gs (s_frozen s)). cbn [b_frozen b_guests]. split; [|auto].
      rewrite (eval_answered _ _ _ _ _ _ HI H). unfold eval_answers.
      assert (HJ : exists job frames x, rest = job :: frames /\ parse_eval_headers frames [] [] = Val x).
      { unfold process_client_eval in H. minv1 H. minv1 Hm. minv1 Hk. minv1 Hm. minv1 Hk0. minv1 Hm.
        destruct rest as [|job frames]; [discriminate|]. cbn [skipn] in El. eauto. }
      destruct HJ as (job & frames & x & -> & El). cbn [skipn]. 
      destruct (block_dec frames) as [(need & payload & HBl)|HN].
      - rewrite (parse_eval_block _ _ _ _ _ HBl). pose proof (store_headers_in need [] []) as HS. pose proof (enumerates_store need) as HE.
        destruct (store need [] []) as (h, md). cbn [fst] in HS, HE. destruct (s_frozen s).
        + eapply sv_frozen; exact HBl.
        + assert (HQ : forall k v, In (k, v) h <-> requires need k v) by (intros k v; rewrite HS; simpl; tauto).
          destruct (existsb (serves h) (s_reg s)) eqn:Ex.
          * apply existsb_exists in Ex. destruct Ex as (w & Hw & Hs). unfold serves in Hs.
            assert (Hc : check_headers w h = Val true) by (destruct (check_headers w h) as [[|]|]; [reflexivity|discriminate|discriminate]).
            assert (HG : exists g, In g gs /\ rel s g w).
            { clear - HF Hw. induction HF as [|g u gs ws Hr _ IH]; [contradiction|]. destruct Hw as [->|Hw]; [exists g; split; [left; reflexivity|exact Hr]|].
              destruct (IH Hw) as (g' & Hg & Hr'). exists g'. split; [right; exact Hg|exact Hr']. }
            destruct HG as (g & Hg & Hr). eapply sv_accept; [exact HBl|exact Hg|]. eapply provides_serves; eassumption.
          * rewrite reject_text_concat. eapply sv_refuse; [exact HBl| |exact HE]. intros g Hg Hp.
            assert (HG : exists w, In w (s_reg s) /\ rel s g w).
            { clear - HF Hg. induction HF as [|g' u gs ws Hr _ IH]; [contradiction|]. destruct Hg as [->|Hg]; [exists u; split; [left; reflexivity|exact Hr]|].
              destruct (IH Hg) as (w & Hw & Hr'). exists w. split; [right; exact Hw|exact Hr']. }
            destruct HG as (w & Hw & Hr). assert (Hc : check_headers w h = Val true) by (eapply provides_serves; eassumption).
            assert (existsb (serves h) (s_reg s) = true); [|congruence]. apply existsb_exists. exists w. split; [exact Hw|]. unfold serves. rewrite Hc. reflexivity.
      - rewrite (parse_eval_no_block frames [] []); [apply sv_endless; exact HN| |exact HN]. intros ->. discriminate. }
    destruct (String.eqb_spec "get-runtime-stats" c) as [<-|N2].
    { cbn [String.eqb Ascii.eqb Bool.eqb andb]. unfold process_client_get_runtime_stats in *. minv1 H. minv1 Hm. minv.
      exists (Book gs (s_frozen s)). cbn [b_frozen b_guests]. split; [apply sv_client; simpl; intuition discriminate|auto]. }
    destruct (String.eqb_spec "freeze" c) as [<-|N3].
    { unfold process_client_freeze in *. minv. exists (Book gs true). split; [exact (sv_freeze cfg gs (s_frozen s) i rest)|]. split; [reflexivity|].
      eapply rels_face; [| |exact HF]; reflexivity. }
    destruct (String.eqb_spec "unfreeze" c) as [<-|N4].
    { unfold process_client_unfreeze in *. minv. exists (Book gs false). split; [exact (sv_unfreeze cfg gs (s_frozen s) i rest)|]. split; [reflexivity|].
      eapply rels_face; [| |exact HF]; reflexivity. }
    minv1 H. exists (Book gs (s_frozen s)). cbn [b_frozen b_guests]. split; [|auto].
    assert (HS : serve cfg (Book gs (s_frozen s)) (Msg "clients" i (c :: rest)) [] (Book gs (s_frozen s))) by (apply sv_client; simpl; intuition congruence).
    destruct (_ && _); exact HS. }
  cbn [andb orb]. destruct (String.eqb_spec key "timer") as [->|Et].
  - rewrite (NC _ _ _ _ _ (mute_timer o cfg _) H). destruct (timer_rel _ _ _ _ _ HI HF H) as (t & rest & z & Ed & Hz & HF').
    cbn [m_data] in Ed. subst data. exists (Book (flat_map (pause cfg z) gs) (s_frozen s)). split; [apply sv_tick; exact Hz|].
    cbn [b_frozen b_guests]. split; [|exact HF']. symmetry. exact (process_timer_frozen _ _ _ _ _ _ _ H).
  - minv1 H. exists (Book gs (s_frozen s)). cbn [b_frozen b_guests]. split; [|auto]. apply sv_other. simpl. intuition congruence.
Qed.

Lemma rel_stands s g w : rel s g w -> stands s g w.
Proof.
  intros [H1 (H2 & H3 & _) H4 H5 H6 H7]. repeat (split; [assumption|]). intros k. destruct (values_ex k (g_frames g)) as (vs & Hv).
  pose proof (init_range k _ H4 [] vs ordered_nil Hv) as E. rewrite <- H3 in E. unfold mm_equal_range in E. rewrite E. exact Hv.
Qed.

Theorem run_book k tr s : run o cfg k tr s -> exists b, served cfg (map ev_in tr) (map answers tr) b /\
  b_frozen b = s_frozen s /\ Forall2 (rel s) (b_guests b) (s_reg s).
Proof.
  induction 1 as [|tr s m outs s' HR (b & H1 & H2 & H3) Hs].
  - exists (Book [] false). split; [constructor|]. split; [reflexivity|constructor].
  - destruct b as (gs, f). cbn [b_frozen b_guests] in *. subst f.
    destruct (step_book _ _ _ _ _ (run_inv _ _ _ _ _ HR) (run_ping_inv _ _ _ _ _ HR) H3 Hs) as (b & B1 & B2 & B3).
    exists b. split; [|auto]. rewrite !map_app. cbn [map ev_in]. eapply sd_snoc; eassumption.
Qed.

Theorem run_stands k tr s : run o cfg k tr s -> exists b, served cfg (map ev_in tr) (map answers tr) b /\
  b_frozen b = s_frozen s /\ Forall2 (stands s) (b_guests b) (s_reg s).
Proof.
  intros HR. destruct (run_book _ _ _ HR) as (b & H1 & H2 & H3). exists b. split; [exact H1|]. split; [exact H2|].
  eapply Forall2_impl; [|exact H3]. intros g w. apply rel_stands.
Qed.
End WithConfig.
