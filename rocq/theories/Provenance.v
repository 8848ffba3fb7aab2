(* Where dispatched requests and registered workers come from (C04, C08, C34). *)
From Coq Require Import Permutation Lia.
From Verif Require Import Base Bytes Containers Worker Multi Single Queue Handler SpecText TextFacts HeaderFacts
  Spec SpecRun Facts QueueInv Atoms HandlerSim Conserve.
Local Open Scope string_scope.
Local Open Scope list_scope.

Lemma conserve_in (a b c d : list request) : Permutation a (b ++ c ++ d) -> forall r, In r d -> In r a.
Proof. intros P r H. eapply Permutation_in; [symmetry; exact P|]. rewrite !in_app_iff. auto. Qed.

Section WithConfig.
Context (o : oracle) (cfg : config).
Local Notation atoms := (atoms o cfg).
Local Notation atom := (atom o cfg).

Lemma queued_held m r : In r (queued m) -> In r (held m).
Proof. unfold held. rewrite in_app_iff. auto. Qed.

(* what a label sends: to whom, and what was true just before *)
Lemma atom_sends s h l s' h' w r : inv s h -> atom s h l s' h' -> In (w, r) (sends_of l) ->
  (In w (s_reg s) \/ exists cur, l = LRegister w cur (Some r)) /\
  (In r (held (s_queue s) ++ h) \/ In r (created_of l)) /\
  (r_complete r = true -> capable w r) /\
  (In w (s_reg s) -> current_of (s_queue s) w = None) /\
  current_of (s_queue s') w = Some r /\ In w (s_reg s').
Proof.
  intros HI Ha Hin. destruct HI as [Hq Hw Hnd Hr Hf]. destruct Ha; simpl in *; try tauto.
  - destruct x as [x|]; [|destruct Hin]. destruct Hin as [[= -> ->]|[]].
    assert (Hni : ~ In (w_id w) (ids (s_reg s))).
    { intros Hc. apply in_ids_inv in Hc. destruct Hc as (w' & Hi & E). specialize (Hw w' Hi). lia. }
    assert (HA : add_post (s_queue s) (s_reg s) w cur (Some r) m').
    { eapply q_add_spec; eauto. intros r0 Hc. apply (H2 r0 Hc). }
    unfold core in H4. injection H4 as E1 E2 _ _ _. rewrite E1, E2.
    assert (Hnw : ~ In w (s_reg s)) by (intros Hc; apply Hni; apply in_ids; exact Hc).
    split; [right; eauto|]. destruct HA as (HQ & HA). destruct cur as [c|].
    + destruct HA as (Hu & _ & E). destruct (s_queue s); [injection E as <-|discriminate].
      split; [right; simpl; auto|]. split; [intros Hc; destruct (H2 r eq_refl) as (Hc' & _); congruence|].
      split; [intros Hc; contradiction|]. split; [rewrite Hu; unfold upd; rewrite Nat.eqb_refl; reflexivity|].
      rewrite in_app_iff. simpl. auto.
    + destruct HA as (Hu & Hp & Hc & _). split; [left; rewrite in_app_iff; left; apply queued_held; eapply Permutation_in; [symmetry; exact Hp|simpl; auto]|].
      split; [auto|]. split; [intros Hc'; contradiction|]. split; [rewrite Hu; unfold upd; rewrite Nat.eqb_refl; reflexivity|].
      rewrite in_app_iff. simpl. auto.
  - destruct x as [x|]; [|destruct Hin]. destruct Hin as [[= -> ->]|[]].
    destruct (q_assign_spec o _ _ _ _ _ Hq H H0 H1) as (_ & Hu & Hp & Hc & _).
    split; [auto|]. split; [left; rewrite in_app_iff; left; apply queued_held; eapply Permutation_in; [symmetry; exact Hp|simpl; auto]|].
    split; [auto|]. split; [auto|]. split; [rewrite Hu; unfold upd; rewrite Nat.eqb_refl; reflexivity|auto].
  - destruct x as [x|]; [|destruct Hin]. destruct Hin as [[= -> ->]|[]].
    destruct (q_enqueue_spec o _ _ _ _ _ Hq H H1) as (_ & Hi & Hid & Hc & Hu & _).
    split; [auto|]. split; [left; rewrite in_app_iff; simpl; auto|]. split; [auto|]. split; [auto|].
    split; [rewrite Hu; unfold upd; rewrite Nat.eqb_refl; reflexivity|auto].
Qed.

Lemma atom_reg s h l s' h' w : inv s h -> atom s h l s' h' -> In w (s_reg s') ->
  In w (s_reg s) \/ exists cur x, l = LRegister w cur x.
Proof.
  intros HI Ha Hin. destruct Ha; simpl in *; auto.
  - unfold core in H. injection H as -> _ _ _ _. auto.
  - unfold core in H4. injection H4 as E _ _ _ _. rewrite E, in_app_iff in Hin. simpl in Hin.
    destruct Hin as [?|[->|[]]]; [auto|right; eauto].
  - destruct H3; subst; auto.
  - left. destruct (current_of (s_queue s) w0); simpl in Hin; eapply reg_remove_subset; eauto.
Qed.

(* properties of workers and requests carried along *)
Lemma atoms_carry (Pw : worker -> Prop) (Pr : request -> Prop) s h ls s' h' :
  atoms s h ls s' h' -> inv s h ->
  (forall w, In w (s_reg s) -> Pw w) -> (forall r, In r (held (s_queue s) ++ h) -> Pr r) ->
  (forall w cur x, In (LRegister w cur x) ls -> Pw w) -> (forall r, In r (created ls) -> Pr r) ->
  (forall w, In w (s_reg s') -> Pw w) /\ (forall r, In r (held (s_queue s') ++ h') -> Pr r) /\
  (forall w r, In (w, r) (sends ls) -> Pw w /\ Pr r /\ (r_complete r = true -> capable w r)).
Proof.
  induction 1 as [s h|s h l s1 h1 ls s2 h2 Ha _ IH]; intros HI HW HR HL HC.
  - split; [exact HW|]. split; [exact HR|]. intros w r [].
  - assert (HI1 := atom_inv _ _ _ _ _ _ _ HI Ha). pose proof (atom_conserve _ _ _ _ _ _ _ HI Ha) as P.
    assert (HW1 : forall w, In w (s_reg s1) -> Pw w).
    { intros w Hw. destruct (atom_reg _ _ _ _ _ _ HI Ha Hw) as [?|(cur & x & ->)]; [auto|].
      eapply HL. left. reflexivity. }
    assert (HR1 : forall r, In r (held (s_queue s1) ++ h1) -> Pr r).
    { intros r Hr. pose proof (conserve_in _ _ _ _ P r Hr) as Hi. rewrite in_app_iff in Hi.
      destruct Hi as [Hi|Hi]; [|auto]. apply HC. unfold created. simpl. rewrite in_app_iff. auto. }
    destruct (IH HI1 HW1 HR1) as (A & B & C).
    + intros w cur x Hi. eapply HL. right. exact Hi.
    + intros r Hi. apply HC. unfold created in *. simpl. rewrite in_app_iff. auto.
    + split; [exact A|]. split; [exact B|]. intros w r Hi. unfold sends in Hi. simpl in Hi.
      rewrite in_app_iff in Hi. destruct Hi as [Hi|Hi]; [|apply C; exact Hi].
      destruct (atom_sends _ _ _ _ _ _ _ HI Ha Hi) as (S1 & S2 & S3 & _). split; [|split; [|exact S3]].
      * destruct S1 as [?|(cur & ->)]; [auto|]. eapply HL. left. reflexivity.
      * destruct S2 as [?|S2]; [auto|]. apply HC. unfold created. simpl. rewrite in_app_iff. auto.
Qed.

(* an eval message among the outputs is one of the sends *)
Lemma outs_dispatch s h ls s' h' out rest : atoms s h ls s' h' -> In out (outs_all ls) ->
  m_key out = "workers" -> m_data out = "eval" :: rest ->
  exists w r, In (w, r) (sends ls) /\ out = dispatch_msg w r.
Proof.
  induction 1 as [s h|s h l s1 h1 ls s2 h2 Ha _ IH]; intros Hin Hkey Hd; [destruct Hin|].
  unfold outs_all in Hin. simpl in Hin. rewrite in_app_iff in Hin. destruct Hin as [Hin|Hin].
  - assert (Hsend : (exists w r, In (w, r) (sends_of l) /\ out = dispatch_msg w r) \/
              neutral out \/ exists j, report_for j out).
    { clear - Ha Hin. destruct Ha; simpl in Hin; try tauto.
      - destruct Hin as [<-|[]]. auto.
      - destruct x as [x|]; [|destruct Hin]. destruct Hin as [<-|[]]. left. exists w, x. simpl. auto.
      - destruct Hin as [<-|[]]. eauto.
      - destruct x as [x|]; [|destruct Hin]. destruct Hin as [<-|[]]. left. exists w, x. simpl. auto.
      - destruct x as [x|]; [|destruct Hin]. destruct Hin as [<-|[]]. left. exists x, r. simpl. auto.
      - destruct Hin as [<-|[]]. eauto. }
    destruct Hsend as [(w & r & Hi & ->)|[Hn|(j' & Hr & _)]].
    + exists w, r. split; [unfold sends; simpl; rewrite in_app_iff; auto|reflexivity].
    + destruct Hn as (_ & _ & Hn). destruct (Hn Hkey) as (_ & Hn'). destruct (Hn' _ Hd).
    + congruence.
  - destruct (IH Hin Hkey Hd) as (w & r & Hi & ->). exists w, r. split; [|reflexivity].
    unfold sends. simpl. rewrite in_app_iff. auto.
Qed.

(* ---- what a request or a worker remembers of the message that made it ---- *)

Definition from_submission (P : event -> Prop) (r : request) : Prop :=
  (r_complete r = false -> r_frames r = []) /\
  (r_complete r = true -> exists e need payload, P e /\ submitted e (r_job r) need payload /\
     r_frames r = "eval" :: r_job r :: payload /\
     (forall k v, In (k, v) (r_headers r) <-> requires need k v) /\
     (forall n v, sm_find n (r_metadata r) = Some v <-> first_meta n need v)).

Definition from_registration (P : event -> Prop) (w : worker) : Prop :=
  exists e hw hdrs, P e /\ joined e w hw hdrs /\ exists hs, made w hw hs /\ declares hs hdrs.

Lemma from_submission_mono (P Q : event -> Prop) r : (forall e, P e -> Q e) -> from_submission P r -> from_submission Q r.
Proof.
  intros H (A & B). split; [exact A|]. intros C. destruct (B C) as (e & need & pl & Hp & D).
  exists e, need, pl. split; [auto|exact D].
Qed.
Lemma from_registration_mono (P Q : event -> Prop) w : (forall e, P e -> Q e) -> from_registration P w -> from_registration Q w.
Proof. intros H (e & hw & hdrs & Hp & D). exists e, hw, hdrs. split; [auto|exact D]. Qed.

Lemma submits_block message s r rest : message = "eval" :: rest -> submits message s r ->
  exists frames need payload, message = "eval" :: r_job r :: frames /\ header_block frames need payload /\
    r_frames r = "eval" :: r_job r :: payload /\ r_complete r = true /\
    (forall k v, In (k, v) (r_headers r) <-> requires need k v) /\
    (forall n v, sm_find n (r_metadata r) = Some v <-> first_meta n need v).
Proof.
  intros -> [job headers md add H1 H2 ->]. destruct rest as [|j frames]; [discriminate|]. injection H1 as ->.
  simpl skipn in H2. destruct (block_dec frames) as [(hdrs & pl & Hb)|Hn].
  - exists frames, hdrs, pl. rewrite (parse_eval_block _ _ _ _ _ Hb) in H2.
    pose proof (store_headers_in hdrs [] []) as SH. pose proof (store_meta hdrs [] []) as SM.
    destruct (store hdrs [] []) as (h', md') eqn:E. injection H2 as <- <- <-. simpl in *.
    split; [reflexivity|]. split; [exact Hb|]. split; [reflexivity|]. split; [reflexivity|]. split.
    + intros k v. rewrite SH. split; [intros [[]|?]; auto|auto].
    + intros n v. rewrite SM. split; [intros [?|(_ & ?)]; [discriminate|assumption]|auto].
  - destruct frames as [|f t]; [discriminate|]. rewrite parse_eval_no_block in H2; [discriminate|discriminate|exact Hn].
Qed.

Lemma registers_block identity message s w cur next rest : message = "init" :: rest ->
  registers o identity message s w cur next ->
  exists hw frames hdrs hs, message = "init" :: hw :: frames /\ init_block frames hdrs /\ w_identity w = identity /\
    made w hw hs /\ declares hs hdrs.
Proof.
  intros -> [hw hs rest' w0 desc H1 H2 H3 H4 -> _]. destruct rest as [|h frames]; [discriminate|].
  injection H1 as ->. simpl skipn in H2.
  pose proof (make_worker_made _ _ _ _ _ _ H3) as (M1 & M2 & M3).
  pose proof (make_worker_fields _ _ _ _ _ _ H3) as HF.
  assert (Hid : w_identity (set_description desc w0) = identity) by apply HF.
  assert (HM : made (set_description desc w0) hw hs) by (split; [exact M1|]; split; [exact M2|exact M3]).
  destruct (block_dec frames) as [(hdrs & pl & Hb)|Hn].
  - exists hw, frames, hdrs, hs. split; [reflexivity|]. split; [left; eauto|]. split; [exact Hid|]. split; [exact HM|].
    rewrite (parse_init_block _ _ _ _ Hb) in H2. injection H2 as <- _.
    intros k v. rewrite parse_init_in by apply Hb. split; [intros [[]|?]; auto|auto].
  - exists hw, frames, frames, hs. split; [reflexivity|]. split; [right; auto|]. split; [exact Hid|]. split; [exact HM|].
    assert (E : fst (parse_init_headers frames []) = hs) by (rewrite H2; reflexivity). rewrite <- E.
    intros k v. rewrite parse_init_in by exact Hn. split; [intros [[]|?]; auto|auto].
Qed.

Lemma quiet_register ls w cur x : Forall quiet ls -> In (LRegister w cur x) ls -> False.
Proof. intros F H. rewrite Forall_forall in F. exact (F _ H). Qed.
Lemma quiet_created ls : Forall quiet ls -> created ls = [].
Proof. induction 1 as [|l ls H _ IH]; [reflexivity|]. destruct l; simpl in H; try tauto; exact IH. Qed.
Lemma timer_register ls w cur x : Forall timer_label ls -> In (LRegister w cur x) ls -> False.
Proof. intros F H. rewrite Forall_forall in F. exact (F _ H). Qed.
Lemma timer_created ls : Forall timer_label ls -> created ls = [].
Proof. induction 1 as [|l ls H _ IH]; [reflexivity|]. destruct l; simpl in H; try tauto; exact IH. Qed.

(* registration steps as seen in the registry *)
Lemma register_grows pre w cur x s s' : inv s [] -> Forall quiet pre ->
  atoms s [] (pre ++ [LRegister w cur x]) s' [] -> s_reg s' = s_reg s ++ [w] /\ w_id w = s_next_w s.
Proof.
  intros HI Hq HA. destruct (atoms_app_inv _ _ _ _ _ _ _ _ HA) as (s1 & h1 & A1 & A2).
  destruct (atoms_quiet_core _ _ _ _ _ _ _ A1 Hq) as (E1 & _).
  destruct (atoms_cons_inv _ _ _ _ _ _ _ _ A2) as (s2 & h2 & A3 & A4).
  destruct (atoms_nil_inv _ _ _ _ _ _ A4) as (-> & _).
  inversion A3; subst. match goal with HH : core _ = (_, _, _, _, _) |- _ => rename HH into H9 end.
  unfold core in E1, H9. injection H9 as E9 _ _ _ _. injection E1 as E1 _ _ E2 _.
  split; [congruence|]. congruence.
Qed.

Lemma step_registers m s s' ls outs w cur x : inv s [] -> atoms s [] ls s' [] -> outs_all ls = outs ->
  shape o cfg m s s' ls -> In (LRegister w cur x) ls ->
  from_registration (fun e => e = mkEvent s m outs s') w.
Proof.
  intros HI HA HO HS Hin.
  destruct HS as [ls Hq Hne|ls Hk Ht|ls rest Hk Hd He|pre w' cur' x' next rest Hk Hd Hq Hr|ls rest Hk Hd Hds].
  - destruct (quiet_register _ _ _ _ Hq Hin).
  - destruct (timer_register _ _ _ _ Ht Hin).
  - exfalso. destruct He; simpl in Hin; intuition discriminate.
  - rewrite in_app_iff in Hin. destruct Hin as [Hin|[E|[]]]; [destruct (quiet_register _ _ _ _ Hq Hin)|].
    injection E as -> -> ->. destruct (register_grows _ _ _ _ _ _ HI Hq HA) as (Hg & _).
    destruct (registers_block _ _ _ _ _ _ _ Hd Hr) as (hw & frames & hdrs & hs & Em & Hb & Hi & Hm & Hdec).
    exists (mkEvent s m outs s'), hw, hdrs. split; [reflexivity|]. split; [|eauto].
    split; [exact Hk|]. split; [symmetry; exact Hi|]. split; [eauto|exact Hg].
  - exfalso. destruct Hin as [?|Hin]; [discriminate|].
    destruct Hds as [?|? ? ? ? ? ? ? ? ? ?|w' r ls H1 H2 H3 H4 H5 He]; simpl in Hin; [tauto|intuition discriminate|].
    destruct Hin as [?|Hin]; [discriminate|]. destruct He; simpl in Hin; intuition discriminate.
Qed.

(* every request a step creates and keeps is a submission it accepts, or incomplete *)
Lemma step_creates m s s' ls outs r : atoms s [] ls s' [] -> outs_all ls = outs ->
  shape o cfg m s s' ls -> In r (created ls) ->
  from_submission (fun e => e = mkEvent s m outs s') r \/ (In r (dropped ls) /\ sends ls = []).
Proof.
  intros HA HO HS Hin.
  destruct HS as [ls Hq Hne|ls Hk Ht|ls rest Hk Hd He|pre w' cur' x' next rest Hk Hd Hq Hr|ls rest Hk Hd Hds].
  - rewrite (quiet_created _ Hq) in Hin. destruct Hin.
  - rewrite (timer_created _ Ht) in Hin. destruct Hin.
  - destruct He as [Hp|r' Hs Hf|r' x Hs Hf|r' Hs Hf Hno]; simpl in Hin; try tauto.
    + destruct Hin as [->|[]]. left. split.
      * intros Hc. destruct (submits_block _ _ _ _ Hd Hs) as (fr & need & pl & _ & _ & _ & Hc' & _). congruence.
      * intros _. destruct (submits_block _ _ _ _ Hd Hs) as (fr & need & pl & Em & Hb & Hfr & _ & Hh & Hmd).
        exists (mkEvent s m outs s'), need, pl. split; [reflexivity|]. split; [|split; [exact Hfr|split; [exact Hh|exact Hmd]]].
        split; [exact Hk|]. split; [eauto|]. simpl ev_out. simpl ev_in. rewrite <- HO. unfold outs_all.
        cbn [flat_map outs_of]. rewrite !in_app_iff. right. right. right. left. left. reflexivity.
    + destruct Hin as [->|[]]. right. simpl. auto.
  - unfold created in Hin. rewrite flat_map_app in Hin. fold (created pre) in Hin. rewrite (quiet_created _ Hq) in Hin.
    simpl in Hin. rewrite app_nil_r in Hin. destruct cur' as [c|]; [|destruct Hin]. destruct Hin as [->|[]].
    left. destruct (atoms_app_inv _ _ _ _ _ _ _ _ HA) as (s1 & h1 & A1 & A2).
    destruct (atoms_cons_inv _ _ _ _ _ _ _ _ A2) as (s2 & h2 & A3 & A4).
    inversion A3; subst. match goal with HH : forall r0, Some r = Some r0 -> _ |- _ => destruct (HH r eq_refl) as (Hc & _ & Hfr) end.
    split; [auto|congruence].
  - exfalso. change (created (LTau :: ls)) with (created ls) in Hin.
    destruct Hds as [?|? ? ? ? ? ? ? ? ? ?|w' r' ls H1 H2 H3 H4 H5 He]; simpl in Hin; [tauto|tauto|].
    destruct He; simpl in Hin; tauto.
Qed.

(* ---- over a step, over a run ---- *)

Definition carried (P : event -> Prop) (s : state) : Prop :=
  (forall w, In w (s_reg s) -> from_registration P w) /\
  (forall r, In r (held (s_queue s)) -> from_submission P r).

Lemma step_carries (P : event -> Prop) m s s' ls outs : inv s [] -> atoms s [] ls s' [] -> outs_all ls = outs ->
  shape o cfg m s s' ls -> carried P s ->
  let e := mkEvent s m outs s' in
  let Q := fun e' => P e' \/ e' = e in
  carried Q s' /\
  (forall w r, In (w, r) (sends ls) ->
     ((In w (s_reg s) /\ from_registration P w) \/ from_registration (fun e' => e' = e) w) /\
     from_submission Q r /\ (r_complete r = true -> capable w r)).
Proof.
  intros HI HA HO HS (CW & CR) e Q.
  assert (HQ1 : forall e', P e' -> Q e') by (unfold Q; auto).
  assert (HQ2 : forall e', e' = e -> Q e') by (unfold Q; auto).
  destruct (atoms_carry (fun w => (In w (s_reg s) /\ from_registration P w) \/ from_registration (fun e' => e' = e) w)
    (fun r => from_submission Q r \/ (In r (dropped ls) /\ sends ls = [])) _ _ _ _ _ HA HI) as (A & B & C).
  - intros w Hw. left. auto.
  - intros r Hr. rewrite app_nil_r in Hr. left. eapply from_submission_mono; [exact HQ1|]. apply CR. exact Hr.
  - intros w cur x Hin. right. eapply step_registers; eauto.
  - intros r Hr. destruct (step_creates _ _ _ _ _ _ HA HO HS Hr) as [?|?]; [left|right; assumption].
    eapply from_submission_mono; [exact HQ2|]. assumption.
  - split.
    + split.
      * intros w Hw. destruct (A w Hw) as [(_ & H)|H]; [exact (from_registration_mono _ _ _ HQ1 H)|exact (from_registration_mono _ _ _ HQ2 H)].
      * intros r Hr. destruct (B r) as [H|(Hdr & Hns)]; [rewrite app_nil_r; exact Hr|exact H|].
        (* a dropped request is not held *)
        exfalso. pose proof (atoms_conserve _ _ _ _ _ _ _ HA HI) as PP.
        assert (Hnd : NoDup (map r_id (created ls ++ held (s_queue s) ++ []))).
        { clear - HA HI HS Hdr. destruct HS as [ls Hq Hne|ls Hk Ht|ls rest Hk Hd He|pre w' cur' x' next rest Hk Hd Hq Hr|ls rest Hk Hd Hds].
          - rewrite (quiet_created _ Hq). simpl. apply (inv_nodup _ _ HI).
          - rewrite (timer_created _ Ht). simpl. apply (inv_nodup _ _ HI).
          - destruct He as [Hp|r' Hs Hf|r' x Hs Hf|r' Hs Hf Hno]; simpl in Hdr; try tauto. simpl.
            constructor; [|apply (inv_nodup _ _ HI)]. intros Hc. apply in_map_iff in Hc. destruct Hc as (r2 & E & Hin).
            pose proof (inv_r _ _ HI r2 Hin) as Hlt. destruct Hs as [job headers md add _ _ ->]. simpl in E. lia.
          - exfalso. unfold dropped in Hdr. rewrite flat_map_app in Hdr. simpl in Hdr. rewrite app_nil_r in Hdr.
            apply in_flat_map in Hdr. destruct Hdr as (l & Hl & Hr'). rewrite Forall_forall in Hq. specialize (Hq l Hl).
            destruct l; simpl in *; tauto.
          - exfalso. change (dropped (LTau :: ls)) with (dropped ls) in Hdr.
            destruct Hds as [?|? ? ? ? ? ? ? ? ? ?|w' r' ls H1 H2 H3 H4 H5 He]; simpl in Hdr; [tauto|tauto|].
            destruct He; simpl in Hdr; tauto. }
        eapply Permutation_NoDup in Hnd; [|apply Permutation_map; exact PP].
        rewrite !map_app, app_nil_r in Hnd. apply in_split in Hdr. destruct Hdr as (d1 & d2 & Ed). rewrite Ed in Hnd.
        rewrite map_app in Hnd. simpl in Hnd. rewrite <- app_assoc in Hnd. simpl in Hnd.
        apply NoDup_remove_2 in Hnd. apply Hnd. rewrite !in_app_iff. right. right. right. apply in_map. exact Hr.
    + intros w r Hin. destruct (C w r Hin) as (C1 & C2 & C3). split; [exact C1|]. split; [|exact C3].
      destruct C2 as [?|(_ & Hns)]; [assumption|]. rewrite Hns in Hin. destruct Hin.
Qed.

Lemma run_carried k tr s : run o cfg k tr s -> carried (fun e => In e tr) s.
Proof.
  induction 1 as [|tr s m outs s' HR IH Hstep].
  - split; [intros w []|]. destruct k; intros r [].
  - pose proof (run_inv _ _ _ _ _ HR) as HI. destruct (on_request_sim _ _ _ _ _ _ HI Hstep) as (ls & A & O & S).
    destruct (step_carries _ _ _ _ _ _ HI A O S IH) as ((W & R) & _). split.
    + intros w Hw. refine (from_registration_mono _ _ _ _ (W w Hw)). intros e [He|He]; rewrite in_app_iff; simpl; auto.
    + intros r Hr. refine (from_submission_mono _ _ _ _ (R r Hr)). intros e [He|He]; rewrite in_app_iff; simpl; auto.
Qed.

Lemma run_split k tr1 e tr2 s : run o cfg k (tr1 ++ e :: tr2) s ->
  run o cfg k tr1 (ev_pre e) /\ on_request o cfg (ev_in e) (ev_pre e) = (ev_out e, inr (tt, ev_post e)).
Proof.
  remember (tr1 ++ e :: tr2) as tr eqn:E. intros H. revert tr1 tr2 E.
  induction H as [|tr s m outs s' HR IH Hstep]; intros tr1 tr2 E; [destruct tr1; discriminate|].
  destruct tr2 as [|e2 tr2] using rev_ind.
  - apply app_inj_tail in E. destruct E as (<- & <-). auto.
  - clear IHtr2. replace (tr1 ++ e :: tr2 ++ [e2]) with ((tr1 ++ e :: tr2) ++ [e2]) in E
      by (rewrite <- app_assoc; reflexivity).
    apply app_inj_tail in E. destruct E as (-> & <-). eapply IH. reflexivity.
Qed.

(* Every eval sent in a run is the payload of an earlier (or the current) accepted submission, sent to
   a registered worker whose registration offers everything the submission requires. *)
Theorem dispatch_provenance k tr1 e tr2 s : run o cfg k (tr1 ++ e :: tr2) s ->
  forall out rest, In out (ev_out e) -> m_key out = "workers" -> m_data out = "eval" :: rest ->
  exists j sub reg w need payload hw hdrs,
    (In sub tr1 \/ sub = e) /\ submitted sub j need payload /\
    (In reg tr1 /\ In w (s_reg (ev_pre e)) \/ reg = e) /\ joined reg w hw hdrs /\
    out = Msg "workers" (w_identity w) ("eval" :: j :: payload) /\
    (forall h v, requires need h v -> offers hw hdrs h v).
Proof.
  intros HR out rest Hin Hkey Hd. destruct (run_split _ _ _ _ _ HR) as (HR1 & Hstep).
  pose proof (run_inv _ _ _ _ _ HR1) as HI. destruct (on_request_sim _ _ _ _ _ _ HI Hstep) as (ls & A & O & S).
  destruct (step_carries _ _ _ _ _ _ HI A O S (run_carried _ _ _ HR1)) as (_ & HS).
  assert (Hin' : In out (outs_all ls)) by (rewrite O; exact Hin).
  destruct (outs_dispatch _ _ _ _ _ _ _ A Hin' Hkey Hd) as (w & r & Hs & ->).
  destruct (HS w r Hs) as (HW & (HF & HT) & HC).
  destruct (r_complete r) eqn:Ec.
  2:{ exfalso. simpl in Hd. rewrite (HF eq_refl) in Hd. discriminate. }
  destruct (HT eq_refl) as (sub & need & pl & Hsub & Hsubm & Hfr & Hh & _).
  assert (Eev : mkEvent (ev_pre e) (ev_in e) (ev_out e) (ev_post e) = e) by (destruct e; reflexivity).
  rewrite Eev in *.
  assert (Hreg : exists reg hw hdrs, (In reg tr1 /\ In w (s_reg (ev_pre e)) \/ reg = e) /\ joined reg w hw hdrs /\
            exists hs, made w hw hs /\ declares hs hdrs).
  { destruct HW as [(Hw & reg & hw & hdrs & H1 & H2)|(reg & hw & hdrs & H1 & H2)]; exists reg, hw, hdrs; auto. }
  destruct Hreg as (reg & hw & hdrs & Hreg & Hj & hs & Hm & Hdec).
  exists (r_job r), sub, reg, w, need, pl, hw, hdrs.
  split; [exact Hsub|]. split; [exact Hsubm|]. split; [exact Hreg|]. split; [exact Hj|].
  split; [unfold dispatch_msg; rewrite Hfr; reflexivity|].
  apply (check_headers_offers w hw hs hdrs (r_headers r) need Hm Hdec Hh). apply HC. reflexivity.
Qed.

End WithConfig.
