(* Conservation of jobs over runs. *)
From Coq Require Import Permutation Lia.
From Verif Require Import Base Bytes Containers Worker Multi Single Queue Handler Spec Facts QueueInv Atoms HandlerSim.
Local Open Scope string_scope.
Local Open Scope list_scope.

Lemma is_report_for j j' m : report_for j' m -> is_report j m = String.eqb j' j.
Proof.
  intros (E1 & _ & rest & E2). unfold is_report. rewrite E1, E2.
  change (String.eqb "status_notifier" "status_notifier") with true. cbv iota. cbn [andb].
  destruct (starts_with ["type"; "job-status"; "id"; j] ("type" :: "job-status" :: "id" :: j' :: "status" :: rest)) eqn:E.
  - apply starts_with_iff in E. destruct E as (r & E). injection E as -> _. symmetry. apply String.eqb_refl.
  - symmetry. apply String.eqb_neq. intros ->. assert (starts_with ["type"; "job-status"; "id"; j]
      ("type" :: "job-status" :: "id" :: j :: "status" :: rest) = true) as HH.
    { apply starts_with_iff. exists ("status" :: rest). reflexivity. }
    congruence.
Qed.

Section WithConfig.
Context (o : oracle) (cfg : config).
Local Notation atoms := (atoms o cfg).
Local Notation atom := (atom o cfg).

Lemma atom_reports j s h l s' h' : atom s h l s' h' ->
  list_count (is_report j) (outs_of l) = list_count (job_is j) (finished_of l).
Proof.
  intros Ha. destruct Ha; simpl; try reflexivity.
  - destruct H as (H & _). unfold list_count. simpl. rewrite H. reflexivity.
  - destruct x; reflexivity.
  - rewrite !list_count_cons. rewrite (is_report_for j _ _ H1). reflexivity.
  - destruct x; reflexivity.
  - destruct x; reflexivity.
  - rewrite !list_count_cons. rewrite (is_report_for j _ _ H). reflexivity.
Qed.

Lemma atoms_reports j s h ls s' h' : atoms s h ls s' h' ->
  list_count (is_report j) (outs_all ls) = list_count (job_is j) (finished ls).
Proof.
  induction 1 as [|s h l s1 h1 ls s2 h2 Ha _ IH]; [reflexivity|].
  unfold outs_all, finished in *. simpl. rewrite !list_count_app, IH, (atom_reports j _ _ _ _ _ Ha). reflexivity.
Qed.

Lemma reg_remove_length w ws : length (reg_remove w ws) <= length ws.
Proof. induction ws; simpl; [lia|]. destruct (same_worker a w); simpl; lia. Qed.

Definition is_register (l : label) : Prop := match l with LRegister _ _ _ => True | _ => False end.

Lemma atom_reg_le s h l s' h' : atom s h l s' h' -> ~ is_register l -> length (s_reg s') <= length (s_reg s).
Proof.
  intros Ha Hn. destruct Ha; simpl in *; try lia; try tauto.
  - unfold core in H. injection H as -> _ _ _ _. lia.
  - destruct H3; subst; simpl; lia.
  - destruct (current_of (s_queue s) w); simpl; apply reg_remove_length.
Qed.
Lemma atoms_reg_le s h ls s' h' : atoms s h ls s' h' -> Forall (fun l => ~ is_register l) ls ->
  length (s_reg s') <= length (s_reg s).
Proof.
  induction 1 as [|s h l s1 h1 ls s2 h2 Ha _ IH]; intros F; [lia|].
  inversion F; subst. pose proof (atom_reg_le _ _ _ _ _ Ha H1). specialize (IH H2). lia.
Qed.

Lemma atoms_quiet_core s h ls s' h' : atoms s h ls s' h' -> Forall quiet ls -> core s' = core s /\ Permutation h h'.
Proof.
  induction 1 as [|s h l s1 h1 ls s2 h2 Ha _ IH]; intros F; [auto|].
  inversion F; subst. destruct (IH H2) as (E & P).
  destruct Ha; simpl in *; try tauto; [split; [congruence|assumption]|split; [assumption|]]. etransitivity; eauto.
Qed.

Lemma atoms_cons_inv s h l ls s' h' : atoms s h (l :: ls) s' h' ->
  exists s1 h1, atom s h l s1 h1 /\ atoms s1 h1 ls s' h'.
Proof. intros H. inversion H; subst. eauto. Qed.
Lemma atoms_app_inv s h l1 l2 s' h' : atoms s h (l1 ++ l2) s' h' ->
  exists s1 h1, atoms s h l1 s1 h1 /\ atoms s1 h1 l2 s' h'.
Proof.
  revert s h. induction l1 as [|l l1 IH]; simpl; intros s h H.
  - exists s, h. split; [constructor|exact H].
  - apply atoms_cons_inv in H. destruct H as (s2 & h2 & Ha & Hb). destruct (IH _ _ Hb) as (s3 & h3 & A & B).
    exists s3, h3. split; [econstructor; eauto|exact B].
Qed.
Lemma atoms_nil_inv s h s' h' : atoms s h [] s' h' -> s' = s /\ h' = h.
Proof. intros H. inversion H; subst. auto. Qed.

Lemma shape_created j m s s' ls outs : inv s [] ->
  atoms s [] ls s' [] -> outs_all ls = outs -> shape o cfg m s s' ls ->
  list_count (job_is j) (created ls) =
    (if accepts j (mkEvent s m outs s') then 1 else 0) + (if adopts j (mkEvent s m outs s') then 1 else 0)
    + list_count (job_is j) (dropped ls).
Proof.
  intros HI HA HO HS.
  assert (Hquiet : forall ls, Forall quiet ls -> created ls = [] /\ dropped ls = [] /\ Forall (fun l => ~ is_register l) ls).
  { clear. induction 1 as [|l ls Hq F (IH1 & IH2 & IH3)]; [auto|].
    destruct l; simpl in Hq; try tauto; simpl; rewrite IH1, IH2; (split; [reflexivity|split; [reflexivity|constructor; [simpl; tauto|exact IH3]]]). }
  assert (Hnoad : Forall (fun l => ~ is_register l) ls -> adopts j (mkEvent s m outs s') = false).
  { intros F. unfold adopts. simpl. pose proof (atoms_reg_le _ _ _ _ _ HA F) as Hle.
    destruct (Nat.ltb_spec (length (s_reg s)) (length (s_reg s'))); [lia|].
    rewrite andb_false_r. reflexivity. }
  assert (Hsub : is_submission j m = true -> m_key m = "clients" /\ exists rest, m_data m = "eval" :: j :: rest).
  { unfold is_submission. intros H. apply andb_true_iff in H. destruct H as (H1 & H2).
    apply String.eqb_eq in H1. apply starts_with_iff in H2. destruct H2 as (rest & H2).
    split; [exact H1|exists rest; exact H2]. }
  destruct HS as [ls Hq Hne|ls Hk Ht|ls rest Hk Hd He|pre w cur x next rest Hk Hd Hq Hr|ls rest Hk Hd Hds].
  - destruct (Hquiet _ Hq) as (-> & -> & Hn). rewrite (Hnoad Hn). unfold accepts. simpl ev_in.
    destruct (is_submission j m) eqn:Es; [|reflexivity].
    destruct (Hsub eq_refl) as (Hk & rest & Hd). exfalso. apply (Hne Hk (j :: rest)). exact Hd.
  - assert (created ls = [] /\ dropped ls = [] /\ Forall (fun l => ~ is_register l) ls) as (-> & -> & Hn).
    { clear -Ht. induction Ht as [|l ls Hq F (IH1 & IH2 & IH3)]; [auto|].
      destruct l; simpl in Hq; try tauto; simpl; rewrite IH1, IH2; (split; [reflexivity|split; [reflexivity|constructor; [simpl; tauto|exact IH3]]]). }
    rewrite (Hnoad Hn). unfold accepts. simpl ev_in.
    destruct (is_submission j m) eqn:Es; [|reflexivity].
    destruct (Hsub eq_refl) as (Hk' & _). congruence.
  - assert (Hj : forall r, submits (m_data m) s r -> is_submission j m = job_is j r).
    { intros r [job headers md add H1 H2 H3]. rewrite Hd in H1. destruct rest as [|jj rest]; [discriminate|].
      injection H1 as ->. unfold is_submission. rewrite Hk, Hd.
      change (String.eqb "clients" "clients") with true. cbn [andb]. rewrite H3. unfold job_is. cbn [r_job complete_request].
      destruct (starts_with ["eval"; j] ("eval" :: job :: rest)) eqn:E.
      - apply starts_with_iff in E. destruct E as (rr & E). injection E as -> _. symmetry. apply String.eqb_refl.
      - symmetry. apply String.eqb_neq. intros ->.
        assert (starts_with ["eval"; j] ("eval" :: j :: rest) = true) by (apply starts_with_iff; eexists; reflexivity).
        congruence. }
    assert (Hacc : forall i d, is_accept_for m (Msg KEY_CLIENTS i d) = String.eqb i (m_ident m) && list_string_eqb d ["accept"]).
    { intros. unfold is_accept_for, msg_eqb. simpl m_key. simpl m_ident. simpl m_data.
      change (String.eqb KEY_CLIENTS "clients") with true. cbn [andb]. reflexivity. }
    assert (Hn : Forall (fun l => ~ is_register l) ls).
    { destruct He; repeat constructor; simpl; tauto. }
    rewrite (Hnoad Hn). unfold accepts. simpl ev_in. simpl ev_out. rewrite <- HO.
    destruct He as [Hp|r Hs Hf|r x Hs Hf|r Hs Hf Hno].
    + simpl. unfold ack_msg. rewrite Hacc. simpl list_string_eqb. rewrite !andb_false_r. reflexivity.
    + cbn [outs_all outs_of flat_map app existsb]. unfold ack_msg, reject_msg. rewrite !Hacc.
      change (list_string_eqb ["ack"] ["accept"]) with false.
      change (list_string_eqb ["reject"; "The broker is frozen."] ["accept"]) with false.
      rewrite !andb_false_r. reflexivity.
    + assert (existsb (is_accept_for m) (outs_all [LMsg (ack_msg (m_ident m)); LCreate r; LEnqueue r x; LMsg (accept_msg (m_ident m))]) = true) as ->.
      { apply existsb_exists. exists (accept_msg (m_ident m)). split.
        - unfold outs_all. cbn [flat_map outs_of]. rewrite !in_app_iff. right. right. right. left. left. reflexivity.
        - unfold accept_msg. rewrite Hacc, String.eqb_refl. reflexivity. }
      rewrite andb_true_r, (Hj r Hs). cbn [created dropped flat_map created_of dropped_of app].
      rewrite list_count_cons. lia.
    + assert (existsb (is_accept_for m) (outs_all [LMsg (ack_msg (m_ident m)); LCreate r; LDrop r;
             LMsg (reject_msg (m_ident m) (reject_text "No worker available for given headers: " (r_headers r)));
             LMsg (Msg KEY_MONITOR MONITOR_IDENTITY [r_job r; "FAILED"])]) = false) as ->.
      { cbn [outs_all outs_of flat_map app existsb]. unfold ack_msg, reject_msg. rewrite !Hacc.
        change (list_string_eqb ["ack"] ["accept"]) with false.
        assert (forall t, list_string_eqb ["reject"; t] ["accept"] = false) as -> by reflexivity.
        rewrite !andb_false_r. reflexivity. }
      rewrite andb_false_r. cbn [created dropped flat_map created_of dropped_of app].
      rewrite !list_count_cons. reflexivity.
  - assert (Hn1 : accepts j (mkEvent s m outs s') = false).
    { unfold accepts. simpl ev_in. destruct (is_submission j m) eqn:Es; [|reflexivity].
      destruct (Hsub eq_refl) as (Hk' & _). congruence. }
    rewrite Hn1. destruct (Hquiet _ Hq) as (Ec & Ed & _).
    unfold created, dropped in *. rewrite !flat_map_app, Ec, Ed. simpl.
    assert (Hgrow : length (s_reg s') = S (length (s_reg s))).
    { destruct (atoms_app_inv _ _ _ _ _ _ HA) as (s1 & h1 & A1 & A2).
      destruct (atoms_quiet_core _ _ _ _ _ A1 Hq) as (E1 & _).
      destruct (atoms_cons_inv _ _ _ _ _ _ A2) as (s2 & h2 & A3 & A4).
      destruct (atoms_nil_inv _ _ _ _ A4) as (-> & _).
      inversion A3; subst. match goal with HH : core _ = (_, _, _, _, _) |- _ => rename HH into H9 end.
      unfold core in E1, H9. injection H9 as E9 _ _ _ _. injection E1 as E1 _ _ _ _.
      rewrite E9, app_length, E1. simpl. lia. }
    assert (Had : adopts j (mkEvent s m outs s') = match announced (m_data m) with Some j' => String.eqb j' j | None => false end).
    { unfold adopts. simpl ev_in. simpl ev_pre. simpl ev_post. rewrite Hk, Hgrow.
      change (String.eqb "workers" "workers") with true. cbn [andb].
      assert (starts_with ["init"] (m_data m) = true) as -> by (apply starts_with_iff; rewrite Hd; eexists; reflexivity).
      destruct (Nat.ltb_spec (length (s_reg s)) (S (length (s_reg s)))); [reflexivity|lia]. }
    rewrite Had. destruct Hr as [hwgroup headers rest' w0 desc H1 H2 H3 H4 H5 H6].
    unfold announced. rewrite <- (announced_spec _ _ _ _ _ _ _ _ _ H2 H4).
    destruct cur as [r|]; simpl; [|reflexivity]. rewrite list_count_cons. unfold job_is, list_count. simpl. lia.
  - assert (created ls = [] /\ dropped ls = [] /\ Forall (fun l => ~ is_register l) ls) as (Ec & Edr & Hn).
    { destruct Hds as [?|? ? ? ? ? ? ? ? ? ?|w r ls H1 H2 H3 H4 H5 He]; [repeat split; auto|repeat split; auto; repeat constructor; simpl; tauto|].
      destruct He; repeat split; auto; repeat constructor; simpl; tauto. }
    change (created (LTau :: ls)) with (created ls). change (dropped (LTau :: ls)) with (dropped ls).
    rewrite Ec, Edr. rewrite Hnoad by (constructor; [simpl; tauto|exact Hn]).
    unfold accepts. simpl ev_in. destruct (is_submission j m) eqn:Es; [|reflexivity].
    destruct (Hsub eq_refl) as (Hk' & _). congruence.
Qed.

Theorem conservation k tr s : run o cfg k tr s -> forall j,
  acceptances j tr + adoptions j tr = reports j tr + list_count (job_is j) (held (s_queue s)).
Proof.
  intros HR j. induction HR as [|tr s m outs s' HR IH Hstep].
  - destruct k; reflexivity.
  - pose proof (run_inv _ _ _ _ _ HR) as HI.
    destruct (on_request_sim _ _ _ _ _ _ HI Hstep) as (ls & A & O & S).
    pose proof (shape_created j _ _ _ _ _ HI A O S) as HC.
    pose proof (list_count_perm (job_is j) _ _ (atoms_conserve _ _ _ _ _ _ _ A HI)) as HP.
    pose proof (atoms_reports j _ _ _ _ _ A) as HRep.
    rewrite !app_nil_r, !list_count_app in HP.
    unfold acceptances, adoptions, reports in *. rewrite !list_count_app, total_app. simpl total.
    rewrite !list_count_cons. cbn [ev_out]. rewrite <- O, HRep.
    change (list_count (accepts j) []) with 0. change (list_count (adopts j) []) with 0. rewrite O. lia.
Qed.

Theorem reports_bounded k tr s : run o cfg k tr s -> forall j, reports j tr <= acceptances j tr + adoptions j tr.
Proof. intros HR j. rewrite (conservation _ _ _ HR j). lia. Qed.

Theorem held_once k tr s : run o cfg k tr s -> NoDup (map r_id (held (s_queue s))).
Proof. intros HR. pose proof (inv_nodup _ _ (run_inv _ _ _ _ _ HR)) as H. rewrite app_nil_r in H. exact H. Qed.

End WithConfig.
