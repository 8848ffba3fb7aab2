(* How often a request can be sent to workers (C09). *)
From Coq Require Import Permutation Lia.
From Verif Require Import Base Bytes Containers Worker Multi Single Queue Handler Spec Facts QueueInv Atoms
  HandlerSim Conserve Provenance.
Local Open Scope string_scope.
Local Open Scope list_scope.

Section WithConfig.
Context (o : oracle) (cfg : config) (j : string).
Local Notation atoms := (atoms o cfg).
Local Notation atom := (atom o cfg).

Definition limit : N := N.max 1 (c_max_failures cfg).

Definition mine (r : request) : bool := r_complete r && job_is j r.

(* sends a request may still cause; c is 1 for a request that is with a worker *)
Definition bud (t : table) (c : N) (r : request) : nat :=
  if mine r then N.to_nat (limit - (tbl_get (r_id r) t + c)) else 0.

Definition potential (s : state) (h : list request) : nat :=
  total (bud (s_fails s) 1) (running (s_queue s)) + total (bud (s_fails s) 0) (queued (s_queue s) ++ h).

Definition well_formed (r : request) : Prop :=
  if r_complete r then exists rest, r_frames r = "eval" :: r_job r :: rest else r_frames r = [].

Definition binv (s : state) (h : list request) : Prop :=
  (forall r, In r (queued (s_queue s)) -> (tbl_get (r_id r) (s_fails s) < limit)%N) /\
  (forall r, In r (held (s_queue s) ++ h) -> well_formed r).

Lemma bud_incr t r c l v : ~ In (r_id r) (map r_id l) -> total (bud (tbl_set (r_id r) v t) c) l = total (bud t c) l.
Proof.
  intros H. apply total_ext. intros a Ha. unfold bud. rewrite tbl_get_set_ne; [reflexivity|].
  intros E. apply H. rewrite <- E. apply in_map. exact Ha.
Qed.

Lemma bud_step t r : (tbl_get (r_id r) t < limit)%N -> mine r = true -> bud t 0 r = S (bud t 1 r).
Proof. unfold bud. intros H ->. lia. Qed.
Lemma bud_le t r c : bud t c r <= N.to_nat limit.
Proof. unfold bud. destruct (mine r); lia. Qed.
Lemma bud_mono t r : bud t 1 r <= bud t 0 r.
Proof. unfold bud. destruct (mine r); lia. Qed.
Lemma bud_failed t r : bud (tbl_set (r_id r) (tbl_get (r_id r) t + 1) t) 0 r = bud t 1 r.
Proof. unfold bud. rewrite tbl_get_set_eq. destruct (mine r); [|reflexivity]. f_equal. lia. Qed.

Lemma dispatch_mine w r : well_formed r -> is_dispatch j (dispatch_msg w r) = mine r.
Proof.
  unfold well_formed, is_dispatch, dispatch_msg, mine. cbn [m_key m_data].
  change (String.eqb "workers" "workers") with true. cbn [andb]. destruct (r_complete r).
  - intros (rest & ->). cbn [andb]. unfold job_is.
    destruct (starts_with ["eval"; j] ("eval" :: r_job r :: rest)) eqn:E.
    + apply starts_with_iff in E. destruct E as (rr & E). injection E as -> _. symmetry. apply String.eqb_refl.
    + symmetry. apply String.eqb_neq. intros <-.
      assert (starts_with ["eval"; r_job r] ("eval" :: r_job r :: rest) = true)
        by (apply starts_with_iff; eexists; reflexivity). congruence.
  - intros ->. reflexivity.
Qed.

Lemma limit_guard r s : (failures r s < c_max_failures cfg)%N \/ failures r s = 0%N ->
  (tbl_get (r_id r) (s_fails s) < limit)%N.
Proof. unfold failures, limit. lia. Qed.

Lemma count_one (p : msg -> bool) m : list_count p [m] = if p m then 1 else 0.
Proof. rewrite list_count_cons. simpl. unfold list_count. simpl. lia. Qed.

Lemma total_cons (f : request -> nat) r l : total f (r :: l) = f r + total f l.
Proof. reflexivity. Qed.
Lemma total_nil (f : request -> nat) : total f [] = 0.
Proof. reflexivity. Qed.

Lemma total_olist f (x : option request) : total f (olist x) = match x with Some r => f r | None => 0 end.
Proof. destruct x; simpl; lia. Qed.

(* taking x out of the queue and giving it to a worker *)
Lemma take_cost t w x q q' :
  Permutation q (olist x ++ q') -> (forall r, In r q -> (tbl_get (r_id r) t < limit)%N) ->
  (forall r, In r q -> well_formed r) ->
  list_count (is_dispatch j) (match x with Some r => [dispatch_msg w r] | None => [] end)
    + total (bud t 1) (olist x) + total (bud t 0) q' <= total (bud t 0) q.
Proof.
  intros P H1 H2. rewrite (total_perm _ _ _ P), total_app, !total_olist. destruct x as [r|]; [|simpl; unfold list_count; simpl; lia].
  assert (Hin : In r q) by (eapply Permutation_in; [symmetry; exact P|simpl; auto]).
  rewrite count_one, dispatch_mine by auto. destruct (mine r) eqn:Em.
  - rewrite (bud_step t r (H1 r Hin) Em). lia.
  - pose proof (bud_mono t r). lia.
Qed.

Lemma atom_budget s h l s' h' : inv s h -> binv s h -> atom s h l s' h' ->
  list_count (is_dispatch j) (outs_of l) + potential s' h' <=
    potential s h + N.to_nat limit * list_count mine (created_of l) /\ binv s' h'.
Proof.
  intros HI HB Ha. pose proof (atom_inv _ _ _ _ _ _ _ HI Ha) as HI'.
  pose proof (atom_conserve _ _ _ _ _ _ _ HI Ha) as HC. destruct HB as (B1 & B2).
  assert (W' : (forall r, In r (created_of l) -> well_formed r) -> forall r, In r (held (s_queue s') ++ h') -> well_formed r).
  { intros Hcr r Hr. pose proof (conserve_in _ _ _ _ HC r Hr) as Hi. rewrite in_app_iff in Hi. destruct Hi; auto. }
  pose proof (inv_nodup _ _ HI) as Hnd.
  assert (Hcur : forall w r, In w (s_reg s) -> current_of (s_queue s) w = Some r -> forall m' ,
            Permutation (running (s_queue s)) (r :: running m') -> incl (queued m') (queued (s_queue s)) ->
            ~ In (r_id r) (map r_id (running m')) /\ ~ In (r_id r) (map r_id (queued (s_queue s) ++ h))).
  { intros w r _ _ m' P _. unfold held in Hnd. rewrite <- app_assoc in Hnd.
    eapply Permutation_NoDup in Hnd; [|apply Permutation_map; apply Permutation_app_tail; exact P].
    simpl in Hnd. inversion Hnd as [|? ? Hni _]; subst. rewrite map_app, in_app_iff in Hni. tauto. }
  destruct HI as [Hq Hw Hnd0 Hr Hf]. unfold potential, binv. destruct Ha.
  - (* tau *) unfold core in H. injection H as _ E2 E3 _ _. rewrite <- E2, <- E3 in *. simpl.
    split; [unfold list_count; simpl; lia|]. split; [exact B1|exact B2].
  - (* perm *) simpl. split; [|split; [exact B1|]].
    + rewrite !total_app, (total_perm _ _ _ H). unfold list_count; simpl. lia.
    + apply W'. intros r [].
  - (* msg *) simpl outs_of. destruct H as (_ & H & _). rewrite count_one, H.
    split; [lia|]. split; [exact B1|exact B2].
  - (* create *) simpl. split; [|split; [exact B1|]].
    + rewrite !total_app. simpl. rewrite list_count_cons. pose proof (bud_le (s_fails s) r 0).
      assert (bud (s_fails s) 0 r <= N.to_nat limit * (if mine r then 1 else 0)).
      { destruct (mine r) eqn:E; [lia|]. unfold bud. rewrite E. lia. }
      unfold list_count. simpl. lia.
    + apply W'. intros r' [<-|[]]. unfold well_formed. rewrite H0. eexists. exact H1.
  - (* drop *) simpl. split; [|split; [exact B1|]].
    + rewrite !total_app. unfold list_count; simpl. lia.
    + apply W'. intros r' [].
  - (* register *) unfold core in H4. injection H4 as E1 E2 E3 E4 E5. rewrite E2, E3.
    assert (Hni : ~ In (w_id w) (ids (s_reg s))).
    { intros Hc. apply in_ids_inv in Hc. destruct Hc as (w' & Hi & E). specialize (Hw w' Hi). lia. }
    assert (HA : add_post (s_queue s) (s_reg s) w cur x m').
    { eapply q_add_spec; eauto. intros r Hc. apply (H2 r Hc). }
    destruct HA as (HQ' & HA). destruct cur as [r|].
    + destruct HA as (Hu & Eq & Ex). destruct (H2 r eq_refl) as (Hc & _ & Hfr).
      pose proof (running_grow _ _ _ _ _ Hq HQ' Hni Hu) as P. rewrite (total_perm _ _ _ P), total_app, Eq.
      assert (Eb : forall c, bud (s_fails s) c r = 0) by (intros c; unfold bud, mine; rewrite Hc; reflexivity).
      assert (Hd : list_count (is_dispatch j) (outs_of (LRegister w (Some r) x)) = 0).
      { rewrite Ex. destruct (s_queue s); [|reflexivity]. simpl outs_of. rewrite count_one.
        unfold is_dispatch, dispatch_msg. cbn [m_key m_data]. rewrite Hfr. reflexivity. }
      split; [rewrite Hd; simpl; rewrite Eb; lia|]. split; [exact B1|].
      rewrite E2 in W'. apply W'. intros r' [<-|[]]. unfold well_formed. rewrite Hc. exact Hfr.
    + destruct HA as (Hu & P0 & _). pose proof (running_grow _ _ _ _ _ Hq HQ' Hni Hu) as P.
      rewrite (total_perm _ _ _ P), !total_app.
      pose proof (take_cost (s_fails s) w x _ _ P0 B1) as HT.
      assert (HWq : forall r, In r (queued (s_queue s)) -> well_formed r).
      { intros r Hi. apply B2. rewrite in_app_iff. left. apply queued_held. exact Hi. }
      specialize (HT HWq). simpl outs_of. simpl created_of. unfold list_count at 2. simpl filter.
      simpl length. split; [destruct x; simpl in *; lia|]. split.
      * intros r Hi. apply B1. eapply Permutation_in; [symmetry; exact P0|]. rewrite in_app_iff. auto.
      * rewrite E2 in W'. apply W'. intros r' [].
  - (* done *) destruct (q_cancelled_spec _ _ w Hq H) as (m1 & E & Q1 & Eq1 & Hu). rewrite E in H2. injection H2 as _ <-.
    pose proof (running_upd _ _ _ w None Hq Q1 H ltac:(auto)) as P. rewrite H0 in P. simpl in P. rewrite app_nil_r in P.
    assert (P' : Permutation (running (s_queue s)) (r :: running m1)).
    { rewrite <- P. symmetry. apply Permutation_cons_append. }
    destruct (Hcur w r H H0 m1 P') as (N1 & N2); [rewrite Eq1; apply incl_refl|].
    assert (Hrep : is_dispatch j m = false).
    { unfold is_dispatch. destruct H1 as (-> & _). reflexivity. }
    assert (Esq : s_queue s' = m1) by (destruct H3; subst; reflexivity).
    assert (Hbud : total (bud (s_fails s') 1) (running m1) = total (bud (s_fails s) 1) (running m1) /\
                   total (bud (s_fails s') 0) (queued (s_queue s) ++ h) = total (bud (s_fails s) 0) (queued (s_queue s) ++ h)).
    { destruct H3 as [->| ->]; simpl; [auto|]. split; apply bud_incr; assumption. }
    rewrite Esq in *. rewrite Eq1. destruct Hbud as (-> & ->). simpl outs_of. rewrite count_one, Hrep.
    rewrite (total_perm _ _ _ P'), total_cons. split; [simpl; lia|]. split.
    + intros r' Hi. specialize (B1 r' Hi). destruct H3 as [->| ->]; simpl; [exact B1|].
      destruct (Nat.eqb_spec (r_id r') (r_id r)) as [Ei|_]; [|exact B1]. exfalso. apply N2. rewrite <- Ei.
      apply in_map. rewrite in_app_iff. auto.
    + apply W'. intros r' [].
  - (* cancel *) destruct (q_cancelled_spec _ _ w Hq H) as (m1 & E & Q1 & Eq1 & Hu). rewrite E in H1. injection H1 as _ <-.
    pose proof (running_upd _ _ _ w None Hq Q1 H ltac:(auto)) as P. rewrite H0 in P. simpl in P. rewrite app_nil_r in P.
    assert (P' : Permutation (running (s_queue s)) (r :: running m1)).
    { rewrite <- P. symmetry. apply Permutation_cons_append. }
    destruct (Hcur w r H H0 m1 P') as (N1 & N2); [rewrite Eq1; apply incl_refl|].
    unfold incr_fails. cbn [s_queue s_fails set_queue set_fails outs_of created_of] in *. rewrite Eq1.
    rewrite (total_perm _ _ _ P'). change (failures r (set_queue m1 s)) with (tbl_get (r_id r) (s_fails s)).
    rewrite (bud_incr _ _ _ _ _ N1).
    assert (E3 : total (bud (tbl_set (r_id r) (tbl_get (r_id r) (s_fails s) + 1)%N (s_fails s)) 0) (queued (s_queue s) ++ r :: h)
               = bud (s_fails s) 1 r + total (bud (s_fails s) 0) (queued (s_queue s) ++ h)).
    { rewrite (total_perm _ _ (r :: queued (s_queue s) ++ h)) by (symmetry; apply Permutation_middle).
      rewrite ?total_cons, ?total_nil. rewrite bud_failed. f_equal. apply bud_incr. exact N2. }
    rewrite E3. split; [unfold list_count; simpl; lia|]. split.
    + intros r' Hi. rewrite tbl_get_set_ne; [apply B1; exact Hi|]. intros Ei. apply N2. rewrite <- Ei.
      apply in_map. rewrite in_app_iff. auto.
    + apply W'. intros r' [].
  - (* assign *) destruct (q_assign_spec o _ _ _ _ _ Hq H H0 H1) as (Q1 & Hu & P0 & _).
    pose proof (running_upd _ _ _ w x Hq Q1 H ltac:(auto)) as P. rewrite H0 in P. simpl in P. rewrite app_nil_r in P.
    cbn [s_queue s_fails set_queue]. rewrite (total_perm _ _ _ P), !total_app.
    pose proof (take_cost (s_fails s) w x _ _ P0 B1) as HT.
    assert (HWq : forall r, In r (queued (s_queue s)) -> well_formed r).
    { intros r Hi. apply B2. rewrite in_app_iff. left. apply queued_held. exact Hi. }
    specialize (HT HWq). simpl outs_of. simpl created_of. unfold list_count at 2. simpl filter.
    simpl length. split; [destruct x; simpl in *; lia|]. split.
    + intros r Hi. apply B1. eapply Permutation_in; [symmetry; exact P0|]. rewrite in_app_iff. auto.
    + apply W'. intros r' [].
  - (* enqueue *) pose proof (limit_guard _ _ H0) as Hlim.
    destruct (q_enqueue_spec o _ _ _ _ _ Hq H H1) as (Q1 & HE). cbn [s_queue s_fails set_queue].
    destruct x as [w|].
    + destruct HE as (Hin & Hc & _ & Hu & Eq1).
      pose proof (running_upd _ _ _ w (Some r) Hq Q1 Hin ltac:(auto)) as P. rewrite Hc in P. simpl in P. rewrite app_nil_r in P.
      rewrite (total_perm _ _ _ P), !total_app, Eq1. cbn [outs_of created_of]. rewrite ?total_cons, ?total_nil.
      rewrite count_one, dispatch_mine by (apply B2; rewrite in_app_iff; simpl; auto).
      split.
      * destruct (mine r) eqn:Em; [rewrite (bud_step _ r Hlim Em); unfold list_count; simpl; lia|].
        pose proof (bud_mono (s_fails s) r). unfold list_count. simpl. lia.
      * split; [exact B1|]. apply W'. intros r' [].
    + destruct HE as (_ & Hu & P0). pose proof (running_same _ _ _ Hq Q1 ltac:(auto)) as P.
      rewrite (total_perm _ _ _ P), !total_app, (total_perm _ _ _ P0). cbn [outs_of created_of]. rewrite ?total_cons, ?total_nil.
      split; [unfold list_count; simpl; lia|]. split; [|apply W'; intros r' []].
      intros r' Hi. eapply Permutation_in in Hi; [|exact P0]. destruct Hi as [<-|Hi]; [exact Hlim|apply B1; exact Hi].
  - (* report *) simpl outs_of. rewrite count_one.
    assert (is_dispatch j m = false) as -> by (unfold is_dispatch; destruct H as (-> & _); reflexivity).
    rewrite !total_app. rewrite ?total_cons, ?total_nil. split; [lia|]. split; [exact B1|]. apply W'. intros r' [].
  - (* expire *) destruct (q_terminated_spec _ _ w rs m' Hq H H0) as (gone & -> & Q1 & Hu & P0 & _).
    pose proof (running_shrink _ _ _ _ Hq Q1 H Hu) as P.
    assert (Hsub : forall r, In r (queued m') -> In r (queued (s_queue s))).
    { intros r Hi. eapply Permutation_in; [symmetry; exact P0|]. rewrite in_app_iff. auto. }
    cbn [s_queue s_fails set_queue outs_of created_of]. destruct (current_of (s_queue s) w) as [r|] eqn:Ec.
    + destruct (Hcur w r H Ec m' P) as (N1 & N2); [exact Hsub|].
      unfold incr_opt, incr_fails. cbn [s_fails set_fails set_reg].
      change (failures r (set_reg (reg_remove w (s_reg s)) s)) with (tbl_get (r_id r) (s_fails s)).
      rewrite (total_perm _ _ _ P). simpl app. rewrite (bud_incr _ _ _ _ _ N1).
      assert (E3 : total (bud (tbl_set (r_id r) (tbl_get (r_id r) (s_fails s) + 1)%N (s_fails s)) 0) (queued m' ++ r :: gone ++ h)
                 = bud (s_fails s) 1 r + total (bud (s_fails s) 0) (queued (s_queue s) ++ h)).
      { rewrite (total_perm _ _ (r :: queued (s_queue s) ++ h)).
        - rewrite ?total_cons, ?total_nil. rewrite bud_failed. f_equal. apply bud_incr. exact N2.
        - rewrite <- Permutation_middle. constructor. rewrite P0. rewrite !app_assoc. apply Permutation_app_tail.
          apply Permutation_app_comm. }
      rewrite total_cons, E3. split; [unfold list_count; simpl; lia|]. split.
      * intros r' Hi. rewrite tbl_get_set_ne; [apply B1; auto|]. intros Ei. apply N2. rewrite <- Ei.
        apply in_map. rewrite in_app_iff. auto.
      * apply W'. intros r' [].
    + simpl app in *. cbn [incr_opt s_fails set_reg]. rewrite (total_perm _ _ _ P).
      assert (E3 : total (bud (s_fails s) 0) (queued m' ++ gone ++ h) = total (bud (s_fails s) 0) (queued (s_queue s) ++ h)).
      { apply total_perm. rewrite P0. rewrite !app_assoc. apply Permutation_app_tail. apply Permutation_app_comm. }
      rewrite E3. split; [unfold list_count; simpl; lia|]. split; [auto|]. apply W'. intros r' [].
Qed.

Lemma atoms_budget s h ls s' h' : atoms s h ls s' h' -> inv s h -> binv s h ->
  list_count (is_dispatch j) (outs_all ls) + potential s' h' <=
    potential s h + N.to_nat limit * list_count mine (created ls) /\ binv s' h'.
Proof.
  induction 1 as [s h|s h l s1 h1 ls s2 h2 Ha _ IH]; intros HI HB.
  - split; [unfold list_count; simpl; lia|exact HB].
  - destruct (atom_budget _ _ _ _ _ HI HB Ha) as (H1 & HB1).
    destruct (IH (atom_inv _ _ _ _ _ _ _ HI Ha) HB1) as (H2 & HB2). split; [|exact HB2].
    unfold outs_all, created in *. simpl. rewrite !list_count_app. lia.
Qed.

Lemma quiet_mine ls : Forall quiet ls -> list_count mine (created ls) = 0.
Proof. intros F. rewrite (quiet_created _ F). reflexivity. Qed.

(* over one message *)
Lemma step_budget m s s' ls outs : inv s [] -> binv s [] -> atoms s [] ls s' [] -> outs_all ls = outs ->
  shape o cfg m s s' ls ->
  list_count (is_dispatch j) outs + potential s' [] <=
    potential s [] + N.to_nat limit * (if accepts j (mkEvent s m outs s') then 1 else 0) /\ binv s' [].
Proof.
  intros HI HB HA HO HS. destruct (atoms_budget _ _ _ _ _ HA HI HB) as (H1 & H2). split; [|exact H2].
  rewrite HO in H1.
  assert (Hcase : list_count mine (created ls) = 0 -> list_count (is_dispatch j) outs + potential s' [] <=
    potential s [] + N.to_nat limit * (if accepts j (mkEvent s m outs s') then 1 else 0)).
  { intros E. rewrite E in H1. lia. }
  pose proof (shape_created o cfg j m s s' ls outs HI HA HO HS) as HC.
  destruct HS as [ls Hq Hne|ls Hk Ht|ls rest Hk Hd He|pre w' cur' x' next rest Hk Hd Hq Hr|ls rest Hk Hd Hds].
  - apply Hcase. apply quiet_mine. exact Hq.
  - apply Hcase. rewrite (timer_created _ Ht). reflexivity.
  - assert (Had : adopts j (mkEvent s m outs s') = false).
    { unfold adopts. simpl ev_in. rewrite Hk. reflexivity. }
    rewrite Had in HC.
    destruct He as [Hp|r' Hs Hf|r' x Hs Hf|r' Hs Hf Hno].
    + apply Hcase. reflexivity.
    + apply Hcase. reflexivity.
    + destruct (submits_block _ _ _ _ Hd Hs) as (_ & _ & _ & _ & _ & _ & Hc' & _).
      cbn [created dropped flat_map created_of dropped_of app] in *. rewrite !list_count_cons in *.
      unfold list_count in HC at 1 2. simpl in HC.
      assert (mine r' = job_is j r') as Em by (unfold mine; rewrite Hc'; reflexivity).
      rewrite Em in H1. unfold list_count in H1 at 2. simpl in H1. destruct (accepts j _), (job_is j r'); lia.
    + assert (E : core s' = (s_reg s, s_queue s, s_fails s, s_next_w s, S (s_next_r s)) /\ list_count (is_dispatch j) outs = 0).
      { rewrite <- HO. clear - HA Hk.
        destruct (atoms_cons_inv _ _ _ _ _ _ _ _ HA) as (s1 & h1 & A1 & HA1).
        destruct (atoms_cons_inv _ _ _ _ _ _ _ _ HA1) as (s2 & h2 & A2 & HA2).
        destruct (atoms_cons_inv _ _ _ _ _ _ _ _ HA2) as (s3 & h3 & A3 & HA3).
        destruct (atoms_cons_inv _ _ _ _ _ _ _ _ HA3) as (s4 & h4 & A4 & HA4).
        destruct (atoms_cons_inv _ _ _ _ _ _ _ _ HA4) as (s5 & h5 & A5 & HA5).
        destruct (atoms_nil_inv _ _ _ _ _ _ HA5) as (-> & _).
        inversion A1; subst. inversion A2; subst. inversion A3; subst. inversion A4; subst. inversion A5; subst.
        split; reflexivity. }
      destruct E as (E & ->). unfold core in E. injection E as _ E2 E3 _ _.
      unfold potential. rewrite E2, E3. lia.
  - apply Hcase. unfold created. rewrite flat_map_app, list_count_app. fold (created pre). rewrite (quiet_mine _ Hq).
    simpl. rewrite app_nil_r. destruct cur' as [c|]; [|reflexivity].
    destruct (atoms_app_inv _ _ _ _ _ _ _ _ HA) as (s1 & h1 & A1 & A2).
    destruct (atoms_cons_inv _ _ _ _ _ _ _ _ A2) as (s2 & h2 & A3 & A4).
    inversion A3; subst. match goal with HH : forall r0, Some c = Some r0 -> _ |- _ => destruct (HH c eq_refl) as (Hc & _ & Hfr) end.
    unfold list_count, mine. simpl. rewrite Hc. reflexivity.
  - apply Hcase. change (created (LTau :: ls)) with (created ls).
    destruct Hds as [?|? ? ? ? ? ? ? ? ? ?|w' r' ls H3 H4 H5 H6 H7 He]; [reflexivity|reflexivity|].
    destruct He; reflexivity.
Qed.

Lemma binv_init k : binv (init_state (empty_manager k)) [].
Proof. destruct k; split; intros r []. Qed.

Theorem run_budget k tr s : run o cfg k tr s ->
  dispatches j tr + potential s [] <= N.to_nat limit * acceptances j tr /\ binv s [].
Proof.
  induction 1 as [|tr s m outs s' HR IH Hstep].
  - split; [|apply binv_init]. destruct k; unfold potential, dispatches, acceptances, list_count; simpl; lia.
  - pose proof (run_inv _ _ _ _ _ HR) as HI. destruct IH as (IH & HB).
    destruct (on_request_sim _ _ _ _ _ _ HI Hstep) as (ls & A & O & S).
    destruct (step_budget _ _ _ _ _ HI HB A O S) as (H & HB'). split; [|exact HB'].
    unfold dispatches, acceptances in *. rewrite total_app, list_count_app, list_count_cons. simpl total. cbn [ev_out].
    unfold list_count in *. simpl filter in *. simpl length in *. lia.
Qed.

End WithConfig.

Theorem redispatch_bounded o cfg k tr s : run o cfg k tr s -> forall j,
  (N.of_nat (dispatches j tr) <= N.max 1 (c_max_failures cfg) * N.of_nat (acceptances j tr))%N.
Proof. intros HR j. destruct (run_budget o cfg j k tr s HR) as (H & _). unfold limit in H. nia. Qed.
