(* Every handler run is a sequence of small actions on (state, requests in hand). A request is "in
   hand" between leaving the queue manager (or being created) and being stored again, reported or
   refused. *)
From Verif Require Import Base Bytes Containers Worker Multi Single Queue Handler Spec Facts QueueInv.
Local Open Scope string_scope.
Local Open Scope list_scope.

Inductive label : Type :=
| LTau
| LMsg (m : msg)                                  (* a message that is neither a report nor a dispatch *)
| LCreate (r : request)                           (* a client's request comes into being *)
| LDrop (r : request)                             (* a created request is refused *)
| LRegister (w : worker) (cur x : option request) (* worker added, announcing cur, given x *)
| LDone (w : worker) (r : request) (m : msg)      (* current request finished and reported by m *)
| LCancel (w : worker) (r : request)              (* current request failed, now in hand *)
| LAssign (w : worker) (x : option request)       (* w takes x from the queue *)
| LEnqueue (r : request) (x : option worker)      (* request in hand stored, or sent to x *)
| LReport (r : request) (m : msg)                 (* request in hand reported by m *)
| LExpire (w : worker) (rs : list request).       (* worker removed, its requests in hand *)

Definition dispatch_msg (w : worker) (r : request) : msg := Msg "workers" (w_identity w) (r_frames r).

Definition outs_of (l : label) : list msg :=
  match l with
  | LMsg m => [m]
  | LRegister w _ (Some r) => [dispatch_msg w r]
  | LDone _ _ m => [m]
  | LAssign w (Some r) => [dispatch_msg w r]
  | LEnqueue r (Some w) => [dispatch_msg w r]
  | LReport _ m => [m]
  | _ => []
  end.
Definition outs_all (ls : list label) : list msg := flat_map outs_of ls.

(* requests sent to workers by a label *)
Definition sends_of (l : label) : list (worker * request) :=
  match l with
  | LRegister w _ (Some r) => [(w, r)]
  | LAssign w (Some r) => [(w, r)]
  | LEnqueue r (Some w) => [(w, r)]
  | _ => []
  end.
Definition sends (ls : list label) := flat_map sends_of ls.

Definition created_of (l : label) : list request :=
  match l with LCreate r => [r] | LRegister _ (Some r) _ => [r] | _ => [] end.
Definition created (ls : list label) := flat_map created_of ls.
Definition finished_of (l : label) : list request :=
  match l with LDone _ r _ => [r] | LReport r _ => [r] | _ => [] end.
Definition finished (ls : list label) := flat_map finished_of ls.
Definition dropped_of (l : label) : list request := match l with LDrop r => [r] | _ => [] end.
Definition dropped (ls : list label) := flat_map dropped_of ls.

Definition neutral (m : msg) : Prop :=
  (forall j, is_report j m = false) /\ (forall j, is_dispatch j m = false) /\
  (m_key m = "workers" -> m_data m <> [] /\ forall rest, m_data m <> "eval" :: rest).
Definition report_for (j : string) (m : msg) : Prop :=
  m_key m = "status_notifier" /\ m_ident m = "" /\
  exists rest, m_data m = "type" :: "job-status" :: "id" :: j :: "status" :: rest.

(* the part of the state that matters for jobs *)
Definition core (s : state) := (s_reg s, s_queue s, s_fails s, s_next_w s, s_next_r s).

Definition incr_fails (r : request) (s : state) : state :=
  set_fails (tbl_set (r_id r) (failures r s + 1)%N (s_fails s)) s.
Definition incr_opt (x : option request) (s : state) : state :=
  match x with Some r => incr_fails r s | None => s end.

Section WithConfig.
Context (o : oracle) (cfg : config).

Inductive atom : state -> list request -> label -> state -> list request -> Prop :=
| a_tau : forall s s' h, core s = core s' -> atom s h LTau s' h
| a_perm : forall s h h', Permutation h h' -> atom s h LTau s h'
| a_msg : forall s h m, neutral m -> atom s h (LMsg m) s h
| a_create : forall s h r, r_id r = s_next_r s -> r_complete r = true ->
    r_frames r = "eval" :: r_job r :: skipn 2 (r_frames r) ->
    atom s h (LCreate r) (set_next_r (S (s_next_r s)) s) (r :: h)
| a_drop : forall s h r, atom s (r :: h) (LDrop r) s h
| a_register : forall s h w cur x m' n s',
    w_id w = s_next_w s ->
    (exists h1 d, exists w0, make_worker (s_next_w s) (o_addr o (s_next_w s)) (w_identity w) h1 d = Val w0 /\
        w = set_description (w_description w) w0) ->
    s_next_r s <= n ->
    (forall r, cur = Some r -> r_complete r = false /\ s_next_r s <= r_id r < n /\ r_frames r = []) ->
    q_add_worker o w cur (s_queue s) = Val (x, m') ->
    core s' = (s_reg s ++ [w], m', s_fails s, S (s_next_w s), n) ->
    atom s h (LRegister w cur x) s' h
| a_done : forall s h w r m m' s', In w (s_reg s) -> current_of (s_queue s) w = Some r ->
    report_for (r_job r) m ->
    q_worker_cancelled w (s_queue s) = Val (Some r, m') ->
    s' = set_queue m' s \/ s' = incr_fails r (set_queue m' s) ->
    atom s h (LDone w r m) s' h
| a_cancel : forall s h w r m', In w (s_reg s) -> current_of (s_queue s) w = Some r ->
    q_worker_cancelled w (s_queue s) = Val (Some r, m') ->
    atom s h (LCancel w r) (incr_fails r (set_queue m' s)) (r :: h)
| a_assign : forall s h w x m', In w (s_reg s) -> current_of (s_queue s) w = None ->
    q_assign_request o w (s_queue s) = Val (x, m') ->
    atom s h (LAssign w x) (set_queue m' s) h
| a_enqueue : forall s h r x m', r_complete r = true ->
    (failures r s < c_max_failures cfg)%N \/ failures r s = 0%N ->
    q_enqueue_request o r (s_queue s) = Val (mkEnq x true, m') ->
    atom s (r :: h) (LEnqueue r x) (set_queue m' s) h
| a_report : forall s h r m, report_for (r_job r) m -> atom s (r :: h) (LReport r m) s h
| a_expire : forall s h w rs m', In w (s_reg s) ->
    q_worker_terminated w (s_queue s) = Val (rs, m') ->
    atom s h (LExpire w rs)
      (set_queue m' (incr_opt (current_of (s_queue s) w) (set_reg (reg_remove w (s_reg s)) s))) (rs ++ h).

Inductive atoms : state -> list request -> list label -> state -> list request -> Prop :=
| as_nil : forall s h, atoms s h [] s h
| as_cons : forall s h l s1 h1 ls s2 h2,
    atom s h l s1 h1 -> atoms s1 h1 ls s2 h2 -> atoms s h (l :: ls) s2 h2.

Lemma atoms_app s h ls1 s1 h1 ls2 s2 h2 :
  atoms s h ls1 s1 h1 -> atoms s1 h1 ls2 s2 h2 -> atoms s h (ls1 ++ ls2) s2 h2.
Proof. induction 1; simpl; intros; [assumption|]. econstructor; eauto. Qed.

Lemma atoms_one s h l s' h' : atom s h l s' h' -> atoms s h [l] s' h'.
Proof. intros. econstructor; [eassumption|constructor]. Qed.

(* ---- invariant ---- *)

Record inv (s : state) (h : list request) : Prop := mkInv {
  inv_q : qinv (s_queue s) (s_reg s);
  inv_w : forall w, In w (s_reg s) -> w_id w < s_next_w s;
  inv_nodup : NoDup (map r_id (held (s_queue s) ++ h));
  inv_r : forall r, In r (held (s_queue s) ++ h) -> r_id r < s_next_r s;
  inv_f : forall i, s_next_r s <= i -> tbl_get i (s_fails s) = 0%N }.

(* ---- effect of atoms on what is held ---- *)

Lemma held_cancel m m' ws w r : qinv m ws -> qinv m' ws -> In w ws -> current_of m w = Some r ->
  queued m' = queued m -> (forall w', current_of m' w' = upd (current_of m) w None w') ->
  Permutation (held m) (r :: held m').
Proof.
  intros H H' Hin Hc Hq Hu. unfold held. rewrite Hq.
  pose proof (running_upd m m' ws w None H H' Hin ltac:(auto)) as HP. rewrite Hc in HP. simpl in HP.
  rewrite app_nil_r in HP. rewrite <- HP. rewrite <- app_assoc. symmetry. apply Permutation_middle.
Qed.

Lemma held_assign m ws w x m' : qinv m ws -> In w ws -> current_of m w = None ->
  assign_post m ws w x m' -> Permutation (held m') (held m).
Proof.
  intros H Hin Hc (H' & Hu & Hq & _). unfold held.
  pose proof (running_upd m m' ws w x H H' Hin ltac:(auto)) as HP. rewrite Hc in HP. simpl in HP.
  rewrite app_nil_r in HP. rewrite HP, Hq. rewrite <- app_assoc. reflexivity.
Qed.

Lemma held_enqueue m ws r x m' : qinv m ws -> enqueue_post m ws r (mkEnq x true) m' ->
  Permutation (held m') (r :: held m).
Proof.
  intros H (H' & HE). unfold held. destruct x as [w|].
  - destruct HE as (Hin & Hc & _ & Hu & ->).
    pose proof (running_upd m m' ws w (Some r) H H' Hin ltac:(auto)) as HP. rewrite Hc in HP. simpl in HP.
    rewrite app_nil_r in HP. rewrite HP, <- app_assoc. symmetry. apply Permutation_middle.
  - destruct HE as (_ & Hu & Hq).
    rewrite (running_same m m' ws H H' ltac:(auto)), Hq. symmetry. apply Permutation_middle.
Qed.

Lemma running_grow m m' ws w x : qinv m ws -> qinv m' (ws ++ [w]) -> ~ In (w_id w) (ids ws) ->
  (forall w', current_of m' w' = upd (current_of m) w x w') ->
  Permutation (running m') (running m ++ olist x).
Proof.
  intros H H' Hni Hu. rewrite (running_current _ _ H), (running_current _ _ H').
  rewrite flat_map_app. simpl. rewrite app_nil_r. rewrite Hu. unfold upd at 1. rewrite Nat.eqb_refl.
  apply Permutation_app_tail. apply eq_perm. apply flat_map_ext_in. intros a Ha. rewrite Hu. unfold upd.
  destruct (Nat.eqb_spec (w_id w) (w_id a)) as [E|E]; [|reflexivity].
  exfalso. apply Hni. rewrite E. apply in_ids. exact Ha.
Qed.

Lemma held_add m ws w cur x m' : qinv m ws -> ~ In (w_id w) (ids ws) -> add_post m ws w cur x m' ->
  Permutation (held m') (olist cur ++ held m).
Proof.
  intros H Hni (H' & HA). unfold held. destruct cur as [r|].
  - destruct HA as (Hu & -> & _). rewrite (running_grow m m' ws w (Some r) H H' Hni Hu).
    simpl. rewrite <- app_assoc. symmetry. apply Permutation_middle.
  - destruct HA as (Hu & Hq & _). rewrite (running_grow m m' ws w x H H' Hni Hu).
    rewrite Hq, <- app_assoc. reflexivity.
Qed.

Lemma running_shrink m m' ws w : qinv m ws -> qinv m' (reg_remove w ws) -> In w ws ->
  (forall w', w_id w' <> w_id w -> current_of m' w' = current_of m w') ->
  Permutation (running m) (olist (current_of m w) ++ running m').
Proof.
  intros H H' Hin Hu. rewrite (running_current _ _ H), (running_current _ _ H').
  pose proof (qi_nodup _ _ H) as Hnd.
  rewrite (flat_map_perm _ _ _ (reg_remove_perm w ws Hin Hnd)). simpl.
  apply Permutation_app_head. apply eq_perm. apply flat_map_ext_in. intros a Ha. rewrite Hu; [reflexivity|].
  apply (reg_remove_in w a ws Hnd Hin) in Ha. destruct Ha as (Ha & Hne). intros E. apply Hne.
  eapply ids_inj; eauto.
Qed.

Lemma held_terminated m ws w rs m' : qinv m ws -> In w ws -> q_worker_terminated w m = Val (rs, m') ->
  Permutation (held m) (rs ++ held m').
Proof.
  intros H Hin E. destruct (q_terminated_spec m ws w rs m' H Hin E) as (gone & -> & H' & Hu & Hq & _).
  unfold held. rewrite (running_shrink m m' ws w H H' Hin Hu), Hq.
  rewrite <- !app_assoc. apply Permutation_app_head.
  rewrite !app_assoc. apply Permutation_app_tail. apply Permutation_app_comm.
Qed.

(* ---- conservation and preservation of the invariant ---- *)

Lemma atom_conserve s h l s' h' : inv s h -> atom s h l s' h' ->
  Permutation (created_of l ++ held (s_queue s) ++ h)
              (dropped_of l ++ finished_of l ++ held (s_queue s') ++ h').
Proof.
  intros [Hq Hw Hnd Hr Hf] Ha. destruct Ha; simpl.
  - unfold core in H. injection H as _ -> _ _ _. reflexivity.
  - rewrite H. reflexivity.
  - reflexivity.
  - apply Permutation_middle.
  - symmetry. apply Permutation_middle.
  - unfold core in H4. injection H4 as _ -> _ _ _.
    assert (Hni : ~ In (w_id w) (ids (s_reg s))).
    { intros Hc. apply in_ids_inv in Hc. destruct Hc as (w' & Hi & E). specialize (Hw w' Hi). lia. }
    assert (HA : add_post (s_queue s) (s_reg s) w cur x m').
    { eapply q_add_spec; eauto. intros r Hc. apply (H2 r Hc). }
    rewrite (held_add _ _ _ _ _ _ Hq Hni HA). destruct cur; simpl; reflexivity.
  - destruct (q_cancelled_spec _ _ w Hq H) as (m1 & E & H1' & Hqq & Hu).
    rewrite E in H2. injection H2 as _ <-.
    assert (Es : s_queue s' = m1) by (destruct H3; subst; reflexivity). rewrite Es.
    rewrite (held_cancel _ _ _ _ _ Hq H1' H H0 Hqq Hu). reflexivity.
  - destruct (q_cancelled_spec _ _ w Hq H) as (m1 & E & H1' & Hqq & Hu).
    rewrite E in H1. injection H1 as _ <-.
    rewrite (held_cancel _ _ _ _ _ Hq H1' H H0 Hqq Hu). simpl. apply Permutation_middle.
  - rewrite (held_assign _ _ _ _ _ Hq H H0 (q_assign_spec o _ _ _ _ _ Hq H H0 H1)). reflexivity.
  - rewrite (held_enqueue _ _ _ _ _ Hq (q_enqueue_spec o _ _ _ _ _ Hq H H1)). simpl.
    symmetry. apply Permutation_middle.
  - symmetry. apply Permutation_middle.
  - rewrite (held_terminated _ _ _ _ _ Hq H H0). rewrite <- app_assoc.
    rewrite !app_assoc. apply Permutation_app_tail. apply Permutation_app_comm.
Qed.

Lemma in_held_current m ws w r : qinv m ws -> In w ws -> current_of m w = Some r -> In r (held m).
Proof.
  intros H Hin Hc. unfold held. rewrite in_app_iff. left. rewrite (running_current _ _ H).
  apply in_flat_map. exists w. split; [exact Hin|]. rewrite Hc. simpl. auto.
Qed.

Lemma tbl_get_set_ne k k' v t : k <> k' -> tbl_get k (tbl_set k' v t) = tbl_get k t.
Proof. intros H. simpl. destruct (Nat.eqb_spec k k'); [contradiction|reflexivity]. Qed.
Lemma tbl_get_set_eq k v t : tbl_get k (tbl_set k v t) = v.
Proof. simpl. rewrite Nat.eqb_refl. reflexivity. Qed.

Lemma incr_fails_fresh r s : r_id r < s_next_r s ->
  (forall i, s_next_r s <= i -> tbl_get i (s_fails s) = 0%N) ->
  forall i, s_next_r s <= i -> tbl_get i (s_fails (incr_fails r s)) = 0%N.
Proof.
  intros Hr Hf i Hi. unfold incr_fails. simpl. destruct (Nat.eqb_spec i (r_id r)); [lia|]. auto.
Qed.

Lemma atom_inv s h l s' h' : inv s h -> atom s h l s' h' -> inv s' h'.
Proof.
  intros HI Ha. pose proof (atom_conserve _ _ _ _ _ HI Ha) as HC. destruct HI as [Hq Hw Hnd Hr Hf].
  assert (Hgen : created_of l = [] -> s_next_r s' = s_next_r s ->
            NoDup (map r_id (held (s_queue s') ++ h')) /\
            forall r, In r (held (s_queue s') ++ h') -> r_id r < s_next_r s').
  { intros Hcr Hnr. rewrite Hcr in HC. simpl in HC. split.
    - apply (Permutation_map r_id) in HC. eapply Permutation_NoDup in Hnd; [|exact HC].
      rewrite !map_app in Hnd. apply NoDup_app_r in Hnd. apply NoDup_app_r in Hnd.
      rewrite map_app. exact Hnd.
    - intros r Hin. rewrite Hnr. apply Hr. eapply Permutation_in; [symmetry; exact HC|].
      rewrite !in_app_iff in *. tauto. }
  assert (Hcur : forall w r, In w (s_reg s) -> current_of (s_queue s) w = Some r -> r_id r < s_next_r s).
  { intros w r Hin Hc. apply Hr. rewrite in_app_iff. left. eapply in_held_current; eauto. }
  destruct Ha; simpl in *.
  - destruct (Hgen eq_refl) as (N1 & N2).
    { unfold core in H. injection H as _ _ _ _ ->. reflexivity. }
    unfold core in H. injection H as E1 E2 E3 E4 E5.
    constructor; [rewrite <- E1, <- E2; exact Hq | intros w; rewrite <- E1, <- E4; apply Hw | exact N1 | exact N2
                 | rewrite <- E3, <- E5; exact Hf].
  - destruct (Hgen eq_refl eq_refl). constructor; auto.
  - constructor; auto.
  - constructor; simpl; auto.
    + eapply Permutation_NoDup; [apply Permutation_map; exact HC|]. simpl. constructor; [|exact Hnd].
      intros Hc. apply in_map_iff in Hc. destruct Hc as (r' & E & Hin). specialize (Hr r' Hin). lia.
    + intros r' Hin. eapply Permutation_in in Hin; [|symmetry; exact HC]. simpl in Hin.
      destruct Hin as [<-|Hin]; [lia|]. specialize (Hr r' Hin). lia.
    + intros i Hi. apply Hf. lia.
  - destruct (Hgen eq_refl eq_refl). constructor; auto.
  - unfold core in H4. injection H4 as E1 E2 E3 E4 E5.
    assert (Hni : ~ In (w_id w) (ids (s_reg s))).
    { intros Hc. apply in_ids_inv in Hc. destruct Hc as (w' & Hi & E). specialize (Hw w' Hi). lia. }
    assert (HA : add_post (s_queue s) (s_reg s) w cur x m').
    { eapply q_add_spec; eauto. intros r Hc. apply (H2 r Hc). }
    constructor.
    + rewrite E1, E2. apply HA.
    + rewrite E1, E4. intros w' Hw'. rewrite in_app_iff in Hw'. destruct Hw' as [Hw'|[<-|[]]]; [|lia].
      specialize (Hw w' Hw'). lia.
    + destruct cur as [r|]; simpl in HC.
      * eapply Permutation_NoDup; [apply Permutation_map; exact HC|]. simpl. constructor; [|exact Hnd].
        intros Hc. apply in_map_iff in Hc. destruct Hc as (r' & E & Hin). specialize (Hr r' Hin).
        destruct (H2 r eq_refl) as (_ & Hrr & _). lia.
      * eapply Permutation_NoDup; [apply Permutation_map; exact HC|]. exact Hnd.
    + intros r' Hin. rewrite E5. eapply Permutation_in in Hin; [|symmetry; exact HC].
      destruct cur as [r|]; simpl in Hin.
      * destruct Hin as [<-|Hin]; [destruct (H2 r eq_refl) as (_ & Hrr & _); lia|]. specialize (Hr r' Hin). lia.
      * specialize (Hr r' Hin). lia.
    + rewrite E3, E5. intros i Hi. apply Hf. lia.
  - destruct (q_cancelled_spec _ _ w Hq H) as (m1 & E & H1' & _). rewrite E in H2. injection H2 as _ <-.
    destruct H3; subst s'; destruct (Hgen eq_refl eq_refl); constructor; auto.
    apply (incr_fails_fresh r (set_queue m1 s)); [exact (Hcur w r H H0)|exact Hf].
  - destruct (Hgen eq_refl eq_refl). constructor; auto.
    + simpl. destruct (q_cancelled_spec _ _ w Hq H) as (m1 & E & H1' & _). rewrite E in H1. injection H1 as _ <-. exact H1'.
    + apply (incr_fails_fresh r (set_queue m' s)); [exact (Hcur w r H H0)|exact Hf].
  - destruct (Hgen eq_refl eq_refl). constructor; auto. simpl. apply (q_assign_spec o _ _ _ _ _ Hq H H0 H1).
  - destruct (Hgen eq_refl eq_refl). constructor; auto. simpl. apply (q_enqueue_spec o _ _ _ _ _ Hq H H1).
  - destruct (Hgen eq_refl eq_refl). constructor; auto.
  - assert (Hnr : s_next_r (incr_opt (current_of (s_queue s) w) (set_reg (reg_remove w (s_reg s)) s)) = s_next_r s).
    { destruct (current_of (s_queue s) w); reflexivity. }
    assert (Hnw : s_next_w (incr_opt (current_of (s_queue s) w) (set_reg (reg_remove w (s_reg s)) s)) = s_next_w s).
    { destruct (current_of (s_queue s) w); reflexivity. }
    assert (Hrg : s_reg (incr_opt (current_of (s_queue s) w) (set_reg (reg_remove w (s_reg s)) s)) = reg_remove w (s_reg s)).
    { destruct (current_of (s_queue s) w); reflexivity. }
    destruct (Hgen eq_refl Hnr). constructor; auto; simpl.
    + rewrite Hrg. destruct (q_terminated_spec _ _ w rs m' Hq H H0) as (gone & _ & H' & _). exact H'.
    + intros w' Hw'. rewrite Hrg in Hw'. rewrite Hnw. apply Hw. eapply reg_remove_subset; eauto.
    + rewrite Hnr. destruct (current_of (s_queue s) w) as [r|] eqn:Ec; [|exact Hf].
      apply (incr_fails_fresh r (set_reg (reg_remove w (s_reg s)) s)); [exact (Hcur w r H Ec)|exact Hf].
Qed.

Lemma atoms_inv s h ls s' h' : atoms s h ls s' h' -> inv s h -> inv s' h'.
Proof. induction 1; intros; [assumption|]. apply IHatoms. eapply atom_inv; eauto. Qed.

Lemma atoms_conserve s h ls s' h' : atoms s h ls s' h' -> inv s h ->
  Permutation (created ls ++ held (s_queue s) ++ h)
              (dropped ls ++ finished ls ++ held (s_queue s') ++ h').
Proof.
  induction 1 as [s h|s h l s1 h1 ls s2 h2 Ha _ IH]; intros HI; [reflexivity|].
  pose proof (atom_conserve _ _ _ _ _ HI Ha) as HC.
  specialize (IH (atom_inv _ _ _ _ _ HI Ha)). unfold created, dropped, finished in *. simpl.
  transitivity (flat_map created_of ls ++ (created_of l ++ held (s_queue s) ++ h)); [perm_solve|].
  rewrite HC.
  transitivity (dropped_of l ++ finished_of l ++ (flat_map created_of ls ++ held (s_queue s1) ++ h1)); [perm_solve|].
  rewrite IH. perm_solve.
Qed.

End WithConfig.
