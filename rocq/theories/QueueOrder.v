(* Which request a worker takes (single manager) and which worker gets a request (multi manager). *)
From Coq Require Import Permutation Lia Sorted.
From Verif Require Import Base Bytes Containers Worker Multi Single Queue SpecText Handler Spec SpecRun SpecQueue
  Facts QueueInv OwnQueue QueueContract.
Local Open Scope string_scope.
Local Open Scope list_scope.

(* ---- sorting ---- *)

Definition arrived_le (a b : entry) : Prop := (e_arrived a <= e_arrived b)%Z.

Lemma entry_le_true tie a b : entry_le tie a b = true -> arrived_le a b.
Proof.
  unfold entry_le, arrived_le. rewrite orb_true_iff, andb_true_iff, Z.ltb_lt, Z.eqb_eq. lia.
Qed.
Lemma entry_le_false tie a b : entry_le tie a b = false -> arrived_le b a.
Proof.
  unfold entry_le, arrived_le. rewrite orb_false_iff. rewrite Z.ltb_ge. lia.
Qed.
Lemma arrived_le_trans a b c : arrived_le a b -> arrived_le b c -> arrived_le a c.
Proof. unfold arrived_le. lia. Qed.

Lemma sort_insert_sorted tie e l : StronglySorted arrived_le l -> StronglySorted arrived_le (sort_insert tie e l).
Proof.
  induction 1 as [|x t Hs IH Hf]; simpl; [repeat constructor|].
  destruct (entry_le tie e x) eqn:E.
  - apply entry_le_true in E. constructor; [constructor; assumption|]. constructor; [exact E|].
    eapply Forall_impl; [|exact Hf]. intros y Hy. eapply arrived_le_trans; eauto.
  - apply entry_le_false in E. constructor; [exact IH|].
    eapply Permutation_Forall; [symmetry; apply sort_insert_perm|]. constructor; assumption.
Qed.
Lemma sort_sorted tie l : StronglySorted arrived_le (sort_entries tie l).
Proof. induction l; simpl; [constructor|]. apply sort_insert_sorted. assumption. Qed.

(* Adequacy of the rank function: every ordering by arrival time that std::sort may leave is obtained
   from some ranks. *)
Definition entry_id (e : entry) : nat := r_id (e_request e).
Fixpoint index (n : nat) (l : list nat) : N :=
  match l with [] => 0%N | x :: t => if Nat.eqb x n then 0%N else N.succ (index n t) end.
Definition rank_of (l : list entry) (n : nat) : N := index n (map entry_id l).

Definition entry_leP tie a b : Prop := entry_le tie a b = true.
Lemma entry_le_trans tie a b c : entry_leP tie a b -> entry_leP tie b c -> entry_leP tie a c.
Proof.
  unfold entry_leP, entry_le. rewrite !orb_true_iff, !andb_true_iff, !Z.ltb_lt, !Z.eqb_eq, !N.leb_le. lia.
Qed.
Lemma entry_le_total tie a b : entry_le tie a b = false -> entry_leP tie b a.
Proof.
  unfold entry_leP, entry_le. rewrite orb_false_iff, andb_false_iff, orb_true_iff, andb_true_iff, !Z.ltb_lt, !Z.ltb_ge, !Z.eqb_eq,
    Z.eqb_neq, N.leb_gt, N.leb_le. lia.
Qed.
Lemma sort_insert_sortedT tie e l : StronglySorted (entry_leP tie) l -> StronglySorted (entry_leP tie) (sort_insert tie e l).
Proof.
  induction 1 as [|x t Hs IH Hf]; simpl; [repeat constructor|].
  destruct (entry_le tie e x) eqn:E.
  - constructor; [constructor; assumption|]. constructor; [exact E|].
    eapply Forall_impl; [|exact Hf]. intros y Hy. eapply entry_le_trans; eauto.
  - apply entry_le_total in E. constructor; [exact IH|].
    eapply Permutation_Forall; [symmetry; apply sort_insert_perm|]. constructor; assumption.
Qed.
Lemma sort_sortedT tie l : StronglySorted (entry_leP tie) (sort_entries tie l).
Proof. induction l; simpl; [constructor|]. apply sort_insert_sortedT. assumption. Qed.

Lemma index_inj l a b : In a l -> index a l = index b l -> a = b.
Proof.
  induction l as [|x t IH]; simpl; [tauto|]. intros Hin.
  destruct (Nat.eqb_spec x a) as [->|Ha]; destruct (Nat.eqb_spec a b) as [->|Hb]; auto.
  - destruct (Nat.eqb_spec a b); [contradiction|]. lia.
  - destruct (Nat.eqb_spec x b) as [->|]; [lia|]. intros E. apply N.succ_inj in E. destruct Hin as [?|Hin]; [contradiction|]. auto.
Qed.

Lemma sorted_unique tie l1 : forall l2, StronglySorted (entry_leP tie) l1 -> StronglySorted (entry_leP tie) l2 ->
  Permutation l1 l2 -> (forall a b, In a l1 -> In b l1 -> entry_leP tie a b -> entry_leP tie b a -> a = b) -> l1 = l2.
Proof.
  induction l1 as [|a t IH]; intros l2 S1 S2 HP HA.
  - apply Permutation_nil in HP. auto.
  - destruct l2 as [|b u]; [symmetry in HP; apply Permutation_nil in HP; discriminate|].
    inversion S1 as [|? ? S1' F1]; subst. inversion S2 as [|? ? S2' F2]; subst.
    assert (a = b) as ->.
    { assert (Hb : In b (a :: t)) by (eapply Permutation_in; [symmetry; exact HP|left; reflexivity]).
      assert (Ha : In a (b :: u)) by (eapply Permutation_in; [exact HP|left; reflexivity]).
      destruct Ha as [->|Ha]; [reflexivity|]. destruct Hb as [->|Hb]; [reflexivity|].
      apply HA; [left; reflexivity|right; exact Hb| |].
      - eapply Forall_forall in F1; eauto.
      - eapply Forall_forall in F2; eauto. }
    f_equal. apply IH; auto.
    + eapply Permutation_cons_inv; exact HP.
    + intros x y Hx Hy. apply HA; right; assumption.
Qed.

Lemma index_app_gt l1 a l2 b : ~ In b l1 -> b <> a -> (index a (l1 ++ a :: l2) < index b (l1 ++ a :: l2))%N.
Proof.
  induction l1 as [|x t IH]; simpl; intros Hn Hne.
  - rewrite Nat.eqb_refl. destruct (Nat.eqb_spec a b); [congruence|lia].
  - destruct (Nat.eqb_spec x b); [tauto|]. destruct (Nat.eqb_spec x a); [lia|].
    assert (index a (t ++ a :: l2) < index b (t ++ a :: l2))%N by (apply IH; tauto). lia.
Qed.

Lemma ranks_sorted l : forall pre, NoDup (map entry_id (pre ++ l)) -> StronglySorted arrived_le l ->
  StronglySorted (entry_leP (rank_of (pre ++ l))) l.
Proof.
  induction l as [|a t IH]; intros pre Hnd HS; [constructor|].
  inversion HS as [|? ? HS' HF]; subst. constructor.
  - specialize (IH (pre ++ [a])). rewrite <- app_assoc in IH. simpl in IH. apply IH; assumption.
  - apply Forall_forall. intros b Hb. eapply Forall_forall in HF; [|exact Hb].
    unfold entry_leP, entry_le. apply orb_true_iff. rewrite andb_true_iff, Z.ltb_lt, Z.eqb_eq, N.leb_le.
    unfold arrived_le in HF.
    assert (rank_of (pre ++ a :: t) (entry_id a) < rank_of (pre ++ a :: t) (entry_id b))%N.
    { unfold rank_of. rewrite map_app. simpl. rewrite map_app in Hnd. simpl in Hnd. apply index_app_gt.
      - intros Hc. apply NoDup_remove_1 in Hnd.
        apply (in_split (entry_id b)) in Hc. destruct Hc as (p1 & p2 & Ep). rewrite Ep, <- app_assoc in Hnd. simpl in Hnd.
        apply NoDup_remove_2 in Hnd. apply Hnd. rewrite !in_app_iff. right. right. apply in_map. exact Hb.
      - intros E. apply NoDup_remove_2 in Hnd. apply Hnd. rewrite in_app_iff. right. rewrite <- E. apply in_map. exact Hb. }
    unfold entry_id in *. lia.
Qed.

Theorem sort_adequate l l' : Permutation l l' -> StronglySorted arrived_le l' -> NoDup (map entry_id l) ->
  exists tie, sort_entries tie l = l'.
Proof.
  intros HP HS Hnd. assert (Hnd' : NoDup (map entry_id l')).
  { eapply Permutation_NoDup; [apply Permutation_map; exact HP|exact Hnd]. }
  exists (rank_of l'). apply (sorted_unique (rank_of l')).
  - apply sort_sortedT.
  - apply (ranks_sorted l' []); assumption.
  - rewrite sort_entries_perm. exact HP.
  - intros a b Ha Hb Hab Hba. eapply Permutation_in in Ha; [|rewrite sort_entries_perm; exact HP].
    eapply Permutation_in in Hb; [|rewrite sort_entries_perm; exact HP].
    assert (E : entry_id a = entry_id b).
    { apply (index_inj (map entry_id l')); [apply in_map; exact Ha|].
      unfold entry_leP, entry_le in *. rewrite orb_true_iff, andb_true_iff, Z.ltb_lt, Z.eqb_eq, N.leb_le in *.
      unfold rank_of in *. unfold entry_id in *. lia. }
    clear - E Ha Hb Hnd'. induction l' as [|x t IH]; [contradiction|]. simpl in Hnd'. inversion Hnd' as [|? ? Hni Hn]; subst.
    destruct Ha as [->|Ha], Hb as [->|Hb]; auto; exfalso; apply Hni; [rewrite E|rewrite <- E]; apply in_map; assumption.
Qed.

(* ---- single manager: the oldest fitting request ---- *)

Lemma sorted_mid (l1 l2 : list entry) e : StronglySorted arrived_le (l1 ++ e :: l2) -> forall x, In x l2 -> arrived_le e x.
Proof.
  induction l1 as [|a t IH]; simpl; intros H x Hx; inversion H as [|? ? H1 H2]; subst.
  - eapply Forall_forall in H2; eauto.
  - apply IH; assumption.
Qed.

Section WithOracle.
Context (o : oracle).

Lemma single_assign_oldest w q x q' : single_assign o w q = Val (x, q') ->
  match x with
  | Some r => exists t, Permutation (sq_jobs q) (mkEntry r t :: sq_jobs q') /\
      forall e, In e (sq_jobs q) -> capable w (e_request e) -> (t <= e_arrived e)%Z
  | None => Permutation (sq_jobs q) (sq_jobs q') /\ forall e, In e (sq_jobs q) -> ~ capable w (e_request e)
  end.
Proof.
  unfold single_assign. set (jobs := sort_entries _ _). intros E.
  assert (HP : Permutation jobs (sq_jobs q)) by apply sort_entries_perm.
  assert (HS : StronglySorted arrived_le jobs) by apply sort_sorted.
  destruct (take_first w jobs) as [y|f] eqn:Et; simpl in E; [|discriminate]. apply take_first_spec in Et.
  destruct y as [(r, rest)|]; injection E as <- <-.
  - destruct Et as (l1 & e & l2 & Ej & -> & <- & Hcap & Hno). exists (e_arrived e).
    assert (He : mkEntry (e_request e) (e_arrived e) = e) by (destruct e; reflexivity). rewrite He. simpl. split.
    + rewrite <- HP, Ej. symmetry. apply Permutation_middle.
    + intros e' He' Hc'. apply (Permutation_in _ (Permutation_sym HP)) in He'. rewrite Ej in He', HS.
      apply in_app_iff in He'. destruct He' as [He'|[<-|He']].
      * unfold capable in Hc'. rewrite (Hno _ He') in Hc'. discriminate.
      * lia.
      * exact (sorted_mid _ _ _ HS _ He').
  - simpl. split; [symmetry; exact HP|]. intros e' He' Hc'. apply (Permutation_in _ (Permutation_sym HP)) in He'.
    unfold capable in Hc'. rewrite (Et _ He') in Hc'. discriminate.
Qed.

Theorem oldest_first q ws w x m' : used o (QSingle q) ws -> asks o (QSingle q) ws w x m' ->
  match x with
  | Some r => fits w r /\ exists t, waiting_since (QSingle q) r t /\
      forall r' t', waiting_since (QSingle q) r' t' -> fits w r' -> (t <= t')%Z
  | None => forall r, In r (queued (QSingle q)) -> ~ fits w r
  end /\
  (forall r t, waiting_since (QSingle q) r t -> x = Some r \/ waiting_since m' r t) /\
  (forall r t, waiting_since m' r t -> waiting_since (QSingle q) r t).
Proof.
  intros HU HA. destruct (used_inv o _ _ HU) as (HI & HC).
  assert (HQ : constructed w /\ exists q0 q', sq_jobs q0 = sq_jobs q /\ single_assign o w q0 = Val (x, q') /\ m' = QSingle q').
  { destruct HA as [Hw Hi E|Hw E|Hc Hnew E]; simpl in E; unfold lift_single in E.
    - split; [auto|]. destruct (single_assign o w q) as [(y, q')|f] eqn:Es; simpl in E; [|discriminate].
      injection E as -> <-. eauto.
    - split; [auto|]. unfold single_worker_finished in E.
      destruct (single_assign o w q) as [(y, q')|f] eqn:Es; simpl in E; [|discriminate].
      injection E as -> <-. eauto.
    - split; [auto|]. unfold single_add_worker in E.
      match type of E with context [single_assign o w ?q0] => exists q0 end.
      destruct (single_assign o w _) as [(y, q')|f]; simpl in E; [|discriminate].
      injection E as -> <-. eauto. }
  destruct HQ as (Hc & q0 & q' & Eq & Es & ->). apply single_assign_oldest in Es. rewrite Eq in Es. destruct x as [r|].
  - destruct Es as (t & HP & Hmin).
    assert (Hin : In (mkEntry r t) (sq_jobs q)) by (eapply Permutation_in; [symmetry; exact HP|left; reflexivity]).
    split.
    + split.
      * destruct HA as [Hw Hi E|Hw E|_ Hnew E].
        -- destruct (assign_contract o _ _ w HU Hw Hi) as (x' & m2 & E' & _ & _ & _ & Hf). rewrite E in E'.
           injection E' as <- _. auto.
        -- destruct (finished_contract o _ _ w HU Hw) as (x' & m2 & E' & _ & _ & _ & Hf). rewrite E in E'.
           injection E' as <- _. auto.
        -- destruct (add_contract o _ _ w None HU Hc Hnew ltac:(discriminate)) as (x' & m2 & E' & _ & _ & _ & Hf).
           rewrite E in E'. injection E' as <- _. auto.
      * exists t. split; [exact Hin|]. intros r' t' Hw' Hf. apply (fits_capable _ _ Hc) in Hf.
        apply (Hmin (mkEntry r' t') Hw' Hf).
    + split; intros r' t' Hw'; simpl in *.
      * eapply Permutation_in in Hw'; [|exact HP]. destruct Hw' as [[= -> ->]|Hw']; auto.
      * eapply Permutation_in; [symmetry; exact HP|right; exact Hw'].
  - destruct Es as (HP & Hno). split.
    + intros r Hr Hf. simpl in Hr. apply in_map_iff in Hr. destruct Hr as (e & <- & He).
      apply (Hno e He). apply fits_capable; assumption.
    + split; intros r t Hw'; simpl in *; [right; eapply Permutation_in; eauto|eapply Permutation_in; [symmetry; exact HP|exact Hw']].
Qed.

(* ---- multi manager: the front of the worker's own queue ---- *)

Theorem front_first q ws w x m' : used o (QMulti q) ws -> asks o (QMulti q) ws w x m' ->
  x = hd_error (own_queue (QMulti q) w) /\ own_queue m' w = tl (own_queue (QMulti q) w) /\
  forall w', w_id w' <> w_id w -> own_queue m' w' = own_queue (QMulti q) w'.
Proof.
  intros HU HA. destruct (used_inv o _ _ HU) as (HI & HC). pose proof (qi_nodup _ _ HI) as Hnd.
  destruct (qi_impl _ _ HI) as [S1 S2 S3 S4].
  assert (HT : forall c x0 m0, In w ws -> lift_multi (multi_take w (mkMulti (mq_queues q) c (mq_order q))) = Val (x0, m0) ->
     x0 = hd_error (own_queue (QMulti q) w) /\ own_queue m0 w = tl (own_queue (QMulti q) w) /\
     forall w', w_id w' <> w_id w -> own_queue m0 w' = own_queue (QMulti q) w').
  { intros c x0 m0 Hw E. unfold lift_multi, multi_take in E. simpl in E.
    destruct (keys_around ws w _ Hnd S2 Hw) as (l1 & a & l2 & A). rewrite (ar_index _ _ _ _ _ A) in E.
    assert (Ea : own_queue (QMulti q) w = a) by (simpl; rewrite (ar_find _ _ _ _ _ A); reflexivity).
    rewrite Ea. destruct a as [|r rest]; simpl in E; injection E as <- <-.
    - split; [reflexivity|]. split; [exact Ea|reflexivity].
    - split; [reflexivity|].
      assert (HF : forall w', find_list (pm_set w rest (mq_queues q)) w' = if Nat.eqb (w_id w) (w_id w') then rest else find_list (mq_queues q) w').
      { intros w'. apply (find_list_set ws); assumption. }
      split; [specialize (HF w); rewrite Nat.eqb_refl in HF; exact HF|].
      intros w' Hne. specialize (HF w'). destruct (Nat.eqb_spec (w_id w) (w_id w')); [congruence|exact HF]. }
  destruct HA as [Hw Hi E|Hw E|Hc Hnew E]; simpl in E.
  - apply (HT (mq_current q)); [exact Hw|]. destruct q. exact E.
  - apply (HT (pm_set w None (mq_current q))); [exact Hw|]. exact E.
  - assert (Hni : ~ In (w_id w) (ids ws)).
    { intros Hx. apply in_ids_inv in Hx. destruct Hx as (w' & Hin & Ei). exact (Hnew w' Hin Ei). }
    assert (HO := fun w' => own_add o (QMulti q) ws w None x m' HI Hni E w').
    destruct (HO w) as (H1 & H2). rewrite <- H1, (H2 eq_refl). unfold lift_multi in E. simpl in E. injection E as <- <-.
    split; [reflexivity|]. split; [reflexivity|]. intros w' _. apply HO.
Qed.

(* ---- multi manager: round robin ---- *)

Lemma multi_enqueue_order r q x q' : multi_enqueue r q = Val (x, q') ->
  match multi_select (r_headers r) (mq_order q) with
  | Val (Some w) => mq_order q' = list_remove w (mq_order q) ++ [w]
  | Val None => q' = q
  | Fail _ => False
  end.
Proof.
  unfold multi_enqueue. destruct (multi_select _ _) as [[w|]|f]; simpl; [|intros [= _ <-]; reflexivity|discriminate].
  destruct (pm_index None w (mq_current q)) as ([c|], c1).
  - destruct (pm_index [] w (mq_queues q)) as (qs, q1). intros [= _ <-]. reflexivity.
  - intros [= _ <-]. reflexivity.
Qed.

(* the receiver of an enqueued request is the first fitting worker of the order *)
Lemma receiver_first r q ws m' x w : qinv (QMulti q) ws -> r_complete r = true -> In w ws ->
  q_enqueue_request o r (QMulti q) = Val (x, m') -> Permutation (owned m' w) (r :: owned (QMulti q) w) ->
  capable w r /\ (exists l1 l2, mq_order q = l1 ++ w :: l2 /\ forall w', In w' l1 -> ~ capable w' r) /\
  exists q', m' = QMulti q' /\ mq_order q' = list_remove w (mq_order q) ++ [w].
Proof.
  intros HI Hr Hw E HP. pose proof (qi_nodup _ _ HI) as Hnd.
  destruct (qi_impl _ _ HI) as [S1 S2 S3 S4].
  assert (Hlen : forall w', owned m' w' = owned (QMulti q) w' -> w' <> w).
  { intros w' Eo ->. rewrite Eo in HP. apply Permutation_length in HP. simpl in HP. lia. }
  pose proof (enqueue_owner o _ _ _ _ _ HI Hr E) as HO.
  simpl in E. destruct (multi_enqueue r q) as [(y, q')|f] eqn:Em; simpl in E; [|discriminate].
  unfold lift_multi in E. simpl in E. injection E as -> <-.
  apply multi_enqueue_order in Em as Eo.
  destruct (multi_select (r_headers r) (mq_order q)) as [[w0|]|f] eqn:Es; [| |contradiction].
  2:{ subst q'. exfalso. exact (Hlen w eq_refl eq_refl). }
  apply multi_select_spec in Es. destruct Es as (l1 & l2 & El & Hcap & Hno).
  assert (Hw0 : In w0 ws) by (eapply Permutation_in; [exact S1|rewrite El, in_app_iff; simpl; auto]).
  assert (w0 = w) as ->.
  { destruct (Nat.eq_dec (w_id w0) (w_id w)) as [Ei|Ei]; [eapply ids_inj; eauto|]. exfalso.
    apply (Hlen w); [|reflexivity]. destruct HO as [(w1 & Hw1 & Hc1 & HP1 & Hoth)|(Hoth & _)]; [|apply Hoth].
    apply Hoth. intros Ew. assert (w1 = w) as -> by (eapply ids_inj; eauto).
    (* the request was stored at w0 *)
    clear Hoth HP1. unfold multi_enqueue in Em. rewrite El in Em.
    assert (Esel : multi_select (r_headers r) (l1 ++ w0 :: l2) = Val (Some w0)).
    { clear - Hno Hcap. induction l1 as [|a t IH]; simpl; [rewrite Hcap; reflexivity|].
      rewrite (Hno a (or_introl eq_refl)). simpl. apply IH. intros w' Hw'. apply Hno. right. exact Hw'. }
    rewrite Esel in Em. simpl in Em.
    destruct (keys_around ws w0 _ Hnd S3 Hw0) as (c1 & a & c2 & A). rewrite (ar_index _ _ _ _ _ A) in Em.
    assert (Eow : owned (QMulti q') w = owned (QMulti q) w).
    { destruct a as [r0|].
      - destruct (keys_around ws w0 _ Hnd S2 Hw0) as (k1 & b & k2 & B). rewrite (ar_index _ _ _ _ _ B) in Em.
        injection Em as _ <-. apply owned_ext; [reflexivity|].
        change (find_list (pm_set w0 (b ++ [r]) (mq_queues q)) w = find_list (mq_queues q) w).
        rewrite (find_list_set ws) by assumption. destruct (Nat.eqb_spec (w_id w0) (w_id w)); [contradiction|reflexivity].
      - injection Em as _ <-. apply owned_ext; [|reflexivity]. rewrite !current_of_find. simpl.
        rewrite (find_cur_set ws) by assumption. unfold upd. destruct (Nat.eqb_spec (w_id w0) (w_id w)); [contradiction|reflexivity]. }
    rewrite Eow in HP. apply Permutation_length in HP. simpl in HP. lia. }
  split; [exact Hcap|]. split.
  - exists l1, l2. split; [exact El|]. intros w' Hw' Hc'. unfold capable in Hc'. rewrite (Hno w' Hw') in Hc'. discriminate.
  - exists q'. split; [reflexivity|exact Eo].
Qed.

(* earlier in the order means given a request longer ago *)
Definition lru (log order : list worker) : Prop :=
  forall l1 w l2 w' , order = l1 ++ w :: l2 -> In w' l2 -> longer_ago log w w'.

Lemma remove_other (w a : worker) l : w_id a <> w_id w -> list_remove w (a :: l) = a :: list_remove w l.
Proof. intros H. unfold list_remove. simpl. rewrite (proj2 (same_worker_neq a w) H). reflexivity. Qed.
Lemma remove_same (w a : worker) l : w_id a = w_id w -> list_remove w (a :: l) = list_remove w l.
Proof. intros H. unfold list_remove. simpl. rewrite (proj2 (same_worker_id a w) H). reflexivity. Qed.
Lemma remove_in w a l : In a (list_remove w l) <-> In a l /\ w_id a <> w_id w.
Proof. unfold list_remove. rewrite filter_In, negb_true_iff, same_worker_neq. tauto. Qed.
Lemma remove_split w l : forall l1 a l2, list_remove w l = l1 ++ a :: l2 ->
  exists k1 k2, l = k1 ++ a :: k2 /\ list_remove w k1 = l1 /\ list_remove w k2 = l2.
Proof.
  induction l as [|x t IH]; intros l1 a l2 E; [destruct l1; discriminate|].
  destruct (Nat.eq_dec (w_id x) (w_id w)) as [Ei|Ei].
  - rewrite remove_same in E by exact Ei. destruct (IH _ _ _ E) as (k1 & k2 & -> & E1 & E2).
    exists (x :: k1), k2. split; [reflexivity|]. split; [rewrite remove_same by exact Ei; exact E1|exact E2].
  - rewrite remove_other in E by exact Ei. destruct l1 as [|y l1].
    + injection E as -> E. exists [], t. split; [reflexivity|]. split; [reflexivity|exact E].
    + injection E as -> E. destruct (IH _ _ _ E) as (k1 & k2 & -> & E1 & E2).
      exists (y :: k1), k2. split; [reflexivity|]. split; [rewrite remove_other by exact Ei; rewrite E1; reflexivity|exact E2].
Qed.

Lemma snoc_split {A} (log : list A) w l1 a l2 : log ++ [w] = l1 ++ a :: l2 ->
  (l2 = [] /\ a = w /\ l1 = log) \/ exists l2', l2 = l2' ++ [w] /\ log = l1 ++ a :: l2'.
Proof.
  destruct l2 as [|y l2] using rev_ind; intros E.
  - apply app_inj_tail in E. destruct E as (-> & ->). auto.
  - clear IHl2. right. change (a :: l2 ++ [y]) with ((a :: l2) ++ [y]) in E. rewrite app_assoc in E.
    apply app_inj_tail in E. destruct E as (-> & ->). eauto.
Qed.

Lemma lru_snoc log order w : lru log order -> (forall a, In a order -> w_id a = w_id w -> a = w) ->
  lru (log ++ [w]) (list_remove w order ++ [w]).
Proof.
  intros HL Hinj l1 a l2 b E Hb k1 k2 El Hk.
  destruct (snoc_split _ _ _ _ _ E) as [(-> & _)|(l2' & -> & Er)]; [contradiction|].
  destruct (remove_split _ _ _ _ _ Er) as (p1 & p2 & Eo & _ & E2).
  assert (Ha : a <> w).
  { intros ->. assert (Hin : In w (list_remove w order)) by (rewrite Er, in_app_iff; simpl; auto).
    apply remove_in in Hin. tauto. }
  destruct (snoc_split _ _ _ _ _ El) as [(_ & -> & _)|(k2' & -> & El')]; [congruence|].
  apply in_app_iff. apply in_app_iff in Hb. destruct Hb as [Hb|[->|[]]]; [|right; simpl; auto].
  left. eapply HL; [exact Eo| |exact El'|].
  - rewrite <- E2 in Hb. apply remove_in in Hb. tauto.
  - intros Hc. apply Hk. apply in_app_iff. auto.
Qed.

Lemma lru_remove log order w : lru log order -> lru (list_remove w log) (list_remove w order).
Proof.
  intros HL l1 a l2 b E Hb k1 k2 El Hk.
  destruct (remove_split _ _ _ _ _ E) as (p1 & p2 & Eo & _ & E2).
  destruct (remove_split _ _ _ _ _ El) as (r1 & r2 & Elog & _ & Er2).
  rewrite <- E2 in Hb. apply remove_in in Hb. rewrite <- Er2. apply remove_in. split; [|tauto].
  eapply HL; [exact Eo|tauto|exact Elog|]. intros Hc. apply Hk. rewrite <- Er2. apply remove_in. split; [exact Hc|].
  assert (In a (list_remove w order)) by (rewrite E, in_app_iff; simpl; auto). apply remove_in in H. tauto.
Qed.

Lemma given_lru log m ws : given o log m ws -> (forall w, In w log -> In w ws) /\
  match m with QMulti q => lru log (mq_order q) | QSingle _ => True end.
Proof.
  induction 1 as [k|log m ws w cur x m' HG (HS & HL) Hw Hnew Hcur E|log m ws w x m' HG (HS & HL) Hw Hid E
                 |log m ws w x m' HG (HS & HL) Hw E|log m ws r x m' w HG (HS & HL) Hr E Hin HP|log m ws r x m' HG (HS & HL) Hr E HN
                 |log m ws w x m' HG (HS & HL) Hw E|log m ws w x m' HG (HS & HL) Hw E|log m ws w x m' HG (HS & HL) Hw E].
  - split; [intros w []|]. destruct k; [exact I|]. intros l1 w l2 w' E Hw' k1 k2 El. destruct k1; discriminate.
  - split; [intros w' Hw'; apply in_app_iff; auto|]. destruct m as [q|q]; simpl in E.
    + unfold lift_single in E. destruct (single_add_worker _ _ _ _) as [(y, q')|f]; simpl in E; [|discriminate].
      injection E as _ <-. exact I.
    + unfold lift_multi in E. simpl in E. injection E as _ <-. simpl. intros l1 a l2 b Eo Hb.
      destruct l1 as [|y l1]; [|injection Eo as _ Eo; eapply HL; eauto]. injection Eo as <- _.
      intros k1 k2 El _. exfalso. apply (Hnew w); [|reflexivity]. apply HS. rewrite El, in_app_iff. simpl. auto.
  - split; [exact HS|]. destruct m as [q|q]; simpl in E.
    + unfold lift_single in E. destruct (single_assign _ _ _) as [(y, q')|f]; simpl in E; [|discriminate].
      injection E as _ <-. exact I.
    + unfold lift_multi, multi_assign, multi_take in E. destruct (pm_index [] w (mq_queues q)) as ([|r rest], q1);
        simpl in E; injection E as _ <-; exact HL.
  - split.
    + intros w' Hw'. apply remove_in in Hw'. apply remove_in. split; [apply HS|]; tauto.
    + destruct m as [q|q]; simpl in E.
      * unfold lift_single in E. destruct (single_worker_terminated _ _) as [(y, q')|f]; simpl in E; [|discriminate].
        injection E as _ <-. exact I.
      * unfold lift_multi, multi_worker_terminated in E. destruct (pm_index None w (mq_current q)) as (c, c1).
        destruct (pm_index [] w (mq_queues q)) as (qs, q1). simpl in E. injection E as _ <-. simpl. apply lru_remove. exact HL.
  - destruct (given_inv o _ _ _ HG) as (HI & HC). split.
    + intros w' Hw'. apply in_app_iff in Hw'. destruct Hw' as [?|[<-|[]]]; auto.
    + destruct m as [q|q].
      * simpl in E. unfold lift_single in E. destruct (single_enqueue _ _ _) as [(y, q')|f]; simpl in E; [|discriminate].
        injection E as _ <-. exact I.
      * destruct (receiver_first _ _ _ _ _ _ HI Hr Hin E HP) as (_ & _ & q' & -> & Eo). rewrite Eo.
        apply lru_snoc; [exact HL|]. intros a Ha Ei. pose proof (qi_nodup _ _ HI) as Hnd.
        destruct (qi_impl _ _ HI) as [S1 S2 S3 S4]. apply (ids_inj ws); auto. exact (Permutation_in _ S1 Ha).
  - split; [exact HS|]. destruct (given_inv o _ _ _ HG) as (HI & HC). destruct m as [q|q].
    + simpl in E. unfold lift_single in E. destruct (single_enqueue _ _ _) as [(y, q')|f]; simpl in E; [|discriminate].
      injection E as _ <-. exact I.
    + destruct (enqueue_owner o _ _ _ _ _ HI Hr E) as [(w & Hw & _ & HP & _)|(_ & He)].
      * rewrite (HN w Hw) in HP. apply Permutation_length in HP. simpl in HP. lia.
      * simpl in E. destruct (multi_enqueue r q) as [(y, q')|f] eqn:Em; simpl in E; [|discriminate].
        unfold lift_multi in E. simpl in E. injection E as -> <-.
        destruct (q_enqueue_spec o (QMulti q) ws r x (QMulti q') HI Hr) as (_ & HP).
        { simpl. rewrite Em. reflexivity. }
        destruct x as [[w|] [|]]; try contradiction; try discriminate. destruct HP as ([= ->] & _). exact HL.
  - split; [exact HS|]. destruct (given_inv o _ _ _ HG) as (HI & HC). rewrite (q_get_current_spec _ _ _ HI Hw) in E.
    injection E as _ <-. exact HL.
  - split; [exact HS|]. destruct m as [q|q]; simpl in E.
    + unfold lift_single, single_worker_finished in E. destruct (single_assign _ _ _) as [(y, q')|f]; simpl in E; [|discriminate].
      injection E as _ <-. exact I.
    + unfold lift_multi, multi_worker_finished, multi_take in E. simpl in E.
      destruct (pm_index [] w (mq_queues q)) as ([|r rest], q1); simpl in E; injection E as _ <-; exact HL.
  - split; [exact HS|]. destruct m as [q|q]; simpl in E.
    + unfold lift_single in E. simpl in E. injection E as _ <-. destruct (single_worker_cancelled w q). exact I.
    + unfold lift_multi, multi_worker_cancelled in E. destruct (pm_index None w (mq_current q)) as (c, c1).
      simpl in E. injection E as _ <-. exact HL.
Qed.

Theorem least_recently_given log q ws r x m' w : given o log (QMulti q) ws -> r_complete r = true ->
  q_enqueue_request o r (QMulti q) = Val (x, m') -> In w ws -> Permutation (owned m' w) (r :: owned (QMulti q) w) ->
  fits w r /\ forall w', In w' ws -> fits w' r -> w' <> w -> longer_ago log w w'.
Proof.
  intros HG Hr E Hw HP. destruct (given_inv o _ _ _ HG) as (HI & HC). destruct (given_lru _ _ _ HG) as (_ & HL).
  destruct (receiver_first _ _ _ _ _ _ HI Hr Hw E HP) as (Hcap & (l1 & l2 & Eo & Hno) & _).
  split; [apply fits_capable; auto|]. intros w' Hw' Hf Hne. eapply HL; [exact Eo|].
  destruct (qi_impl _ _ HI) as [S1 S2 S3 S4].
  assert (Hi : In w' (mq_order q)) by (eapply Permutation_in; [symmetry; exact S1|exact Hw']).
  rewrite Eo in Hi. apply in_app_iff in Hi. destruct Hi as [Hi|[?|Hi]]; [|congruence|exact Hi].
  exfalso. apply (Hno w' Hi). apply fits_capable; auto.
Qed.

(* an enqueued request joins the jobs of exactly one worker, if any fits *)
Theorem one_receiver q ws r : used o (QMulti q) ws -> r_complete r = true -> numeric r ->
  exists x m', q_enqueue_request o r (QMulti q) = Val (x, m') /\
  ((exists w, In w ws /\ Permutation (owned m' w) (r :: owned (QMulti q) w) /\
              forall w', w_id w' <> w_id w -> owned m' w' = owned (QMulti q) w') \/
   (m' = QMulti q /\ forall w, In w ws -> ~ fits w r)).
Proof.
  intros HU Hr Hn. destruct (used_inv o _ _ HU) as (HI & HC).
  destruct (enqueue_contract o _ _ _ HU Hr Hn) as (x & m' & E & _ & He & Ha). exists x, m'. split; [exact E|].
  destruct (enqueue_owner o _ _ _ _ _ HI Hr E) as [(w & Hw & _ & HP & Ho)|(Hsame & Hf)].
  - left. eauto.
  - right. rewrite Hf in *. destruct (assigned_to x) as [w|] eqn:Ea.
    + destruct Ha as (Hw & Hfit & _). exfalso. assert (false = true) by (apply He; eauto). discriminate.
    + destruct Ha as (_ & ->). split; [reflexivity|]. intros w Hw Hfit. assert (false = true) by (apply He; eauto). discriminate.
Qed.

Lemma rotate_firsts n : forall q ws log m', qinv (QMulti q) ws -> (forall w, In w ws -> constructed w) ->
  enqueues o ws (QMulti q) log m' -> (forall r w, In (r, w) log -> r_complete r = true /\ forall w', In w' ws -> fits w' r) ->
  length log = n -> forall pre suf, mq_order q = suf ++ pre -> n <= length suf -> map snd log = firstn n suf.
Proof.
  induction n as [|n IH]; intros q ws log m' HI HC HE HR Hlen pre suf Eo Hle.
  - destruct log; [reflexivity|discriminate].
  - destruct log as [|(r, w) log]; [discriminate|]. simpl in Hlen. injection Hlen as Hlen.
    inversion HE as [|m0 r0 x m1 w0 rest m2 E Hw HP HE']; subst.
    destruct (HR r w (or_introl eq_refl)) as (Hr & Hfits).
    destruct (receiver_first _ _ _ _ _ _ HI Hr Hw E HP) as (Hcap & (l1 & l2 & El & Hno) & q' & -> & Eq').
    pose proof (qi_nodup _ _ HI) as Hnd. destruct (qi_impl _ _ HI) as [S1 S2 S3 S4].
    destruct l1 as [|a l1].
    2:{ exfalso. assert (Ha : In a ws) by (eapply Permutation_in; [exact S1|rewrite El; left; reflexivity]).
        apply (Hno a (or_introl eq_refl)). apply fits_capable; auto. }
    simpl in El. destruct suf as [|a suf]; [simpl in Hle; lia|]. rewrite Eo in El. simpl in El. injection El as -> El.
    simpl. f_equal. apply (IH q' ws log m') with (pre := pre ++ [w]).
    + apply (q_enqueue_spec o _ _ _ _ _ HI Hr E).
    + exact HC.
    + exact HE'.
    + intros r' w' Hin. apply (HR r' w'). right. exact Hin.
    + reflexivity.
    + rewrite Eq', Eo. change ((w :: suf) ++ pre) with (w :: suf ++ pre). rewrite remove_same by reflexivity.
      assert (Hnd' : NoDup (ids (mq_order q))) by (eapply Permutation_NoDup; [symmetry; apply ids_perm; exact S1|exact Hnd]).
      rewrite Eo in Hnd'. simpl in Hnd'. inversion Hnd' as [|? ? Hni _]; subst.
      assert (Eid : list_remove w (suf ++ pre) = suf ++ pre).
      { clear - Hni. induction (suf ++ pre) as [|b t IHt]; [reflexivity|]. simpl in Hni.
        rewrite remove_other by (intros Ee; apply Hni; left; exact Ee). f_equal. apply IHt. tauto. }
      rewrite Eid, app_assoc. reflexivity.
    + simpl in Hle. lia.
Qed.

Theorem round_robin q ws log m' : used o (QMulti q) ws -> enqueues o ws (QMulti q) log m' ->
  (forall r w, In (r, w) log -> r_complete r = true /\ forall w', In w' ws -> fits w' r) ->
  length log <= length ws -> NoDup (map snd log).
Proof.
  intros HU HE HR Hlen. destruct (used_inv o _ _ HU) as (HI & HC).
  pose proof (qi_nodup _ _ HI) as Hnd. pose proof (qi_impl _ _ HI) as HM. simpl in HM. destruct HM as [S1 S2 S3 S4].
  rewrite (rotate_firsts (length log) q ws log m' HI HC HE HR eq_refl [] (mq_order q)); [|rewrite app_nil_r; reflexivity|
    rewrite (Permutation_length S1); exact Hlen].
  assert (Hnd' : NoDup (mq_order q)).
  { apply (NoDup_map_inv w_id). eapply Permutation_NoDup; [symmetry; apply ids_perm; exact S1|exact Hnd]. }
  rewrite <- (firstn_skipn (length log) (mq_order q)) in Hnd'. apply NoDup_app_l in Hnd'. exact Hnd'.
Qed.

End WithOracle.
