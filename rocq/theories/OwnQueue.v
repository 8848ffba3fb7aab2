(* How the queue operations change the queue of each worker of the multi manager. *)
From Coq Require Import Permutation Lia.
From Verif Require Import Base Bytes Containers Worker Multi Single Queue Handler Spec SpecRun Facts QueueInv.
Local Open Scope list_scope.

Definition find_list (p : pmap (list request)) (w : worker) : list request :=
  match pm_find w p with Some l => l | None => [] end.

Lemma find_list_set ws p w l w' : NoDup (ids ws) -> Permutation (keys p) ws -> In w ws ->
  find_list (pm_set w l p) w' = if Nat.eqb (w_id w) (w_id w') then l else find_list p w'.
Proof.
  intros Hnd HP Hin. destruct (keys_around ws w p Hnd HP Hin) as (l1 & a & l2 & [Eq N1 N2 Hf Hs He Hi _]).
  unfold find_list. rewrite Hs, Eq. destruct (Nat.eqb_spec (w_id w) (w_id w')) as [E|E].
  - rewrite pm_find_mid; [reflexivity|rewrite <- E; exact N1|exact E].
  - rewrite !pm_find_skip by exact E. reflexivity.
Qed.

Lemma own_queue_id m w w' : w_id w = w_id w' -> own_queue m w = own_queue m w'.
Proof.
  intros E. destruct m as [q|q]; simpl; [reflexivity|].
  assert (pm_find w (mq_queues q) = pm_find w' (mq_queues q)) as ->; [|reflexivity].
  induction (mq_queues q) as [|(y, b) t IH]; simpl; [reflexivity|].
  unfold same_worker. rewrite E, IH. reflexivity.
Qed.

Lemma current_of_id m w w' : w_id w = w_id w' -> current_of m w = current_of m w'.
Proof.
  intros E. unfold current_of.
  assert (pm_find w (current_map m) = pm_find w' (current_map m)) as ->; [|reflexivity].
  induction (current_map m) as [|(y, b) t IH]; simpl; [reflexivity|].
  unfold same_worker. rewrite E, IH. reflexivity.
Qed.

Section WithOracle.
Context (o : oracle).

Lemma own_enqueue m ws r x m' w' : qinv m ws -> q_enqueue_request o r m = Val (x, m') ->
  own_queue m' w' = own_queue m w' \/
  own_queue m' w' = own_queue m w' ++ [r] /\ x = mkEnq None true /\ current_of m w' <> None.
Proof.
  intros H E. destruct m as [q|q]; simpl in E.
  - unfold lift_single in E. destruct (single_enqueue o r q) as [(y, q')|f]; simpl in E; [|discriminate].
    injection E as <- <-. left. reflexivity.
  - pose proof (qi_keys _ _ H) as HP. pose proof (qi_nodup _ _ H) as Hnd. simpl in HP.
    destruct (qi_impl _ _ H) as [S1 S2 S3 S4].
    unfold multi_enqueue in E.
    destruct (multi_select (r_headers r) (mq_order q)) as [[w|]|f] eqn:Es; simpl in E; [| |discriminate].
    2:{ injection E as <- <-. auto. }
    apply multi_select_spec in Es. destruct Es as (o1 & o2 & Eo & _).
    assert (Hin : In w ws) by (eapply Permutation_in; [exact S1|rewrite Eo, in_app_iff; simpl; auto]).
    destruct (keys_around ws w _ Hnd HP Hin) as (c1 & a & c2 & A). rewrite (ar_index _ _ _ _ _ A) in E.
    destruct a as [r0|].
    + destruct (keys_around ws w _ Hnd S2 Hin) as (k1 & b & k2 & B). rewrite (ar_index _ _ _ _ _ B) in E.
      injection E as <- <-. cbn [own_queue mq_queues snd].
      change (find_list (pm_set w (b ++ [r]) (mq_queues q)) w' = find_list (mq_queues q) w' \/
              find_list (pm_set w (b ++ [r]) (mq_queues q)) w' = find_list (mq_queues q) w' ++ [r] /\
              mkEnq None true = mkEnq None true /\ current_of (QMulti q) w' <> None).
      rewrite (find_list_set ws) by assumption.
      destruct (Nat.eqb_spec (w_id w) (w_id w')) as [Ei|Ei]; [right|left; reflexivity].
      split; [|split; [reflexivity|]].
      * f_equal. change (find_list (mq_queues q) w') with (own_queue (QMulti q) w').
        rewrite <- (own_queue_id _ _ _ Ei). simpl. rewrite (ar_find _ _ _ _ _ B). reflexivity.
      * rewrite <- (current_of_id _ _ _ Ei). unfold current_of. simpl. rewrite (ar_find _ _ _ _ _ A). discriminate.
    + injection E as <- <-. left. reflexivity.
Qed.

Lemma own_terminated m ws w rs m' : qinv m ws -> In w ws -> q_worker_terminated w m = Val (rs, m') ->
  (forall w', w_id w' <> w_id w -> own_queue m' w' = own_queue m w') /\
  exists more, rs = olist (current_of m w) ++ own_queue m w ++ more.
Proof.
  intros H Hin E. pose proof (qi_keys _ _ H) as HP. pose proof (qi_nodup _ _ H) as Hnd.
  destruct (keys_around ws w _ Hnd HP Hin) as (c1 & a & c2 & A).
  assert (Ha : current_of m w = a).
  { unfold current_of. rewrite (ar_find _ _ _ _ _ A). destruct a; reflexivity. }
  rewrite Ha. destruct m as [q|q]; simpl in *.
  - unfold single_worker_terminated in E. rewrite (ar_index _ _ _ _ _ A) in E.
    destruct (split_jobs _ _) as [(kept, gone)|f]; simpl in E; [|discriminate].
    injection E as <- <-. split; [reflexivity|]. exists gone. destruct a; reflexivity.
  - destruct (qi_impl _ _ H) as [S1 S2 S3 S4]. unfold multi_worker_terminated in E.
    rewrite (ar_index _ _ _ _ _ A) in E.
    destruct (keys_around ws w _ Hnd S2 Hin) as (k1 & b & k2 & B). rewrite (ar_index _ _ _ _ _ B) in E.
    unfold lift_multi in E. simpl in E. injection E as <- <-. split.
    + intros w' Hne. simpl. rewrite (ar_erase _ _ _ _ _ B), (ar_eq _ _ _ _ _ B).
      rewrite pm_find_skip by congruence. reflexivity.
    + exists []. rewrite (ar_find _ _ _ _ _ B), app_nil_r. destruct a; reflexivity.
Qed.

Lemma own_cancelled m w x m' : q_worker_cancelled w m = Val (x, m') -> forall w', own_queue m' w' = own_queue m w'.
Proof.
  destruct m as [q|q]; simpl; intros E.
  - unfold single_worker_cancelled in E. destruct (pm_index _ _ _). unfold lift_single in E. simpl in E.
    injection E as <- <-. reflexivity.
  - unfold lift_multi, multi_worker_cancelled in E. destruct (pm_index _ _ _). simpl in E. injection E as <- <-. reflexivity.
Qed.

(* a worker taking its next job takes the front of its queue *)
Lemma own_assign m ws w x m' : qinv m ws -> In w ws -> q_assign_request o w m = Val (x, m') ->
  forall w', match m with
  | QSingle _ => own_queue m' w' = []
  | QMulti _ => own_queue m w' = if Nat.eqb (w_id w) (w_id w') then olist x ++ own_queue m' w' else own_queue m' w'
  end.
Proof.
  intros H Hin E w'. destruct m as [q|q]; simpl in E.
  - unfold lift_single in E. destruct (single_assign o w q) as [(y, q')|f]; simpl in E; [|discriminate].
    injection E as <- <-. reflexivity.
  - pose proof (qi_nodup _ _ H) as Hnd. destruct (qi_impl _ _ H) as [S1 S2 S3 S4].
    unfold lift_multi, multi_assign, multi_take in E.
    destruct (keys_around ws w _ Hnd S2 Hin) as (l1 & a & l2 & A). rewrite (ar_index _ _ _ _ _ A) in E.
    assert (Hw : w_id w = w_id w' -> own_queue (QMulti q) w' = a).
    { intros Ei. rewrite <- (own_queue_id _ _ _ Ei). simpl. rewrite (ar_find _ _ _ _ _ A). reflexivity. }
    destruct a as [|r rest]; simpl in E; injection E as <- <-.
    + destruct (Nat.eqb_spec (w_id w) (w_id w')); reflexivity.
    + destruct (Nat.eqb_spec (w_id w) (w_id w')) as [Ei|Ei].
      * rewrite (Hw Ei). cbn [own_queue mq_queues olist app].
        change (r :: rest = r :: find_list (pm_set w rest (mq_queues q)) w'). rewrite (find_list_set ws) by assumption.
        rewrite (proj2 (Nat.eqb_eq _ _) Ei). reflexivity.
      * cbn [own_queue mq_queues].
        change (find_list (mq_queues q) w' = find_list (pm_set w rest (mq_queues q)) w'). rewrite (find_list_set ws) by assumption.
        rewrite (proj2 (Nat.eqb_neq _ _) Ei). reflexivity.
Qed.

Lemma own_add m ws w cur x m' : qinv m ws -> ~ In (w_id w) (ids ws) -> q_add_worker o w cur m = Val (x, m') ->
  forall w', own_queue m' w' = own_queue m w' /\ (w_id w = w_id w' -> own_queue m' w' = []).
Proof.
  intros H Hni E w'. destruct m as [q|q]; simpl in E.
  - unfold lift_single in E. destruct (single_add_worker o w cur q) as [(y, q')|f]; simpl in E; [|discriminate].
    injection E as <- <-. split; reflexivity.
  - unfold lift_multi, multi_add_worker in E. simpl in E. injection E as <- <-.
    destruct (qi_impl _ _ H) as [S1 S2 S3 S4].
    assert (Hn : ~ In (w_id w) (ids (keys (mq_queues q)))).
    { intros Hc. apply Hni. eapply Permutation_in; [apply ids_perm; exact S2|exact Hc]. }
    cbn [own_queue mq_queues]. rewrite pm_emplace_new, pm_find_insert by exact Hn.
    destruct (Nat.eqb_spec (w_id w) (w_id w')) as [Ei|Ei]; [|split; [reflexivity|contradiction]].
    split; [|reflexivity]. rewrite pm_find_none; [reflexivity|rewrite <- Ei; exact Hn].
Qed.

End WithOracle.
