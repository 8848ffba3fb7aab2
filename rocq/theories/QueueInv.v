(* Invariant of the queue managers and the contract of each operation. *)
From Verif Require Import Base Bytes Containers Worker Multi Single Queue Handler Spec Facts.

Definition upd (f : worker -> option request) (w : worker) (x : option request) : worker -> option request :=
  fun w' => if Nat.eqb (w_id w) (w_id w') then x else f w'.

Record single_inv (q : single) (ws : list worker) : Prop := mkSI {
  si_workers : sq_workers q = ws;
  si_keys : Permutation (keys (sq_worker_jobs q)) ws;
  si_complete : forall e, In e (sq_jobs q) -> r_complete (e_request e) = true;
  si_assignable : forall e, In e (sq_jobs q) -> exists w, In w ws /\ capable w (e_request e) }.

Record multi_inv (q : multi) (ws : list worker) : Prop := mkMI {
  mi_order : Permutation (mq_order q) ws;
  mi_queues : Permutation (keys (mq_queues q)) ws;
  mi_current : Permutation (keys (mq_current q)) ws;
  mi_queued : forall w rs r, In (w, rs) (mq_queues q) -> In r rs -> r_complete r = true /\ capable w r }.

Record qinv (m : manager) (ws : list worker) : Prop := mkQI {
  qi_nodup : NoDup (ids ws);
  qi_current : forall w r, In w ws -> current_of m w = Some r -> r_complete r = true -> capable w r;
  qi_impl : match m with QSingle q => single_inv q ws | QMulti q => multi_inv q ws end }.

Lemma qi_keys m ws : qinv m ws -> Permutation (keys (current_map m)) ws.
Proof. intros [_ _ H]. destruct m; [apply (si_keys _ _ H) | apply (mi_current _ _ H)]. Qed.

Lemma qi_keys_nodup m ws : qinv m ws -> NoDup (ids (keys (current_map m))).
Proof.
  intros H. eapply Permutation_NoDup; [symmetry; apply ids_perm; apply (qi_keys _ _ H) | apply (qi_nodup _ _ H)].
Qed.

Lemma keys_around {A} ws w (m : pmap A) :
  NoDup (ids ws) -> Permutation (keys m) ws -> In w ws -> exists l1 a l2, around w m l1 a l2.
Proof.
  intros Hnd HP Hin. apply pm_around.
  - eapply Permutation_NoDup; [symmetry; apply ids_perm; exact HP | exact Hnd].
  - eapply Permutation_in; [symmetry; exact HP | exact Hin].
Qed.

Definition find_cur (m : pmap (option request)) (w : worker) : option request :=
  match pm_find w m with Some (Some r) => Some r | _ => None end.

Lemma find_cur_mid w x l1 l2 w' :
  ~ In (w_id w) (ids (keys l1)) -> ~ In (w_id w) (ids (keys l2)) ->
  find_cur (l1 ++ (w, x) :: l2) w' = upd (find_cur (l1 ++ l2)) w x w'.
Proof.
  intros H1 H2. unfold upd, find_cur. destruct (Nat.eqb_spec (w_id w) (w_id w')) as [E|E].
  - rewrite pm_find_mid; [destruct x; reflexivity | rewrite <- E; exact H1 | exact E].
  - rewrite pm_find_skip by exact E. reflexivity.
Qed.

Lemma find_cur_set ws m w x w' :
  NoDup (ids ws) -> Permutation (keys m) ws -> In w ws ->
  find_cur (pm_set w x m) w' = upd (find_cur m) w x w'.
Proof.
  intros Hnd HP Hin. destruct (keys_around ws w m Hnd HP Hin) as (l1 & a & l2 & [Eq N1 N2 Hf Hs He Hi _]).
  rewrite Hs, Eq, find_cur_mid by assumption. unfold upd.
  destruct (Nat.eqb_spec (w_id w) (w_id w')) as [E|E]; [reflexivity|].
  unfold find_cur. rewrite pm_find_skip by exact E. reflexivity.
Qed.

Lemma keys_set ws (m : pmap (option request)) w x :
  NoDup (ids ws) -> Permutation (keys m) ws -> In w ws -> keys (pm_set w x m) = keys m.
Proof.
  intros Hnd HP Hin. destruct (keys_around ws w m Hnd HP Hin) as (l1 & a & l2 & [Eq N1 N2 Hf Hs He Hi _]).
  rewrite Hs, Eq. unfold keys. rewrite !map_app. reflexivity.
Qed.

Lemma keys_set_gen {A} ws (m : pmap A) w x :
  NoDup (ids ws) -> Permutation (keys m) ws -> In w ws -> keys (pm_set w x m) = keys m.
Proof.
  intros Hnd HP Hin. destruct (keys_around ws w m Hnd HP Hin) as (l1 & a & l2 & [Eq N1 N2 Hf Hs He Hi _]).
  rewrite Hs, Eq. unfold keys. rewrite !map_app. reflexivity.
Qed.

Lemma pm_set_set ws (m : pmap (option request)) w x y :
  NoDup (ids ws) -> Permutation (keys m) ws -> In w ws -> pm_set w x (pm_set w y m) = pm_set w x m.
Proof.
  intros Hnd HP Hin.
  assert (HP' : Permutation (keys (pm_set w y m)) ws) by (rewrite (keys_set ws) by assumption; exact HP).
  destruct (keys_around ws w m Hnd HP Hin) as (l1 & a & l2 & A1).
  destruct (keys_around ws w _ Hnd HP' Hin) as (k1 & b & k2 & A2).
  rewrite (ar_set _ _ _ _ _ A1 x). unfold pm_set at 1.
  rewrite (ar_set _ _ _ _ _ A1 y).
  assert (pm_mem w (l1 ++ (w, y) :: l2) = true) as ->.
  { apply pm_mem_true. rewrite keys_app, ids_app, in_app_iff. right; simpl; auto. }
  rewrite map_app. simpl. rewrite same_worker_refl.
  rewrite !pm_map_notin; [reflexivity | apply (ar_n2 _ _ _ _ _ A1) | apply (ar_n1 _ _ _ _ _ A1)].
Qed.

Lemma current_of_find m w : current_of m w = find_cur (current_map m) w.
Proof. reflexivity. Qed.

(* running requests as a function of current_of *)
Lemma running_current m ws : qinv m ws ->
  Permutation (running m) (flat_map (fun w => olist (current_of m w)) ws).
Proof.
  intros H. unfold running. rewrite <- (flat_map_perm _ _ _ (qi_keys _ _ H)).
  unfold keys. rewrite flat_map_concat_map, flat_map_concat_map, map_map.
  apply eq_perm. f_equal. apply map_ext_in. intros (w, a) Hin. simpl.
  unfold current_of. rewrite (pm_find_in w a) by (try exact Hin; apply (qi_keys_nodup _ _ H)).
  destruct a; reflexivity.
Qed.

Lemma flat_map_upd (f : worker -> option request) w x ws :
  NoDup (ids ws) -> In w ws ->
  Permutation (flat_map (fun w' => olist (upd f w x w')) ws ++ olist (f w))
              (flat_map (fun w' => olist (f w')) ws ++ olist x).
Proof.
  intros Hnd Hin. apply in_split in Hin. destruct Hin as (l1 & l2 & ->).
  unfold ids in Hnd. rewrite map_app in Hnd. simpl in Hnd.
  pose proof (NoDup_remove_2 _ _ _ Hnd) as Hni. rewrite in_app_iff in Hni.
  rewrite !flat_map_app. simpl. unfold upd at 2. rewrite Nat.eqb_refl.
  assert (forall l, ~ In (w_id w) (ids l) ->
    flat_map (fun w' => olist (upd f w x w')) l = flat_map (fun w' => olist (f w')) l) as E.
  { intros l Hl. rewrite !flat_map_concat_map. f_equal. apply map_ext_in. intros a Ha. unfold upd.
    destruct (Nat.eqb_spec (w_id w) (w_id a)) as [Ei|Ei]; [|reflexivity].
    exfalso. apply Hl. rewrite Ei. apply in_ids. exact Ha. }
  rewrite !E by (unfold ids; tauto).
  set (A := flat_map (fun w' => olist (f w')) l1). set (B := flat_map (fun w' => olist (f w')) l2).
  rewrite <- !app_assoc. apply Permutation_app_head.
  rewrite (Permutation_app_comm (olist x)). rewrite (Permutation_app_comm (olist (f w))).
  rewrite <- !app_assoc. apply Permutation_app_head. apply Permutation_app_comm.
Qed.

Lemma running_upd m m' ws w x : qinv m ws -> qinv m' ws -> In w ws ->
  (forall w', In w' ws -> current_of m' w' = upd (current_of m) w x w') ->
  Permutation (running m' ++ olist (current_of m w)) (running m ++ olist x).
Proof.
  intros H H' Hin E. rewrite (running_current _ _ H), (running_current _ _ H').
  rewrite <- (flat_map_upd (current_of m) w x ws (qi_nodup _ _ H) Hin).
  apply Permutation_app_tail. apply eq_perm. apply flat_map_ext_in.
  intros a Ha. rewrite E by exact Ha. reflexivity.
Qed.

Lemma running_same m m' ws : qinv m ws -> qinv m' ws ->
  (forall w', In w' ws -> current_of m' w' = current_of m w') ->
  Permutation (running m') (running m).
Proof.
  intros H H' E. rewrite (running_current _ _ H), (running_current _ _ H').
  apply eq_perm. apply flat_map_ext_in. intros a Ha. rewrite E by exact Ha. reflexivity.
Qed.

Lemma in_running m ws r : qinv m ws ->
  (In r (running m) <-> exists w, In w ws /\ current_of m w = Some r).
Proof.
  intros H. split.
  - intros Hin. eapply Permutation_in in Hin; [|apply (running_current _ _ H)].
    apply in_flat_map in Hin. destruct Hin as (w & Hw & Hr). exists w. split; [exact Hw|].
    destruct (current_of m w); simpl in Hr; [destruct Hr as [->|[]]; reflexivity | tauto].
  - intros (w & Hw & E). eapply Permutation_in; [symmetry; apply (running_current _ _ H)|].
    apply in_flat_map. exists w. split; [exact Hw|]. rewrite E. simpl. auto.
Qed.

(* ---- single: helper loops ---- *)

Lemma sort_insert_perm tie e l : Permutation (sort_insert tie e l) (e :: l).
Proof.
  induction l as [|x t IH]; simpl; [reflexivity|]. destruct (entry_le tie e x); [reflexivity|].
  rewrite IH. apply perm_swap.
Qed.

Lemma sort_entries_perm tie l : Permutation (sort_entries tie l) l.
Proof. induction l as [|x t IH]; simpl; [reflexivity|]. rewrite sort_insert_perm, IH. reflexivity. Qed.

Lemma take_first_spec w l x : take_first w l = Val x ->
  match x with
  | None => forall e, In e l -> check_headers w (r_headers (e_request e)) = Val false
  | Some (r, rest) => exists l1 e l2, l = l1 ++ e :: l2 /\ rest = l1 ++ l2 /\ e_request e = r /\
      capable w r /\ forall e', In e' l1 -> check_headers w (r_headers (e_request e')) = Val false
  end.
Proof.
  revert x. induction l as [|e t IH]; simpl; intros x H.
  - injection H as <-. simpl. tauto.
  - destruct (check_headers w (r_headers (e_request e))) as [b|f] eqn:Ec; simpl in H; [|discriminate].
    destruct b.
    + injection H as <-. exists [], e, t. simpl. repeat split; auto. tauto.
    + destruct (take_first w t) as [y|f] eqn:Et; simpl in H; [|discriminate].
      specialize (IH y eq_refl). destruct y as [(r, rest)|].
      * injection H as <-. destruct IH as (l1 & e' & l2 & -> & -> & Er & Hc & Hn).
        exists (e :: l1), e', l2. simpl. repeat split; auto. intros e'' [<-|Hin]; auto.
      * injection H as <-. intros e' [<-|Hin]; auto.
Qed.

Lemma assignable_spec r ws b : assignable r ws = Val b ->
  if b then exists w, In w ws /\ capable w r
  else forall w, In w ws -> check_headers w (r_headers r) = Val false.
Proof.
  induction ws as [|w t IH]; simpl; intros H.
  - injection H as <-. simpl. tauto.
  - destruct (check_headers w (r_headers r)) as [c|f] eqn:Ec; simpl in H; [|discriminate].
    destruct c.
    + injection H as <-. exists w. split; auto.
    + specialize (IH H). destruct b.
      * destruct IH as (w' & Hin & Hc). eauto.
      * intros w' [<-|Hin]; auto.
Qed.

Lemma select_idle_spec r m x : select_idle r m = Val x ->
  match x with
  | Some w => In (w, None) m /\ capable w r
  | None => forall w, In (w, None) m -> check_headers w (r_headers r) = Val false
  end.
Proof.
  induction m as [|(w, [c|]) t IH]; simpl; intros H.
  - injection H as <-. simpl. tauto.
  - specialize (IH H). destruct x as [w'|].
    + destruct IH; auto.
    + intros w' [E|Hin]; [discriminate|auto].
  - destruct (check_headers w (r_headers r)) as [c|f] eqn:Ec; simpl in H; [|discriminate].
    destruct c.
    + injection H as <-. split; auto.
    + specialize (IH H). destruct x as [w'|].
      * destruct IH; auto.
      * intros w' [E|Hin]; [congruence|auto].
Qed.

Lemma multi_select_spec h ws x : multi_select h ws = Val x ->
  match x with
  | Some w => exists l1 l2, ws = l1 ++ w :: l2 /\ check_headers w h = Val true /\
                forall w', In w' l1 -> check_headers w' h = Val false
  | None => forall w, In w ws -> check_headers w h = Val false
  end.
Proof.
  induction ws as [|w t IH]; simpl; intros H.
  - injection H as <-. simpl. tauto.
  - destruct (check_headers w h) as [c|f] eqn:Ec; simpl in H; [|discriminate].
    destruct c.
    + injection H as <-. exists [], t. simpl. repeat split; auto. tauto.
    + specialize (IH H). destruct x as [w'|].
      * destruct IH as (l1 & l2 & -> & Hc & Hn). exists (w :: l1), l2. simpl. repeat split; auto.
        intros w'' [<-|Hin]; auto.
      * intros w' [<-|Hin]; auto.
Qed.

Lemma split_jobs_spec ws l kept gone : split_jobs ws l = Val (kept, gone) ->
  Permutation (map e_request l) (gone ++ map e_request kept) /\
  (forall e, In e kept -> In e l /\ exists w, In w ws /\ capable w (e_request e)) /\
  (forall r, In r gone -> (exists e, In e l /\ e_request e = r) /\
             forall w, In w ws -> check_headers w (r_headers r) = Val false).
Proof.
  revert kept gone. induction l as [|e t IH]; simpl; intros kept gone H.
  - injection H as <- <-. simpl. repeat split; try tauto. reflexivity.
  - destruct (assignable (e_request e) ws) as [b|f] eqn:Ea; simpl in H; [|discriminate].
    destruct (split_jobs ws t) as [(k, g)|f] eqn:Es; simpl in H; [|discriminate].
    destruct (IH k g eq_refl) as (HP & Hk & Hg). apply assignable_spec in Ea.
    destruct b; injection H as <- <-; simpl.
    + repeat split.
      * rewrite HP. apply Permutation_middle.
      * destruct H as [<-|H]; [auto|]. right. apply Hk. exact H.
      * destruct H as [<-|H]; [exact Ea|]. apply Hk. exact H.
      * destruct (Hg r H) as ((e' & Hi & <-) & _). exists e'. auto.
      * apply Hg. exact H.
    + repeat split.
      * constructor. exact HP.
      * right. apply Hk. exact H.
      * apply Hk. exact H.
      * destruct H as [<-|H]; [exists e; auto|]. destruct (Hg r H) as ((e' & Hi & <-) & _). exists e'; auto.
      * destruct H as [<-|H]; [exact Ea|]. apply Hg. exact H.
Qed.

(* ---- contracts ---- *)

Section Contracts.
Context (o : oracle).

Lemma q_get_current_spec m ws w : qinv m ws -> In w ws ->
  q_get_current w m = Val (current_of m w, m).
Proof.
  intros H Hin. pose proof (qi_keys _ _ H) as HP. pose proof (qi_nodup _ _ H) as Hnd.
  destruct (keys_around ws w _ Hnd HP Hin) as (l1 & a & l2 & A).
  unfold current_of. destruct m as [q|q]; simpl in *; unfold single_get_current, multi_get_current;
    rewrite (ar_index _ _ _ _ _ A), (ar_find _ _ _ _ _ A); destruct q; destruct a; reflexivity.
Qed.

Lemma capable_upd ws m w x :
  (forall w' r, In w' ws -> current_of m w' = Some r -> r_complete r = true -> capable w' r) ->
  NoDup (ids ws) -> In w ws ->
  (forall r, x = Some r -> r_complete r = true -> capable w r) ->
  forall w' r, In w' ws -> upd (current_of m) w x w' = Some r -> r_complete r = true -> capable w' r.
Proof.
  intros H Hnd Hin Hx w' r Hin' E Hc. unfold upd in E.
  destruct (Nat.eqb_spec (w_id w) (w_id w')) as [Ei|Ei].
  - assert (w = w') as <- by (eapply ids_inj; eauto). apply Hx; auto.
  - eapply H; eauto.
Qed.

(* worker_cancelled: returns the current request, leaves the worker idle *)
Lemma q_cancelled_spec m ws w : qinv m ws -> In w ws ->
  exists m', q_worker_cancelled w m = Val (current_of m w, m') /\ qinv m' ws /\ queued m' = queued m /\
             forall w', current_of m' w' = upd (current_of m) w None w'.
Proof.
  intros H Hin. pose proof (qi_keys _ _ H) as HP. pose proof (qi_nodup _ _ H) as Hnd.
  destruct (keys_around ws w _ Hnd HP Hin) as (l1 & a & l2 & A).
  assert (Ha : match a with Some r => Some r | None => None end = a) by (destruct a; reflexivity).
  destruct m as [q|q]; simpl in *; unfold single_worker_cancelled, multi_worker_cancelled;
    rewrite (ar_index _ _ _ _ _ A); simpl; eexists; (split; [|split; [|split]]).
  - unfold current_of. simpl. rewrite (ar_find _ _ _ _ _ A), Ha. reflexivity.
  - constructor; [exact Hnd| |].
    + intros w' r Hw' E. unfold current_of in E. simpl in E.
      pose proof (find_cur_set ws _ w None w' Hnd HP Hin) as Ef. unfold find_cur in Ef. rewrite Ef in E.
      revert w' r Hw' E Ef. intros w' r Hw' E _.
      apply (capable_upd ws (QSingle q) w None (qi_current _ _ H) Hnd Hin ltac:(discriminate)); assumption.
    + destruct (qi_impl _ _ H) as [S1 S2 S3 S4]. constructor; simpl; auto.
      rewrite (keys_set ws) by assumption. exact HP.
  - reflexivity.
  - intros w'. unfold current_of. simpl. apply (find_cur_set ws); assumption.
  - unfold current_of. simpl. rewrite (ar_find _ _ _ _ _ A), Ha. reflexivity.
  - constructor; [exact Hnd| |].
    + intros w' r Hw' E. unfold current_of in E. simpl in E.
      pose proof (find_cur_set ws _ w None w' Hnd HP Hin) as Ef. unfold find_cur in Ef. rewrite Ef in E.
      apply (capable_upd ws (QMulti q) w None (qi_current _ _ H) Hnd Hin ltac:(discriminate)); assumption.
    + destruct (qi_impl _ _ H) as [S1 S2 S3 S4]. constructor; simpl; auto.
      rewrite (keys_set ws) by assumption. exact HP.
  - reflexivity.
  - intros w'. unfold current_of. simpl. apply (find_cur_set ws); assumption.
Qed.

(* assign_request *)
Definition assign_post (m : manager) (ws : list worker) (w : worker) (x : option request) (m' : manager) : Prop :=
  qinv m' ws /\
  (forall w', current_of m' w' = upd (current_of m) w x w') /\
  Permutation (queued m) (olist x ++ queued m') /\
  match x with
  | Some r => capable w r /\ r_complete r = true
  | None => True
  end.

Lemma single_assign_post q ws w x q' : qinv (QSingle q) ws -> In w ws ->
  single_assign o w q = Val (x, q') -> assign_post (QSingle q) ws w x (QSingle q').
Proof.
  intros H Hin E. pose proof (qi_keys _ _ H) as HP. pose proof (qi_nodup _ _ H) as Hnd. simpl in HP.
  destruct (qi_impl _ _ H) as [S1 S2 S3 S4]. unfold single_assign in E.
  set (jobs := sort_entries (o_tie o (sq_sorts q)) (sq_jobs q)) in *.
  assert (HPj : Permutation jobs (sq_jobs q)) by apply sort_entries_perm.
  destruct (take_first w jobs) as [y|f] eqn:Et; simpl in E; [|discriminate].
  apply take_first_spec in Et.
  assert (HP0 : Permutation (keys (pm_set w None (sq_worker_jobs q))) ws)
    by (rewrite (keys_set ws) by assumption; exact HP).
  destruct y as [(r, rest)|]; injection E as <- <-.
  - destruct Et as (l1 & e & l2 & El & -> & Er & Hc & Hn).
    assert (Hine : In e (sq_jobs q)).
    { eapply Permutation_in; [exact HPj|]. rewrite El. rewrite in_app_iff; simpl; auto. }
    assert (Hrest : forall e', In e' (l1 ++ l2) -> In e' (sq_jobs q)).
    { intros e' He'. eapply Permutation_in; [exact HPj|]. rewrite El. rewrite in_app_iff in *; simpl; tauto. }
    assert (Hset : pm_set w (Some r) (pm_set w None (sq_worker_jobs q)) = pm_set w (Some r) (sq_worker_jobs q))
      by (apply (pm_set_set ws); assumption).
    rewrite Hset.
    assert (Hcur : forall w', current_of (QSingle (mkSingle (l1 ++ l2) (pm_set w (Some r) (sq_worker_jobs q))
              (sq_workers q) (sq_clock q) (S (sq_sorts q)))) w' = upd (current_of (QSingle q)) w (Some r) w').
    { intros w'. unfold current_of; simpl. apply (find_cur_set ws); assumption. }
    split; [|split; [exact Hcur|split]].
    + constructor; [exact Hnd| |].
      * intros w' r' Hw' Ec. rewrite Hcur in Ec.
        eapply capable_upd; [apply (qi_current _ _ H)|exact Hnd|exact Hin| |exact Hw'|exact Ec].
        intros r0 [= <-] _. exact Hc.
      * constructor; simpl; auto. rewrite (keys_set ws) by assumption. exact HP.
    + simpl. rewrite <- HPj, El, !map_app. simpl. rewrite Er. symmetry. apply Permutation_middle.
    + split; [exact Hc|]. rewrite <- Er. apply S3. exact Hine.
  - assert (Hcur : forall w', current_of (QSingle (mkSingle jobs (pm_set w None (sq_worker_jobs q))
              (sq_workers q) (sq_clock q) (S (sq_sorts q)))) w' = upd (current_of (QSingle q)) w None w').
    { intros w'. unfold current_of; simpl. apply (find_cur_set ws); assumption. }
    split; [|split; [exact Hcur|split]].
    + constructor; [exact Hnd| |].
      * intros w' r' Hw' Ec. rewrite Hcur in Ec.
        eapply capable_upd; [apply (qi_current _ _ H)|exact Hnd|exact Hin| |exact Hw'|exact Ec]. discriminate.
      * constructor; simpl; auto.
        -- intros e He. apply S3. eapply Permutation_in; eauto.
        -- intros e He. apply S4. eapply Permutation_in; eauto.
    + simpl. rewrite HPj. reflexivity.
    + exact I.
Qed.

Lemma concat_mid {A} (l1 : list (list A)) x l2 : Permutation (concat (l1 ++ x :: l2)) (x ++ concat (l1 ++ l2)).
Proof.
  rewrite !concat_app. simpl. rewrite !app_assoc. apply Permutation_app_tail. apply Permutation_app_comm.
Qed.

Lemma multi_take_post q ws w x q' : qinv (QMulti q) ws -> In w ws -> current_of (QMulti q) w = None ->
  multi_take w q = (x, q') -> assign_post (QMulti q) ws w x (QMulti q').
Proof.
  intros H Hin Hidle E. pose proof (qi_keys _ _ H) as HP. pose proof (qi_nodup _ _ H) as Hnd. simpl in HP.
  destruct (qi_impl _ _ H) as [S1 S2 S3 S4]. unfold multi_take in E.
  destruct (keys_around ws w _ Hnd S2 Hin) as (l1 & a & l2 & A). rewrite (ar_index _ _ _ _ _ A) in E.
  destruct a as [|r rest]; injection E as <- <-.
  - assert (Hsame : mkMulti (mq_queues q) (mq_current q) (mq_order q) = q) by (destruct q; reflexivity).
    rewrite Hsame. split; [exact H|split; [|split; [reflexivity|exact I]]].
    intros w'. unfold upd. destruct (Nat.eqb_spec (w_id w) (w_id w')) as [Ei|Ei]; [|reflexivity].
    unfold current_of in *. simpl in *.
    replace (pm_find w' (mq_current q)) with (pm_find w (mq_current q)); [exact Hidle|].
    clear - Ei. induction (mq_current q) as [|(y, b) t IH]; simpl; [reflexivity|].
    unfold same_worker. rewrite Ei, IH. reflexivity.
  - pose proof (ar_eq _ _ _ _ _ A) as Eq.
    assert (Hrq : In (w, r :: rest) (mq_queues q)) by (rewrite Eq, in_app_iff; simpl; auto).
    destruct (S4 w (r :: rest) r Hrq ltac:(simpl; auto)) as (Hcomp & Hcap).
    assert (Hcur : forall w', current_of (QMulti (mkMulti (pm_set w rest (mq_queues q))
              (pm_set w (Some r) (mq_current q)) (mq_order q))) w' = upd (current_of (QMulti q)) w (Some r) w').
    { intros w'. unfold current_of; simpl. apply (find_cur_set ws); assumption. }
    split; [|split; [exact Hcur|split]].
    + constructor; [exact Hnd| |].
      * intros w' r' Hw' Ec. rewrite Hcur in Ec.
        eapply capable_upd; [apply (qi_current _ _ H)|exact Hnd|exact Hin| |exact Hw'|exact Ec].
        intros r0 [= <-] _. exact Hcap.
      * constructor; simpl; auto.
        -- rewrite (keys_set_gen ws) by assumption. exact S2.
        -- rewrite (keys_set ws) by assumption. exact S3.
        -- rewrite (ar_set _ _ _ _ _ A). intros w' rs r' Hi Hr'. rewrite in_app_iff in Hi. simpl in Hi.
           destruct Hi as [Hi|[Hi|Hi]].
           ++ apply (S4 w' rs); [rewrite Eq, in_app_iff; auto | exact Hr'].
           ++ injection Hi as <- <-. apply (S4 w (r :: rest)); [exact Hrq | simpl; auto].
           ++ apply (S4 w' rs); [rewrite Eq, in_app_iff; simpl; auto | exact Hr'].
    + simpl. rewrite (ar_set _ _ _ _ _ A), Eq, !map_app. simpl. rewrite !concat_mid. reflexivity.
    + split; assumption.
Qed.

Lemma q_assign_spec m ws w x m' : qinv m ws -> In w ws -> current_of m w = None ->
  q_assign_request o w m = Val (x, m') -> assign_post m ws w x m'.
Proof.
  intros H Hin Hidle E. destruct m as [q|q]; simpl in E.
  - unfold lift_single in E. destruct (single_assign o w q) as [(y, q')|f] eqn:Es; simpl in E; [|discriminate].
    injection E as <- <-. eapply single_assign_post; eauto.
  - unfold lift_multi, multi_assign in E. injection E as <- <-.
    eapply multi_take_post; eauto. apply surjective_pairing.
Qed.

(* worker_finished is worker_cancelled followed by assign_request *)
Lemma q_finished_eq m ws w : qinv m ws -> In w ws ->
  exists m1, q_worker_cancelled w m = Val (current_of m w, m1) /\ qinv m1 ws /\ queued m1 = queued m /\
    (forall w', current_of m1 w' = upd (current_of m) w None w') /\
    q_worker_finished o w m = q_assign_request o w m1.
Proof.
  intros H Hin. destruct (q_cancelled_spec m ws w H Hin) as (m1 & E & H1 & Hq & Hc).
  exists m1. repeat split; auto; try apply H1.
  pose proof (qi_keys _ _ H) as HP. pose proof (qi_nodup _ _ H) as Hnd.
  destruct (keys_around ws w _ Hnd HP Hin) as (l1 & a & l2 & A).
  destruct m as [q|q]; simpl in *.
  - unfold single_worker_cancelled in E. rewrite (ar_index _ _ _ _ _ A) in E. unfold lift_single in E. simpl in E.
    injection E as _ <-. simpl. unfold single_worker_finished. f_equal. unfold single_assign. simpl.
    rewrite (pm_set_set ws) by assumption. reflexivity.
  - unfold multi_worker_cancelled in E. rewrite (ar_index _ _ _ _ _ A) in E. unfold lift_multi in E. simpl in E.
    injection E as _ <-. reflexivity.
Qed.

(* enqueue_request *)
Definition enqueue_post (m : manager) (ws : list worker) (r : request) (x : enqueue_result) (m' : manager) : Prop :=
  qinv m' ws /\
  match x with
  | mkEnq (Some w) true =>
      In w ws /\ current_of m w = None /\ capable w r /\
      (forall w', current_of m' w' = upd (current_of m) w (Some r) w') /\ queued m' = queued m
  | mkEnq None true =>
      (exists w, In w ws /\ capable w r) /\
      (forall w', current_of m' w' = current_of m w') /\ Permutation (queued m') (r :: queued m)
  | mkEnq None false => m' = m /\ forall w, In w ws -> check_headers w (r_headers r) = Val false
  | mkEnq (Some _) false => False
  end.

Lemma single_enqueue_post q ws r x q' : qinv (QSingle q) ws -> r_complete r = true ->
  single_enqueue o r q = Val (x, q') -> enqueue_post (QSingle q) ws r x (QSingle q').
Proof.
  intros H Hr E. pose proof (qi_keys _ _ H) as HP. pose proof (qi_nodup _ _ H) as Hnd. simpl in HP.
  destruct (qi_impl _ _ H) as [S1 S2 S3 S4]. unfold single_enqueue in E.
  destruct (select_idle r (sq_worker_jobs q)) as [[w|]|f] eqn:Es; simpl in E; [| |discriminate];
    apply select_idle_spec in Es.
  - injection E as <- <-. destruct Es as (Hi & Hcap).
    assert (Hin : In w ws).
    { eapply Permutation_in; [exact HP|]. unfold keys. apply in_map_iff. exists (w, None). auto. }
    assert (Hidle : current_of (QSingle q) w = None).
    { unfold current_of. simpl. rewrite (pm_find_in w None); [reflexivity| |exact Hi].
      apply (qi_keys_nodup _ _ H). }
    assert (Hcur : forall w', current_of (QSingle (mkSingle (sq_jobs q) (pm_set w (Some r) (sq_worker_jobs q))
              (sq_workers q) (sq_clock q) (sq_sorts q))) w' = upd (current_of (QSingle q)) w (Some r) w').
    { intros w'. unfold current_of; simpl. apply (find_cur_set ws); assumption. }
    split; [|repeat split; auto].
    constructor; [exact Hnd| |].
    + intros w' r' Hw' Ec. rewrite Hcur in Ec.
      eapply capable_upd; [apply (qi_current _ _ H)|exact Hnd|exact Hin| |exact Hw'|exact Ec].
      intros r0 [= <-] _. exact Hcap.
    + constructor; simpl; auto. rewrite (keys_set ws) by assumption. exact HP.
  - destruct (assignable r (sq_workers q)) as [b|f] eqn:Ea; simpl in E; [|discriminate].
    apply assignable_spec in Ea. rewrite S1 in Ea. destruct b; injection E as <- <-.
    + split; [|split; [exact Ea|split; [reflexivity|]]].
      * constructor; [exact Hnd|exact (qi_current _ _ H)|].
        constructor; simpl; auto.
        -- intros e He. rewrite in_app_iff in He. destruct He as [He|[<-|[]]]; auto.
        -- intros e He. rewrite in_app_iff in He. destruct He as [He|[<-|[]]]; auto.
      * simpl. rewrite map_app. simpl. symmetry. apply Permutation_cons_append.
    + split; [exact H|]. split; [reflexivity|exact Ea].
Qed.

Lemma list_remove_perm w ws : In w ws -> NoDup (ids ws) -> Permutation (list_remove w ws ++ [w]) ws.
Proof.
  intros Hin Hnd. rewrite reg_remove_eq by exact Hnd. rewrite <- Permutation_cons_append.
  symmetry. apply reg_remove_perm; assumption.
Qed.

Lemma multi_enqueue_post q ws r x q' : qinv (QMulti q) ws -> r_complete r = true ->
  multi_enqueue r q = Val (x, q') -> enqueue_post (QMulti q) ws r x (QMulti q').
Proof.
  intros H Hr E. pose proof (qi_keys _ _ H) as HP. pose proof (qi_nodup _ _ H) as Hnd. simpl in HP.
  destruct (qi_impl _ _ H) as [S1 S2 S3 S4]. unfold multi_enqueue in E.
  destruct (multi_select (r_headers r) (mq_order q)) as [[w|]|f] eqn:Es; simpl in E; [| |discriminate];
    apply multi_select_spec in Es.
  - destruct Es as (o1 & o2 & Eo & Hcap & _).
    assert (Hino : In w (mq_order q)) by (rewrite Eo, in_app_iff; simpl; auto).
    assert (Hin : In w ws) by (eapply Permutation_in; [exact S1|exact Hino]).
    assert (Hord : Permutation (list_remove w (mq_order q) ++ [w]) ws).
    { rewrite list_remove_perm; [exact S1|exact Hino|].
      eapply Permutation_NoDup; [symmetry; apply ids_perm; exact S1|exact Hnd]. }
    destruct (keys_around ws w _ Hnd HP Hin) as (c1 & a & c2 & A). rewrite (ar_index _ _ _ _ _ A) in E.
    destruct a as [r0|].
    + destruct (keys_around ws w _ Hnd S2 Hin) as (k1 & b & k2 & B). rewrite (ar_index _ _ _ _ _ B) in E.
      injection E as <- <-. pose proof (ar_eq _ _ _ _ _ B) as Eq.
      split; [|split; [exists w; auto|split; [reflexivity|]]].
      * constructor; [exact Hnd|exact (qi_current _ _ H)|].
        constructor; simpl; auto.
        -- rewrite (keys_set_gen ws) by assumption. exact S2.
        -- rewrite (ar_set _ _ _ _ _ B). intros w' rs r' Hi Hr'. rewrite in_app_iff in Hi. simpl in Hi.
           destruct Hi as [Hi|[Hi|Hi]].
           ++ apply (S4 w' rs); [rewrite Eq, in_app_iff; auto | exact Hr'].
           ++ injection Hi as <- <-. rewrite in_app_iff in Hr'. destruct Hr' as [Hr'|[<-|[]]].
              ** apply (S4 w b); [rewrite Eq, in_app_iff; simpl; auto | exact Hr'].
              ** auto.
           ++ apply (S4 w' rs); [rewrite Eq, in_app_iff; simpl; auto | exact Hr'].
      * simpl. rewrite (ar_set _ _ _ _ _ B), Eq, !map_app. simpl. rewrite !concat_mid.
        rewrite <- app_assoc. simpl. symmetry. apply Permutation_middle.
    + injection E as <- <-.
      assert (Hidle : current_of (QMulti q) w = None).
      { unfold current_of. simpl. rewrite (ar_find _ _ _ _ _ A). reflexivity. }
      assert (Hcur : forall w', current_of (QMulti (mkMulti (mq_queues q) (pm_set w (Some r) (mq_current q))
                (list_remove w (mq_order q) ++ [w]))) w' = upd (current_of (QMulti q)) w (Some r) w').
      { intros w'. unfold current_of; simpl. apply (find_cur_set ws); assumption. }
      split; [|repeat split; auto].
      constructor; [exact Hnd| |].
      * intros w' r' Hw' Ec. rewrite Hcur in Ec.
        eapply capable_upd; [apply (qi_current _ _ H)|exact Hnd|exact Hin| |exact Hw'|exact Ec].
        intros r0 [= <-] _. exact Hcap.
      * constructor; simpl; auto. rewrite (keys_set ws) by assumption. exact HP.
  - injection E as <- <-. split; [exact H|]. split; [reflexivity|].
    intros w Hin. apply Es. eapply Permutation_in; [symmetry; exact S1|exact Hin].
Qed.

Lemma q_enqueue_spec m ws r x m' : qinv m ws -> r_complete r = true ->
  q_enqueue_request o r m = Val (x, m') -> enqueue_post m ws r x m'.
Proof.
  intros H Hr E. destruct m as [q|q]; simpl in E.
  - unfold lift_single in E. destruct (single_enqueue o r q) as [(y, q')|f] eqn:Es; simpl in E; [|discriminate].
    injection E as <- <-. eapply single_enqueue_post; eauto.
  - destruct (multi_enqueue r q) as [(y, q')|f] eqn:Es; simpl in E; [|discriminate].
    injection E as <- <-. eapply multi_enqueue_post; eauto.
Qed.

(* add_worker *)
Definition add_post (m : manager) (ws : list worker) (w : worker) (cur : option request)
    (x : option request) (m' : manager) : Prop :=
  qinv m' (ws ++ [w]) /\
  match cur with
  | Some r =>
      (forall w', current_of m' w' = upd (current_of m) w (Some r) w') /\ queued m' = queued m /\
      x = match m with QSingle _ => Some r | QMulti _ => None end
  | None =>
      (forall w', current_of m' w' = upd (current_of m) w x w') /\
      Permutation (queued m) (olist x ++ queued m') /\
      match x with Some r => capable w r /\ r_complete r = true | None => True end
  end.

Lemma nodup_snoc ws w : NoDup (ids ws) -> ~ In (w_id w) (ids ws) -> NoDup (ids (ws ++ [w])).
Proof.
  intros H1 H2. rewrite ids_app. simpl. eapply Permutation_NoDup; [apply Permutation_cons_append|].
  constructor; assumption.
Qed.

Lemma find_cur_new ws m w x w' :
  NoDup (ids ws) -> Permutation (keys m) ws -> ~ In (w_id w) (ids ws) ->
  find_cur (pm_insert w x m) w' = upd (find_cur m) w x w'.
Proof.
  intros Hnd HP Hni. unfold find_cur. rewrite pm_find_insert.
  - unfold upd. destruct (Nat.eqb (w_id w) (w_id w')); [destruct x; reflexivity|reflexivity].
  - intros Hc. apply Hni. eapply Permutation_in; [apply ids_perm; exact HP|exact Hc].
Qed.

Lemma q_add_spec m ws w cur x m' : qinv m ws -> ~ In (w_id w) (ids ws) ->
  (forall r, cur = Some r -> r_complete r = false) ->
  q_add_worker o w cur m = Val (x, m') -> add_post m ws w cur x m'.
Proof.
  intros H Hni Hcur E. pose proof (qi_keys _ _ H) as HP. pose proof (qi_nodup _ _ H) as Hnd.
  pose proof (nodup_snoc _ _ Hnd Hni) as Hnd'.
  assert (Hni' : forall A (p : pmap A), Permutation (keys p) ws -> ~ In (w_id w) (ids (keys p))).
  { intros A p Hp Hc. apply Hni. eapply Permutation_in; [apply ids_perm; exact Hp|exact Hc]. }
  assert (Hcap : forall mm y, (forall w', current_of mm w' = upd (current_of m) w y w') ->
            (forall r, y = Some r -> r_complete r = false) ->
            forall w' r, In w' (ws ++ [w]) -> current_of mm w' = Some r -> r_complete r = true -> capable w' r).
  { intros mm y Hm Hy w' r Hw' Ec Hc. rewrite Hm in Ec. unfold upd in Ec.
    destruct (Nat.eqb_spec (w_id w) (w_id w')) as [Ei|Ei].
    - apply Hy in Ec. congruence.
    - rewrite in_app_iff in Hw'. destruct Hw' as [Hw'|[->|[]]]; [|congruence].
      eapply (qi_current _ _ H); eauto. }
  destruct m as [q|q]; simpl in *.
  - destruct (qi_impl _ _ H) as [S1 S2 S3 S4]. unfold single_add_worker in E.
    rewrite (pm_set_new w) in E by (apply Hni'; exact S2).
    set (q1 := mkSingle (sq_jobs q) (pm_insert w cur (sq_worker_jobs q)) (sq_workers q ++ [w]) (sq_clock q) (sq_sorts q)) in *.
    assert (Hc1 : forall w', current_of (QSingle q1) w' = upd (current_of (QSingle q)) w cur w').
    { intros w'. unfold current_of. simpl. apply (find_cur_new ws); assumption. }
    assert (HI1 : qinv (QSingle q1) (ws ++ [w])).
    { constructor; [exact Hnd'| |].
      - eapply Hcap; eauto.
      - constructor; simpl; auto.
        + rewrite S1. reflexivity.
        + rewrite keys_insert_perm, S2. apply Permutation_cons_append.
        + intros e He. destruct (S4 e He) as (w' & Hw' & Hc'). exists w'. rewrite in_app_iff. auto. }
    destruct cur as [r|].
    + unfold lift_single in E. simpl in E. injection E as <- <-. split; [exact HI1|]. auto.
    + destruct (single_assign o w q1) as [(y, q')|f] eqn:Es; simpl in E; [|discriminate].
      injection E as <- <-.
      destruct (single_assign_post q1 (ws ++ [w]) w y q' HI1 ltac:(rewrite in_app_iff; simpl; auto) Es)
        as (P1 & P2 & P3 & P4).
      split; [exact P1|]. split; [|split; [exact P3|exact P4]].
      intros w'. rewrite P2. unfold upd. destruct (Nat.eqb_spec (w_id w) (w_id w')) as [Ei|Ei]; [reflexivity|].
      rewrite Hc1. unfold upd. destruct (Nat.eqb_spec (w_id w) (w_id w')); [contradiction|reflexivity].
  - destruct (qi_impl _ _ H) as [S1 S2 S3 S4]. unfold lift_multi, multi_add_worker in E. simpl in E.
    rewrite !pm_emplace_new in E by (apply Hni'; assumption).
    injection E as <- <-.
    set (q1 := mkMulti (pm_insert w [] (mq_queues q)) (pm_insert w cur (mq_current q)) (w :: mq_order q)).
    assert (Hc1 : forall w', current_of (QMulti q1) w' = upd (current_of (QMulti q)) w cur w').
    { intros w'. unfold current_of. simpl. apply (find_cur_new ws); assumption. }
    assert (HI1 : qinv (QMulti q1) (ws ++ [w])).
    { constructor; [exact Hnd'| |].
      - eapply Hcap; eauto.
      - constructor; simpl.
        + rewrite S1. apply Permutation_cons_append.
        + rewrite keys_insert_perm, S2. apply Permutation_cons_append.
        + rewrite keys_insert_perm, S3. apply Permutation_cons_append.
        + intros w' rs r Hi Hr. eapply Permutation_in in Hi; [|apply pm_insert_perm].
          destruct Hi as [Hi|Hi]; [injection Hi as <- <-; destruct Hr|]. eapply S4; eauto. }
    assert (Hq : Permutation (queued (QMulti q)) (queued (QMulti q1))).
    { simpl. destruct (pm_insert_split w ([] : list request) (mq_queues q)) as (k1 & k2 & -> & ->).
      rewrite !map_app. simpl. rewrite concat_mid. reflexivity. }
    assert (Hq' : queued (QMulti q1) = queued (QMulti q)).
    { simpl. destruct (pm_insert_split w ([] : list request) (mq_queues q)) as (k1 & k2 & -> & ->).
      rewrite !map_app. simpl. rewrite !concat_app. reflexivity. }
    split; [exact HI1|]. destruct cur as [r|]; repeat split; auto.
Qed.

(* worker_terminated *)
Lemma q_terminated_spec m ws w rs m' : qinv m ws -> In w ws ->
  q_worker_terminated w m = Val (rs, m') ->
  exists gone, rs = olist (current_of m w) ++ gone /\
    qinv m' (reg_remove w ws) /\
    (forall w', w_id w' <> w_id w -> current_of m' w' = current_of m w') /\
    Permutation (queued m) (gone ++ queued m') /\
    (forall r, In r gone -> r_complete r = true).
Proof.
  intros H Hin E. pose proof (qi_keys _ _ H) as HP. pose proof (qi_nodup _ _ H) as Hnd.
  destruct (keys_around ws w _ Hnd HP Hin) as (c1 & a & c2 & A).
  assert (Ha : current_of m w = a).
  { unfold current_of. rewrite (ar_find _ _ _ _ _ A). destruct a; reflexivity. }
  rewrite Ha.
  assert (Hrem : forall B (p : pmap B) l1 b l2, Permutation (keys p) ws -> around w p l1 b l2 ->
            Permutation (keys (pm_erase w p)) (reg_remove w ws)).
  { intros B p l1 b l2 Hp Ap. rewrite (ar_erase _ _ _ _ _ Ap). rewrite (ar_eq _ _ _ _ _ Ap) in Hp.
    apply (Permutation_cons_inv (a := w)). rewrite <- (reg_remove_perm w ws Hin Hnd), <- Hp.
    rewrite !keys_app. apply Permutation_middle. }
  assert (Hfind : forall w', w_id w' <> w_id w ->
            find_cur (pm_erase w (current_map m)) w' = find_cur (current_map m) w').
  { intros w' Hne. unfold find_cur. rewrite (ar_erase _ _ _ _ _ A), (ar_eq _ _ _ _ _ A).
    rewrite pm_find_skip by congruence. reflexivity. }
  assert (Hcap : forall mm, (forall w', w_id w' <> w_id w -> current_of mm w' = current_of m w') ->
            forall w' r, In w' (reg_remove w ws) -> current_of mm w' = Some r -> r_complete r = true -> capable w' r).
  { intros mm Hm w' r Hw' Ec Hc. apply (reg_remove_in w w' ws Hnd Hin) in Hw'. destruct Hw' as (Hw' & Hne).
    rewrite Hm in Ec; [eapply (qi_current _ _ H); eauto|]. intros Ei. apply Hne. eapply ids_inj; eauto. }
  destruct m as [q|q]; simpl in *.
  - destruct (qi_impl _ _ H) as [S1 S2 S3 S4]. unfold single_worker_terminated in E.
    rewrite (ar_index _ _ _ _ _ A) in E. rewrite S1, reg_remove_eq in E by exact Hnd.
    destruct (split_jobs (reg_remove w ws) (sq_jobs q)) as [(kept, gone)|f] eqn:Es; simpl in E; [|discriminate].
    injection E as <- <-. apply split_jobs_spec in Es. destruct Es as (HPj & Hk & Hg).
    exists gone. split; [destruct a; reflexivity|]. split; [|split; [|split]].
    + constructor; [apply reg_remove_nodup; exact Hnd| |].
      * apply Hcap. exact Hfind.
      * constructor; simpl; auto.
        -- eapply Hrem; eauto.
        -- intros e He. apply S3. apply Hk. exact He.
        -- intros e He. apply Hk. exact He.
    + exact Hfind.
    + exact HPj.
    + intros r Hr. destruct (Hg r Hr) as ((e & He & <-) & _). apply S3. exact He.
  - destruct (qi_impl _ _ H) as [S1 S2 S3 S4]. unfold multi_worker_terminated in E.
    rewrite (ar_index _ _ _ _ _ A) in E.
    destruct (keys_around ws w _ Hnd S2 Hin) as (k1 & b & k2 & B). rewrite (ar_index _ _ _ _ _ B) in E.
    unfold lift_multi in E. simpl in E. injection E as <- <-.
    exists b. split; [destruct a; reflexivity|].
    pose proof (ar_eq _ _ _ _ _ B) as Eq. split; [|split; [|split]].
    + constructor; [apply reg_remove_nodup; exact Hnd| |].
      * apply Hcap. exact Hfind.
      * constructor; simpl.
        -- assert (Hndo : NoDup (ids (mq_order q))).
           { eapply Permutation_NoDup; [symmetry; apply ids_perm; exact S1|exact Hnd]. }
           rewrite reg_remove_eq by exact Hndo.
           assert (Hino : In w (mq_order q)) by (eapply Permutation_in; [symmetry; exact S1|exact Hin]).
           apply (Permutation_cons_inv (a := w)).
           rewrite <- (reg_remove_perm w ws Hin Hnd), <- (reg_remove_perm w _ Hino Hndo). exact S1.
        -- eapply Hrem; eauto.
        -- eapply Hrem; eauto.
        -- rewrite (ar_erase _ _ _ _ _ B). intros w' rs' r Hi Hr.
           apply (S4 w' rs'); [|exact Hr]. rewrite Eq. rewrite in_app_iff in *. simpl. tauto.
    + exact Hfind.
    + rewrite (ar_erase _ _ _ _ _ B), Eq, !map_app. simpl. rewrite concat_mid, map_app. reflexivity.
    + intros r Hr. apply (S4 w b r); [rewrite Eq, in_app_iff; simpl; auto|exact Hr].
Qed.

End Contracts.
