(* When the broker dies: exactly the cases of SpecFatal.v. *)
From Coq Require Import Permutation Lia Sorted.
From Verif Require Import Base Bytes Containers Worker Multi Single Queue Handler SpecText TextFacts HeaderFacts OrderFacts
  HexFacts Spec SpecRun SpecMsg SpecPings SpecQueue SpecFatal Facts QueueInv Atoms HandlerSim Keeps Conserve Provenance Members
  Messages Pings QueueContract WorkConserving.
Local Open Scope string_scope.
Local Open Scope list_scope.

(* ---- numbers ---- *)

Lemma stoul_bad v f : stoul v = Fail f <-> bad_count v f.
Proof.
  split.
  - intros H. unfold bad_count. rewrite <- stoul_invalid, <- stoul_range.
    rewrite stoul_read in *. destruct (read_number v) as (neg, [n|]); [destruct (N.ltb n two64); [discriminate|]|];
      injection H as <-; auto.
  - intros [(-> & H)|(-> & H)]; [apply stoul_invalid|apply stoul_range]; exact H.
Qed.

Lemma stoll_bad t f : stoll t = Fail f <-> bad_time t f.
Proof.
  rewrite stoll_read. split.
  - destruct (read_number t) as (neg, [n|]) eqn:E.
    + cbv zeta. destruct (in_i64 _) eqn:Ei; [discriminate|]. intros [= <-]. right. split; [reflexivity|].
      exists neg, n. split; [apply number_of_read; exact E|exact Ei].
    + intros [= <-]. left. split; [reflexivity|]. intros neg' n Hn. apply read_number_of in Hn. congruence.
  - intros [(-> & H)|(-> & neg & n & Hn & Hi)].
    + destruct (read_number t) as (neg, [n|]) eqn:E; [|reflexivity]. apply number_of_read in E. destruct (H _ _ E).
    + rewrite (read_number_of _ _ _ Hn). cbv zeta. rewrite Hi. reflexivity.
Qed.

(* the first thread count that is not a number, in a list *)
Definition splits_bad (vs before : list string) (f : fault) : Prop :=
  exists v after, vs = before ++ v :: after /\ (forall x, In x before -> exists n, denotes x n) /\ bad_count v f.

Lemma splits_bad_fun vs b1 f1 b2 f2 : splits_bad vs b1 f1 -> splits_bad vs b2 f2 -> b1 = b2 /\ f1 = f2.
Proof.
  intros (v1 & a1 & -> & N1 & F1) (v2 & a2 & E & N2 & F2). apply stoul_bad in F1, F2.
  assert (HN : forall v n, denotes v n -> stoul v = Val n) by (intros; apply stoul_spec; assumption).
  revert b2 E N2. induction b1 as [|x b1 IH]; intros [|y b2] E N2; simpl in E; injection E as E1 E2.
  - subst. split; congruence.
  - subst. destruct (N2 y (or_introl eq_refl)) as (n & Hn). apply HN in Hn. congruence.
  - subst. destruct (N1 v2 (or_introl eq_refl)) as (n & Hn). apply HN in Hn. congruence.
  - subst. destruct (IH (fun z Hz => N1 z (or_intror Hz)) b2 E2 (fun z Hz => N2 z (or_intror Hz))) as (-> & ->). auto.
Qed.

Lemma splits_bad_or vs : (exists before f, splits_bad vs before f) \/ forall x, In x vs -> exists n, denotes x n.
Proof.
  induction vs as [|x vs IH]; [right; intros x []|]. destruct (stoul x) as [n|f] eqn:E.
  - apply stoul_spec in E. destruct IH as [(b & f & v & a & -> & Hb & Hf)|IH].
    + left. exists (x :: b), f, v, a. split; [reflexivity|]. split; [|exact Hf]. intros y [<-|Hy]; eauto.
    + right. intros y [<-|Hy]; eauto.
  - left. exists [], f, x, vs. split; [reflexivity|]. split; [intros y []|apply stoul_bad; exact E].
Qed.

Lemma first_bad_splits hdrs before f vs : values "threads" hdrs vs -> (first_bad hdrs before f <-> splits_bad vs before f).
Proof.
  intros HV. split.
  - intros (v & a & H & H1 & H2). exists v, a. rewrite (values_fun _ _ _ _ HV H). auto.
  - intros (v & a & -> & H1 & H2). exists v, a. auto.
Qed.

(* ---- comparing requirements ---- *)

Lemma check_no_threads w hw hs (reqs : mmap string) f : made w hw hs -> mm_equal_range "threads" reqs = [] -> check_headers w reqs <> Fail f.
Proof.
  intros HM. induction reqs as [|(k, v) t IH]; cbn [check_headers]; [discriminate|]. rewrite range_cons.
  destruct (String.eqb_spec k "threads") as [->|Hk]; [discriminate|]. intros HR.
  destruct (check_header w k v) as [[]|e] eqn:E; cbn [rbind]; [auto|discriminate|].
  apply (check_header_fail _ _ _ _ _ _ HM) in E. destruct E as (-> & _). congruence.
Qed.

Lemma check_headers_fail w hw hs reqs f : made w hw hs -> ordered reqs ->
  (check_headers w reqs = Fail f <->
   exists before v after, mm_equal_range "threads" reqs = before ++ v :: after /\
     (forall x, In x before -> check_header w "threads" x = Val true) /\ check_header w "threads" v = Fail f /\
     forall k x, In (k, x) reqs -> String.ltb k "threads" = true -> check_header w k x = Val true).
Proof.
  intros HM. unfold ordered. induction 1 as [|(k, x) t Hs IH Hf].
  - simpl. split; [discriminate|]. intros (b & v & a & E & _). destruct b; discriminate.
  - cbn [check_headers]. destruct (String.eqb_spec k "threads") as [->|Hk].
    + rewrite range_cons, String.eqb_refl. split.
      * destruct (check_header w "threads" x) as [[]|e] eqn:E; cbn [rbind]; [|discriminate|].
        -- intros H. apply IH in H. destruct H as (b & v & a & Er & Hb & Hv & Hl). exists (x :: b), v, a.
           rewrite Er. split; [reflexivity|]. split; [intros y [<-|Hy]; auto|]. split; [exact Hv|].
           intros k y [[= <- <-]|Hy] Hlt; [rewrite ltb_irrefl in Hlt; discriminate|auto].
        -- intros [= ->]. exists [], x, (mm_equal_range "threads" t). split; [reflexivity|]. split; [intros y []|]. split; [exact E|].
           intros k y [[= <- <-]|Hy] Hlt; [rewrite ltb_irrefl in Hlt; discriminate|].
           rewrite Forall_forall in Hf. specialize (Hf _ Hy). unfold le_key in Hf. simpl in Hf. congruence.
      * intros (b & v & a & Er & Hb & Hv & Hl). destruct b as [|y b]; simpl in Er; injection Er as E1 E2; subst.
        -- rewrite Hv. reflexivity.
        -- rewrite (Hb y (or_introl eq_refl)). cbn [rbind]. apply IH. exists b, v, a. split; [exact E2|].
           split; [intros z Hz; apply Hb; right; exact Hz|]. split; [exact Hv|]. intros k z Hz. apply Hl. right. exact Hz.
    + rewrite range_cons, (proj2 (String.eqb_neq _ _) Hk).
      destruct (String.ltb k "threads") eqn:Elt.
      * split.
        -- destruct (check_header w k x) as [[]|e] eqn:E; cbn [rbind]; [|discriminate|].
           ++ intros H. apply IH in H. destruct H as (b & v & a & Er & Hb & Hv & Hl). exists b, v, a.
              split; [exact Er|]. split; [exact Hb|]. split; [exact Hv|].
              intros k' y [[= <- <-]|Hy] Hlt; [exact E|auto].
           ++ apply (check_header_fail _ _ _ _ _ _ HM) in E. destruct E as (-> & _). congruence.
        -- intros (b & v & a & Er & Hb & Hv & Hl). rewrite (Hl k x (or_introl eq_refl) Elt). cbn [rbind].
           apply IH. exists b, v, a. split; [exact Er|]. split; [exact Hb|]. split; [exact Hv|].
           intros k' z Hz. apply Hl. right. exact Hz.
      * assert (Hgt : mm_equal_range "threads" t = []).
        { apply range_above. apply Forall_forall. intros (k', y) Hy. rewrite Forall_forall in Hf. specialize (Hf _ Hy).
          unfold le_key in Hf. simpl in *. apply ltb_false in Elt. destruct Elt as [E|Elt]; [congruence|].
          apply ltb_false in Hf. destruct Hf as [<-|Hf]; [exact Elt|]. eapply ltb_trans; eassumption. }
        split.
        -- intros H. exfalso. destruct (check_header w k x) as [[]|e] eqn:E; cbn [rbind] in H; [|discriminate|].
           ++ exact (check_no_threads _ _ _ _ _ HM Hgt H).
           ++ apply (check_header_fail _ _ _ _ _ _ HM) in E. destruct E as (-> & _). congruence.
        -- intros (b & v & a & Er & _). rewrite Hgt in Er. destruct b; discriminate.
Qed.

(* ---- registration ---- *)

Lemma make_matchers_bad hs acc f : make_matchers hs acc = Fail f <-> exists before, splits_bad (mm_equal_range "threads" hs) before f.
Proof.
  revert acc. induction hs as [|(k, v) t IH]; intros acc; cbn [make_matchers].
  - split; [discriminate|]. intros (b & x & a & E & _). destruct b; discriminate.
  - unfold make_matcher. rewrite range_cons. destruct (String.eqb k "threads").
    + destruct (stoul v) as [n|e] eqn:E; cbn [rbind].
      * rewrite IH. split.
        -- intros (b & x & a & Er & Hb & Hx). exists (v :: b), x, a. rewrite Er. split; [reflexivity|]. split; [|exact Hx].
           intros y [<-|Hy]; [exists n; apply stoul_spec; exact E|auto].
        -- intros (b & x & a & Er & Hb & Hx). destruct b as [|y b]; simpl in Er; injection Er as E1 E2; subst.
           ++ apply stoul_bad in Hx. congruence.
           ++ exists b, x, a. split; [exact E2|]. split; [intros z Hz; apply Hb; right; exact Hz|exact Hx].
      * split.
        -- intros [= ->]. exists [], v, (mm_equal_range "threads" t). split; [reflexivity|]. split; [intros y []|apply stoul_bad; exact E].
        -- intros (b & x & a & Er & Hb & Hx). destruct b as [|y b]; simpl in Er; injection Er as E1 E2; subst.
           ++ apply stoul_bad in Hx. congruence.
           ++ destruct (Hb y (or_introl eq_refl)) as (n & Hn). apply stoul_spec in Hn. congruence.
    + cbn [rbind]. apply IH.
Qed.

(* ---- queue managers ---- *)

Section Enqueue.
Context (o : oracle) (r : request) (f : fault).

Lemma select_idle_fail m : select_idle r m = Fail f -> exists w, In w (keys m) /\ check_headers w (r_headers r) = Fail f.
Proof.
  induction m as [|(w, [c|]) t IH]; simpl; [discriminate| |].
  - intros H. destruct (IH H) as (w' & Hw & E). eauto.
  - destruct (check_headers w (r_headers r)) as [[]|e] eqn:E; cbn [rbind]; [discriminate| |].
    + intros H. destruct (IH H) as (w' & Hw & E'). eauto.
    + intros [= ->]. eauto.
Qed.
Lemma assignable_fail l : assignable r l = Fail f -> exists w, In w l /\ check_headers w (r_headers r) = Fail f.
Proof.
  induction l as [|w t IH]; simpl; [discriminate|].
  destruct (check_headers w (r_headers r)) as [[]|e] eqn:E; cbn [rbind]; [discriminate| |].
  - intros H. destruct (IH H) as (w' & Hw & E'). eauto.
  - intros [= ->]. eauto.
Qed.
Lemma multi_select_fail l : multi_select (r_headers r) l = Fail f -> exists w, In w l /\ check_headers w (r_headers r) = Fail f.
Proof.
  induction l as [|w t IH]; simpl; [discriminate|].
  destruct (check_headers w (r_headers r)) as [[]|e] eqn:E; cbn [rbind]; [discriminate| |].
  - intros H. destruct (IH H) as (w' & Hw & E'). eauto.
  - intros [= ->]. eauto.
Qed.

Lemma enqueue_fail m ws : qinv m ws -> q_enqueue_request o r m = Fail f ->
  exists w, In w ws /\ check_headers w (r_headers r) = Fail f.
Proof.
  intros HQ. pose proof (qi_impl _ _ HQ) as HI. destruct m as [q|q]; simpl.
  - unfold lift_single, single_enqueue. destruct (select_idle r (sq_worker_jobs q)) as [[w|]|e] eqn:E; cbn [rbind]; [discriminate| |].
    + destruct (assignable r (sq_workers q)) as [[]|e'] eqn:E'; cbn [rbind]; [discriminate|discriminate|].
      intros [= ->]. apply assignable_fail in E'. rewrite (si_workers _ _ HI) in E'. exact E'.
    + intros [= ->]. apply select_idle_fail in E. destruct E as (w & Hw & E). exists w. split; [|exact E].
      eapply Permutation_in; [apply (si_keys _ _ HI)|exact Hw].
  - unfold multi_enqueue. destruct (multi_select (r_headers r) (mq_order q)) as [[w|]|e] eqn:E; cbn [rbind].
    + destruct (pm_index None w (mq_current q)) as ([c|], cm); [|discriminate].
      destruct (pm_index [] w (mq_queues q)). discriminate.
    + discriminate.
    + intros [= ->]. apply multi_select_fail in E. destruct E as (w & Hw & E). exists w. split; [|exact E].
      eapply Permutation_in; [apply (mi_order _ _ HI)|exact Hw].
Qed.

(* no worker can run the request, and those on which the comparison throws throw f *)
Context (ws : list worker).
Hypothesis Hall : forall w, In w ws -> check_headers w (r_headers r) = Val false \/ check_headers w (r_headers r) = Fail f.

Lemma select_idle_none m : incl (keys m) ws -> select_idle r m = Val None \/ select_idle r m = Fail f.
Proof.
  induction m as [|(w, [c|]) t IH]; simpl; intros Hi; [auto| |].
  - apply IH. intros x Hx. apply Hi. right. exact Hx.
  - destruct (Hall w (Hi w (or_introl eq_refl))) as [-> | ->]; cbn [rbind]; [|auto].
    apply IH. intros x Hx. apply Hi. right. exact Hx.
Qed.
Lemma assignable_throws l w : incl l ws -> In w l -> check_headers w (r_headers r) = Fail f -> assignable r l = Fail f.
Proof.
  induction l as [|x t IH]; simpl; intros Hi Hw E; [contradiction|].
  destruct (Hall x (Hi x (or_introl eq_refl))) as [Ex | Ex]; rewrite Ex; cbn [rbind]; [|reflexivity].
  destruct Hw as [->|Hw]; [congruence|]. apply IH; auto. intros y Hy. apply Hi. right. exact Hy.
Qed.
Lemma multi_select_throws l w : incl l ws -> In w l -> check_headers w (r_headers r) = Fail f -> multi_select (r_headers r) l = Fail f.
Proof.
  induction l as [|x t IH]; simpl; intros Hi Hw E; [contradiction|].
  destruct (Hall x (Hi x (or_introl eq_refl))) as [Ex | Ex]; rewrite Ex; cbn [rbind]; [|reflexivity].
  destruct Hw as [->|Hw]; [congruence|]. apply IH; auto. intros y Hy. apply Hi. right. exact Hy.
Qed.

Lemma enqueue_throws m w : qinv m ws -> In w ws -> check_headers w (r_headers r) = Fail f -> q_enqueue_request o r m = Fail f.
Proof.
  intros HQ Hw E. pose proof (qi_impl _ _ HQ) as HI. destruct m as [q|q]; simpl.
  - unfold lift_single, single_enqueue.
    destruct (select_idle_none (sq_worker_jobs q)) as [-> | ->]; cbn [rbind]; [|  |reflexivity].
    + intros x Hx. eapply Permutation_in; [apply (si_keys _ _ HI)|exact Hx].
    + rewrite (assignable_throws (sq_workers q) w); rewrite ?(si_workers _ _ HI); cbn [rbind]; auto. apply incl_refl.
  - unfold multi_enqueue. rewrite (multi_select_throws (mq_order q) w); cbn [rbind]; auto.
    + intros x Hx. eapply Permutation_in; [apply (mi_order _ _ HI)|exact Hx].
    + eapply Permutation_in; [symmetry; apply (mi_order _ _ HI)|exact Hw].
Qed.

End Enqueue.

(* ---- commands that cannot fail ---- *)

Section WithConfig.
Context (o : oracle) (cfg : config).

Definition okay {A} (m : M A) (s : state) (Q : A -> state -> Prop) : Prop :=
  exists outs a s', m s = (outs, inr (a, s')) /\ Q a s'.

Lemma okay_bind {A B} (m : M A) (k : A -> M B) s Q R :
  okay m s Q -> (forall a s', Q a s' -> okay (k a) s' R) -> okay (bind m k) s R.
Proof.
  intros (outs & a & s' & E & HQ) HK. destruct (HK a s' HQ) as (o2 & b & s2 & E2 & HR).
  exists (outs ++ o2), b, s2. unfold bind. rewrite E, E2. auto.
Qed.
Lemma okay_mono {A} (m : M A) s (Q R : A -> state -> Prop) : okay m s Q -> (forall a s', Q a s' -> R a s') -> okay m s R.
Proof. intros (outs & a & s' & E & HQ) H. exists outs, a, s'. auto. Qed.
Lemma okay_ret {A} (a : A) s (Q : A -> state -> Prop) : Q a s -> okay (ret a) s Q.
Proof. intros H. exists [], a, s. auto. Qed.
Lemma okay_get s (Q : state -> state -> Prop) : Q s s -> okay get s Q.
Proof. intros H. exists [], s, s. auto. Qed.
Lemma okay_modify f s (Q : unit -> state -> Prop) : Q tt (f s) -> okay (modify f) s Q.
Proof. intros H. exists [], tt, (f s). auto. Qed.
Lemma okay_respond m s (Q : unit -> state -> Prop) : Q tt s -> okay (respond m) s Q.
Proof. intros H. exists [m], tt, s. auto. Qed.
Lemma okay_queue {A} (f : manager -> res (A * manager)) s a m (Q : A -> state -> Prop) :
  f (s_queue s) = Val (a, m) -> Q a (set_queue m s) -> okay (queue_call f) s Q.
Proof. intros E H. exists [], a, (set_queue m s). unfold queue_call. rewrite E. auto. Qed.
Lemma okay_send_if w x s (Q : unit -> state -> Prop) : Q tt s -> okay (send_if w x) s Q.
Proof. intros H. destruct x; [apply okay_respond|apply okay_ret]; exact H. Qed.
Lemma okay_nofail {A} (m : M A) s Q outs f : okay m s Q -> m s <> (outs, inl f).
Proof. intros (o1 & a & s' & E & _). congruence. Qed.

(* the queue manager is in use with workers ws, which are the registered ones *)
Definition in_use (s : state) : Prop := used o (s_queue s) (s_reg s).

Lemma queued_numeric_all m ws r : used o m ws -> In r (queued m) -> numeric r.
Proof.
  intros HU Hr. destruct (used_inv o _ _ HU) as (HI & HC). pose proof (qi_impl _ _ HI) as HX. destruct m as [q|q]; simpl in Hr.
  - apply in_map_iff in Hr. destruct Hr as (e & <- & He). destruct (si_assignable _ _ HX e He) as (w & Hw & Hc).
    eapply fits_numeric. apply (fits_capable w); [auto|exact Hc].
  - apply in_concat in Hr. destruct Hr as (rs & Hrs & Hr). apply in_map_iff in Hrs. destruct Hrs as ((w, rs') & <- & Hin). simpl in Hr.
    destruct (mi_queued _ _ HX w rs' r Hin Hr) as (_ & Hc). eapply fits_numeric. apply (fits_capable w); [|exact Hc].
    apply HC. eapply Permutation_in; [apply (mi_queues _ _ HX)|]. apply (in_map fst) in Hin. exact Hin.
Qed.

Lemma current_numeric m ws w r : used o m ws -> In w ws -> current_of m w = Some r -> r_complete r = true -> numeric r.
Proof.
  intros HU Hw Hc Hr. destruct (used_inv o _ _ HU) as (HI & HC). eapply fits_numeric.
  apply (fits_capable w); [auto|]. eapply qi_current; eauto.
Qed.

Lemma check_failure_okay r text s : okay (check_failure_count cfg r text) s (fun _ s' => s' = s).
Proof.
  unfold check_failure_count. eapply okay_bind; [apply (okay_get s (fun a s' => a = s /\ s' = s)); auto|].
  intros a s' (-> & ->). destruct (N.leb _ _); [|apply okay_ret; reflexivity].
  eapply okay_bind; [apply (okay_respond _ _ (fun _ s' => s' = s)); reflexivity|]. intros _ s' ->.
  eapply okay_bind; [apply (okay_respond _ _ (fun _ s' => s' = s)); reflexivity|]. intros _ s' ->. apply okay_ret. reflexivity.
Qed.

Lemma reassign_okay ws r s : used o (s_queue s) ws -> r_complete r = true -> numeric r ->
  okay (reassign_request o r) s (fun _ s' => used o (s_queue s') ws /\ s_reg s' = s_reg s).
Proof.
  intros HU Hr Hn. destruct (enqueue_contract o _ _ _ HU Hr Hn) as (x & m' & E & HU' & _).
  unfold reassign_request. eapply okay_bind.
  - apply (okay_queue _ _ x m' (fun a s' => s' = set_queue m' s)); [exact E|reflexivity].
  - intros a s' ->. destruct (negb (enqueued a)).
    + eapply okay_bind; [apply (okay_respond _ _ (fun _ s' => s' = set_queue m' s)); reflexivity|].
      intros _ s' ->. apply okay_ret. auto.
    + eapply okay_bind.
      * instantiate (1 := fun _ s' => s' = set_queue m' s).
        destruct (assigned_to a); [apply okay_respond|apply okay_ret]; reflexivity.
      * intros _ s' ->. apply okay_ret. auto.
Qed.

Lemma expire_requests_okay ws rs : forall s, used o (s_queue s) ws ->
  (forall r, In r rs -> r_complete r = true -> numeric r) ->
  okay (expire_requests o cfg rs) s (fun _ s' => used o (s_queue s') ws /\ s_reg s' = s_reg s).
Proof.
  induction rs as [|r rs IH]; intros s HU Hn; simpl.
  - apply okay_ret. auto.
  - assert (Hn' : forall r, In r rs -> r_complete r = true -> numeric r) by (intros; apply Hn; simpl; auto).
    destruct (r_complete r) eqn:Ec; simpl.
    + eapply okay_bind; [apply check_failure_okay|]. intros [] s' ->; simpl; [|auto].
      eapply okay_bind; [apply (reassign_okay ws); auto; apply Hn; simpl; auto|].
      intros [] s' (HU' & Er); simpl.
      * eapply okay_bind; [apply (okay_respond _ _ (fun _ s2 => s2 = s')); reflexivity|].
        intros _ s2 ->. rewrite <- Er. apply IH; auto.
      * eapply okay_bind; [apply IH; auto|]. intros a s2 (HU2 & Er2). apply okay_ret. split; [exact HU2|congruence].
    + eapply okay_bind; [apply (okay_respond _ _ (fun _ s2 => s2 = s)); reflexivity|]. intros _ s2 ->.
      eapply okay_bind; [apply (okay_respond _ _ (fun _ s2 => s2 = s)); reflexivity|]. intros _ s2 ->. auto.
Qed.

Lemma reject_all_okay d rs s : okay (reject_all d rs) s (fun _ s' => s' = s).
Proof.
  induction rs as [|r rs IH]; simpl; [apply okay_ret; reflexivity|].
  eapply okay_bind; [apply (okay_respond _ _ (fun _ s2 => s2 = s)); reflexivity|]. intros _ s2 ->. exact IH.
Qed.

Lemma set_queue_same s : set_queue (s_queue s) s = s.
Proof. destruct s; reflexivity. Qed.

Lemma expire_workers_okay rm : forall s, in_use s -> NoDup (ids (s_reg s)) -> NoDup (ids rm) -> incl rm (s_reg s) ->
  okay (expire_workers o cfg rm) s (fun _ s' => in_use s').
Proof.
  induction rm as [|w rm IH]; intros s HU Hnd Hrm Hi; simpl.
  - apply okay_ret. exact HU.
  - assert (Hw : In w (s_reg s)) by (apply Hi; simpl; auto).
    destruct (terminated_contract o _ _ _ HU Hw) as (gone & m' & E & HU' & _ & HP & _).
    eapply okay_bind; [apply (okay_modify _ _ (fun _ s' => s' = set_reg (reg_remove w (s_reg s)) s)); reflexivity|].
    intros _ s1 ->. set (s1 := set_reg _ s).
    eapply okay_bind.
    { apply (okay_queue _ _ (current_of (s_queue s) w) (s_queue s) (fun a s' => a = current_of (s_queue s) w /\ s' = s1)).
      - exact (current_contract o _ _ _ HU Hw).
      - split; [reflexivity|]. exact (set_queue_same s1). }
    intros a s2 (-> & ->).
    eapply okay_bind.
    { instantiate (1 := fun _ s' => s_queue s' = s_queue s /\ s_reg s' = s_reg s1).
      destruct (current_of (s_queue s) w); [apply okay_modify|apply okay_ret]; auto. }
    intros _ s3 (Eq3 & Er3).
    eapply okay_bind.
    { apply (okay_queue _ _ (olist (current_of (s_queue s) w) ++ gone) m'
        (fun a s' => a = olist (current_of (s_queue s) w) ++ gone /\ s_queue s' = m' /\ s_reg s' = s_reg s1)).
      - rewrite Eq3. exact E.
      - auto. }
    intros a s4 (-> & Eq4 & Er4).
    eapply okay_bind.
    { apply (expire_requests_okay (list_remove w (s_reg s))).
      - rewrite Eq4. exact HU'.
      - intros r Hr Hc. apply in_app_iff in Hr. destruct Hr as [Hr|Hr].
        + destruct (current_of (s_queue s) w) as [c|] eqn:Ec; [|destruct Hr]. destruct Hr as [<-|[]].
          exact (current_numeric _ _ _ _ HU Hw Ec Hc).
        + apply (queued_numeric_all _ _ _ HU). eapply Permutation_in; [symmetry; exact (proj1 HP)|]. apply in_or_app. auto. }
    intros un s5 (HU5 & Er5).
    eapply okay_bind; [apply reject_all_okay|]. intros _ s6 ->.
    assert (Er : s_reg s5 = reg_remove w (s_reg s)) by (rewrite Er5, Er4; reflexivity).
    apply IH.
    + unfold in_use. rewrite Er, <- reg_remove_eq by exact Hnd. exact HU5.
    + rewrite Er. apply reg_remove_nodup. exact Hnd.
    + inversion Hrm; assumption.
    + rewrite Er. intros x Hx. apply (reg_remove_in w x _ Hnd Hw). split; [apply Hi; simpl; auto|].
      inversion Hrm as [|? ? Hn _]; subst. intros ->. apply Hn. apply in_map. exact Hx.
Qed.

Lemma count_idle_okay ws : forall s, in_use s -> incl ws (s_reg s) -> okay (count_idle ws) s (fun _ s' => True).
Proof.
  induction ws as [|w ws IH]; intros s HU Hi; simpl; [apply okay_ret; exact I|].
  eapply okay_bind.
  { apply (okay_queue _ _ (current_of (s_queue s) w) (s_queue s) (fun a s' => s' = s)).
    - apply (current_contract o _ (s_reg s)); [exact HU|apply Hi; simpl; auto].
    - apply set_queue_same. }
  intros a s1 ->. eapply okay_bind.
  { instantiate (1 := fun _ s' => s_queue s' = s_queue s /\ s_reg s' = s_reg s).
    destruct a; [apply okay_ret|apply okay_modify]; auto. }
  intros _ s2 (E1 & E2). apply IH.
  - unfold in_use. rewrite E1, E2. exact HU.
  - rewrite E2. intros x Hx. apply Hi. right. exact Hx.
Qed.

(* the scan of a tick *)
Lemma timer_scan_total z ws : forall s, NoDup (ids ws) ->
  (forall w, In w ws -> in_i64 (old_timer s w + z) = true) ->
  okay (timer_scan cfg z ws) s (fun rm s' => NoDup (ids rm) /\ incl rm ws /\ s_reg s' = s_reg s /\ s_queue s' = s_queue s).
Proof.
  induction ws as [|w ws IH]; intros s Hnd Hin; cbn [timer_scan].
  - apply okay_ret. split; [constructor|]. split; [intros x []|auto].
  - eapply okay_bind; [apply (okay_get s (fun a s' => a = s /\ s' = s)); auto|]. intros a s0 (-> & ->).
    fold (old_timer s w). rewrite (Hin w (or_introl eq_refl)). cbn [negb].
    inversion Hnd as [|? ? Hn Hnd']; subst.
    assert (Hold : forall z', forall x, In x ws -> old_timer (set_timers (pm_set w z' (s_timers s)) s) x = old_timer s x).
    { intros z' x Hx. rewrite old_timer_set. destruct (Nat.eqb_spec (w_id w) (w_id x)) as [E|]; [|reflexivity].
      exfalso. apply Hn. rewrite E. apply in_map. exact Hx. }
    destruct (Z.ltb _ _).
    + eapply okay_bind; [apply (okay_modify _ _ (fun _ s' => s' = set_live (tbl_set (w_id w) (size_pred (tbl_get (w_id w) (s_live s))) (s_live s)) s)); reflexivity|].
      intros _ s1 ->. set (s1 := set_live _ s).
      eapply okay_bind; [apply (okay_modify _ _ (fun _ s' => s' = set_timers (pm_set w 0%Z (s_timers s1)) s1)); reflexivity|].
      intros _ s2 ->. set (s2 := set_timers _ s1).
      eapply okay_bind; [apply (IH s2 Hnd')|].
      * intros x Hx. change (old_timer s2 x) with (old_timer (set_timers (pm_set w 0%Z (s_timers s)) s) x).
        rewrite Hold by exact Hx. apply Hin. right. exact Hx.
      * intros rm s3 (H1 & H2 & H3 & H4). apply okay_ret. split; [|split; [|split; assumption]].
        -- destruct (N.leb _ _); [|exact H1]. simpl. constructor; [|exact H1]. intros Hc. apply Hn.
           apply in_map_iff in Hc. destruct Hc as (x & E & Hx). rewrite <- E. apply in_map. auto.
        -- destruct (N.leb _ _); intros x Hx; [destruct Hx as [->|Hx]; [left; reflexivity|]|]; right; auto.
    + eapply okay_bind; [apply (okay_modify _ _ (fun _ s' => s' = set_timers (pm_set w (old_timer s w + z)%Z (s_timers s)) s)); reflexivity|].
      intros [] s1 ->. eapply okay_mono; [apply IH; [exact Hnd'|]|].
      * intros x Hx. rewrite Hold by exact Hx. apply Hin. right. exact Hx.
      * intros rm s3 (H1 & H2 & H3 & H4). split; [exact H1|]. split; [intros x Hx; right; auto|auto].
Qed.

Lemma timer_scan_fails z ws : forall s outs f, timer_scan cfg z ws s = (outs, inl f) -> outs = [] /\ f = IntOverflow.
Proof.
  induction ws as [|w ws IH]; intros s outs f; cbn [timer_scan]; [discriminate|].
  unfold bind at 1, get. destruct (negb _).
  - unfold fail. intros [= <- <-]. auto.
  - destruct (Z.ltb _ _).
    + unfold bind, modify, ret. destruct (timer_scan _ _ _ _) as (o1, [f1|(a, s1)]) eqn:E; [|discriminate].
      intros [= <- <-]. apply IH in E. destruct E as (-> & ->). auto.
    + unfold bind, modify. destruct (timer_scan _ _ _ _) as (o1, [f1|(a, s1)]) eqn:E; [|discriminate].
      intros [= <- <-]. apply IH in E. destruct E as (-> & ->). auto.
Qed.

(* ---- done ---- *)

Lemma at_okay v i x s (Q : string -> state -> Prop) : nth_error v i = Some x -> Q x s -> okay (at_ v i) s Q.
Proof. intros E H. unfold at_. rewrite E. apply okay_ret. exact H. Qed.

Definition steady (w : worker) (s : state) : Prop := in_use s /\ In w (s_reg s).

Lemma finish_okay w s : steady w s -> okay (queue_call (q_get_current w) ;; ret tt) s (fun _ _ => True).
Proof.
  intros (HU & Hw). eapply okay_bind.
  - eapply (okay_queue _ _ _ _ (fun _ _ => True)); [apply (current_contract o _ (s_reg s)); assumption|exact I].
  - intros a s' _. apply okay_ret. exact I.
Qed.

Lemma stat_steady w k s : steady w s -> okay (stat_incr k) s (fun _ s' => steady w s').
Proof. intros H. apply okay_modify. exact H. Qed.

Lemma send_steady w w' x s : steady w s -> okay (send_if w' x) s (fun _ s' => steady w s').
Proof. intros H. apply okay_send_if. exact H. Qed.

Lemma finished_steady w s : steady w s -> okay (queue_call (q_worker_finished o w)) s (fun _ s' => steady w s').
Proof.
  intros (HU & Hw). destruct (finished_contract o _ _ _ HU Hw) as (x & m' & E & HU' & _).
  eapply okay_queue; [exact E|]. split; assumption.
Qed.

Lemma cancelled_steady w s : steady w s ->
  okay (queue_call (q_worker_cancelled w)) s
    (fun a s' => a = current_of (s_queue s) w /\ steady w s' /\ current_of (s_queue s') w = None).
Proof.
  intros (HU & Hw). destruct (cancelled_contract o _ _ _ HU Hw) as (m' & E & HU' & (Hn & _) & _).
  eapply okay_queue; [exact E|]. split; [reflexivity|]. split; [split; assumption|exact Hn].
Qed.

Lemma assign_steady w s : steady w s -> current_of (s_queue s) w = None ->
  okay (queue_call (q_assign_request o w)) s (fun _ s' => steady w s').
Proof.
  intros (HU & Hw) Hi. destruct (assign_contract o _ _ _ HU Hw Hi) as (x & m' & E & HU' & _).
  eapply okay_queue; [exact E|]. split; assumption.
Qed.

Lemma done_okay i d s w r : in_use s -> find_worker_by_identity i (s_reg s) = Some w -> current_of (s_queue s) w = Some r ->
  okay (process_worker_done o cfg i d) s (fun _ _ => True).
Proof.
  intros HU Hf Hc. destruct (find_by_identity_in _ _ _ Hf) as (Hw & _).
  assert (HS : steady w s) by (split; assumption).
  unfold process_worker_done.
  eapply okay_bind; [apply (okay_get s (fun a s' => a = s /\ s' = s)); auto|]. intros a s0 (-> & ->). rewrite Hf.
  destruct (Nat.ltb_spec (length d) 3) as [|Hl]; [apply okay_ret; exact I|].
  destruct d as [|c [|j [|st rest]]]; simpl in Hl; try lia. clear Hl.
  eapply okay_bind.
  { apply (okay_queue _ _ (Some r) (s_queue s) (fun a s' => a = Some r /\ s' = s)).
    - rewrite <- Hc. exact (current_contract o _ _ _ HU Hw).
    - split; [reflexivity|apply set_queue_same]. }
  intros a s0 (-> & ->).
  eapply okay_bind; [eapply (at_okay _ _ j s (fun a s' => a = j /\ s' = s)); [reflexivity|auto]|]. intros a s0 (-> & ->).
  destruct (String.eqb j (r_job r)); cbn [negb]; [|apply okay_ret; exact I].
  eapply okay_bind; [eapply (at_okay _ _ st s (fun a s' => a = st /\ s' = s)); [reflexivity|auto]|]. intros a s0 (-> & ->).
  cbv zeta. destruct (String.eqb st "OK").
  { eapply okay_bind; [apply (okay_respond _ _ (fun _ s' => steady w s')); exact HS|]. intros [] s1 H1.
    eapply okay_bind; [apply finished_steady; exact H1|]. intros x s2 H2.
    eapply okay_bind; [apply send_steady; exact H2|]. intros [] s3 H3.
    eapply okay_bind; [apply stat_steady; exact H3|]. intros [] s4 H4. apply finish_okay. exact H4. }
  destruct (String.eqb st "INTERNAL_ERROR").
  { destruct rest as [|text [|? ?]]; simpl Nat.eqb; cbn [negb]; try (apply okay_ret; exact I).
    eapply okay_bind; [apply cancelled_steady; exact HS|]. intros x s1 (-> & H1 & Hn). rewrite Hc.
    eapply okay_bind; [apply (okay_modify _ _ (fun _ s' => steady w s' /\ current_of (s_queue s') w = None)); split; [exact H1|exact Hn]|].
    clear s1 H1 Hn. intros [] s1 (H1 & Hn).
    eapply okay_bind; [eapply (at_okay _ _ text s1 (fun a s' => a = text /\ s' = s1)); [reflexivity|auto]|]. intros a s0 (-> & ->).
    eapply okay_bind.
    { instantiate (1 := fun _ s' => steady w s'). destruct (r_complete r) eqn:Er; cbn [negb].
      - eapply okay_bind; [apply check_failure_okay|]. intros [] s2 ->.
        + eapply okay_bind.
          * apply (reassign_okay (s_reg s1)); [apply H1|exact Er|]. exact (current_numeric _ _ _ _ HU Hw Hc Er).
          * intros b s3 (HU3 & E3). apply okay_ret. split; [unfold in_use; rewrite E3; exact HU3|rewrite E3; apply H1].
        + eapply okay_bind; [apply assign_steady; assumption|]. intros x s3 H3. apply send_steady. exact H3.
      - apply okay_respond. exact H1. }
    intros [] s2 H2. eapply okay_bind; [apply stat_steady; exact H2|]. intros [] s4 H4. apply finish_okay. exact H4. }
  destruct (String.eqb st "FAILED"); [|apply finish_okay; exact HS].
  destruct rest as [|text [|? ?]]; simpl Nat.eqb; cbn [negb]; try (apply okay_ret; exact I).
  eapply okay_bind; [eapply (at_okay _ _ text s (fun a s' => a = text /\ s' = s)); [reflexivity|auto]|]. intros a s0 (-> & ->).
  eapply okay_bind; [apply (okay_respond _ _ (fun _ s' => s' = s)); reflexivity|]. intros [] s0 ->.
  eapply okay_bind; [apply cancelled_steady; exact HS|]. intros x s1 (-> & H1 & Hn). rewrite Hc.
  eapply okay_bind; [apply (okay_modify _ _ (fun _ s' => steady w s' /\ current_of (s_queue s') w = None)); split; [exact H1|exact Hn]|].
  clear s1 H1 Hn. intros [] s1 (H1 & Hn).
  eapply okay_bind; [apply assign_steady; assumption|]. intros x s2 H2.
  eapply okay_bind; [apply send_steady; exact H2|]. intros [] s3 H3.
  eapply okay_bind; [apply stat_steady; exact H3|]. intros [] s4 H4. apply finish_okay. exact H4.
Qed.

Lemma done_cases i d s : in_use s ->
  (exists w j st rest, find_worker_by_identity i (s_reg s) = Some w /\ current_of (s_queue s) w = None /\ d = j :: st :: rest /\
     process_worker_done o cfg i ("done" :: d) s = ([], inl NullDeref)) \/
  (okay (process_worker_done o cfg i ("done" :: d)) s (fun _ _ => True) /\
   forall w j st rest, find_worker_by_identity i (s_reg s) = Some w -> current_of (s_queue s) w = None -> d <> j :: st :: rest).
Proof.
  intros HU. destruct (find_worker_by_identity i (s_reg s)) as [w|] eqn:Hf.
  - destruct (current_of (s_queue s) w) as [r|] eqn:Hc.
    + right. split; [eapply done_okay; eauto|]. intros w' j st rest [= <-] E. congruence.
    + destruct d as [|j [|st rest]].
      1-2: right; split; [|intros ? ? ? ? _ _; discriminate].
      1-2: unfold process_worker_done; eapply okay_bind; [apply (okay_get s (fun a s' => a = s /\ s' = s)); auto|];
        intros a s0 (-> & ->); rewrite Hf; apply okay_ret; exact I.
      left. exists w, j, st, rest. split; [reflexivity|]. split; [exact Hc|]. split; [reflexivity|].
      destruct (find_by_identity_in _ _ _ Hf) as (Hw & _). pose proof (current_contract o _ _ _ HU Hw) as E.
      unfold process_worker_done, bind, get. rewrite Hf. cbn [length Nat.ltb Nat.leb]. unfold queue_call. rewrite E, Hc. reflexivity.
  - right. split; [|intros; discriminate]. unfold process_worker_done.
    eapply okay_bind; [apply (okay_get s (fun a s' => a = s /\ s' = s)); auto|]. intros a s0 (-> & ->). rewrite Hf.
    apply okay_ret. exact I.
Qed.

(* ---- tick ---- *)

Lemma tick_okay i t rest z s : in_use s -> NoDup (ids (s_reg s)) -> stoll t = Val z ->
  (forall w, In w (s_reg s) -> in_i64 (old_timer s w + z) = true) ->
  okay (process_timer o cfg (Msg "timer" i (t :: rest))) s (fun _ _ => True).
Proof.
  intros HU Hnd Ez Hz. unfold process_timer. cbn [m_data].
  eapply okay_bind.
  { instantiate (1 := fun a s' => a = z /\ s' = s). exists [], z, s. unfold lift. rewrite Ez. auto. }
  intros a s0 (-> & ->).
  eapply okay_bind; [apply (okay_get s (fun a s' => a = s /\ s' = s)); auto|]. intros a s0 (-> & ->).
  eapply okay_bind; [apply timer_scan_total; assumption|]. intros rm s1 (N1 & I1 & R1 & Q1).
  eapply okay_bind; [apply expire_workers_okay|].
  - unfold in_use. rewrite Q1, R1. exact HU.
  - rewrite R1. exact Hnd.
  - exact N1.
  - rewrite R1. exact I1.
  - intros [] s2 H2. eapply okay_bind; [apply (okay_get s2 (fun a s' => a = s2 /\ s' = s2)); auto|]. intros a s0 (-> & ->).
    assert (HK : forall k v s', (s_reg s' = s_reg s2 /\ in_use s') -> okay (stat_set k v) s' (fun _ s'' => s_reg s'' = s_reg s2 /\ in_use s''))
      by (intros k v s' H; apply okay_modify; exact H).
    eapply okay_bind; [apply HK; auto|]. intros [] s3 H3.
    eapply okay_bind; [apply HK; exact H3|]. intros [] s4 H4.
    eapply okay_bind; [apply HK; exact H4|]. intros [] s5 (R5 & H5).
    eapply okay_bind; [apply count_idle_okay; [exact H5|rewrite R5; apply incl_refl]|]. intros [] s6 _.
    eapply okay_bind; [apply (okay_get s6 (fun a s' => a = s6 /\ s' = s6)); auto|]. intros a s0 (-> & ->).
    apply okay_modify. exact I.
Qed.

Lemma tick_overflow i t rest z s w : NoDup (ids (s_reg s)) -> stoll t = Val z -> In w (s_reg s) ->
  in_i64 (old_timer s w + z) = false ->
  process_timer o cfg (Msg "timer" i (t :: rest)) s = ([], inl IntOverflow).
Proof.
  intros Hnd Ez Hw Ho. unfold process_timer, bind, lift, get. cbn [m_data]. rewrite Ez. unfold ret at 1.
  destruct (timer_scan cfg z (s_reg s) s) as (outs, [f|(rm, s1)]) eqn:E.
  - apply timer_scan_fails in E. destruct E as (-> & ->). reflexivity.
  - destruct (timer_scan_exact _ _ _ _ _ _ _ Hnd E) as (_ & S1 & _). destruct (S1 w Hw) as (Hi & _). congruence.
Qed.

(* ---- init ---- *)

Lemma make_worker_bad wid addr i hw frames hdrs f : init_block frames hdrs ->
  (make_worker wid addr i hw (fst (parse_init_headers frames [])) = Fail f <-> exists before, first_bad hdrs before f).
Proof.
  intros HB. destruct (init_block_headers _ _ HB) as (-> & NB). destruct (values_ex "threads" hdrs) as (vs & HV).
  assert (HE : make_worker wid addr i hw (fst (parse_init_headers hdrs [])) = Fail f <->
    make_matchers (fst (parse_init_headers hdrs [])) (mm_emplace "hwgroup" (MMulti hw) []) = Fail f).
  { unfold make_worker. destruct (make_matchers _ _); cbn [rbind]; split; congruence. }
  rewrite HE, make_matchers_bad, (init_range _ _ NB _ vs ordered_nil HV). cbn [mm_equal_range filter map app].
  split; intros (b & H); exists b; apply (first_bad_splits _ _ _ _ HV); exact H.
Qed.

Definition register_part (identity hwgroup : string) (headers : mmap string) (rest : list string) (s : state) : M unit :=
  new_worker <- lift (make_worker (s_next_w s) (o_addr o (s_next_w s)) identity hwgroup headers) ;;
  modify (set_next_w (S (s_next_w s))) ;;
  let '(desc, cur, next) := parse_init_extra rest "" None (s_next_r s) in
  modify (set_next_r next) ;;
  let new_worker := set_description desc new_worker in
  modify (fun s => set_reg (reg_add new_worker (s_reg s)) s) ;;
  request <- queue_call (q_add_worker o new_worker cur) ;;
  send_if new_worker request ;;
  modify (fun s => set_timers (pm_emplace new_worker 0%Z (s_timers s)) s).

Lemma register_fails i hw hs rest s s1 f : make_worker (s_next_w s) (o_addr o (s_next_w s)) i hw hs = Fail f ->
  register_part i hw hs rest s s1 = ([], inl f).
Proof. intros E. unfold register_part, bind, lift. rewrite E. reflexivity. Qed.

Lemma register_okay i hw hs rest s w : in_use s -> (forall x, In x (s_reg s) -> w_id x < s_next_w s) ->
  make_worker (s_next_w s) (o_addr o (s_next_w s)) i hw hs = Val w ->
  okay (register_part i hw hs rest s) s (fun _ _ => True).
Proof.
  intros HU Hlt E. unfold register_part.
  eapply okay_bind.
  { instantiate (1 := fun a s' => a = w /\ s' = s). exists [], w, s. unfold lift. rewrite E. auto. }
  intros a s0 (-> & ->).
  eapply okay_bind; [apply (okay_modify _ _ (fun _ s' => s_queue s' = s_queue s)); reflexivity|]. intros [] s1 Q1.
  destruct (parse_init_extra rest "" None (s_next_r s)) as ((desc, cur), next) eqn:Ex.
  eapply okay_bind; [apply (okay_modify _ _ (fun _ s' => s_queue s' = s_queue s)); exact Q1|]. intros [] s2 Q2.
  eapply okay_bind; [apply (okay_modify _ _ (fun _ s' => s_queue s' = s_queue s)); exact Q2|]. intros [] s3 Q3.
  destruct (add_contract o _ _ (set_description desc w) cur HU) as (x & m' & Eq & _).
  - exists (s_next_w s), (o_addr o (s_next_w s)), i, hw, hs, w, desc. auto.
  - intros w' Hw'. apply Hlt in Hw'. apply make_worker_fields in E. destruct E as (Eid & _). cbn [w_id set_description] in *. lia.
  - apply parse_init_extra_spec in Ex. destruct Ex as (_ & Hc & _). intros r ->.
    destruct (Hc r eq_refl) as [Hr|(Hr & _)]; [discriminate|rewrite Hr; reflexivity].
  - eapply okay_bind; [apply (okay_queue _ _ x m' (fun _ _ => True)); [rewrite Q3; exact Eq|exact I]|]. intros a s4 _.
    eapply okay_bind; [apply (okay_send_if _ _ _ (fun _ _ => True)); exact I|]. intros [] s5 _. apply okay_modify. exact I.
Qed.

Lemma init_unfold i hw frames s :
  process_worker_init o i ("init" :: hw :: frames) s =
  let '(hs, rest) := parse_init_headers frames [] in
  match find_worker_by_identity i (s_reg s) with
  | Some w => if headers_equal w hs then ([], inr (tt, s))
              else bind (notify_error ("Received two different INIT messages from the same worker (" ++ get_description w ++ ")")%string)
                     (fun _ => register_part i hw hs rest s) s
  | None => register_part i hw hs rest s s
  end.
Proof.
  unfold process_worker_init. cbn [length Nat.ltb Nat.leb skipn]. unfold bind at 1, at_. cbn [nth_error]. unfold ret at 1.
  destruct (parse_init_headers frames []) as (hs, rest). unfold bind at 1, get. cbv zeta. fold (register_part i hw hs rest s).
  destruct (find_worker_by_identity i (s_reg s)) as [w|].
  - destruct (headers_equal w hs); [reflexivity|]. destruct (bind _ _ s). reflexivity.
  - destruct (register_part i hw hs rest s s). reflexivity.
Qed.

(* ---- eval ---- *)

Lemma not_meta_threads m : ~ meta_name "threads" m.
Proof. revert m. apply is_meta_false. reflexivity. Qed.

Lemma denotes_good v n f : denotes v n -> ~ bad_count v f.
Proof. intros H B. apply stoul_spec in H. apply stoul_bad in B. congruence. Qed.

Lemma offers_numeric hw hdrs v : offers hw hdrs "threads" v -> exists n, denotes v n.
Proof. inversion 1; subst; [eauto|congruence]. Qed.

Lemma made_bad need reqs w hw hs hdrs f : reqs = fst (store need [] []) -> made w hw hs -> declares hs hdrs ->
  (check_headers w reqs = Fail f <-> exists before, first_bad need before f /\ reaches hw hdrs need before).
Proof.
  intros Er HM HD.
  assert (HO : ordered reqs) by (rewrite Er; apply store_ordered, ordered_nil).
  assert (HQ : forall h v, In (h, v) reqs <-> requires need h v).
  { intros h v. rewrite Er, store_headers_in. simpl. tauto. }
  destruct (values_ex "threads" need) as (vs & HV).
  assert (HT : mm_equal_range "threads" reqs = vs).
  { rewrite Er, (store_range _ _ not_meta_threads _ _ vs ordered_nil HV). reflexivity. }
  rewrite (check_headers_fail _ _ _ _ _ HM HO), HT. split.
  - intros (before & v & after & E & H1 & H2 & H3). exists before.
    assert (H1' : forall x, In x before -> offers hw hdrs "threads" x) by (intros x Hx; apply (check_header_true _ _ _ _ _ _ HM HD); auto).
    apply (check_header_fail _ _ _ _ _ _ HM) in H2. destruct H2 as (_ & Hs & d & Hd). split.
    + exists v, after. rewrite <- E. split; [exact HV|]. split; [|apply stoul_bad; exact Hs].
      intros x Hx. apply H1' in Hx. apply offers_numeric in Hx. exact Hx.
    + split; [apply HD in Hd; destruct Hd as (fr & Hfr & Hh); eauto|]. split; [exact H1'|].
      intros k' x Hr Hl. apply (check_header_true _ _ _ _ _ _ HM HD). apply H3; [apply HQ; exact Hr|exact Hl].
  - intros (before & HF & (fr & d & Hfr & Hh) & H1 & H3). apply (first_bad_splits _ _ _ _ HV) in HF.
    destruct HF as (v & after & E & _ & HB). exists before, v, after. split; [exact E|]. split; [|split].
    + intros x Hx. apply (check_header_true _ _ _ _ _ _ HM HD). auto.
    + apply (check_header_fail _ _ _ _ _ _ HM). split; [reflexivity|]. split; [apply stoul_bad; exact HB|].
      exists d. apply HD. eauto.
    + intros k' x Hr Hl. apply (check_header_true _ _ _ _ _ _ HM HD). apply H3; [apply HQ; exact Hr|exact Hl].
Qed.

Lemma worker_bad k tr s need reqs w reg hw hdrs f : run o cfg k tr s -> reqs = fst (store need [] []) ->
  In reg tr -> joined reg w hw hdrs ->
  (check_headers w reqs = Fail f <-> exists before, first_bad need before f /\ reaches hw hdrs need before).
Proof.
  intros HR Er Hin HJ. destruct (joined_made o cfg _ _ _ _ _ _ _ HR Hin HJ) as (HM & HD & _). exact (made_bad _ _ _ _ _ _ _ Er HM HD).
Qed.

Lemma enqueue_bad k tr s need r f : run o cfg k tr s -> r_headers r = fst (store need [] []) ->
  (q_enqueue_request o r (s_queue s) = Fail f <->
   exists before w reg hw hdrs, first_bad need before f /\ In w (s_reg s) /\ In reg tr /\ joined reg w hw hdrs /\
     reaches hw hdrs need before).
Proof.
  intros HR Er. pose proof (inv_q _ _ (run_inv _ _ _ _ _ HR)) as HI. destruct (run_carried _ _ _ _ _ HR) as (Cw & _). split.
  - intros E. apply (enqueue_fail _ _ _ _ _ HI) in E. destruct E as (w & Hw & E).
    destruct (Cw w Hw) as (reg & hw & hdrs & Hin & HJ & _).
    apply (worker_bad _ _ _ _ _ _ _ _ _ _ HR Er Hin HJ) in E. destruct E as (before & H1 & H2).
    exists before, w, reg, hw, hdrs. auto 10.
  - intros (before & w & reg & hw & hdrs & HF & Hw & Hin & HJ & HX).
    assert (E : check_headers w (r_headers r) = Fail f).
    { apply (worker_bad _ _ _ _ _ _ _ _ _ _ HR Er Hin HJ). eauto. }
    apply (enqueue_throws o r f (s_reg s)) with (w := w); [|exact HI|exact Hw|exact E].
    intros w' Hw'. destruct (Cw w' Hw') as (reg' & hw' & hdrs' & Hin' & HJ' & _).
    destruct (check_headers w' (r_headers r)) as [[]|f'] eqn:E'; [exfalso|left; reflexivity|right].
    + destruct HF as (v & after & HV & _ & HB). apply (proj1 (check_headers_true _ _)) with (k := "threads") (v := v) in E'.
      * destruct (joined_made o cfg _ _ _ _ _ _ _ HR Hin' HJ') as (HM & HD & _).
        apply (check_header_true _ _ _ _ _ _ HM HD) in E'. apply offers_numeric in E'. destruct E' as (n & Hn).
        eapply denotes_good; eauto.
      * apply equal_range_in. rewrite Er, (store_range _ _ not_meta_threads _ _ _ ordered_nil HV). simpl. apply in_elt.
    + apply (worker_bad _ _ _ _ _ _ _ _ _ _ HR Er Hin' HJ') in E'. destruct E' as (b' & HF' & _).
      destruct (values_ex "threads" need) as (vs & HV).
      apply (first_bad_splits _ _ _ _ HV) in HF. apply (first_bad_splits _ _ _ _ HV) in HF'.
      destruct (splits_bad_fun _ _ _ _ _ HF HF') as (_ & ->). reflexivity.
Qed.

Lemma eval_cases' i j frames need payload s : header_block frames need payload ->
  let r := complete_request (s_next_r s) (fst (store need [] [])) (snd (store need [] [])) j payload in
  if s_frozen s then okay (process_client_eval o i ("eval" :: j :: frames)) s (fun _ _ => True)
  else match q_enqueue_request o r (s_queue s) with
       | Fail f => process_client_eval o i ("eval" :: j :: frames) s = ([Msg "clients" i ["ack"]], inl f)
       | Val _ => okay (process_client_eval o i ("eval" :: j :: frames)) s (fun _ _ => True)
       end.
Proof.
  intros HB r. unfold okay, process_client_eval, bind, respond, at_, lift, get. cbn [nth_error skipn]. unfold ret.
  rewrite (parse_eval_block _ _ _ _ _ HB). destruct (store need [] []) as (reqs, md) eqn:Es. cbn [fst snd] in r.
  destruct (s_frozen s); [do 3 eexists; split; [reflexivity|exact I]|]. unfold modify, queue_call. cbn [s_queue set_next_r].
  fold r. destruct (q_enqueue_request o r (s_queue s)) as [(x, m')|f]; [|reflexivity].
  destruct (enqueued x); [destruct (assigned_to x)|]; do 3 eexists; (split; [reflexivity|exact I]).
Qed.

(* ---- all messages ---- *)

Lemma refresh_in_use i s : in_use s -> in_use (refresh cfg i s).
Proof. unfold in_use. rewrite refresh_queue, refresh_reg. auto. Qed.

Lemma init_crash k tr s i hw frames outs f : run o cfg k tr s ->
  (process_worker_init o i ("init" :: hw :: frames) (refresh cfg i s) = (outs, inl f) <->
   dies tr s (Msg "workers" i ("init" :: hw :: frames)) outs f).
Proof.
  intros HR. pose proof (run_inv _ _ _ _ _ HR) as HI. pose proof (run_used _ _ _ _ _ HR) as HU.
  rewrite init_unfold. destruct (parse_init_headers frames []) as (hs, rest) eqn:Ep.
  rewrite refresh_reg, <- sender_find.
  assert (HB : exists hdrs, init_block frames hdrs).
  { destruct (block_dec frames) as [(hdrs & r & H)|H]; [exists hdrs; left; eauto|exists frames; right; auto]. }
  destruct HB as (hdrs & HB).
  assert (HW : forall wid addr f', make_worker wid addr i hw hs = Fail f' <-> exists before, first_bad hdrs before f').
  { intros. pose proof (make_worker_bad wid addr i hw frames hdrs f' HB) as H. rewrite Ep in H. exact H. }
  assert (HP : forall f', (exists before, first_bad hdrs before f') ->
    forall s0 s1, register_part i hw hs rest s0 s1 = ([], inl f')).
  { intros f' Hf s0 s1. apply register_fails. apply HW. exact Hf. }
  assert (HO : (forall f', ~ exists before, first_bad hdrs before f') ->
    okay (register_part i hw hs rest (refresh cfg i s)) (refresh cfg i s) (fun _ _ => True)).
  { intros Hno. destruct (make_worker (s_next_w (refresh cfg i s)) (o_addr o (s_next_w (refresh cfg i s))) i hw hs) as [w|f'] eqn:E.
    - eapply register_okay; [apply refresh_in_use; exact HU| |exact E]. rewrite refresh_reg, refresh_next_w. intros x Hx.
      apply (inv_w _ _ HI). exact Hx.
    - exfalso. apply (Hno f'). apply HW in E. exact E. }
  assert (HD : (forall f', ~ exists before, first_bad hdrs before f') \/ exists f' before, first_bad hdrs before f').
  { destruct (make_worker 0 0%N i hw hs) as [w|f'] eqn:E.
    - left. intros f' Hf. apply (HW 0 0%N) in Hf. congruence.
    - right. exists f'. apply HW in E. exact E. }
  split.
  - intros E. destruct (sender i s) as [w|] eqn:Hs.
    + destruct (headers_equal w hs) eqn:Eh; [discriminate|].
      destruct HD as [Hno|(f' & before & Hf)].
      * exfalso. apply HO in Hno. destruct Hno as (o1 & a & s' & E1 & _). unfold bind, notify_error, respond in E.
        rewrite E1 in E. discriminate.
      * unfold bind, notify_error, respond in E. rewrite (HP f' (ex_intro _ before Hf)) in E. injection E as <- <-.
        destruct (run_carried _ _ _ _ _ HR) as (Cw & _). pose proof Hs as Hs'. rewrite sender_find in Hs'.
        destruct (find_by_identity_in _ _ _ Hs') as (Hw & _).
        destruct (Cw w Hw) as (reg & hw0 & hdrs0 & Hin & HJ & _).
        eapply (di_init_changed tr s i hw frames hdrs before f' w reg hw0 hdrs0); eauto.
        intros HE. destruct (joined_made o cfg _ _ _ _ _ _ _ HR Hin HJ) as ((_ & HC & _) & _ & N0).
        destruct (init_block_headers _ _ HB) as (EB & NB). rewrite Ep in EB. cbn [fst] in EB.
        apply (same_headers_iff _ _ N0 NB) in HE. unfold headers_equal in Eh. rewrite HC, EB in Eh. congruence.
    + destruct HD as [Hno|(f' & before & Hf)].
      * exfalso. apply HO in Hno. destruct Hno as (o1 & a & s' & E1 & _). congruence.
      * rewrite (HP f' (ex_intro _ before Hf)) in E. injection E as <- <-. eapply di_init_new; eauto.
  - intros HX. remember (Msg "workers" i ("init" :: hw :: frames)) as m eqn:Em.
    destruct HX as [| | | | | |i' hw' frames' hdrs' before f Hs HB' HF|i' hw' frames' hdrs' before f w reg hw0 hdrs0 Hs Hin HJ HB' HE HF| | |];
      try discriminate Em; injection Em as -> -> ->; rewrite Hs; assert (hdrs' = hdrs) as -> by (eapply init_block_fun; eauto).
    + apply HP. eauto.
    + destruct (joined_made o cfg _ _ _ _ _ _ _ HR Hin HJ) as ((_ & HC & _) & _ & N0).
      destruct (init_block_headers _ _ HB) as (EB & NB). rewrite Ep in EB. cbn [fst] in EB.
      assert (Eh : headers_equal w hs = false).
      { unfold headers_equal. rewrite HC, EB. destruct (headers_eqb _ _) eqn:E; [|reflexivity]. exfalso.
        apply (same_headers_iff _ _ N0 NB) in E. contradiction. }
      rewrite Eh. unfold bind, notify_error, respond. rewrite (HP f) by eauto. reflexivity.
Qed.

Lemma done_crash k tr s i d outs f : run o cfg k tr s ->
  (process_worker_done o cfg i ("done" :: d) (refresh cfg i s) = (outs, inl f) <->
   dies tr s (Msg "workers" i ("done" :: d)) outs f).
Proof.
  intros HR. pose proof (refresh_in_use i _ (run_used _ _ _ _ _ HR)) as HU.
  destruct (done_cases i d _ HU) as [(w & j & st & rest & Hf & Hc & -> & ->)|(Hok & Hno)];
    rewrite refresh_reg, refresh_queue, <- sender_find in *.
  - split.
    + intros [= <- <-]. eapply di_done_idle; eauto.
    + intros HX. remember (Msg "workers" i ("done" :: j :: st :: rest)) as m eqn:Em.
      destruct HX; try discriminate Em. reflexivity.
  - split.
    + intros E. destruct (okay_nofail _ _ _ _ _ Hok E).
    + intros HX. exfalso. remember (Msg "workers" i ("done" :: d)) as m eqn:Em.
      destruct HX as [| | | | | | | |i' w j st rest Hs Hc| |]; try discriminate Em. injection Em as -> Ed.
      exact (Hno w j st rest Hs Hc (eq_sym Ed)).
Qed.

Lemma eval_crash k tr s i d outs f : run o cfg k tr s ->
  (process_client_eval o i ("eval" :: d) s = (outs, inl f) <-> dies tr s (Msg "clients" i ("eval" :: d)) outs f).
Proof.
  intros HR. destruct d as [|j frames].
  { split; [intros [= <- <-]; constructor|]. intros HX. remember (Msg "clients" i ["eval"]) as m eqn:Em.
    destruct HX; try discriminate Em. injection Em as ->. reflexivity. }
  destruct (list_eq_dec string_dec frames []) as [->|Hne].
  { split; [intros [= <- <-]; constructor|]. intros HX. remember (Msg "clients" i ["eval"; j]) as m eqn:Em.
    destruct HX as [| | | | |i' j' frames need payload before f w reg hw hdrs Hz HB HF Hw Hin HJ HX| | | | |];
      try discriminate Em; [injection Em as -> _; reflexivity|].
    injection Em as _ _ ->. destruct HB as (HB & _). destruct need; discriminate. }
  destruct (block_dec frames) as [(need & payload & HB)|Hn].
  - pose proof (eval_cases' i j frames need payload s HB) as HC. cbv zeta in HC.
    set (r := complete_request _ _ _ _ _) in HC.
    assert (HE : forall f', q_enqueue_request o r (s_queue s) = Fail f' <-> _) by (intros f'; exact (enqueue_bad k tr s need r f' HR eq_refl)).
    split.
    + intros E. destruct (s_frozen s) eqn:Ez; [destruct (okay_nofail _ _ _ _ _ HC E)|].
      destruct (q_enqueue_request o r (s_queue s)) as [x|f'] eqn:Eq; [destruct (okay_nofail _ _ _ _ _ HC E)|].
      rewrite HC in E. injection E as <- <-.
      destruct (proj1 (HE f') eq_refl) as (before & w & reg & hw & hdrs & HF & Hw & Hin & HJ & HX).
      eapply di_eval_threads; eauto.
    + intros HX. remember (Msg "clients" i ("eval" :: j :: frames)) as m eqn:Em.
      destruct HX as [| | | | |i' j' frames' need' payload' before f w reg hw hdrs Hz HB' HF Hw Hin HJ HX| | | | |];
        try discriminate Em; [injection Em as _ _ <-; contradiction|].
      injection Em as -> -> ->. rewrite Hz in HC. destruct (header_block_fun _ _ _ _ _ HB HB') as (<- & _).
      assert (Eq : q_enqueue_request o r (s_queue s) = Fail f) by (apply HE; exists before, w, reg, hw, hdrs; auto 10).
      rewrite Eq in HC. exact HC.
  - assert (Hok : okay (process_client_eval o i ("eval" :: j :: frames)) s (fun _ _ => True)).
    { unfold okay, process_client_eval, bind, respond, at_, lift. cbn [nth_error skipn]. unfold ret.
      rewrite (parse_eval_no_block _ _ _ Hne Hn). do 3 eexists; split; [reflexivity|exact I]. }
    split; [intros E; destruct (okay_nofail _ _ _ _ _ Hok E)|].
    intros HX. exfalso. remember (Msg "clients" i ("eval" :: j :: frames)) as m eqn:Em.
    destruct HX as [| | | | |i' j' frames' need' payload' before f w reg hw hdrs Hz HB' HF Hw Hin HJ HX| | | | |];
      try discriminate Em; [injection Em as _ _ <-; contradiction|].
    injection Em as -> -> ->. destruct HB' as (-> & _). apply Hn. apply in_elt.
Qed.

Lemma tick_crash k tr s i t rest outs f : run o cfg k tr s ->
  (process_timer o cfg (Msg "timer" i (t :: rest)) s = (outs, inl f) <-> dies tr s (Msg "timer" i (t :: rest)) outs f).
Proof.
  intros HR. pose proof (run_used _ _ _ _ _ HR) as HU.
  pose proof (qi_nodup _ _ (inv_q _ _ (run_inv _ _ _ _ _ HR))) as Hnd. destruct (run_ping_inv _ _ _ _ _ HR) as (HT & _).
  assert (HX : dies tr s (Msg "timer" i (t :: rest)) outs f <->
    outs = [] /\ (bad_time t f \/ f = IntOverflow /\ exists z w old, reads t z /\ In w (s_reg s) /\ ping_timer s w = Some old /\ in_i64 (old + z) = false)).
  { split.
    - intros HX. remember (Msg "timer" i (t :: rest)) as m eqn:Em.
      destruct HX; try discriminate Em; injection Em as -> -> ->; split; auto; right; split; eauto 10.
    - intros (-> & [H|(-> & z & w & old & H1 & H2 & H3 & H4)]); [apply di_tick_text; exact H|eapply di_tick_overflow; eauto]. }
  rewrite HX. clear HX. destruct (stoll t) as [z|e] eqn:Ez.
  - assert (HB : ~ bad_time t f) by (intros HB; apply stoll_bad in HB; congruence).
    destruct (forallb (fun w => in_i64 (old_timer s w + z)) (s_reg s)) eqn:Ef.
    + rewrite forallb_forall in Ef. split.
      * intros E. destruct (okay_nofail _ _ _ _ _ (tick_okay i t rest z s HU Hnd Ez Ef) E).
      * intros (_ & [H|(_ & z' & w & old & H1 & H2 & H3 & H4)]); [contradiction|]. exfalso.
        apply reads_stoll in H1. rewrite Ez in H1. injection H1 as <-. apply Ef in H2. unfold old_timer in H2.
        unfold ping_timer in H3. rewrite H3 in H2. congruence.
    + assert (exists w, In w (s_reg s) /\ in_i64 (old_timer s w + z) = false) as (w & Hw & Hi).
      { clear -Ef. induction (s_reg s) as [|x l IH]; simpl in Ef; [discriminate|].
        destruct (in_i64 (old_timer s x + z)) eqn:E; [|exists x; simpl; auto].
        destruct (IH Ef) as (w & Hw & Hi). exists w. simpl. auto. }
      rewrite (tick_overflow i t rest z s w Hnd Ez Hw Hi). split.
      * intros [= <- <-]. split; [reflexivity|]. right. split; [reflexivity|]. destruct (HT w Hw) as (old & Ho).
        exists z, w, old. split; [apply reads_stoll; exact Ez|]. split; [exact Hw|]. split; [exact Ho|].
        unfold old_timer in Hi. unfold ping_timer in Ho. rewrite Ho in Hi. exact Hi.
      * intros (-> & [H|(-> & _)]); [contradiction|reflexivity].
  - assert (E : process_timer o cfg (Msg "timer" i (t :: rest)) s = ([], inl e)).
    { unfold process_timer, bind, lift. cbn [m_data]. rewrite Ez. reflexivity. }
    rewrite E. split.
    + intros [= <- <-]. split; [reflexivity|]. left. apply stoll_bad. exact Ez.
    + intros (-> & [H|(_ & z & _ & _ & H1 & _)]).
      * apply stoll_bad in H. congruence.
      * apply reads_stoll in H1. congruence.
Qed.

Theorem crash_iff k tr s m outs f : run o cfg k tr s -> (crashes o cfg s m outs f <-> dies tr s m outs f).
Proof.
  intros HR. unfold crashes. destruct m as [key i d].
  destruct (string_dec key "workers") as [->|N1].
  { destruct d as [|c d].
    - assert (E : on_request o cfg (Msg "workers" i []) s = ([], inl OutOfRange)) by (rewrite on_request_eq; reflexivity). rewrite E.
      split; [intros [= <- <-]; constructor|]. intros HX. remember (Msg "workers" i []) as m eqn:Em.
      destruct HX; try discriminate Em. injection Em as ->. reflexivity.
    - rewrite (worker_message _ _ _ s c d) by reflexivity. cbn [m_ident].
      destruct (string_dec c "init") as [->|C1].
      { change (call_function (worker_commands o cfg) "init") with (process_worker_init o). destruct d as [|hw frames].
        - split; [discriminate|]. intros HX. remember (Msg "workers" i ["init"]) as m eqn:Em. destruct HX; discriminate Em.
        - apply init_crash with (k := k). exact HR. }
      destruct (string_dec c "done") as [->|C2].
      { change (call_function (worker_commands o cfg) "done") with (process_worker_done o cfg). apply done_crash with (k := k). exact HR. }
      split; [|intros HX; exfalso; remember (Msg "workers" i (c :: d)) as m eqn:Em; destruct HX; try discriminate Em; injection Em; congruence].
      intros E. exfalso. destruct (string_dec c "ping") as [->|C3].
      { change (call_function (worker_commands o cfg) "ping") with process_worker_ping in E.
        unfold process_worker_ping, bind, get in E. destruct (find_worker_by_identity _ _); discriminate. }
      destruct (string_dec c "progress") as [->|C4].
      { change (call_function (worker_commands o cfg) "progress") with process_worker_progress in E. discriminate. }
      rewrite call_unknown in E; [discriminate|]. intros [H|[H|[H|[H|[]]]]]; cbn [fst] in H; congruence. }
  destruct (string_dec key "clients") as [->|N2].
  { destruct d as [|c d].
    - assert (E : on_request o cfg (Msg "clients" i []) s = ([], inl OutOfRange)) by (rewrite on_request_eq; reflexivity). rewrite E.
      split; [intros [= <- <-]; constructor|]. intros HX. remember (Msg "clients" i []) as m eqn:Em.
      destruct HX; try discriminate Em. injection Em as ->. reflexivity.
    - rewrite (client_message _ _ _ s c d) by reflexivity. cbn [m_ident].
      destruct (string_dec c "eval") as [->|C1].
      { change (call_function (client_commands o) "eval") with (process_client_eval o). apply eval_crash with (k := k). exact HR. }
      split; [|intros HX; exfalso; remember (Msg "clients" i (c :: d)) as m eqn:Em; destruct HX; try discriminate Em; injection Em; congruence].
      intros E. exfalso. destruct (string_dec c "get-runtime-stats") as [->|C2]; [discriminate|].
      destruct (string_dec c "freeze") as [->|C3]; [discriminate|]. destruct (string_dec c "unfreeze") as [->|C4]; [discriminate|].
      rewrite call_unknown in E; [discriminate|]. intros [H|[H|[H|[H|[]]]]]; cbn [fst] in H; congruence. }
  rewrite on_request_eq. unfold on_request_cases. cbn [m_key m_data m_ident].
  rewrite (proj2 (String.eqb_neq _ _) N1), (proj2 (String.eqb_neq _ _) N2).
  destruct (String.eqb_spec key "timer") as [->|N3].
  - destruct d as [|t rest].
    + split; [intros [= <- <-]; constructor|]. intros HX. remember (Msg "timer" i []) as m eqn:Em.
      destruct HX; try discriminate Em. injection Em as ->. reflexivity.
    + apply tick_crash with (k := k). exact HR.
  - split; [discriminate|]. intros HX. exfalso. remember (Msg key i d) as m eqn:Em. destruct HX; injection Em; congruence.
Qed.

Lemma values_in k hdrs vs v : values k hdrs vs -> In v vs -> exists fr, In fr hdrs /\ header_frame fr k v.
Proof.
  induction 1 as [|f t v1 vs1 Hf Ht IH|f t k1 v1 vs1 Hf Hne Ht IH]; simpl; [tauto| |].
  - intros [->|Hv]; [eauto|]. destruct (IH Hv) as (fr & ? & ?). eauto.
  - intros Hv. destruct (IH Hv) as (fr & ? & ?). eauto.
Qed.

Theorem benign_harmless k tr s m : run o cfg k tr s -> benign s m -> exists outs s', on_request o cfg m s = (outs, inr (tt, s')).
Proof.
  intros HR HB. destruct (on_request o cfg m s) as (outs, [f|([], s')]) eqn:E; [|eauto]. exfalso.
  apply (crash_iff k tr) in E; [|exact HR].
  destruct HB as [key i d Hn|i c d H1 H2|i c d H1|i|i hw frames hdrs HB Ht|i d Hl|i d Hs|i d w r Hs Hc|i j fr frames Ht|i t rest z Hz Ho];
    match type of E with dies _ _ ?x _ _ => remember x as m eqn:Em end;
    destruct E as [i'|i'|i'|i'|i' j'|i' j' frames' need' payload' before f w' reg hw' hdrs' Hz' HB' HF Hw' Hin' HJ' HX'
                  |i' hw' frames' hdrs' before f Hs' HB' HF|i' hw' frames' hdrs' before f w' reg hw0 hdrs0 Hs' Hin' HJ' HB' HE' HF
                  |i' w' j' st' rest' Hs' Hc'|i' t' rest' f Hb'|i' t' rest' z' w' old' Hr' Hw' Ho' Hi'];
    try discriminate Em; try (injection Em; congruence);
    try (apply Hn; injection Em as <- _ _; simpl; tauto).
  - injection Em as _ _ ->. rewrite (init_block_fun _ _ _ HB' HB) in HF. destruct HF as (v & after & HV & _ & Hbad).
    destruct (values_in _ _ _ v HV (in_elt _ _ _)) as (x & Hx & Hh). destruct (Ht x v Hx Hh) as (n & Hd). eapply denotes_good; eauto.
  - injection Em as _ _ ->. rewrite (init_block_fun _ _ _ HB' HB) in HF. destruct HF as (v & after & HV & _ & Hbad).
    destruct (values_in _ _ _ v HV (in_elt _ _ _)) as (x & Hx & Hh). destruct (Ht x v Hx Hh) as (n & Hd). eapply denotes_good; eauto.
  - injection Em as _ <-. simpl in Hl. lia.
  - injection Em as _ _ ->. destruct HF as (v & after & HV & _ & Hbad).
    destruct (values_in _ _ _ v HV (in_elt _ _ _)) as (x & Hx & Hh). destruct (Ht _ _ x v HB' Hx Hh) as (n & Hd). eapply denotes_good; eauto.
  - injection Em as _ -> _. apply reads_stoll in Hz. apply stoll_bad in Hb'. congruence.
  - injection Em as _ -> _. apply reads_stoll in Hz. apply reads_stoll in Hr'. rewrite Hz in Hr'. injection Hr' as <-.
    rewrite (Ho _ _ Hw' Ho') in Hi'. discriminate.
Qed.

End WithConfig.
