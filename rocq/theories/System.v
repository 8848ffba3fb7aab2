(* The broker together with workers that follow the protocol (C54). *)
From Coq Require Import Permutation Lia.
From Verif Require Blind.
From Verif Require Import Base Bytes Containers Worker Multi Single Queue Handler SpecText Spec SpecRun SpecMsg SpecPings SpecFatal
  SpecQueue SpecOutcome SpecJoin SpecOut SpecSystem TextFacts Facts QueueInv Atoms HandlerSim Conserve Provenance Members Messages Pings
  Fatal Out Joining Outcome.
Local Open Scope string_scope.
Local Open Scope list_scope.

(* ---- what one identity sees of a step of the broker ---- *)

(* what the broker believes about identity i: unknown, or known with its current job *)
Definition view (i : string) (s : state) : option (option string) :=
  match sender i s with Some w => Some (option_map r_job (current_of (s_queue s) w)) | None => None end.
Definition alone (i : string) (s : state) : Prop := forall w w', In w (s_reg s) -> In w' (s_reg s) -> w_identity w = i -> w_identity w' = i -> w = w'.
Definition job_in (d : list string) : list string := match d with e :: j :: _ => if String.eqb e "eval" then [j] else [] | _ => [] end.
Definition evals (l : list (list string)) : list string := flat_map job_in l.
Definition evs (i : string) (outs : list msg) : list string := evals (mail i outs).

Inductive path (g : Prop) : option (option string) -> list string -> option (option string) -> Prop :=
| p_same : forall v, path g v [] v
| p_given : forall j, path g (Some None) [j] (Some (Some j))
| p_gone : forall c, g -> path g (Some c) [] None
| p_lost : forall j, g -> path g (Some None) [j] None.

Lemma path_app (g : Prop) v1 l1 v2 l2 v3 : path g v1 l1 v2 -> path g v2 l2 v3 -> path g v1 (l1 ++ l2) v3.
Proof. intros H1 H2. destruct H1; inversion H2; subst; simpl; constructor; assumption. Qed.
Lemma path_mono (g g' : Prop) v l v' : (g -> g') -> path g v l v' -> path g' v l v'.
Proof. intros H. destruct 1; constructor; auto. Qed.

Lemma path_known (g : Prop) v l c : path g v l (Some c) -> path False v l (Some c).
Proof. intros H. inversion H; subst; constructor. Qed.
Lemma path_unknown (g : Prop) l v : path g None l v -> path False None l v.
Proof. intros H. inversion H; subst; constructor. Qed.

Lemma evals_app a b : evals (a ++ b) = evals a ++ evals b.
Proof. unfold evals. apply flat_map_app. Qed.
Lemma mail_app i a b : mail i (a ++ b) = mail i a ++ mail i b.
Proof. unfold mail. rewrite filter_app, map_app. reflexivity. Qed.
Lemma evs_app i a b : evs i (a ++ b) = evs i a ++ evs i b.
Proof. unfold evs. rewrite mail_app. apply evals_app. Qed.
Lemma evs_other i m : m_key m <> "workers" -> evs i [m] = [].
Proof. intros H. unfold evs, mail. simpl. destruct (String.eqb_spec (m_key m) "workers"); [contradiction|reflexivity]. Qed.
Lemma evs_neutral i m : neutral m -> evs i [m] = [].
Proof.
  intros (_ & _ & H). unfold evs, mail. simpl. destruct (String.eqb_spec (m_key m) "workers") as [E|]; [|reflexivity].
  destruct (String.eqb (m_ident m) i); [|reflexivity]. cbn [andb map evals flat_map app]. rewrite app_nil_r.
  destruct (H E) as (_ & H'). destruct (m_data m) as [|a [|b t]]; try reflexivity. simpl. destruct (String.eqb_spec a "eval") as [->|]; [|reflexivity].
  destruct (H' _ eq_refl).
Qed.
Lemma evs_dispatch i w r pl : r_frames r = "eval" :: r_job r :: pl -> evs i [dispatch_msg w r] = if String.eqb (w_identity w) i then [r_job r] else [].
Proof. intros E. unfold evs, mail, dispatch_msg. simpl. destruct (String.eqb (w_identity w) i); [|reflexivity]. simpl. rewrite E. reflexivity. Qed.
Lemma evs_dispatch_other i w r : w_identity w <> i -> evs i [dispatch_msg w r] = [].
Proof. intros E. unfold evs, mail, dispatch_msg. simpl. destruct (String.eqb_spec (w_identity w) i); [contradiction|reflexivity]. Qed.

Lemma sender_in i s w : sender i s = Some w -> In w (s_reg s) /\ w_identity w = i.
Proof. rewrite sender_find. apply find_by_identity_in. Qed.
Lemma sender_none i s : sender i s = None <-> forall w, In w (s_reg s) -> w_identity w <> i.
Proof.
  unfold sender. split.
  - intros H w Hin E. pose proof (find_none _ _ H w Hin) as H'. unfold named in H'. rewrite E, String.eqb_refl in H'. discriminate.
  - intros H. destruct (find (named i) (s_reg s)) as [w|] eqn:E; [|reflexivity]. apply find_some in E. destruct E as (Hin & E).
    unfold named in E. apply String.eqb_eq in E. destruct (H w Hin E).
Qed.
Lemma alone_sender i s w : alone i s -> In w (s_reg s) -> w_identity w = i -> sender i s = Some w.
Proof.
  intros HA Hin E. destruct (sender i s) as [w'|] eqn:Es.
  - apply sender_in in Es. destruct Es. f_equal. apply HA; assumption.
  - rewrite sender_none in Es. destruct (Es w Hin E).
Qed.
Lemma view_same i s s' : s_reg s' = s_reg s -> (forall w, In w (s_reg s) -> w_identity w = i -> current_of (s_queue s') w = current_of (s_queue s) w) ->
  view i s' = view i s.
Proof.
  intros E H. unfold view, sender. rewrite E. destruct (find (named i) (s_reg s)) as [w|] eqn:Ef; [|reflexivity].
  rewrite H; [reflexivity| |]; apply find_some in Ef; destruct Ef as (Hin & E'); [exact Hin|]. apply String.eqb_eq. exact E'.
Qed.
Lemma view_core i s s' : core s = core s' -> view i s' = view i s.
Proof. intros E. unfold core in E. injection E as E1 E2 _ _ _. apply view_same; [congruence|]. intros. rewrite E2. reflexivity. Qed.

Lemma find_snoc_other {A} (p : A -> bool) l x : p x = false -> find p (l ++ [x]) = find p l.
Proof. intros H. induction l as [|a t IH]; simpl; [rewrite H; reflexivity|]. rewrite IH. reflexivity. Qed.

Section WithConfig.
Context (o : oracle) (cfg : config).
Local Notation atoms := (atoms o cfg).
Local Notation atom := (atom o cfg).

(* labels that are not a registration or report of identity i *)
Definition foreign (i : string) (l : label) : Prop :=
  match l with LRegister w _ _ | LDone w _ _ | LCancel w _ => w_identity w <> i | _ => True end.
Definition expires (l : label) : Prop := match l with LExpire _ _ => True | _ => False end.
Definition clear (l : label) : Prop :=
  match l with LRegister _ _ _ => True | _ => forall w r, In (w, r) (sends_of l) -> exists pl, r_frames r = "eval" :: r_job r :: pl end.

Lemma upd_ne m w x w' : w_id w' <> w_id w -> upd m w x w' = m w'.
Proof. unfold upd. intros H. destruct (Nat.eqb_spec (w_id w) (w_id w')); [congruence|reflexivity]. Qed.
Lemma upd_eq m w x : upd m w x w = x.
Proof. unfold upd. rewrite Nat.eqb_refl. reflexivity. Qed.

Lemma set_current i s s' w x : alone i s -> NoDup (ids (s_reg s)) -> In w (s_reg s) -> s_reg s' = s_reg s ->
  (forall w', current_of (s_queue s') w' = upd (current_of (s_queue s)) w x w') ->
  view i s' = (if String.eqb (w_identity w) i then Some (option_map r_job x) else view i s).
Proof.
  intros HA HN Hin E Hu. destruct (String.eqb_spec (w_identity w) i) as [Ei|Hne].
  - unfold view. assert (sender i s' = Some w) as ->.
    { apply alone_sender; [|rewrite E; exact Hin|exact Ei]. unfold alone. rewrite E. exact HA. }
    rewrite Hu, upd_eq. reflexivity.
  - apply view_same; [exact E|]. intros w' Hw' Ei. rewrite Hu. apply upd_ne. intros Eid. apply Hne. rewrite <- Ei. f_equal. eapply ids_inj; eauto.
Qed.

Lemma atom_view i s h l s' h' : atom s h l s' h' -> inv s h -> alone i s -> foreign i l -> clear l ->
  path (expires l) (view i s) (evs i (outs_of l)) (view i s') /\ alone i s'.
Proof.
  intros Ha HI HA HF HC. destruct HI as [Hq Hw Hnd Hr Hf]. pose proof (qi_nodup _ _ Hq) as HN. destruct Ha.
  - rewrite (view_core _ _ _ H). split; [constructor|]. unfold core in H. injection H as E _ _ _ _. unfold alone. rewrite <- E. exact HA.
  - split; [constructor|exact HA].
  - split; [|exact HA]. cbn [outs_of]. rewrite (evs_neutral _ _ H). constructor.
  - split; [constructor|exact HA].
  - split; [constructor|exact HA].
  - simpl in HF. unfold core in H4. injection H4 as E1 E2 E3 E4 E5.
    assert (Hni : ~ In (w_id w) (ids (s_reg s))).
    { intros Hc. apply in_ids_inv in Hc. destruct Hc as (w' & Hi & E). specialize (Hw w' Hi). lia. }
    assert (HA' : add_post (s_queue s) (s_reg s) w cur x m').
    { eapply q_add_spec; eauto. intros r Hc. apply (H2 r Hc). }
    destruct HA' as (HQ' & HP).
    assert (Hu : exists y, forall w', current_of m' w' = upd (current_of (s_queue s)) w y w').
    { destruct cur as [r|]; [exists (Some r)|exists x]; apply HP. }
    destruct Hu as (y & Hu).
    assert (EV : view i s' = view i s).
    { unfold view, sender. rewrite E1, E2. rewrite (find_snoc_other (named i)).
      - destruct (find (named i) (s_reg s)) as [w'|] eqn:Ef; [|reflexivity]. rewrite Hu, upd_ne; [reflexivity|].
        apply find_some in Ef. destruct Ef as (Hin & _). intros E. apply Hni. rewrite <- E. apply in_ids. exact Hin.
      - unfold named. apply String.eqb_neq. exact HF. }
    split.
    + rewrite EV. assert (evs i (outs_of (LRegister w cur x)) = []) as ->; [|constructor].
      destruct x as [r|]; [|reflexivity]. apply evs_dispatch_other. exact HF.
    + unfold alone. rewrite E1. intros w1 w2 H5 H6 H7 H8. apply in_app_iff in H5. apply in_app_iff in H6.
      destruct H5 as [H5|[<-|[]]]; [|contradiction]. destruct H6 as [H6|[<-|[]]]; [|contradiction]. apply HA; assumption.
  - simpl in HF. destruct (q_cancelled_spec _ _ w Hq H) as (m1 & E & Q1 & Eq1 & Hu). rewrite E in H2. injection H2 as _ <-.
    assert (Es : s_queue s' = m1 /\ s_reg s' = s_reg s) by (destruct H3; subst; auto). destruct Es as (Es1 & Es2).
    cbn [outs_of]. rewrite evs_other by (destruct H1 as (-> & _); discriminate).
    rewrite (set_current i s s' w None HA HN H Es2) by (rewrite Es1; exact Hu).
    destruct (String.eqb_spec (w_identity w) i); [contradiction|]. split; [constructor|]. unfold alone. rewrite Es2. exact HA.
  - simpl in HF. destruct (q_cancelled_spec _ _ w Hq H) as (m1 & E & Q1 & Eq1 & Hu). rewrite E in H1. injection H1 as _ <-.
    cbn [outs_of]. change (evs i []) with (@nil string).
    rewrite (set_current i s (incr_fails r (set_queue m1 s)) w None HA HN H eq_refl Hu).
    destruct (String.eqb_spec (w_identity w) i); [contradiction|]. split; [constructor|exact HA].
  - destruct (q_assign_spec o _ _ _ _ _ Hq H H0 H1) as (Q1 & Hu & _).
    rewrite (set_current i s (set_queue m' s) w x HA HN H eq_refl Hu). split; [|exact HA]. cbn [outs_of].
    destruct (String.eqb_spec (w_identity w) i) as [Ei|Hne].
    + assert (EV : view i s = Some None) by (unfold view; rewrite (alone_sender _ _ _ HA H Ei), H0; reflexivity).
      rewrite EV. destruct x as [r|]; [|constructor]. destruct (HC w r) as (pl & E); [simpl; auto|]. rewrite (evs_dispatch _ _ _ _ E).
      destruct (String.eqb_spec (w_identity w) i); [|contradiction]. constructor.
    + destruct x as [r|]; [rewrite evs_dispatch_other by exact Hne|]; constructor.
  - destruct (q_enqueue_spec o _ _ _ _ _ Hq H H1) as (Q1 & HE). split; [|exact HA]. cbn [outs_of]. destruct x as [w|].
    + destruct HE as (Hin & Hc & _ & Hu & _). rewrite (set_current i s (set_queue m' s) w (Some r) HA HN Hin eq_refl Hu).
      destruct (String.eqb_spec (w_identity w) i) as [Ei|Hne].
      * assert (EV : view i s = Some None) by (unfold view; rewrite (alone_sender _ _ _ HA Hin Ei), Hc; reflexivity).
        rewrite EV. destruct (HC w r) as (pl & E); [simpl; auto|]. rewrite (evs_dispatch _ _ _ _ E).
        destruct (String.eqb_spec (w_identity w) i); [|contradiction]. constructor.
      * rewrite evs_dispatch_other by exact Hne. constructor.
    + destruct HE as (_ & Hu & _). rewrite (view_same i s (set_queue m' s) eq_refl); [constructor|]. intros. apply Hu.
  - split; [|exact HA]. cbn [outs_of]. rewrite evs_other by (destruct H as (-> & _); discriminate). constructor.
  - destruct (q_terminated_spec _ _ w rs m' Hq H H0) as (gone & -> & Q1 & Hu & _).
    set (s' := set_queue m' (incr_opt (current_of (s_queue s) w) (set_reg (reg_remove w (s_reg s)) s))).
    assert (Er : s_reg s' = reg_remove w (s_reg s)) by (unfold s'; destruct (current_of (s_queue s) w); reflexivity).
    assert (Eq : s_queue s' = m') by reflexivity.
    assert (Hin' : forall a, In a (s_reg s') <-> In a (s_reg s) /\ a <> w) by (intros a; rewrite Er; apply reg_remove_in; assumption).
    assert (HA' : alone i s').
    { intros w1 w2 H1 H2. apply Hin' in H1. apply Hin' in H2. apply HA; tauto. }
    split; [|exact HA']. cbn [outs_of]. change (evs i []) with (@nil string). cbn [expires].
    destruct (String.eqb_spec (w_identity w) i) as [Ei|Hne].
    + assert (view i s' = None) as ->.
      { unfold view. assert (sender i s' = None) as ->; [|reflexivity]. apply sender_none. intros a Ha E. apply Hin' in Ha.
        destruct Ha as (Ha & Hne). apply Hne. apply HA; assumption. }
      unfold view. rewrite (alone_sender _ _ _ HA H Ei). constructor. exact I.
    + assert (view i s' = view i s) as ->; [|constructor]. unfold view. destruct (sender i s) as [a|] eqn:Es.
      * apply sender_in in Es. destruct Es as (Ha & Ea). assert (Hne' : a <> w) by congruence.
        rewrite (alone_sender i s' a HA'); [|apply Hin'; auto|exact Ea]. rewrite Eq, Hu; [reflexivity|].
        intros E. apply Hne'. eapply ids_inj; eauto.
      * assert (sender i s' = None) as ->; [|reflexivity]. rewrite sender_none in *. intros a Ha. apply Hin' in Ha. apply Es. tauto.
Qed.

Lemma atoms_view i s h ls s' h' : atoms s h ls s' h' -> inv s h -> alone i s -> Forall (foreign i) ls -> Forall clear ls ->
  path (Exists expires ls) (view i s) (evs i (outs_all ls)) (view i s') /\ alone i s'.
Proof.
  induction 1 as [s h|s h l s1 h1 ls s2 h2 Ha _ IH]; intros HI HA HF HC; [split; [constructor|exact HA]|].
  inversion HF as [|? ? F1 F2]; subst. inversion HC as [|? ? C1 C2]; subst.
  destruct (atom_view _ _ _ _ _ _ Ha HI HA F1 C1) as (P1 & A1). destruct (IH (atom_inv _ _ _ _ _ _ _ HI Ha) A1 F2 C2) as (P2 & A2).
  split; [|exact A2]. unfold outs_all. simpl. rewrite evs_app. eapply path_app.
  - eapply path_mono; [|exact P1]. intros H. left. exact H.
  - eapply path_mono; [|exact P2]. intros H. right. exact H.
Qed.

Lemma formed_clear s h ls s' h' : atoms s h ls s' h' -> inv s h -> (forall w r, In (w, r) (sends ls) -> formed r) -> Forall clear ls.
Proof.
  induction 1 as [s h|s h l s1 h1 ls s2 h2 Ha _ IH]; intros HI HF; [constructor|]. constructor.
  - assert (HX : forall w r, In (w, r) (sends_of l) -> r_complete r = true -> exists pl, r_frames r = "eval" :: r_job r :: pl).
    { intros w r Hin Hc. apply (HF w r); [unfold sends; simpl; rewrite in_app_iff; left; exact Hin|exact Hc]. }
    unfold clear. destruct l; try exact I; intros w' r' Hin; (apply (HX w' r' Hin));
      (destruct (sent_complete o cfg _ _ _ _ _ _ _ HI Ha Hin) as [?|(q & _ & ? & _)]; [assumption|discriminate]).
  - apply IH; [eapply atom_inv; eauto|]. intros w r Hin. apply (HF w r). unfold sends. simpl. rewrite in_app_iff. right. exact Hin.
Qed.
Lemma labels_clear k tr s ls s' : run o cfg k tr s -> atoms s [] ls s' [] -> Forall clear ls.
Proof.
  intros HR A. pose proof (run_inv _ _ _ _ _ HR) as HI. eapply formed_clear; [exact A|exact HI|].
  intros w r Hin. destruct (atoms_carry o cfg (fun _ => True) formed _ _ _ _ _ A HI) as (_ & _ & HC); auto.
  { intros r' Hr'. rewrite app_nil_r in Hr'. eapply run_formed; eauto. }
  { intros r' Hr'. eapply created_formed; eauto. }
  apply (HC w r Hin).
Qed.

Lemma not_expires ls : Forall (fun l => ~ expires l) ls -> ~ Exists expires ls.
Proof. intros H HE. apply Exists_exists in HE. destruct HE as (l & Hl & E). rewrite Forall_forall in H. exact (H l Hl E). Qed.

(* messages that are no introduction or report of identity i *)
Definition not_own (i : string) (m : msg) : Prop :=
  m_key m = "workers" -> m_ident m = i -> forall c rest, m_data m = c :: rest -> c <> "init" /\ c <> "done".

Lemma step_view k tr s m outs s' i : run o cfg k tr s -> on_request o cfg m s = (outs, inr (tt, s')) -> alone i s -> not_own i m ->
  path (m_key m = "timer") (view i s) (evs i outs) (view i s') /\ alone i s'.
Proof.
  intros HR Hs HA HO. pose proof (run_inv _ _ _ _ _ HR) as HI. destruct (on_request_sim _ _ _ _ _ _ HI Hs) as (ls & A & <- & Sh).
  assert (HX : Forall (foreign i) ls /\ (Exists expires ls -> m_key m = "timer")).
  { destruct Sh as [ls Hq _|ls Hk Ht|ls rest Hk Hd He|pre w cur x next rest Hk Hd Hq Hr|ls rest Hk Hd Hds].
    - split.
      + apply Forall_forall. intros l Hl. rewrite Forall_forall in Hq. specialize (Hq l Hl). destruct l; simpl in *; tauto.
      + intros HE. exfalso. revert HE. apply not_expires. eapply Forall_impl; [|exact Hq]. intros []; simpl; tauto.
    - split; [|auto]. apply Forall_forall. intros l Hl. rewrite Forall_forall in Ht. specialize (Ht l Hl). destruct l; simpl in *; tauto.
    - split.
      + destruct He; repeat constructor.
      + intros HE. exfalso. revert HE. apply not_expires. destruct He; repeat constructor; simpl; tauto.
    - split.
      + apply Forall_app. split.
        * apply Forall_forall. intros l Hl. rewrite Forall_forall in Hq. specialize (Hq l Hl). destruct l; simpl in *; tauto.
        * constructor; [|constructor]. simpl. destruct (registers_block _ _ _ _ _ _ _ _ Hd Hr) as (hw & fr & hd & hs & _ & _ & E & _).
          rewrite E. intros E'. destruct (HO Hk E' _ _ Hd) as (H' & _). apply H'. reflexivity.
      + intros HE. exfalso. revert HE. apply not_expires. apply Forall_app. split; [|repeat constructor; simpl; tauto].
        eapply Forall_impl; [|exact Hq]. intros []; simpl; tauto.
    - assert (Hne : forall w, find_worker_by_identity (m_ident m) (s_reg (refresh cfg (m_ident m) s)) = Some w -> w_identity w <> i).
      { intros w Hf E. apply find_by_identity_in in Hf. destruct Hf as (_ & E2). rewrite E2 in E.
        destruct (HO Hk E _ _ Hd) as (_ & H'). apply H'. reflexivity. }
      split.
      + constructor; [exact I|]. destruct Hds as [_|w r m' x st Hf _ _ _ _|w r ls Hf _ _ _ _ He]; [constructor| |].
        * constructor; [simpl; auto|]. repeat constructor.
        * constructor; [simpl; auto|]. destruct He; repeat constructor.
      + intros HE. exfalso. revert HE. apply not_expires. constructor; [simpl; tauto|].
        destruct Hds as [_|w r m' x st Hf _ _ _ _|w r ls Hf _ _ _ _ He]; [constructor| |].
        * repeat constructor; simpl; tauto.
        * constructor; [simpl; tauto|]. destruct He; repeat constructor; simpl; tauto. }
  destruct HX as (HF & HE). destruct (atoms_view i _ _ _ _ _ A HI HA HF (labels_clear _ _ _ _ _ HR A)) as (HP & HA').
  split; [|exact HA']. eapply path_mono; eassumption.
Qed.

Lemma queued_complete m ws r : qinv m ws -> In r (queued m) -> r_complete r = true.
Proof.
  intros H Hin. pose proof (qi_impl _ _ H) as HM. destruct m as [q|q]; simpl in *.
  - apply in_map_iff in Hin. destruct Hin as (e & <- & He). exact (si_complete _ _ HM e He).
  - apply in_concat in Hin. destruct Hin as (rs & H1 & H2). apply in_map_iff in H1. destruct H1 as ((w & rs') & E & H1). simpl in E. subst rs'. exact (proj1 (mi_queued _ _ HM w rs r H1 H2)).
Qed.

Lemma evs_handover k tr s i w r : run o cfg k tr s -> In r (held (s_queue s)) -> r_complete r = true ->
  evs i [handover w r] = if String.eqb (w_identity w) i then [r_job r] else [].
Proof.
  intros HR Hin Hc. destruct (run_formed o cfg _ _ _ HR r Hin Hc) as (pl & E). unfold evs, mail, handover. simpl.
  destruct (String.eqb (w_identity w) i); [|reflexivity]. simpl. rewrite E. reflexivity.
Qed.

(* worker w of identity i gets x *)
Lemma next_view k tr s i w x s' : run o cfg k tr s -> sender i s' = Some w -> (forall r, x = Some r -> In r (queued (s_queue s))) ->
  current_of (s_queue s') w = x -> path False (Some None) (evs i (map (handover w) (olist x))) (view i s').
Proof.
  intros HR HS Hq Hc. unfold view. rewrite HS, Hc. destruct x as [r|]; [|constructor]. specialize (Hq r eq_refl). simpl.
  rewrite (evs_handover _ _ _ _ _ _ HR); [|apply queued_held; exact Hq|].
  - apply sender_in in HS. destruct HS as (_ & ->). rewrite String.eqb_refl. constructor.
  - eapply queued_complete; [exact (inv_q _ _ (run_inv _ _ _ _ _ HR))|exact Hq].
Qed.

Lemma step_done k tr s i w r v outs s' : run o cfg k tr s -> sender i s = Some w -> current_of (s_queue s) w = Some r -> alone i s ->
  on_request o cfg (Msg "workers" i ("done" :: r_job r :: verdict_frames v)) s = (outs, inr (tt, s')) ->
  path False (Some None) (evs i outs) (view i s') /\ alone i s'.
Proof.
  intros HR HS HC HA H.
  assert (HG : forall pre x s1, (pre ++ map (handover w) (olist x), @inr fault (unit * state) (tt, s1)) = (outs, inr (tt, s')) -> evs i pre = [] ->
     only_jobs cfg i s s1 -> goes_on_with (s_queue s) (s_queue s1) w x -> path False (Some None) (evs i outs) (view i s') /\ alone i s').
  { intros pre x s1 E Ep (Er & _) ((Hc & _) & (HP & _) & _). injection E as <- ->. rewrite evs_app, Ep. simpl. split; [|unfold alone; rewrite Er; exact HA].
    eapply next_view; [exact HR|unfold sender; rewrite Er; exact HS| |exact Hc].
    intros r' ->. apply (Permutation_in _ (Permutation_sym HP)). left. reflexivity. }
  destruct v as [|t|t]; simpl in H.
  - destruct (done_ok o cfg k tr s i w r HR HS HC []) as (x & s1 & H1 & G & J & _). rewrite H in H1. symmetry in H1.
    eapply (HG [_] x s1); eauto.
  - destruct (done_failed o cfg k tr s i w r HR HS HC t) as (x & s1 & H1 & G & J & _). rewrite H in H1. symmetry in H1.
    eapply (HG [_] x s1); eauto.
  - destruct (r_complete r) eqn:Ec.
    + destruct (N.lt_ge_cases (attempts s r + 1) (c_max_failures cfg)) as [Hlt|Hge].
      * destruct (done_internal_again o cfg k tr s i w r HR HS HC t Ec Hlt) as (x & s1 & H1 & G & (Er & _) & _). rewrite H in H1. injection H1 as -> <-.
        assert (HA' : alone i s') by (unfold alone; rewrite Er; exact HA). split; [|exact HA'].
        assert (HS' : sender i s' = Some w) by (unfold sender; rewrite Er; exact HS). unfold view. rewrite HS'.
        destruct (sender_in _ _ _ HS) as (Hin & Ei).
        destruct x as [w'|]; simpl.
        -- destruct G as (Hin' & _ & _ & (M1 & M2 & _)).
           rewrite (evs_handover _ _ _ _ _ _ HR); [| |exact Ec].
           ++ destruct (String.eqb_spec (w_identity w') i) as [E|E].
              ** assert (w' = w) as -> by (apply HA; assumption). rewrite M1. constructor.
              ** rewrite M2; [constructor|]. intros Eid. apply E. rewrite <- Ei. f_equal.
                 eapply ids_inj; [apply (qi_nodup (s_queue s)); exact (inv_q _ _ (run_inv _ _ _ _ _ HR))|exact Hin'|exact Hin|exact Eid].
           ++ eapply in_held_current; [exact (inv_q _ _ (run_inv _ _ _ _ _ HR))|exact Hin|exact HC].
        -- destruct G as ((G & _) & _). rewrite G. constructor.
      * destruct (done_internal_too_many o cfg k tr s i w r HR HS HC t Ec Hge) as (x & s1 & H1 & G & J & _). rewrite H in H1. symmetry in H1.
        eapply (HG [_; _] x s1); eauto.
    + destruct (done_internal_incomplete o cfg k tr s i w r HR HS HC t Ec) as (s1 & H1 & (G & _) & _ & (Er & _) & _). rewrite H in H1. injection H1 as -> <-.
      split; [|unfold alone; rewrite Er; exact HA]. unfold view. unfold sender in *. rewrite Er, HS, G. constructor.
Qed.

(* ---- introductions ---- *)
Lemma hello_block c job : proper c -> init_block (c_hdrs c ++ "" :: ("description=" ++ c_desc c)%string ::
   match job with Some j => [("current_job=" ++ j)%string] | None => [] end) (c_hdrs c).
Proof. intros (H & _). left. eexists. split; [reflexivity|exact H]. Qed.
Lemma after_empty_block h rest : ~ In "" h -> after_empty (h ++ "" :: rest) = rest.
Proof.
  induction h as [|f t IH]; simpl; intros H; [reflexivity|]. destruct (String.eqb_spec f ""); [exfalso; apply H; auto|]. apply IH. tauto.
Qed.
Lemma hello_job c job : proper c -> last_extra "current_job" (frames c (Hello job)) = job.
Proof.
  intros (H & _). unfold last_extra. cbn [frames skipn]. rewrite after_empty_block by exact H. cbn [fold_left].
  assert (split_header ("description=" ++ c_desc c) = ("description", c_desc c)) as ->
    by (apply split_header_spec; apply (hf_pair "description"); apply Blind.no_eq; reflexivity).
  cbn [fst snd]. change (String.eqb "description" "current_job") with false. cbv iota. destruct job as [j|]; [|reflexivity]. cbn [fold_left].
  assert (split_header ("current_job=" ++ j) = ("current_job", j)) as ->
    by (apply split_header_spec; apply (hf_pair "current_job"); apply Blind.no_eq; reflexivity).
  reflexivity.
Qed.

Lemma step_hello k tr s i c job outs s' : run o cfg k tr s -> sender i s = None -> proper c ->
  on_request o cfg (Msg "workers" i (frames c (Hello job))) s = (outs, inr (tt, s')) -> alone i s' /\
  match job with
  | Some j => evs i outs = [] /\ view i s' = Some (Some j)
  | None => path False (Some None) (evs i outs) (view i s')
  end.
Proof.
  intros HR HS HP H. cbn [frames] in H.
  destruct (init_new o cfg k tr s i (c_hwgroup c) _ _ HR HS (hello_block c job HP) (proj2 HP)) as (w & x & s1 & HW & H1 & HT).
  rewrite H in H1. injection H1 as -> <-. destruct HT as (E1 & _ & _ & _ & _ & _ & _ & _ & _ & HT).
  change ("init" :: c_hwgroup c :: c_hdrs c ++ "" :: ("description=" ++ c_desc c)%string :: match job with Some j => [("current_job=" ++ j)%string] | None => [] end)
    with (frames c (Hello job)) in HT. rewrite (hello_job c job HP) in HT.
  assert (Ei : w_identity w = i) by (destruct HW as (_ & E & _); exact E). rewrite sender_none in HS.
  assert (HA : alone i s').
  { intros w1 w2. rewrite E1, !in_app_iff. intros [H1|[<-|[]]] [H2|[<-|[]]] E2 E3; try reflexivity; exfalso; eapply HS; eauto. }
  assert (EW : sender i s' = Some w) by (apply alone_sender; [exact HA|rewrite E1, in_app_iff; right; left; reflexivity|exact Ei]).
  split; [exact HA|]. unfold view. rewrite EW. destruct job as [j|].
  - destruct HT as (r & (Ej & Ec & Ef & _) & (Hc & _) & _ & Ex). rewrite Hc. simpl. rewrite Ej. split; [|reflexivity].
    rewrite Ex. destruct (s_queue s); [|reflexivity]. unfold evs, mail, handover. simpl. destruct (String.eqb (w_identity w) i); [|reflexivity].
    simpl. rewrite Ef. reflexivity.
  - destruct HT as ((Hc & _) & (HPm & Hfit) & _).
    assert (path False (Some None) (evs i (map (handover w) (olist x))) (view i s')) as HV.
    { eapply next_view; [exact HR|exact EW| |exact Hc]. intros r ->. apply (Permutation_in _ (Permutation_sym HPm)). left. reflexivity. }
    unfold view in HV. rewrite EW in HV. exact HV.
Qed.
End WithConfig.

(* ---- one worker ---- *)

(* what the broker will believe about a known worker once it has read l *)
Inductive after : option string -> list saying -> option string -> Prop :=
| af_nil : forall c, after c [] c
| af_hello : forall c d t c', after c t c' -> after c (Hello d :: t) c'
| af_ping : forall c t c', after c t c' -> after c (Ping :: t) c'
| af_progress : forall c fr t c', after c t c' -> after c (Progress fr :: t) c'
| af_done : forall j v t c', after None t c' -> after (Some j) (Done j v :: t) c'.
Definition fits_job (job : option string) (ev : list string) (c : option string) : Prop :=
  (ev = [] /\ c = job) \/ exists j, ev = [j] /\ job = None /\ c = Some j.
Definition no_hello (l : list saying) : Prop := forall d, ~ In (Hello d) l.
Definition ordered (l : list (list string)) : Prop := forall a b, l = a ++ ["intro"] :: b -> evals b = [].
Inductive node_ok : option (option string) -> node -> Prop :=
| no_off : forall inb, evals inb = [] -> node_ok None (mkNode Off inb [])
| no_known : forall c job inb out c', after c out c' -> fits_job job (evals inb) c' -> node_ok (Some c) (mkNode (On job) inb out)
| no_unknown : forall job inb out c', no_hello out -> ordered inb -> fits_job job (evals inb) c' -> node_ok None (mkNode (On job) inb out)
| no_greets : forall job inb pre d post, no_hello pre -> after d post job -> evals inb = [] ->
    node_ok None (mkNode (On job) inb (pre ++ Hello d :: post)).

Lemma after_app c l1 c1 l2 c2 : after c l1 c1 -> after c1 l2 c2 -> after c (l1 ++ l2) c2.
Proof. intros H1 H2. induction H1; simpl; try constructor; auto. Qed.
Lemma after_none l c j : after None l c -> c = None /\ after (Some j) l (Some j).
Proof.
  intros H. remember None as c0 eqn:E. induction H; subst; try discriminate; try (destruct (IHafter eq_refl) as (-> & H1); split; [reflexivity|constructor; exact H1]).
  split; [reflexivity|constructor].
Qed.
Lemma no_hello_cons m l : no_hello (m :: l) -> no_hello l.
Proof. intros H d Hin. apply (H d). right. exact Hin. Qed.
Lemma no_hello_snoc m l : no_hello l -> (forall d, m <> Hello d) -> no_hello (l ++ [m]).
Proof. intros H Hm d. rewrite in_app_iff. intros [Hin|[Hin|[]]]; [exact (H d Hin)|exact (Hm d Hin)]. Qed.
Lemma ordered_tail m l : ordered (m :: l) -> ordered l.
Proof. intros H a b E. apply (H (m :: a) b). simpl. rewrite E. reflexivity. Qed.
Lemma ordered_quiet l m : ordered l -> evals m = [] -> ordered (l ++ m).
Proof.
  intros H Hm a b E. apply app_eq_app in E. destruct E as (x & [(E1 & E2)|(E1 & E2)]).
  - destruct x as [|y x]; simpl in E2.
    + subst m. change (evals (["intro"] :: b)) with (evals b) in Hm. exact Hm.
    + injection E2 as <- ->. rewrite evals_app, Hm, app_nil_r. apply (H a x). exact E1.
  - subst m. rewrite evals_app in Hm. apply app_eq_nil in Hm. destruct Hm as (_ & Hm). exact Hm.
Qed.
Lemma ordered_fresh l m : ~ In ["intro"] l -> evals m = [] -> ordered (l ++ m).
Proof.
  intros H. apply ordered_quiet. intros a b ->. destruct H. rewrite in_app_iff. right. left. reflexivity.
Qed.
Lemma ordered_none l : ~ In ["intro"] l -> ordered l.
Proof. intros H a b ->. destruct H. rewrite in_app_iff. right. left. reflexivity. Qed.

Lemma evals_other m : (forall j payload, m <> "eval" :: j :: payload) -> job_in m = [].
Proof.
  intros H. destruct m as [|e [|j p]]; try reflexivity. simpl. destruct (String.eqb_spec e "eval") as [->|]; [|reflexivity]. destruct (H j p eq_refl).
Qed.
Lemma snoc_after m : (forall d, m <> Hello d) -> forall pre d post, (pre ++ Hello d :: post) ++ [m] = pre ++ Hello d :: (post ++ [m]).
Proof. intros _ pre d post. rewrite <- app_assoc. reflexivity. Qed.

Lemma work_ok v n n' : work n n' -> node_ok v n -> node_ok v n'.
Proof.
  intros HW HN. destruct HW as [inb out|job inb out|job fr inb out|j vd inb out|job j pl inb out|job inb out|job m inb out Hm Hi].
  - inversion HN; subst. apply (no_greets None inb [] None []); [intros d []|constructor|assumption].
  - inversion HN; subst.
    + econstructor; [eapply after_app; [eassumption|repeat constructor]|eassumption].
    + econstructor; [apply no_hello_snoc; [assumption|discriminate]|assumption|eassumption].
    + rewrite <- app_assoc. simpl. apply no_greets; [assumption| |assumption]. eapply after_app; [eassumption|repeat constructor].
  - inversion HN; subst.
    + econstructor; [eapply after_app; [eassumption|repeat constructor]|eassumption].
    + econstructor; [apply no_hello_snoc; [assumption|discriminate]|assumption|eassumption].
    + rewrite <- app_assoc. simpl. apply no_greets; [assumption| |assumption]. eapply after_app; [eassumption|repeat constructor].
  - inversion HN as [|c job inb' out' c' HA HF|job inb' out' c' H1 H2 HF|job inb' pre d post H1 HA HE]; subst.
    + destruct HF as [(E & ->)|(x & _ & HX & _)]; [|discriminate].
      apply (no_known c None inb (out ++ [Done j vd]) None); [eapply after_app; [eassumption|repeat constructor]|left; auto].
    + destruct HF as [(E & ->)|(x & _ & HX & _)]; [|discriminate].
      apply (no_unknown None inb _ None); [apply no_hello_snoc; [assumption|discriminate]|assumption|left; auto].
    + rewrite <- app_assoc. simpl. apply no_greets; [assumption| |assumption]. eapply after_app; [eassumption|repeat constructor].
  - inversion HN as [|c job' inb' out' c' HA HF|job' inb' out' c' H1 H2 HF|job' inb' pre d post H1 HA HE]; subst.
    + destruct HF as [(E & _)|(x & E & -> & ->)]; [discriminate E|]. change (j :: evals inb = [x]) in E. injection E as -> E.
      eapply no_known; [exact HA|]. left. auto.
    + destruct HF as [(E & _)|(x & E & -> & ->)]; [discriminate E|]. change (j :: evals inb = [x]) in E. injection E as -> E.
      eapply no_unknown; [assumption|eapply ordered_tail; eassumption|]. left. auto.
    + discriminate HE.
  - inversion HN as [|c job' inb' out' c' HA HF|job' inb' out' c' H1 H2 HF|job' inb' pre d post H1 HA HE]; subst.
    + change (evals (["intro"] :: inb)) with (evals inb) in HF.
      econstructor; [eapply after_app; [eassumption|repeat constructor]|eassumption].
    + assert (evals inb = []) as E by (apply (H2 [] inb); reflexivity).
      apply (no_greets job inb out job []); [assumption|constructor|exact E].
    + rewrite <- app_assoc. simpl. apply no_greets; [assumption| |exact HE]. eapply after_app; [eassumption|repeat constructor].
  - assert (E : evals (m :: inb) = evals inb) by (unfold evals; simpl; rewrite (evals_other m Hm); reflexivity).
    inversion HN as [|c job' inb' out' c' HA HF|job' inb' out' c' H1 H2 HF|job' inb' pre d post H1 HA HE]; subst; rewrite E in *.
    + econstructor; eassumption.
    + econstructor; [eassumption|eapply ordered_tail; eassumption|eassumption].
    + econstructor; eassumption.
Qed.

(* the broker has sent l to the worker and believes v' now *)
Lemma hears_ok v n l v' : node_ok v n -> path False v (evals l) v' ->
  node_ok v' (mkNode (n_proc n) (n_inbox n ++ l) (n_outbox n)).
Proof.
  intros HN HP. inversion HP as [v0 E1 E2 E3|j E1 E2 E3| |]; try tauto; subst.
  - inversion HN as [inb HE|c job inb out c' HA HF|job inb out c' H1 H2 HF|job inb pre d post H1 HA HE]; subst; simpl.
    + constructor. rewrite evals_app, HE. symmetry. exact E2.
    + econstructor; [exact HA|]. rewrite evals_app, <- E2, app_nil_r. exact HF.
    + econstructor; [exact H1|apply ordered_quiet; auto|]. rewrite evals_app, <- E2, app_nil_r. exact HF.
    + econstructor; [exact H1|exact HA|]. rewrite evals_app, HE. symmetry. exact E2.
  - inversion HN as [|c job inb out c' HA HF| |]; subst; simpl. destruct (after_none _ _ j HA) as (-> & HA').
    destruct HF as [(E & <-)|(x & _ & _ & E)]; [|discriminate]. econstructor; [exact HA'|]. right. exists j. rewrite evals_app, E, <- E2. auto.
Qed.

(* the worker has been given up *)
Lemma lost_ok c n l (g : Prop) v' : node_ok (Some c) n -> path g (Some c) (evals l) v' -> v' = None -> ~ In ["intro"] (n_inbox n) -> ~ In ["intro"] l ->
  no_hello (n_outbox n) -> node_ok None (mkNode (n_proc n) (n_inbox n ++ l) (n_outbox n)).
Proof.
  intros HN HP -> Hi Hl Hh. inversion HN as [|c0 job inb out c' HA HF| |]; subst; simpl in *.
  assert (HO : ordered (inb ++ l)) by (apply ordered_none; rewrite in_app_iff; tauto).
  inversion HP as [|j E1 E2 E3|c1 Hg E1 E2 E3|j Hg E1 E2 E3]; subst.
  - econstructor; [exact Hh|exact HO|]. rewrite evals_app, <- E2, app_nil_r. exact HF.
  - destruct (after_none _ _ j HA) as (-> & _). destruct HF as [(E & <-)|(x & _ & _ & E)]; [|discriminate].
    apply (no_unknown None (inb ++ l) out (Some j)); [exact Hh|exact HO|]. right. exists j. rewrite evals_app, E, <- E2. auto.
Qed.

(* ---- the whole system ---- *)

Lemma skip_ok v p inb m out : node_ok v (mkNode p inb (m :: out)) ->
  match m with Ping | Progress _ => True | Hello _ => v <> None | Done _ _ => v = None end -> node_ok v (mkNode p inb out).
Proof.
  intros HN Hm. inversion HN as [inb' HE|c job inb' out' c' HA HF|job inb' out' c' H1 H2 HF|job inb' pre d post H1 HA HE]; subst.
  - destruct m; try discriminate; try contradiction; inversion HA; subst; econstructor; eassumption.
  - econstructor; [eapply no_hello_cons; exact H1|assumption|eassumption].
  - destruct pre as [|m' pre].
    + match goal with H : _ = _ :: _ |- _ => simpl in H; injection H as E1 E2 end. subst. destruct Hm; reflexivity.
    + match goal with H : _ = _ :: _ |- _ => simpl in H; injection H as E1 E2 end. subst.
      apply no_greets; [eapply no_hello_cons; exact H1|assumption|assumption].
Qed.

Section Whole.
Context (o : oracle) (cfg : config) (k : kind) (cards : string -> card) (ok : state -> state -> nodes -> Prop).
Hypothesis Hcards : forall i, proper (cards i).
Hypothesis Hok : forall s s' ns, ok s s' ns -> settled s s' ns.

Definition introduced (tr : list event) : Prop := forall e rest, In e tr -> m_key (ev_in e) = "workers" -> m_data (ev_in e) = "init" :: rest ->
  exists job, m_data (ev_in e) = frames (cards (m_ident (ev_in e))) (Hello job).
Definition sys_ok (tr : list event) (s : state) (ns : nodes) : Prop :=
  run o cfg k tr s /\ introduced tr /\ forall i, alone i s /\ node_ok (view i s) (ns i).

Lemma view_none i s : view i s = None <-> sender i s = None.
Proof. unfold view. destruct (sender i s); split; congruence. Qed.
Lemma view_some i s c : view i s = Some c -> exists w, sender i s = Some w /\ option_map r_job (current_of (s_queue s) w) = c.
Proof. unfold view. destruct (sender i s) as [w|]; [|discriminate]. intros E. injection E as <-. eauto. Qed.
Lemma heard_view i j s s' : heard cfg j s s' -> view i s' = view i s.
Proof. intros ((E1 & E2 & _) & _). apply view_same; [exact E1|]. intros. rewrite E2. reflexivity. Qed.
Lemma heard_alone i j s s' : heard cfg j s s' -> alone i s -> alone i s'.
Proof. intros ((E1 & _) & _). unfold alone. rewrite E1. auto. Qed.

Lemma known_hello tr s i w job : run o cfg k tr s -> introduced tr -> sender i s = Some w ->
  exists s', on_request o cfg (Msg "workers" i (frames (cards i) (Hello job))) s = ([], inr (tt, s')) /\ heard cfg i s s'.
Proof.
  intros HR HT HS. destruct (sender_in _ _ _ HS) as (Hin & Ei).
  destruct (proj1 (run_carried _ _ _ _ _ HR) w Hin) as (e & hw & hdrs & He & HJ & _).
  destruct HJ as (J1 & J2 & (fr & J3 & J4) & J5). destruct (HT e _ He J1 J3) as (d & E). rewrite J2, Ei, J3 in E. cbn [frames] in E.
  injection E as -> ->. cbn [frames]. eapply reinit_same; [exact HR|exact HS|exact He| |apply hello_block; apply Hcards|].
  - split; [exact J1|]. split; [exact J2|]. split; [|exact J5]. eexists. split; [exact J3|]. apply hello_block. apply Hcards.
  - intros key vs. reflexivity.
Qed.

Lemma deliver_other outs x i out ns : x <> i -> deliver outs (taken i out ns) x = mkNode (n_proc (ns x)) (n_inbox (ns x) ++ mail x outs) (n_outbox (ns x)).
Proof. intros H. unfold deliver, taken, put. destruct (String.eqb_spec x i); [contradiction|reflexivity]. Qed.
Lemma deliver_own outs i out ns : deliver outs (taken i out ns) i = mkNode (n_proc (ns i)) (n_inbox (ns i) ++ mail i outs) out.
Proof. unfold deliver, taken, put. rewrite String.eqb_refl. reflexivity. Qed.

Lemma read_ok tr s ns i m out outs s' : sys_ok tr s ns -> n_outbox (ns i) = m :: out ->
  on_request o cfg (Msg "workers" i (frames (cards i) m)) s = (outs, inr (tt, s')) ->
  alone i s' /\ node_ok (view i s') (mkNode (n_proc (ns i)) (n_inbox (ns i) ++ mail i outs) out).
Proof.
  intros (HR & HT & HI) Ho Hs. destruct (HI i) as (HA & HN). destruct (ns i) as [p inb out0] eqn:En. simpl in Ho. subst out0. cbn [n_proc n_inbox].
  assert (HQ : forall c rest, frames (cards i) m = c :: rest -> c <> "init" -> c <> "done" ->
     match m with Ping | Progress _ => True | Hello _ => view i s <> None | Done _ _ => view i s = None end ->
     alone i s' /\ node_ok (view i s') (mkNode p (inb ++ mail i outs) out)).
  { intros c rest Ef H1 H2 H3.
    destruct (step_view o cfg k tr s _ outs s' i HR Hs HA) as (HP & HA'); [|].
    - intros _ _ c' rest'. cbn [m_data]. rewrite Ef. intros E. injection E as <- _. auto.
    - split; [exact HA'|]. pose proof (skip_ok _ _ _ _ _ HN H3) as HK.
      apply (hears_ok _ _ (mail i outs) (view i s')) in HK; [exact HK|]. eapply path_mono; [|exact HP]. discriminate. }
  destruct m as [d| |fr|j v].
  - destruct (view i s) as [c|] eqn:Ev.
    + destruct (view_some _ _ _ Ev) as (w & HS & _). destruct (known_hello tr s i w d HR HT HS) as (s1 & H1 & HH).
      rewrite Hs in H1. injection H1 as -> <-. split; [eapply heard_alone; eassumption|]. rewrite (heard_view _ _ _ _ HH), Ev.
      simpl. rewrite app_nil_r. eapply skip_ok; [exact HN|]. simpl. discriminate.
    + pose proof (proj1 (view_none _ _) Ev) as HS. destruct (step_hello o cfg k tr s i (cards i) d outs s' HR HS (Hcards i) Hs) as (HA' & HV).
      split; [exact HA'|]. inversion HN as [inb' HE|c job inb' out' c' HA1 HF|job inb' out' c' H1 H2 HF|job inb' pre d' post H1 HA1 HE E1]; subst.
      * destruct (H1 d). left. reflexivity.
      * destruct pre as [|m' pre]; [|exfalso; simpl in *; match goal with H : _ :: _ = Hello d :: _ |- _ => injection H as E2 _ end; subst m'; apply (H1 d); left; reflexivity].
        match goal with H : _ = Hello d :: _ |- _ => simpl in H; injection H as E2 E3 end. subst.
        destruct d as [j|].
        -- destruct HV as (E & ->). econstructor; [exact HA1|]. left. rewrite evals_app, HE. split; [exact E|reflexivity].
        -- assert (HK : node_ok (Some None) (mkNode (On job) inb out)) by (econstructor; [exact HA1|left; auto]).
           apply (hears_ok _ _ _ _ HK HV).
  - eapply HQ; [reflexivity|discriminate|discriminate|exact I].
  - eapply HQ; [reflexivity|discriminate|discriminate|exact I].
  - destruct (view i s) as [c|] eqn:Ev.
    + destruct (view_some _ _ _ Ev) as (w & HS & Ec).
      inversion HN as [|c0 job inb' out' c' HA1 HF| |]; subst. inversion HA1; subst.
      destruct (current_of (s_queue s) w) as [r|] eqn:Hc; [|discriminate]. match goal with H : Some j = _ |- _ => simpl in H; injection H as -> end.
      destruct (step_done o cfg k tr s i w r v outs s' HR HS Hc HA Hs) as (HP & HA'). split; [exact HA'|].
      assert (HK : node_ok (Some None) (mkNode (On job) inb out)) by (econstructor; eassumption). apply (hears_ok _ _ _ _ HK HP).
    + pose proof (proj1 (view_none _ _) Ev) as HS.
      destruct (ignored_harmless o cfg k tr s (Msg "workers" i (frames (cards i) (Done j v))) HR) as (s1 & H1 & HH & _).
      { eapply ig_unknown; [reflexivity|reflexivity|exact HS]. }
      rewrite Hs in H1. injection H1 as -> <-. specialize (HH eq_refl). cbn [m_ident] in HH. split; [eapply heard_alone; eassumption|].
      rewrite (heard_view _ _ _ _ HH), Ev. simpl. rewrite app_nil_r. eapply skip_ok; [exact HN|reflexivity].
Qed.

Lemma start_ok : sys_ok [] (init_state (empty_manager k)) (fun _ => mkNode Off [] []).
Proof. split; [constructor|]. split; [intros e rest []|]. intros i. split; [intros w w' []|]. simpl. constructor. reflexivity. Qed.
Lemma sys_work tr s ns i n : sys_ok tr s ns -> work (ns i) n -> sys_ok tr s (put i n ns).
Proof.
  intros (HR & HT & HI) HW. split; [exact HR|]. split; [exact HT|]. intros x. split; [apply HI|]. unfold put.
  destruct (String.eqb_spec x i) as [->|]; [|apply HI]. eapply work_ok; [exact HW|]. apply HI.
Qed.
Lemma sys_read tr s ns i m out outs s' : sys_ok tr s ns -> n_outbox (ns i) = m :: out ->
  on_request o cfg (Msg "workers" i (frames (cards i) m)) s = (outs, inr (tt, s')) ->
  sys_ok (tr ++ [mkEvent s (Msg "workers" i (frames (cards i) m)) outs s']) s' (deliver outs (taken i out ns)).
Proof.
  intros IH Ho Hs. assert (HK := IH). destruct IH as (HR & HT & HI). split; [econstructor; eassumption|]. split.
  - intros e rest Hin E1 E2. apply in_app_iff in Hin. destruct Hin as [Hin|[<-|[]]]; [eapply HT; eauto|]. simpl in *.
    destruct m as [d| | |]; try discriminate E2. exists d. reflexivity.
  - intros x. destruct (String.eqb_spec x i) as [->|Hne].
    + rewrite deliver_own. eapply read_ok; eassumption.
    + rewrite deliver_other by exact Hne. destruct (HI x) as (HA & HN).
      destruct (step_view o cfg k tr s _ outs s' x HR Hs HA) as (HP & HA').
      { intros _ E. simpl in E. congruence. }
      split; [exact HA'|]. apply hears_ok with (v := view x s); [exact HN|]. eapply path_mono; [|exact HP]. discriminate.
Qed.
Lemma sys_other tr s ns m outs s' : sys_ok tr s ns -> m_key m <> "workers" -> on_request o cfg m s = (outs, inr (tt, s')) -> ok s s' ns ->
  sys_ok (tr ++ [mkEvent s m outs s']) s' (deliver outs ns).
Proof.
  intros (HR & HT & HI) Hk Hs Hset. assert (HR' : run o cfg k (tr ++ [mkEvent s m outs s']) s') by (econstructor; eassumption).
  split; [exact HR'|]. split.
  - intros e rest Hin E1 E2. apply in_app_iff in Hin. destruct Hin as [Hin|[<-|[]]]; [eapply HT; eauto|]. simpl in *. contradiction.
  - intros x. destruct (HI x) as (HA & HN). destruct (step_view o cfg k tr s m outs s' x HR Hs HA) as (HP & HA').
    { intros E. contradiction. }
    split; [exact HA'|]. unfold deliver. destruct (view x s') as [c'|] eqn:Ev'.
    * apply hears_ok with (v := view x s); [exact HN|]. eapply path_known. exact HP.
    * destruct (view x s) as [c|] eqn:Ev.
      -- destruct (view_some _ _ _ Ev) as (w & HS' & _). destruct (sender_in _ _ _ HS') as (Hin & Ei).
         destruct (Hok _ _ _ Hset w Hin) as (Hi & Hh).
         { intros Hin'. apply view_none in Ev'. rewrite sender_none in Ev'. exact (Ev' w Hin' Ei). }
         rewrite Ei in Hi, Hh. eapply lost_ok; [exact HN|exact HP|reflexivity|exact Hi| |exact Hh].
         unfold mail. rewrite in_map_iff. intros (out & E & Hout). apply filter_In in Hout. destruct Hout as (Hout & Hf).
         apply andb_true_iff in Hf. destruct Hf as (Hf & _). apply String.eqb_eq in Hf.
         pose proof (says_allowed o cfg k tr _ [] s' HR' out Hout) as HM. simpl in HM. destruct HM; simpl in *; try discriminate; try contradiction.
         destruct H as [(? & ? & ? & ->)|[(? & -> & _)|[(? & ->)|(? & ->)]]]; discriminate.
      -- apply hears_ok with (v := None); [exact HN|]. eapply path_unknown. exact HP.
Qed.
Theorem system_ok tr s ns : system o cfg k cards ok tr s ns -> sys_ok tr s ns.
Proof.
  induction 1; [exact start_ok|apply sys_work; assumption|apply sys_read; assumption|apply sys_other; assumption].
Qed.
End Whole.

(* ---- what follows ---- *)
Section Conclusions.
Context (o : oracle) (cfg : config) (k : kind) (cards : string -> card).
Hypothesis Hcards : forall i, proper (cards i).
Context (tr : list event) (s : state) (ns : nodes).
Hypothesis HS : sys_ok o cfg k cards tr s ns.

Lemma done_matches_ok i j v out w : n_outbox (ns i) = Done j v :: out -> sender i s = Some w -> exists r, current_of (s_queue s) w = Some r /\ r_job r = j.
Proof.
  intros Ho Hs. destruct HS as (_ & _ & HI). destruct (HI i) as (_ & HN). unfold view in HN. rewrite Hs in HN.
  inversion HN as [|c job inb out' c' HA HF E1 E2| |]; subst. rewrite <- E2 in Ho. simpl in Ho. subst. inversion HA as [| | | |? ? ? ? ? E]; subst.
  destruct (current_of (s_queue s) w) as [r|]; [|discriminate]. injection E as ->. eauto.
Qed.

Theorem survives_ok i m out : n_outbox (ns i) = m :: out -> exists outs s', on_request o cfg (Msg "workers" i (frames (cards i) m)) s = (outs, inr (tt, s')).
Proof.
  intros Ho. destruct HS as (HR & HT & HI). eapply benign_harmless; [exact HR|]. destruct m as [d| |fr|j v].
  - cbn [frames]. eapply be_init; [apply hello_block; apply Hcards|]. intros fr v. apply (proj2 (Hcards i)).
  - apply be_worker_word; discriminate.
  - apply be_worker_word; discriminate.
  - destruct (sender i s) as [w|] eqn:Es.
    + destruct (done_matches_ok _ _ _ _ _ Ho Es) as (r & Hc & _). eapply be_done; eassumption.
    + apply be_done_unknown. exact Es.
Qed.

Theorem one_job i j pl rest : n_inbox (ns i) = ("eval" :: j :: pl) :: rest -> n_proc (ns i) = On None /\ evals rest = [].
Proof.
  intros Hi. destruct HS as (_ & _ & HI). destruct (HI i) as (_ & HN).
  assert (HX : forall job c, fits_job job (evals (("eval" :: j :: pl) :: rest)) c -> job = None /\ evals rest = []).
  { intros job c [(E & _)|(x & E & -> & _)]; [discriminate E|]. split; [reflexivity|]. change (j :: evals rest = [x]) in E. injection E as _ E. exact E. }
  destruct (ns i) as [p inb out]. simpl in *. subst inb. inversion HN; subst.
  - discriminate.
  - edestruct HX as (-> & E); [eassumption|]. auto.
  - edestruct HX as (-> & E); [eassumption|]. auto.
  - match goal with H : evals _ = [] |- _ => discriminate H end.
Qed.

Lemma in_evals l j pl : In ("eval" :: j :: pl) l -> In j (evals l).
Proof. intros H. unfold evals. apply in_flat_map. eexists. split; [exact H|]. left. reflexivity. Qed.
Theorem one_job_only_ok i j pl rest : n_inbox (ns i) = ("eval" :: j :: pl) :: rest ->
  n_proc (ns i) = On None /\ forall j' pl', ~ In ("eval" :: j' :: pl') rest.
Proof.
  intros H. apply one_job in H. destruct H as (H1 & H2). split; [exact H1|]. intros j' pl' Hin. apply in_evals in Hin. rewrite H2 in Hin. destruct Hin.
Qed.

Lemma after_end c l c' : after c l c' -> (forall j v, ~ In (Done j v) l) -> c' = c.
Proof.
  induction 1; intros H'; try reflexivity; try (apply IHafter; intros j' v' Hin; apply (H' j' v'); right; exact Hin).
  destruct (H' j v). left. reflexivity.
Qed.
Lemma after_some j l c' : after (Some j) l c' -> c' = Some j \/ exists v, In (Done j v) l.
Proof.
  intros H. remember (Some j) as c eqn:E. revert j E. induction H; intros j0 E; auto;
    try (destruct (IHafter _ E) as [->|(v' & Hv)]; [auto|right; exists v'; right; exact Hv]).
  right. exists v. injection E as <-. left. reflexivity.
Qed.
Lemma after_back c l j : after c l (Some j) -> c = Some j.
Proof. intros H. remember (Some j) as c' eqn:E. induction H; auto. apply after_none with (j := j) in H. destruct H as (-> & _). discriminate. Qed.
Lemma evals_in l j : In j (evals l) -> exists pl, In ("eval" :: j :: pl) l.
Proof.
  unfold evals. rewrite in_flat_map. intros (d & Hd & Hj). destruct d as [|e [|j' pl]]; try destruct Hj. simpl in Hj.
  destruct (String.eqb_spec e "eval") as [->|]; [|destruct Hj]. destruct Hj as [->|[]]. eauto.
Qed.
Lemma no_evals l : (forall j pl, ~ In ("eval" :: j :: pl) l) -> evals l = [].
Proof.
  intros H. destruct (evals l) as [|j t] eqn:E; [reflexivity|]. destruct (evals_in l j) as (pl & Hin); [rewrite E; left; reflexivity|]. destruct (H j pl Hin).
Qed.

Theorem agreement_ok i w : sender i s = Some w -> (forall j pl, ~ In ("eval" :: j :: pl) (n_inbox (ns i))) -> (forall j v, ~ In (Done j v) (n_outbox (ns i))) ->
  n_proc (ns i) = On (option_map r_job (current_of (s_queue s) w)).
Proof.
  intros Hs Hi Ho. destruct HS as (_ & _ & HI). destruct (HI i) as (_ & HN). unfold view in HN. rewrite Hs in HN.
  inversion HN as [|c job inb out c' HA HF E1 E2| |]; subst. rewrite <- E2 in *. simpl in *. rewrite (no_evals _ Hi) in HF.
  rewrite (after_end _ _ _ HA Ho) in HF. destruct HF as [(_ & ->)|(x & E & _)]; [reflexivity|discriminate].
Qed.

Theorem no_phantom_ok i w r : sender i s = Some w -> current_of (s_queue s) w = Some r ->
  n_proc (ns i) = On (Some (r_job r)) \/ (exists pl, In ("eval" :: r_job r :: pl) (n_inbox (ns i))) \/ exists v, In (Done (r_job r) v) (n_outbox (ns i)).
Proof.
  intros Hs Hc. destruct HS as (_ & _ & HI). destruct (HI i) as (_ & HN). unfold view in HN. rewrite Hs, Hc in HN.
  inversion HN as [|c job inb out c' HA HF E1 E2| |]; subst. simpl in *.
  destruct (after_some _ _ _ HA) as [->|(v & Hv)]; [|eauto]. destruct HF as [(_ & <-)|(x & E & _ & Ex)]; [auto|].
  injection Ex as <-. right. left. apply evals_in. rewrite E. left. reflexivity.
Qed.

Theorem busy_known_ok i w j : sender i s = Some w -> n_proc (ns i) = On (Some j) -> exists r, current_of (s_queue s) w = Some r /\ r_job r = j.
Proof.
  intros Hs Hp. destruct HS as (_ & _ & HI). destruct (HI i) as (_ & HN). unfold view in HN. rewrite Hs in HN.
  inversion HN as [|c job inb out c' HA HF E1 E2| |]; subst. rewrite <- E2 in *. simpl in *. injection Hp as ->.
  destruct HF as [(_ & ->)|(x & _ & E & _)]; [|discriminate]. apply after_back in HA. destruct (current_of (s_queue s) w) as [r|]; [|discriminate].
  injection HA as <-. eauto.
Qed.

Theorem one_worker_ok w w' : In w (s_reg s) -> In w' (s_reg s) -> w_identity w = w_identity w' -> w = w'.
Proof. intros H1 H2 E. destruct HS as (_ & _ & HI). apply (proj1 (HI (w_identity w))); auto. Qed.
End Conclusions.

(* the same of the states of the system *)
Section Reached.
Context (o : oracle) (cfg : config) (k : kind) (cards : string -> card).
Hypothesis Hcards : forall i, proper (cards i).
Context (tr : list event) (s : state) (ns : nodes).
Hypothesis HS : system o cfg k cards settled tr s ns.
Lemma reachable_ok : sys_ok o cfg k cards tr s ns.
Proof. apply system_ok with (ok := settled); [exact Hcards|auto|exact HS]. Qed.
Definition survives := survives_ok o cfg k cards Hcards tr s ns reachable_ok.
Definition done_matches := done_matches_ok o cfg k cards tr s ns reachable_ok.
Definition one_job_only := one_job_only_ok o cfg k cards tr s ns reachable_ok.
Definition agreement := agreement_ok o cfg k cards tr s ns reachable_ok.
Definition no_phantom := no_phantom_ok o cfg k cards tr s ns reachable_ok.
Definition busy_known := busy_known_ok o cfg k cards tr s ns reachable_ok.
Definition one_worker := one_worker_ok o cfg k cards tr s ns reachable_ok.
End Reached.
