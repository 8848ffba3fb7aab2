(* The broker and its workers left to themselves come to rest (C58). *)
From Coq Require Import Permutation Lia.
From Verif Require Import Base Bytes Containers Worker Multi Single Queue Handler SpecText Spec SpecRun SpecMsg SpecPings SpecFatal
  SpecQueue SpecOutcome SpecJoin SpecOut SpecSystem SpecDrain SpecFinish TextFacts Facts QueueInv Atoms HandlerSim Conserve Provenance Members Messages Pings
  QueueContract WorkConserving Fatal Out Joining Outcome System Drain.
Local Open Scope string_scope.
Local Open Scope list_scope.

(* ---- what is still to be done ---- *)
Definition sum {A} (f : A -> nat) (l : list A) : nat := list_sum (map f l).
Definition w_in (d : list string) : nat :=
  match d with
  | e :: _ :: _ => if String.eqb e "eval" then 3 else 1
  | [e] => if String.eqb e "intro" then 3 else 1
  | [] => 1
  end.
Definition w_out (m : saying) : nat := match m with Hello _ => 2 | Ping => 4 | Progress _ => 1 | Done _ _ => 1 end.
Definition w_proc (p : proc) : nat := match p with On (Some _) => 2 | _ => 0 end.
Definition w_node (n : node) : nat := w_proc (n_proc n) + sum w_in (n_inbox n) + sum w_out (n_outbox n).
Definition post (outs : list msg) : nat := sum (fun m => if String.eqb (m_key m) "workers" then w_in (m_data m) else 0) outs.

Lemma sum_cons {A} (f : A -> nat) x l : sum f (x :: l) = f x + sum f l.
Proof. reflexivity. Qed.
Lemma sum_app {A} (f : A -> nat) l l' : sum f (l ++ l') = sum f l + sum f l'.
Proof. unfold sum. rewrite map_app, list_sum_app. reflexivity. Qed.
Lemma sum_perm {A} (f : A -> nat) l l' : Permutation l l' -> sum f l = sum f l'.
Proof. induction 1; rewrite ?sum_cons in *; lia. Qed.
Lemma sum_le {A} (f g : A -> nat) l : (forall x, In x l -> f x <= g x) -> sum f l <= sum g l.
Proof. induction l as [|x l IH]; intros H; [reflexivity|]. rewrite !sum_cons. specialize (IH (fun y Hy => H y (or_intror Hy))). specialize (H x (or_introl eq_refl)). lia. Qed.
Lemma sum_less {A} (f g : A -> nat) l r d : (forall x, In x l -> f x <= g x) -> In r l -> f r + d <= g r -> sum f l + d <= sum g l.
Proof.
  induction l as [|x l IH]; intros H Hin Hr; [destruct Hin|]. rewrite !sum_cons. pose proof (H x (or_introl eq_refl)) as Hx.
  destruct Hin as [->|Hin].
  - pose proof (sum_le f g l (fun y Hy => H y (or_intror Hy))). lia.
  - specialize (IH (fun y Hy => H y (or_intror Hy)) Hin Hr). lia.
Qed.
Lemma sum_zero {A} (f : A -> nat) l : (forall x, In x l -> f x = 0) -> sum f l = 0.
Proof. intros H. induction l as [|x l IH]; [reflexivity|]. rewrite sum_cons, H by (left; reflexivity). apply IH. intros y Hy. apply H. right. exact Hy. Qed.
Lemma sum_ext {A} (f g : A -> nat) l : (forall x, In x l -> f x = g x) -> sum f l = sum g l.
Proof. induction l as [|x l IH]; intros H; [reflexivity|]. rewrite !sum_cons, H by (left; reflexivity). rewrite IH; [reflexivity|]. intros y Hy. apply H. right. exact Hy. Qed.

(* what is delivered to the workers of a list is no more than what is sent *)
Lemma post_cons m outs : post (m :: outs) = (if String.eqb (m_key m) "workers" then w_in (m_data m) else 0) + post outs.
Proof. reflexivity. Qed.
Lemma post_app a b : post (a ++ b) = post a + post b.
Proof. apply sum_app. Qed.
Lemma mail_cons i m outs : mail i (m :: outs) = mail i [m] ++ mail i outs.
Proof. apply (mail_app i [m] outs). Qed.
Lemma mails_one L m : NoDup L -> sum (fun i => sum w_in (mail i [m])) L <= if String.eqb (m_key m) "workers" then w_in (m_data m) else 0.
Proof.
  intros HN. unfold mail. cbn [filter]. destruct (String.eqb (m_key m) "workers"); cbn [andb]; [|rewrite sum_zero; [lia|reflexivity]].
  induction HN as [|x L Hx HN IH]; [apply Nat.le_0_l|]. rewrite sum_cons. destruct (String.eqb_spec (m_ident m) x) as [<-|Hne]; [|exact IH].
  match goal with |- _ + ?z <= _ => assert (z = 0) as -> end; [|unfold sum; simpl; lia].
  apply sum_zero. intros y Hy. destruct (String.eqb_spec (m_ident m) y) as [<-|]; [contradiction|reflexivity].
Qed.
Lemma mails_le L outs : NoDup L -> sum (fun i => sum w_in (mail i outs)) L <= post outs.
Proof.
  intros HN. induction outs as [|m outs IH]; [rewrite sum_zero; [lia|reflexivity]|]. rewrite post_cons.
  rewrite (sum_ext _ (fun i => sum w_in (mail i [m]) + sum w_in (mail i outs))) by (intros i _; rewrite mail_cons, sum_app; reflexivity).
  assert (HS : forall (f g : string -> nat) l, sum (fun i => f i + g i) l = sum f l + sum g l).
  { intros f g l. induction l as [|y l IHl]; [reflexivity|]. rewrite !sum_cons, IHl. lia. }
  rewrite HS. pose proof (mails_one L m HN). lia.
Qed.

Lemma sum_put L i nd ns : NoDup L -> In i L -> sum (fun x => w_node (put i nd ns x)) L + w_node (ns i) = sum (fun x => w_node (ns x)) L + w_node nd.
Proof.
  intros HN. induction HN as [|x L Hx HN IH]; intros Hin; [destruct Hin|]. rewrite !sum_cons. unfold put at 1. destruct (String.eqb_spec x i) as [->|Hne].
  - rewrite (sum_ext (fun x => w_node (put i nd ns x)) (fun x => w_node (ns x)) L); [lia|]. intros y Hy. unfold put.
    destruct (String.eqb_spec y i) as [->|]; [contradiction|reflexivity].
  - destruct Hin as [->|Hin]; [congruence|]. specialize (IH Hin). lia.
Qed.
Lemma sum_deliver L outs ns : NoDup L -> sum (fun x => w_node (deliver outs ns x)) L <= sum (fun x => w_node (ns x)) L + post outs.
Proof.
  intros HN. pose proof (mails_le L outs HN) as HM.
  assert (sum (fun x => w_node (deliver outs ns x)) L = sum (fun x => w_node (ns x)) L + sum (fun i => sum w_in (mail i outs)) L); [|lia].
  clear. induction L as [|x L IH]; [reflexivity|]. rewrite !sum_cons, IH. unfold w_node at 1, deliver. cbn [n_proc n_inbox n_outbox]. rewrite sum_app.
  unfold w_node at 2. lia.
Qed.

Lemma w_in_pos d : 1 <= w_in d.
Proof. destruct d as [|e [|j d]]; simpl; [lia| |]; destruct (String.eqb e _); lia. Qed.
Lemma w_in_le d : w_in d <= 3.
Proof. destruct d as [|e [|j d]]; simpl; [lia| |]; destruct (String.eqb e _); lia. Qed.
Lemma sum_snoc {A} (f : A -> nat) l x : sum f (l ++ [x]) = sum f l + f x.
Proof. rewrite sum_app, sum_cons. unfold sum. simpl. lia. Qed.
Lemma duty_less n n' : duty n n' -> w_node n' < w_node n.
Proof.
  intros H. unfold w_node. destruct H; cbn [n_proc n_inbox n_outbox]; rewrite ?sum_snoc, ?sum_cons; simpl.
  - lia.
  - destruct job; simpl; lia.
  - lia.
  - pose proof (w_in_pos m). lia.
Qed.
Lemma chat_more n n' : chat n n' -> w_node n' <= w_node n + 4.
Proof. intros H. unfold w_node. destruct H; cbn [n_proc n_inbox n_outbox]; rewrite ?sum_snoc; simpl; lia. Qed.
Lemma duty_work n n' : duty n n' -> work n n'.
Proof. destruct 1; constructor; assumption. Qed.
Lemma chat_work n n' : chat n n' -> work n n'.
Proof. destruct 1; constructor. Qed.
Lemma duty_on n n' : duty n n' -> n_proc n <> Off /\ n_proc n' <> Off.
Proof. destruct 1; split; discriminate. Qed.
Lemma chat_on n n' : chat n n' -> n_proc n <> Off /\ n_proc n' <> Off.
Proof. destruct 1; split; discriminate. Qed.

(* a worker either has something to do, or is idle with nothing to read, or is not started *)
Lemma duty_dec n : (exists nd, duty n nd) \/ n_proc n = Off \/ n_proc n = On None /\ n_inbox n = [].
Proof.
  destruct n as [[|[j|]] inb out]; cbn [n_proc n_inbox]; [auto| |].
  - left. eexists. apply (du_done j VOk).
  - destruct inb as [|d inb]; [auto|]. left.
    destruct d as [|e [|j pl]].
    + eexists. apply du_other; discriminate.
    + destruct (String.eqb_spec e "intro") as [->|Hne]; [eexists; apply du_intro|]. eexists. apply du_other; [discriminate|congruence].
    + destruct (String.eqb_spec e "eval") as [->|Hne]; [eexists; apply du_eval|]. eexists. apply du_other; [congruence|discriminate].
Qed.

Section Finish.
Context (o : oracle) (cfg : config) (k : kind) (cards : string -> card).
Hypothesis Hcards : forall i, proper (cards i).
Local Notation good := (sys_ok o cfg k cards).
Local Notation carries := (carries o cfg cards).

(* the attempts a request may still have *)
Definition left_ (s : state) (r : request) : nat := if r_complete r then 4 * N.to_nat (c_max_failures cfg - attempts s r) else 0.
Definition budget (s : state) : nat := sum (left_ s) (held (s_queue s)).
Definition todo (L : list string) (s : state) (ns : nodes) : nat := 4 * length (queued (s_queue s)) + budget s + sum (fun i => w_node (ns i)) L.

Lemma left_le s s' r : (attempts s r <= attempts s' r)%N -> left_ s' r <= left_ s r.
Proof. unfold left_. intros H. destruct (r_complete r); [|lia]. assert (N.to_nat (c_max_failures cfg - attempts s' r) <= N.to_nat (c_max_failures cfg - attempts s r)) by lia. lia. Qed.
Lemma left_same s s' r : s_fails s' = s_fails s -> left_ s' r = left_ s r.
Proof. unfold left_, attempts. intros ->. reflexivity. Qed.

Lemma created_incomplete s h ls s' h' : atoms o cfg s h ls s' h' -> (forall r, ~ In (LCreate r) ls) -> forall r, In r (created ls) -> r_complete r = false.
Proof.
  induction 1 as [s h|s h l s1 h1 ls s2 h2 Ha _ IH]; intros Hno r Hin; [destruct Hin|]. unfold created in Hin. simpl in Hin. apply in_app_iff in Hin. destruct Hin as [Hin|Hin].
  - destruct Ha; simpl in Hin; try (destruct Hin; fail); [destruct (Hno r0); left; reflexivity|].
    destruct cur as [x0|]; [|destruct Hin]. destruct Hin as [<-|[]]. apply (H2 x0 eq_refl).
  - apply IH; [|exact Hin]. intros r' Hr'. apply (Hno r'). right. exact Hr'.
Qed.
Lemma worker_creates_none m s s' ls : shape o cfg m s s' ls -> m_key m = "workers" -> forall r, ~ In (LCreate r) ls.
Proof.
  intros Sh Ek r Hin. destruct Sh as [ls Hq _|ls Hk Ht|ls rest Hk Hd He|pre w0 cur x next rest Hk Hd Hq Hr|ls rest Hk Hd Hds]; try congruence.
  - rewrite Forall_forall in Hq. exact (Hq _ Hin).
  - apply in_app_iff in Hin. destruct Hin as [Hin|[Hin|[]]]; [|discriminate]. rewrite Forall_forall in Hq. exact (Hq _ Hin).
  - destruct Hin as [Hin|Hin]; [discriminate|]. destruct Hds as [_|w0 r0 m0 x st _ _ _ _ _|w0 r0 ls _ _ _ _ _ He].
    + destruct Hin.
    + destruct Hin as [Hin|[Hin|[Hin|[]]]]; discriminate.
    + destruct Hin as [Hin|Hin]; [discriminate|]. destruct He; simpl in Hin; repeat (destruct Hin as [Hin|Hin]; [discriminate|]); destruct Hin.
Qed.

(* reading never adds to the attempts left *)
Lemma budget_read tr s i d outs s' : run o cfg k tr s -> on_request o cfg (Msg "workers" i d) s = (outs, inr (tt, s')) ->
  (forall r, (attempts s r <= attempts s' r)%N) ->
  budget s' <= budget s /\
  forall r, In r (held (s_queue s')) -> r_complete r = true -> (attempts s r + 1 <= attempts s' r)%N -> (attempts s r < c_max_failures cfg)%N -> budget s' + 4 <= budget s.
Proof.
  intros HR Hstep HA. pose proof (run_inv _ _ _ _ _ HR) as HV. destruct (on_request_sim _ _ _ _ _ _ HV Hstep) as (ls & A & O & Sh).
  pose proof (atoms_conserve _ _ _ _ _ _ _ A HV) as HP. rewrite !app_nil_r in HP. apply (sum_perm (left_ s)) in HP. rewrite !sum_app in HP.
  rewrite (sum_zero (left_ s) (created ls)) in HP.
  2:{ intros r Hr. unfold left_. rewrite (created_incomplete _ _ _ _ _ A (worker_creates_none _ _ _ _ Sh eq_refl) r Hr). reflexivity. }
  assert (HL : forall r, In r (held (s_queue s')) -> left_ s' r <= left_ s r) by (intros r _; apply left_le; apply HA).
  unfold budget. split.
  - pose proof (sum_le _ _ _ HL). lia.
  - intros r Hin Hc H1 H2. assert (HS : left_ s' r + 4 <= left_ s r).
    { unfold left_. rewrite Hc. assert (N.to_nat (c_max_failures cfg - attempts s' r) + 1 <= N.to_nat (c_max_failures cfg - attempts s r)) by lia. lia. }
    pose proof (sum_less _ _ _ _ _ HL Hin HS). lia.
Qed.

Lemma post_handover w r : post [handover w r] = w_in (r_frames r).
Proof. unfold post, sum, handover. simpl. lia. Qed.
Lemma post_next w x : post (map (handover w) (olist x)) <= 3 * length (olist x).
Proof. destruct x as [r|]; [|reflexivity]. simpl. rewrite post_handover. pose proof (w_in_le (r_frames r)). lia. Qed.

(* what the broker reads is more than what comes of it *)
Lemma read_less tr s ns i m out outs s' : good tr s ns -> n_outbox (ns i) = m :: out ->
  on_request o cfg (Msg "workers" i (frames (cards i) m)) s = (outs, inr (tt, s')) ->
  4 * length (queued (s_queue s')) + budget s' + post outs < 4 * length (queued (s_queue s)) + budget s + w_out m.
Proof.
  intros HS Ho Hstep. pose proof HS as (HR & HT & HI).
  assert (HH : heard cfg i s s' -> post outs < w_out m -> 4 * length (queued (s_queue s')) + budget s' + post outs < 4 * length (queued (s_queue s)) + budget s + w_out m).
  { intros ((E1 & E2 & E3 & _) & _) Hp. unfold budget. rewrite E2. rewrite (sum_ext (left_ s') (left_ s)); [lia|]. intros r _. apply left_same. exact E3. }
  pose proof (fun HA => budget_read tr s i (frames (cards i) m) outs s' HR Hstep HA) as HB.
  assert (HB0 : s_fails s' = s_fails s -> budget s' <= budget s) by (intros E; apply HB; intros r; unfold attempts; rewrite E; apply N.le_refl).
  assert (HG : forall w x, goes_on_with (s_queue s) (s_queue s') w x -> length (queued (s_queue s)) = length (olist x) + length (queued (s_queue s'))).
  { intros w x (_ & (HP & _) & _). apply Permutation_length in HP. rewrite app_length in HP. exact HP. }
  destruct m as [d| |fr|j v].
  - (* Hello *)
    destruct (sender i s) as [w|] eqn:Es.
    + destruct (known_hello o cfg k cards Hcards tr s i w d HR HT Es) as (s1 & H & Hh). rewrite Hstep in H. injection H as -> <-. apply HH; [exact Hh|simpl; unfold post, sum; simpl; lia].
    + cbn [frames] in Hstep. pose proof (Hcards i) as HPc.
      destruct (init_new o cfg k tr s i (c_hwgroup (cards i)) _ _ HR Es (hello_block (cards i) d HPc) (proj2 HPc)) as (w & x & s1 & HW & H1 & HK).
      rewrite Hstep in H1. injection H1 as -> <-. destruct HK as (_ & Ef & _ & _ & _ & _ & _ & _ & _ & HK).
      change ("init" :: c_hwgroup (cards i) :: c_hdrs (cards i) ++ "" :: ("description=" ++ c_desc (cards i))%string :: match d with Some j => [("current_job=" ++ j)%string] | None => [] end)
        with (frames (cards i) (Hello d)) in HK. rewrite (hello_job _ d HPc) in HK. specialize (HB0 Ef). cbn [w_out].
      destruct d as [j|].
      * destruct HK as (r & (_ & _ & Er & _) & _ & (Eq & _) & Ex). rewrite Eq. destruct (s_queue s); subst x.
        -- cbn [olist map]. rewrite post_handover, Er. simpl. lia.
        -- unfold post, sum. simpl. lia.
      * pose proof (HG _ _ HK). pose proof (post_next w x). lia.
  - destruct (ping_reply o cfg i [] s) as (s1 & H & Hh). cbn [frames] in Hstep. rewrite Hstep in H. injection H as -> <-. apply HH; [exact Hh|].
    unfold post, sum. destruct (sender i s); simpl; lia.
  - destruct (progress_forwarded o cfg i fr s) as (s1 & H & Hh). cbn [frames] in Hstep. rewrite Hstep in H. injection H as -> <-. apply HH; [exact Hh|].
    unfold post, sum. simpl. lia.
  - destruct (sender i s) as [w|] eqn:Es.
    + destruct (done_matches_ok o cfg k cards _ _ _ HS i j v out w Ho Es) as (r & Hc & <-). cbn [frames] in Hstep. cbn [w_out].
      assert (HM : forall r0, one_more_attempt r0 s s' -> forall r', (attempts s r' <= attempts s' r')%N).
      { intros r0 H1 r'. rewrite (H1 r'). destruct (Nat.eqb _ _); lia. }
      destruct v as [|t|t]; simpl in Hstep.
      * destruct (done_ok o cfg k tr s i w r HR Es Hc []) as (x & s1 & H1 & HGo & _ & _ & Ef). rewrite Hstep in H1. injection H1 as -> <-.
        specialize (HB0 Ef). pose proof (HG _ _ HGo). pose proof (post_next w x). rewrite post_cons. cbn [m_key ok_report]. simpl String.eqb. cbn iota. lia.
      * destruct (done_failed o cfg k tr s i w r HR Es Hc t) as (x & s1 & H1 & HGo & _ & _ & Ha). rewrite Hstep in H1. injection H1 as -> <-.
        destruct (HB (HM _ Ha)) as (HB1 & _). pose proof (HG _ _ HGo). pose proof (post_next w x). rewrite post_cons. cbn [m_key failed_report]. simpl String.eqb. cbn iota. lia.
      * destruct (r_complete r) eqn:Ec.
        -- destruct (N.lt_ge_cases (attempts s r + 1) (c_max_failures cfg)) as [Hlt|Hge].
           ++ destruct (done_internal_again o cfg k tr s i w r HR Es Hc t Ec Hlt) as (x & s1 & H1 & HX & (Er & _) & _ & Ha). rewrite Hstep in H1. injection H1 as -> <-.
              destruct (HB (HM _ Ha)) as (_ & HB2). specialize (HB2 r).
              assert (Har : (attempts s r + 1 <= attempts s' r)%N) by (rewrite (Ha r), Nat.eqb_refl; lia).
              assert (HV' : qinv (s_queue s') (s_reg s')).
              { apply (inv_q s' []). eapply run_inv. econstructor; [exact HR|exact Hstep]. }
              destruct x as [w'|].
              ** destruct HX as (Hin & _ & _ & (Hc' & _ & _ & (Eq & _))).
                 assert (Hh : In r (held (s_queue s'))).
                 { eapply in_held_current; [exact HV'|rewrite Er; exact Hin|exact Hc']. }
                 specialize (HB2 Hh Ec Har ltac:(lia)). rewrite Eq. cbn [olist map]. rewrite post_handover. pose proof (w_in_le (r_frames r)). lia.
              ** destruct HX as (_ & (HPq & _)).
                 assert (Hh : In r (held (s_queue s'))).
                 { apply queued_held. apply (Permutation_in _ (Permutation_sym HPq)). left. reflexivity. }
                 specialize (HB2 Hh Ec Har ltac:(lia)). apply Permutation_length in HPq. simpl in HPq. unfold post, sum. simpl. lia.
           ++ destruct (done_internal_too_many o cfg k tr s i w r HR Es Hc t Ec Hge) as (x & s1 & H1 & HGo & _ & _ & Ha). rewrite Hstep in H1. injection H1 as -> <-.
              destruct (HB (HM _ Ha)) as (HB1 & _). pose proof (HG _ _ HGo). pose proof (post_next w x). rewrite !post_cons. cbn [m_key failed_report tell]. simpl String.eqb. cbn iota. lia.
        -- destruct (done_internal_incomplete o cfg k tr s i w r HR Es Hc t Ec) as (s1 & H1 & _ & (Eq & _) & _ & _ & Ha). rewrite Hstep in H1. injection H1 as -> <-.
           destruct (HB (HM _ Ha)) as (HB1 & _). rewrite Eq, post_cons. cbn [m_key failed_report]. simpl String.eqb. cbn iota. unfold post, sum. simpl. lia.
    + destruct (ignored_harmless o cfg k tr s (Msg "workers" i (frames (cards i) (Done j v))) HR) as (s1 & H1 & Hh & _).
      { eapply ig_unknown; [reflexivity|reflexivity|exact Es]. }
      rewrite Hstep in H1. injection H1 as -> <-. apply HH; [exact (Hh eq_refl)|unfold post, sum; simpl; lia].
Qed.

(* ---- the workers that have started ---- *)
Definition covers (L : list string) (ns : nodes) : Prop := NoDup L /\ forall i, n_proc (ns i) <> Off -> In i L.
Lemma speaker_on tr s ns i m out : good tr s ns -> n_outbox (ns i) = m :: out -> n_proc (ns i) <> Off.
Proof.
  intros HS Ho E. pose proof HS as (_ & _ & HI). destruct (HI i) as (_ & HN).
  destruct (ns i) as [p inb out0]. cbn [n_proc n_outbox] in *. subst p out0. inversion HN.
Qed.

Lemma put_covers L i nd ns : covers L ns -> In i L -> covers L (put i nd ns).
Proof. intros (HN & HC) Hin. split; [exact HN|]. intros x. unfold put. destruct (String.eqb_spec x i) as [->|]; [auto|apply HC]. Qed.

Lemma carries_bound n c tr s ns tr' s' ns' L : carries n c tr s ns tr' s' ns' -> good tr s ns -> covers L ns -> n + todo L s' ns' <= todo L s ns + 4 * c.
Proof.
  intros H. revert L. induction H as [tr s ns|n c tr s ns i nd tr' s' ns' Hd _ IH|n c tr s ns i nd tr' s' ns' Hd _ IH|n c tr s ns i m out outs s1 tr' s' ns' Ho Hs _ IH]; intros L HS HC.
  - lia.
  - pose proof (proj2 HC i (proj1 (duty_on _ _ Hd))) as Hin.
    specialize (IH L (sys_work _ _ _ _ _ _ _ _ _ HS (duty_work _ _ Hd)) (put_covers _ _ _ _ HC Hin)).
    pose proof (sum_put L i nd ns (proj1 HC) Hin). pose proof (duty_less _ _ Hd). unfold todo in *. lia.
  - pose proof (proj2 HC i (proj1 (chat_on _ _ Hd))) as Hin.
    specialize (IH L (sys_work _ _ _ _ _ _ _ _ _ HS (chat_work _ _ Hd)) (put_covers _ _ _ _ HC Hin)).
    pose proof (sum_put L i nd ns (proj1 HC) Hin). pose proof (chat_more _ _ Hd). unfold todo in *. lia.
  - pose proof (proj2 HC i (speaker_on _ _ _ _ _ _ HS Ho)) as Hin.
    assert (HC' : covers L (deliver outs (taken i out ns))).
    { split; [apply HC|]. intros x. unfold deliver, taken, put. destruct (String.eqb_spec x i) as [->|]; cbn [n_proc]; apply HC. }
    specialize (IH L (sys_read _ _ _ _ Hcards _ _ _ _ _ _ _ _ HS Ho Hs) HC').
    pose proof (read_less _ _ _ _ _ _ _ _ HS Ho Hs) as HL. pose proof (sum_deliver L outs (taken i out ns) (proj1 HC)) as HD.
    pose proof (sum_put L i (mkNode (n_proc (ns i)) (n_inbox (ns i)) out) ns (proj1 HC) Hin) as HP. change (put i (mkNode (n_proc (ns i)) (n_inbox (ns i)) out) ns) with (taken i out ns) in HP.
    assert (HW : w_node (ns i) = w_node (mkNode (n_proc (ns i)) (n_inbox (ns i)) out) + w_out m).
    { unfold w_node. cbn [n_proc n_inbox n_outbox]. rewrite Ho, sum_cons. lia. }
    unfold todo in *. lia.
Qed.

Theorem bounded_ok L tr s ns : good tr s ns -> covers L ns -> exists N, forall n c tr' s' ns', carries n c tr s ns tr' s' ns' -> n <= N + 4 * c.
Proof.
  intros HS HC. exists (todo L s ns). intros n c tr' s' ns' H. pose proof (carries_bound _ _ _ _ _ _ _ _ L H HS HC). lia.
Qed.

Lemma carries_serves n c tr s ns tr' s' ns' : carries n c tr s ns tr' s' ns' -> serves o cfg cards tr s ns tr' s' ns'.
Proof.
  induction 1; [constructor|eapply se_work; [apply duty_work; eassumption|assumption]|eapply se_work; [apply chat_work; eassumption|assumption]|eapply se_read; eassumption].
Qed.

(* something can be done, or everything is at rest *)
Theorem goes_on_ok L tr s ns : good tr s ns -> covers L ns ->
  at_rest ns \/ (exists i nd, duty (ns i) nd) \/
  exists i m out outs s', n_outbox (ns i) = m :: out /\ on_request o cfg (Msg "workers" i (frames (cards i) m)) s = (outs, inr (tt, s')).
Proof.
  intros HS (HN & HC).
  assert (HX : (forall i, In i L -> (forall nd, ~ duty (ns i) nd) /\ n_outbox (ns i) = []) \/ (exists i nd, duty (ns i) nd) \/ exists i m out, n_outbox (ns i) = m :: out).
  { clear HN HC. induction L as [|i L IH]; [left; intros i []|]. destruct (n_outbox (ns i)) as [|m out] eqn:Eo; [|right; right; eauto].
    destruct (duty_dec (ns i)) as [(nd & Hd)|Hn]; [right; left; eauto|]. destruct IH as [IH|IH]; [|right; exact IH]. left.
    intros x [->|Hin]; [|apply IH; exact Hin]. split; [|exact Eo]. intros nd Hd. destruct (ns x) as [p inb out]. cbn [n_proc n_inbox] in Hn.
    destruct Hn as [->|(-> & ->)]; inversion Hd. }
  destruct HX as [HX|[HX|(i & m & out & Ho)]]; [|auto|].
  - left. intros i. destruct (n_proc (ns i)) eqn:Ep.
    + split.
      * intros nd Hd. destruct (duty_on _ _ Hd). contradiction.
      * destruct (n_outbox (ns i)) as [|m out] eqn:Eo; [reflexivity|]. destruct (speaker_on _ _ _ _ _ _ HS Eo Ep).
    + apply HX. apply HC. congruence.
  - right. right. destruct (survives_ok o cfg k cards Hcards _ _ _ HS i _ _ Ho) as (outs & s' & H). exists i, m, out, outs, s'. auto.
Qed.

Lemma carries_step n c tr s ns tr1 s1 ns1 n' c' tr2 s2 ns2 : carries n c tr s ns tr1 s1 ns1 -> carries n' c' tr1 s1 ns1 tr2 s2 ns2 ->
  carries (n + n') (c + c') tr s ns tr2 s2 ns2.
Proof. induction 1; intros H'; simpl; [exact H'|eapply ca_duty; eauto|eapply ca_chat; eauto|eapply ca_read; eauto]. Qed.

(* whatever has been done, rest can be reached *)
Theorem comes_to_rest_ok L tr s ns : good tr s ns -> covers L ns -> exists n tr' s' ns', carries n 0 tr s ns tr' s' ns' /\ at_rest ns'.
Proof.
  intros HS HC. remember (todo L s ns) as t eqn:Et. revert tr s ns HS HC Et.
  induction t as [t IH] using lt_wf_ind. intros tr s ns HS HC ->.
  assert (HX : forall tr1 s1 ns1, carries 1 0 tr s ns tr1 s1 ns1 -> good tr1 s1 ns1 -> covers L ns1 -> exists n tr' s' ns', carries n 0 tr s ns tr' s' ns' /\ at_rest ns').
  { intros tr1 s1 ns1 H1 HS1 HC1. pose proof (carries_bound _ _ _ _ _ _ _ _ L H1 HS HC) as HB.
    destruct (IH (todo L s1 ns1) ltac:(lia) tr1 s1 ns1 HS1 HC1 eq_refl) as (n & tr' & s' & ns' & H2 & H3).
    exists (1 + n), tr', s', ns'. split; [exact (carries_step _ _ _ _ _ _ _ _ _ _ _ _ _ H1 H2)|exact H3]. }
  destruct (goes_on_ok L _ _ _ HS HC) as [H|[(i & nd & H)|(i & m & out & outs & s' & Ho & H)]].
  - exists 0, tr, s, ns. split; [constructor|exact H].
  - eapply HX; [eapply ca_duty; [exact H|constructor]|apply sys_work; [exact HS|apply duty_work; exact H]|].
    apply put_covers; [exact HC|]. apply HC. apply (duty_on _ _ H).
  - eapply HX; [eapply ca_read; [exact Ho|exact H|constructor]|eapply sys_read; eassumption|].
    split; [apply HC|]. intros x. unfold deliver, taken, put. destruct (String.eqb_spec x i) as [->|]; cbn [n_proc]; apply HC.
Qed.

(* when everything is at rest, the work is done *)
Theorem rest_ok tr s ns : good tr s ns -> at_rest ns ->
  (forall i, n_proc (ns i) = Off \/ ns i = mkNode (On None) [] []) /\ running (s_queue s) = [] /\
  (forall r, In r (queued (s_queue s)) -> exists w, In w (s_reg s) /\ waits_for (s_queue s) r w /\ idle_after_error tr w) /\
  (calm tr ns -> held (s_queue s) = [] /\ forall j, reports j tr = acceptances j tr + adoptions j tr).
Proof.
  intros HS HA.
  assert (HO : forall i, n_proc (ns i) = Off \/ ns i = mkNode (On None) [] []).
  { intros i. destruct (HA i) as (Hd & Ho). destruct (duty_dec (ns i)) as [(nd & H)|[H|(H1 & H2)]]; [destruct (Hd nd H)|auto|]. right.
    destruct (ns i) as [p inb out]. cbn [n_proc n_inbox n_outbox] in *. congruence. }
  pose proof HS as (HR & HT & HI).
  pose proof (run_inv _ _ _ _ _ HR) as HV. pose proof (inv_q _ _ HV) as HQ.
  assert (HRun : running (s_queue s) = []).
  { destruct (running (s_queue s)) as [|r rs] eqn:Er; [reflexivity|]. exfalso.
    assert (Hin : In r (running (s_queue s))) by (rewrite Er; left; reflexivity). apply (in_running _ _ _ HQ) in Hin. destruct Hin as (w & Hw & Hc).
    assert (Hs : sender (w_identity w) s = Some w) by (apply alone_sender; [apply HI|exact Hw|reflexivity]).
    destruct (HI (w_identity w)) as (_ & HN). unfold view in HN. rewrite Hs in HN.
    destruct (no_phantom_ok o cfg k cards _ _ _ HS _ w r Hs Hc) as [Hp|[(pl & Hi)|(v & Hv)]];
      (destruct (HO (w_identity w)) as [Hoff|Hidle]; [destruct (ns (w_identity w)) as [p inb out]; cbn [n_proc] in Hoff; subst p; inversion HN|rewrite Hidle in *; cbn [n_proc n_inbox n_outbox] in *]).
    - discriminate.
    - destruct Hi.
    - destruct Hv. }
  split; [exact HO|]. split; [exact HRun|].
  assert (HQd : forall r, In r (queued (s_queue s)) -> exists w, In w (s_reg s) /\ waits_for (s_queue s) r w /\ idle_after_error tr w)
    by (apply (idle_waits o cfg k tr s HR HRun)).
  split; [exact HQd|]. intros HCm.
  assert (HH : held (s_queue s) = []).
  { unfold held. rewrite HRun. simpl. destruct (queued (s_queue s)) as [|r t] eqn:E; [reflexivity|]. exfalso.
    destruct (HQd r) as (w & _ & _ & tr1 & e & tr2 & -> & Hcr & _); [left; reflexivity|]. destruct HCm as (H6 & _). rewrite H6 in Hcr; [discriminate|].
    rewrite in_app_iff. right. left. reflexivity. }
  split; [exact HH|]. intros j. pose proof (conservation _ _ _ _ _ HR j) as HJ. rewrite HH in HJ. change (list_count (job_is j) []) with 0 in HJ. lia.
Qed.
End Finish.

(* the same of the states of the system *)
Section Reached.
Context (o : oracle) (cfg : config) (k : kind) (cards : string -> card).
Hypothesis Hcards : forall i, proper (cards i).
Local Notation system := (system o cfg k cards settled).
Local Notation carries := (carries o cfg cards).
Lemma covered tr s ns : system tr s ns -> exists L, covers L ns.
Proof.
  induction 1 as [|tr s ns i n HS (L & HN & HC) HW|tr s ns i m out outs s' HS (L & HN & HC) Ho Hs|tr s ns m outs s' HS (L & HN & HC) Hk Hb Hs Hset].
  - exists []. split; [constructor|]. intros i H. destruct (H eq_refl).
  - destruct (in_dec string_dec i L) as [Hin|Hni].
    + exists L. split; [exact HN|]. intros x. unfold put. destruct (String.eqb_spec x i) as [->|]; [auto|apply HC].
    + exists (i :: L). split; [constructor; assumption|]. intros x. unfold put. destruct (String.eqb_spec x i) as [->|]; [left; reflexivity|]. intros H. right. apply HC. exact H.
  - exists L. split; [exact HN|]. intros x. unfold deliver, taken, put. destruct (String.eqb_spec x i) as [->|]; cbn [n_proc]; apply HC.
  - exists L. split; [exact HN|]. intros x. unfold deliver. cbn [n_proc]. apply HC.
Qed.

Theorem bounded tr s ns : system tr s ns -> exists N, forall n c tr' s' ns', carries n c tr s ns tr' s' ns' -> n <= N + 4 * c.
Proof. intros HS. destruct (covered _ _ _ HS) as (L & HC). exact (bounded_ok o cfg k cards Hcards L tr s ns (reachable_ok _ _ _ _ Hcards _ _ _ HS) HC). Qed.
Theorem goes_on tr s ns : system tr s ns ->
  at_rest ns \/ (exists i nd, duty (ns i) nd) \/
  exists i m out outs s', n_outbox (ns i) = m :: out /\ on_request o cfg (Msg "workers" i (frames (cards i) m)) s = (outs, inr (tt, s')).
Proof. intros HS. destruct (covered _ _ _ HS) as (L & HC). exact (goes_on_ok o cfg k cards Hcards L tr s ns (reachable_ok _ _ _ _ Hcards _ _ _ HS) HC). Qed.
Theorem comes_to_rest tr s ns : system tr s ns -> exists n tr' s' ns', carries n 0 tr s ns tr' s' ns' /\ at_rest ns'.
Proof. intros HS. destruct (covered _ _ _ HS) as (L & HC). exact (comes_to_rest_ok o cfg k cards Hcards L tr s ns (reachable_ok _ _ _ _ Hcards _ _ _ HS) HC). Qed.
Definition rest tr s ns (HS : system tr s ns) := rest_ok o cfg k cards tr s ns (reachable_ok _ _ _ _ Hcards _ _ _ HS).
End Reached.
