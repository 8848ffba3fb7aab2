(* If a pool can be put in one order only, as it is if the clock never shows the same time twice, the hall of SpecPool is
   deterministic (C73). *)
From Coq Require Import Permutation Sorted Lia.
From Verif Require Import Base Bytes Containers Worker Multi Single Queue Handler SpecText Spec SpecRun SpecMsg SpecPings SpecOutcome SpecJoin SpecTick SpecFront SpecBook SpecFatal SpecLedger SpecPool
  Facts TextFacts HeaderFacts OrderFacts Blind Messages Pings Outcome Joining Front Book LedgerFun.
Local Open Scope string_scope.
Local Open Scope list_scope.

Lemma change_keys x f ds : (forall d, d_key (f d) = d_key d) -> map d_key (change x f ds) = map d_key ds.
Proof. intros H. unfold change. rewrite map_map. apply map_ext. intros d. destruct (Nat.eqb (d_key d) x); [apply H|reflexivity]. Qed.
Lemma attend_keys c i ds : map d_key (attend c i ds) = map d_key ds.
Proof. induction ds as [|d ds IH]; [reflexivity|]. cbn [attend]. destruct (String.eqb (name_of d) i); cbn [map]; [reflexivity|]. rewrite IH. reflexivity. Qed.
Lemma nodup_last {A} (l : list A) x : NoDup l -> ~ In x l -> NoDup (l ++ [x]).
Proof. intros H1 H2. apply (Permutation_NoDup (Permutation_cons_append l x)). constructor; assumption. Qed.

Lemma by_time_unique l1 : forall l2, Permutation l1 l2 -> by_time l1 -> by_time l2 -> NoDup (map snd l1) -> l1 = l2.
Proof.
  induction l1 as [|x l1 IH]; intros l2 HP H1 H2 HN; [apply Permutation_nil in HP; congruence|].
  destruct l2 as [|y l2]; [symmetry in HP; apply Permutation_nil in HP; discriminate|].
  inversion H1 as [|? ? A1 A2]; subst. inversion H2 as [|? ? B1 B2]; subst. cbn [map] in HN. inversion HN as [|? ? N1 N2]; subst.
  assert (x = y) as ->.
  { assert (Hx : In x (y :: l2)) by (eapply Permutation_in; [exact HP|left; reflexivity]).
    assert (Hy : In y (x :: l1)) by (eapply Permutation_in; [symmetry; exact HP|left; reflexivity]).
    destruct Hx as [Hx|Hx]; [auto|]. destruct Hy as [Hy|Hy]; [auto|]. exfalso. apply N1.
    rewrite Forall_forall in A2, B2. assert (snd x = snd y) as -> by (specialize (A2 _ Hy); specialize (B2 _ Hx); lia). apply in_map. exact Hy. }
  f_equal. apply IH; [eapply Permutation_cons_inv; exact HP|exact A1|exact B1|exact N2].
Qed.

Lemma sift_fun ds pool k1 g1 : sift ds pool k1 g1 -> forall k2 g2, sift ds pool k2 g2 -> k1 = k2 /\ g1 = g2.
Proof.
  induction 1 as [|k t pool kept gone d Hd Hc _ IH|k t pool kept gone Hn _ IH]; intros k2 g2 H2; inversion H2; subst; auto.
  - match goal with A : sift _ _ _ _ |- _ => destruct (IH _ _ A) as (-> & ->) end. auto.
  - exfalso. match goal with A : forall d, In d ds -> ~ _ |- _ => exact (A _ Hd Hc) end.
  - exfalso. eapply Hn; eassumption.
  - match goal with A : sift _ _ _ _ |- _ => destruct (IH _ _ A) as (-> & ->) end. auto.
Qed.

Section WithClock.
Context (rank : nat -> N) (clock : nat -> Z) (arranged : list (task * Z) -> list (task * Z) -> Prop).
Context (arranged_perm : forall pool order, arranged pool order -> Permutation pool order).
Definition ticking : Prop := forall i j, clock i = clock j -> i = j.
Definition one_order (pool : list (task * Z)) : Prop := forall l1 l2, arranged pool l1 -> arranged pool l2 -> l1 = l2.

(* the desks have different keys below b; the times of the tasks of the pool have all been read, and they differ if
   the clock never shows the same time twice *)
Record tidy (b : nat) (H : hall) : Prop := mkTidy {
  ty_keys : NoDup (map d_key (h_desks H));
  ty_bound : Forall (fun x => x < b) (map d_key (h_desks H));
  ty_times : ticking -> NoDup (map snd (h_pool H));
  ty_read : Forall (fun t => exists i, i < h_read H /\ t = clock i) (map snd (h_pool H)) }.

Lemma tidy_desks b ds ds' pool n : map d_key ds' = map d_key ds -> tidy b (Hall ds pool n) -> tidy b (Hall ds' pool n).
Proof. intros E [H1 H2 H3 H4]. cbn [h_desks h_pool h_read] in *. constructor; cbn [h_desks h_pool h_read]; rewrite ?E; assumption. Qed.
Lemma tidy_change b x f ds pool n : (forall d, d_key (f d) = d_key d) -> tidy b (Hall ds pool n) -> tidy b (Hall (change x f ds) pool n).
Proof. intros E. apply tidy_desks. apply change_keys. exact E. Qed.
Lemma tidy_perm b ds pool pool' n : Permutation pool pool' -> tidy b (Hall ds pool n) -> tidy b (Hall ds pool' n).
Proof.
  intros E [H1 H2 H3 H4]. cbn [h_desks h_pool h_read] in *. constructor; cbn [h_desks h_pool h_read]; try assumption.
  - intros HC. eapply Permutation_NoDup; [apply Permutation_map; exact E|exact (H3 HC)].
  - eapply Permutation_Forall; [apply Permutation_map; exact E|exact H4].
Qed.

Lemma join_tidy b H k x outs H' : join rank clock H k x outs H' -> tidy b H -> tidy b H'.
Proof.
  destruct 1 as [ds pool n k Hn|ds pool n d k Hd Hf Hc Hm|ds pool n d k Hn Hd Hc]; intros HT; [exact HT|apply tidy_change; [reflexivity|exact HT]|].
  destruct HT as [H1 H2 H3 H4]. cbn [h_desks h_pool h_read] in *. constructor; cbn [h_desks h_pool h_read]; try assumption.
  - intros HC. rewrite map_app. cbn [map snd]. apply nodup_last.
    + exact (H3 HC).
    + intros Ht. rewrite Forall_forall in H4. destruct (H4 _ Ht) as (i & Hi & E). apply HC in E. lia.
  - rewrite map_app. apply Forall_app. split.
    + eapply Forall_impl; [|exact H4]. intros t (i & Hi & E). exists i. split; [lia|exact E].
    + constructor; [|constructor]. exists n. split; [lia|reflexivity].
Qed.

Lemma takes_tidy b d H outs H' : takes arranged d H outs H' -> tidy b H -> tidy b H'.
Proof.
  destruct 1 as [ds pool n order HP Hn|ds pool n before k t after HP Hn Hc]; intros HT.
  - apply tidy_change; [reflexivity|]. eapply tidy_perm; [apply arranged_perm; exact HP|exact HT].
  - apply tidy_change; [reflexivity|]. apply (tidy_perm _ _ _ _ _ (arranged_perm _ _ HP)) in HT. destruct HT as [H1 H2 H3 H4]. cbn [h_desks h_pool h_read] in *.
    rewrite map_app in *. cbn [map snd] in *. constructor; cbn [h_desks h_pool h_read]; try assumption; rewrite map_app.
    + intros HC. specialize (H3 HC). apply NoDup_remove_1 in H3. exact H3.
    + apply Forall_app in H4. destruct H4 as (H4 & H5). inversion H5; subst. apply Forall_app. auto.
Qed.

Lemma sift_tidy b ds pool kept gone n ds' : sift ds' pool kept gone -> tidy b (Hall ds pool n) -> tidy b (Hall ds kept n).
Proof.
  intros HS [H1 H2 H3 H4]. cbn [h_desks h_pool h_read] in *.
  assert (HI : forall t, In t (map snd kept) -> In t (map snd pool)).
  { clear - HS. induction HS; simpl; [tauto|intros t' [->|Ht]; auto|intros t' Ht; auto]. }
  constructor; cbn [h_desks h_pool h_read]; try assumption.
  - intros HC. specialize (H3 HC). clear - HS H3. revert H3. induction HS as [|k t pool kept gone d Hd Hc HS IH|k t pool kept gone Hn HS IH]; cbn [map snd]; intros H3; [constructor| |]; inversion H3 as [|? ? N1 N2]; subst.
    + constructor; [|exact (IH N2)]. intros Hi. apply N1. clear - HS Hi. induction HS; simpl in *; [exact Hi|tauto|tauto].
    + exact (IH N2).
  - rewrite Forall_forall in H4 |- *. intros t Ht. apply H4. apply HI. exact Ht.
Qed.

Lemma filter_tidy b f ds pool n : tidy b (Hall ds pool n) -> tidy b (Hall (filter f ds) pool n).
Proof.
  intros [H1 H2 H3 H4]. cbn [h_desks h_pool h_read] in *. constructor; cbn [h_desks h_pool h_read]; try assumption.
  - clear - H1. induction ds as [|d ds IH]; [constructor|]. cbn [map] in H1. inversion H1 as [|? ? N1 N2]; subst. cbn [filter]. destruct (f d); [|exact (IH N2)].
    cbn [map]. constructor; [|exact (IH N2)]. intros Hi. apply N1. apply in_map_iff in Hi. destruct Hi as (e & E & He). apply filter_In in He. rewrite <- E. apply in_map. apply He.
  - rewrite Forall_forall in H2 |- *. intros x Hx. apply in_map_iff in Hx. destruct Hx as (e & <- & He). apply H2. apply in_map. apply filter_In in He. apply He.
Qed.

Lemma resettle_tidy cfg b H ks outs left H' : resettle rank clock cfg H ks outs left H' -> tidy b H -> tidy b H'.
Proof. induction 1; intros HT; auto; apply IHresettle; eapply join_tidy; eassumption. Qed.
Lemma clear_tidy cfg b H xs outs H' : clear_out rank clock cfg H xs outs H' -> tidy b H -> tidy b H'.
Proof.
  induction 1 as [|ds pool n x xs d kept gone outs left H1 outs' H' Hd Hs Hr Hc IH]; intros HT; [exact HT|]. apply IH. eapply resettle_tidy; [exact Hr|].
  apply filter_tidy. eapply sift_tidy; eassumption.
Qed.
Lemma tells_tidy cfg b d H fr outs H' x y : tells rank clock arranged cfg d H fr outs H' x y -> tidy b H -> tidy b H'.
Proof.
  destruct 1; intros HT; try exact HT; try (eapply takes_tidy; eassumption).
  - apply tidy_change; [reflexivity|exact HT].
  - eapply join_tidy; [eassumption|]. apply tidy_change; [reflexivity|exact HT].
Qed.
Lemma tidy_new b d ds pool n : d_key d = b -> tidy b (Hall ds pool n) -> tidy (S b) (Hall (ds ++ [d]) pool n).
Proof.
  intros E [H1 H2 H3 H4]. cbn [h_desks h_pool h_read] in *. constructor; cbn [h_desks h_pool h_read]; try assumption; rewrite map_app; cbn [map].
  - apply nodup_last; [exact H1|]. intros Hx. rewrite Forall_forall in H2. specialize (H2 _ Hx). lia.
  - apply Forall_app. split; [eapply Forall_impl; [|exact H2]; cbn; intros; lia|]. constructor; [lia|constructor].
Qed.
Lemma opens_tidy b d H outs H' : opens arranged d H outs H' -> d_key d = b -> tidy b H -> tidy (S b) H'.
Proof.
  destruct 1; intros E HT; [apply tidy_new; assumption|]. eapply takes_tidy; [eassumption|]. apply tidy_new; assumption.
Qed.

Lemma respond_tidy cfg R m outs R' : respond rank clock arranged cfg R m outs R' -> tidy (p_next R) (p_hall R) -> tidy (p_next R') (p_hall R').
Proof.
  destruct 1; cbn [p_next p_hall]; intros HT; try exact HT; try (eapply tidy_desks; [apply attend_keys|exact HT]).
  - eapply opens_tidy; [eassumption|reflexivity|]. eapply tidy_desks; [apply attend_keys|exact HT].
  - eapply tells_tidy; [eassumption|]. eapply tidy_desks; [apply attend_keys|exact HT].
  - eapply join_tidy; eassumption.
  - eapply clear_tidy; [eassumption|]. eapply tidy_desks; [|exact HT]. rewrite map_map. apply map_ext. intros d. unfold pass. destruct (late _ _ _); reflexivity.
Qed.
Lemma responded_tidy cfg ms outss R : responded rank clock arranged cfg ms outss R -> tidy (p_next R) (p_hall R).
Proof. induction 1; [constructor; constructor|]. eapply respond_tidy; eassumption. Qed.

(* ---- determinism ---- *)
Lemma ahead_antisym a b : ahead rank a b -> ahead rank b a -> a = b.
Proof. unfold ahead. intros [H1|(H1 & H2)] [H3|(H3 & H4)]; lia. Qed.
Lemma key_inj ds : NoDup (map d_key ds) -> forall d e, In d ds -> In e ds -> d_key d = d_key e -> d = e.
Proof.
  induction ds as [|a ds IH]; intros HN d e Hd He E; [destruct Hd|]. cbn [map] in HN. inversion HN as [|? ? N1 N2]; subst.
  destruct Hd as [<-|Hd]; destruct He as [<-|He]; auto.
  - exfalso. apply N1. rewrite E. apply in_map. exact He.
  - exfalso. apply N1. rewrite <- E. apply in_map. exact Hd.
Qed.

Lemma join_fun b H k x1 o1 H1 : join rank clock H k x1 o1 H1 -> tidy b H -> forall x2 o2 H2, join rank clock H k x2 o2 H2 -> x1 = x2 /\ o1 = o2 /\ H1 = H2.
Proof.
  intros A HT x2 o2 H2 B. destruct A as [ds pool n k Hn|ds pool n d k Hd Hf Hc Hm|ds pool n d k Hn Hd Hc]; inversion B as [? ? ? ? Hn'|? ? ? d' ? Hd' Hf' Hc' Hm'|? ? ? d' ? Hn' Hd' Hc']; subst; auto.
  - exfalso. exact (Hn _ Hd' Hc').
  - exfalso. exact (Hn _ Hd' Hc').
  - exfalso. exact (Hn' _ Hd Hc).
  - assert (d = d') as <-; [|auto]. apply (key_inj _ (ty_keys _ _ HT)); [exact Hd|exact Hd'|]. apply ahead_antisym; auto.
  - exfalso. exact (Hn' _ Hd Hf Hc).
  - exfalso. exact (Hn' _ Hd Hc).
  - exfalso. exact (Hn _ Hd' Hf' Hc').
Qed.

Lemma takes_fun d H o1 H1 : takes arranged d H o1 H1 -> one_order (h_pool H) -> forall o2 H2, takes arranged d H o2 H2 -> o1 = o2 /\ H1 = H2.
Proof.
  intros A HU o2 H2 B.
  destruct A as [ds pool n order HP Hn|ds pool n before k t after HP Hn Hc]; inversion B as [? ? ? order' HP' Hn'|? ? ? before' k' t' after' HP' Hn' Hc']; subst; cbn [h_pool] in *.
  - rewrite (HU _ _ HP HP'). auto.
  - exfalso. apply (Hn (k', t')); [|exact Hc']. rewrite (HU _ _ HP HP'). apply in_or_app. right. left. reflexivity.
  - exfalso. apply (Hn' (k, t)); [|exact Hc]. rewrite (HU _ _ HP' HP). apply in_or_app. right. left. reflexivity.
  - destruct (split_at _ _ _ _ _ _ (HU _ _ HP HP')) as [(-> & E & ->)|[Hi|Hi]].
    + injection E as -> ->. auto.
    + exfalso. exact (Hn' _ Hi Hc).
    + exfalso. exact (Hn _ Hi Hc').
Qed.

Lemma resettle_fun cfg b H ks o1 l1 H1 : resettle rank clock cfg H ks o1 l1 H1 -> tidy b H -> forall o2 l2 H2, resettle rank clock cfg H ks o2 l2 H2 -> o1 = o2 /\ l1 = l2 /\ H1 = H2.
Proof.
  induction 1; intros HT o2 l2 F2 GG; inversion GG; subst; auto; try congruence; try lia;
    try (match goal with A : join _ _ ?F ?k _ _ _, B : join _ _ ?F ?k _ _ _ |- _ => pose proof (join_tidy _ _ _ _ _ _ A HT) as HT1; destruct (join_fun _ _ _ _ _ _ A HT _ _ _ B) as (Eb & -> & ->) end; try discriminate);
    match goal with IH : tidy _ _ -> forall o l F, _ -> _, G : resettle _ _ _ _ _ _ _ _ |- _ => destruct (IH ltac:(assumption) _ _ _ G) as (-> & -> & ->) end; auto.
Qed.

Lemma clear_fun cfg b H xs o1 H1 : clear_out rank clock cfg H xs o1 H1 -> tidy b H -> forall o2 H2, clear_out rank clock cfg H xs o2 H2 -> o1 = o2 /\ H1 = H2.
Proof.
  induction 1 as [|ds pool n x xs d kept gone outs left H1 outs' H' Hd Hs Hr Hc IH]; intros HT o2 H2 GG; inversion GG; subst; auto.
  match goal with A : desk_at x ds = Some _ |- _ => rewrite Hd in A; injection A as <- end.
  match goal with A : sift _ pool _ _ |- _ => destruct (sift_fun _ _ _ _ Hs _ _ A) as (<- & <-) end.
  assert (HT1 : tidy b (Hall (filter (fun e => negb (Nat.eqb (d_key e) x)) ds) kept n)) by (apply filter_tidy; eapply sift_tidy; eassumption).
  match goal with A : resettle _ _ _ _ _ _ _ _ |- _ => destruct (resettle_fun _ _ _ _ _ _ _ Hr HT1 _ _ _ A) as (<- & <- & <-) end.
  match goal with A : clear_out _ _ _ H1 _ _ _ |- _ => destruct (IH (resettle_tidy _ _ _ _ _ _ _ Hr HT1) _ _ A) as (<- & <-) end. auto.
Qed.

Lemma tells_fun cfg b d H fr o1 H1 a1 b1 : tells rank clock arranged cfg d H fr o1 H1 a1 b1 -> tidy b H -> one_order (h_pool H) -> forall o2 H2 a2 b2, tells rank clock arranged cfg d H fr o2 H2 a2 b2 ->
  o1 = o2 /\ H1 = H2 /\ a1 = a2 /\ b1 = b2.
Proof.
  destruct 1; intros HT HU o2 K2 a2 b2 GG; inversion GG; subst; auto.
  all: try (cbn [length] in *; lia).
  all: repeat match goal with A : d_now ?d = Some _, B : d_now ?d = Some _ |- _ => rewrite A in B; injection B as <- end.
  all: try congruence; try (exfalso; lia).
  all: try (exfalso; match goal with H : ~ In _ _ |- _ => apply H; simpl; auto end).
  all: try (exfalso; match goal with H : In _ [_; _] |- _ => simpl in H; intuition discriminate end).
  all: try (match goal with A : takes _ ?d ?H _ _, B : takes _ ?d ?H _ _ |- _ => destruct (takes_fun _ _ _ _ A HU _ _ B) as (-> & ->) end; auto).
  match goal with A : join _ _ ?F ?k _ _ _, B : join _ _ ?F ?k _ _ _ |- _ => destruct (join_fun b _ _ _ _ _ A ltac:(apply tidy_change; [reflexivity|exact HT]) _ _ _ B) as (_ & -> & ->) end. auto.
Qed.

Lemma opens_fun b d H o1 H1 : opens arranged d H o1 H1 -> d_key d = b -> tidy b H -> one_order (h_pool H) -> forall o2 H2, opens arranged d H o2 H2 -> o1 = o2 /\ H1 = H2.
Proof.
  destruct 1; intros E HT HU o2 K2 GG; inversion GG; subst; auto; try congruence.
  match goal with A : takes _ ?d ?H _ _, B : takes _ ?d ?H _ _ |- _ => exact (takes_fun _ _ _ _ A HU _ _ B) end.
Qed.

Lemma respond_fun cfg R m o1 R1 : respond rank clock arranged cfg R m o1 R1 -> tidy (p_next R) (p_hall R) -> one_order (h_pool (p_hall R)) -> forall o2 R2, respond rank clock arranged cfg R m o2 R2 -> o1 = o2 /\ R1 = R2.
Proof.
  assert (HBN : forall frames need payload, header_block frames need payload -> ~ In "" frames -> False).
  { intros frames need payload (-> & _) Hn. apply Hn. apply in_or_app. simpl. auto. }
  destruct 1; cbn [p_next p_hall h_pool]; intros HT HU o2 R2 GG; inversion GG; subst; try (split; reflexivity).
  all: try (exfalso; match goal with H : ~ In _ _ |- _ => apply H; simpl; tauto end).
  all: try congruence.
  all: try (exfalso; eauto; fail).
  all: try (match goal with A : init_block ?f _, B : init_block ?f _ |- _ => rewrite (init_block_fun _ _ _ A B) in * end; try (split; reflexivity)).
  all: try (exfalso; match goal with H : forall d, desk_named _ _ = Some d -> ~ _ |- _ => eapply H; eassumption end).
  all: try (match goal with A : header_block ?f _ _, B : header_block ?f _ _ |- _ => destruct (header_block_fun _ _ _ _ _ A B) as (-> & ->) end).
  all: try (match goal with A : join _ _ ?F ?k _ _ _, B : join _ _ ?F ?k _ _ _ |- _ => destruct (join_fun _ _ _ _ _ _ A HT _ _ _ B) as (Eb & Eo & EF); try discriminate; subst end; try (split; reflexivity)).
  - match goal with A : opens _ _ _ _ _, B : opens _ _ _ _ _ |- _ => destruct (opens_fun next _ _ _ _ A eq_refl ltac:(eapply tidy_desks; [apply attend_keys|exact HT]) HU _ _ B) as (-> & ->) end. auto.
  - match goal with A : desk_named ?i ?ds = Some _, B : desk_named ?i ?ds = Some _ |- _ => rewrite A in B; injection B as <- end.
    match goal with A : tells _ _ _ _ _ _ _ _ _ _ _, B : tells _ _ _ _ _ _ _ _ _ _ _ |- _ => destruct (tells_fun _ next _ _ _ _ _ _ _ A ltac:(eapply tidy_desks; [apply attend_keys|exact HT]) HU _ _ _ _ B) as (-> & -> & -> & ->) end. auto.
  - match goal with A : enumerates _ _, B : enumerates _ _ |- _ => rewrite (enumerates_fun _ _ _ A B) end. auto.
  - match goal with A : reads _ _, B : reads _ _ |- _ => rewrite (reads_fun _ _ _ A B) in * end.
    match goal with A : clear_out _ _ _ _ _ _ _, B : clear_out _ _ _ _ _ _ _ |- _ => destruct (clear_fun _ next _ _ _ _ A ltac:(eapply tidy_desks; [|exact HT]; rewrite map_map; apply map_ext; intros d; unfold pass; destruct (late _ _ _); reflexivity) _ _ B) as (-> & ->) end. auto.
Qed.

End WithClock.

Lemma in_time_perm pool order : in_time pool order -> Permutation pool order.
Proof. intros (H & _). exact H. Qed.
Lemma in_time_one clock b H : ticking clock -> tidy clock b H -> one_order in_time (h_pool H).
Proof.
  intros HC HT l1 l2 (P1 & B1) (P2 & B2). apply by_time_unique; [rewrite <- P1; exact P2|exact B1|exact B2|].
  eapply Permutation_NoDup; [apply Permutation_map; exact P1|exact (ty_times _ _ _ HT HC)].
Qed.

Theorem responded_fun rank clock : ticking clock -> forall cfg ms os1 R1, responded rank clock in_time cfg ms os1 R1 ->
  forall os2 R2, responded rank clock in_time cfg ms os2 R2 -> os1 = os2 /\ R1 = R2.
Proof.
  intros HC cfg. induction 1 as [|ms oss L m a L' HL IH _ HS]; intros os2 L2 H2; inversion H2 as [E1 E2 E3|ms2 oss2 c m2 a2 c' H2' _ HS2 E1 E2 E3]; subst.
  - auto.
  - destruct ms2; discriminate.
  - destruct ms; discriminate.
  - apply app_inj_tail in E1. destruct E1 as (-> & ->). destruct (IH _ _ H2') as (-> & ->).
    pose proof (responded_tidy _ _ _ in_time_perm _ _ _ _ HL) as HT.
    destruct (respond_fun _ _ _ _ _ _ _ _ HS HT (in_time_one _ _ _ HC HT) _ _ HS2) as (-> & ->). auto.
Qed.
