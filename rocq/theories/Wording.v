(* The ledger and the hall with the headers of jobs and workers written in another way. *)
From Coq Require Import Lia Permutation Sorted.
From Verif Require Import Base Bytes Containers Worker Multi Single Queue Handler SpecText Spec SpecRun SpecMsg SpecPings SpecOutcome SpecJoin SpecTick SpecFront SpecBook SpecFatal SpecLedger SpecPool SpecWording Facts TextFacts HeaderFacts Messages Fatal Outcome OrderFacts System.
Local Open Scope string_scope.
Local Open Scope list_scope.

Notation sent := (Forall2 retold).
Definition task_as (k k' : task) : Prop :=
  k_name k = k_name k' /\ k_whole k = k_whole k' /\ same_wants (k_need k) (k_need k') /\ k_text k = k_text k' /\ k_strikes k = k_strikes k'.
Definition guest_as (g g' : guest) : Prop :=
  g_name g = g_name g' /\ g_group g = g_group g' /\ same_headers (g_frames g) (g_frames g') /\ g_note g = g_note g' /\ g_chances g = g_chances g' /\ g_waited g = g_waited g'.
Definition desk_as (d d' : desk) : Prop :=
  d_key d = d_key d' /\ guest_as (d_guest d) (d_guest d') /\ may_be task_as (d_now d) (d_now d') /\ Forall2 task_as (d_line d) (d_line d').
Notation desks_as := (Forall2 desk_as).
Definition floor_as (F F' : floor) : Prop := desks_as (f_desks F) (f_desks F') /\ f_rota F = f_rota F'.
Definition ledger_as (L L' : ledger) : Prop :=
  floor_as (l_floor L) (l_floor L') /\ l_next L = l_next L' /\ l_frozen L = l_frozen L' /\ l_done L = l_done L' /\ l_failed L = l_failed L' /\ l_seen L = l_seen L'.

Lemma wants_sym n n' : same_wants n n' -> same_wants n' n.
Proof. intros H h v. symmetry. apply H. Qed.
Lemma task_as_refl k : task_as k k.
Proof. repeat split; auto. Qed.
Lemma task_as_sym k k' : task_as k k' -> task_as k' k.
Proof. intros (A & B & C & D & E). repeat split; auto; apply C. Qed.
Lemma struck_as k k' : task_as k k' -> task_as (struck k) (struck k').
Proof. intros (A & B & C & D & E). unfold task_as, struck. cbn. rewrite E. repeat split; auto; apply C. Qed.
Lemma Forall2_sym {A} (R : A -> A -> Prop) : (forall a b, R a b -> R b a) -> forall l l', Forall2 R l l' -> Forall2 R l' l.
Proof. intros H l l' F. induction F; constructor; auto. Qed.
Lemma headers_sym h h' : same_headers h h' -> same_headers h' h.
Proof. intros H k vs. symmetry. apply H. Qed.
Lemma headers_refl h : same_headers h h.
Proof. intros k vs. reflexivity. Qed.
Lemma headers_trans a b c : same_headers a b -> same_headers b c -> same_headers a c.
Proof. intros H H' k vs. rewrite (H k vs). apply H'. Qed.
Lemma values_has k hdrs vs f v : values k hdrs vs -> In f hdrs -> header_frame f k v -> In v vs.
Proof.
  induction 1 as [|f1 t v1 vs1 Hf Ht IH|f1 t k1 v1 vs1 Hf Hne Ht IH]; [intros []| |]; intros [->|HI] HF.
  - left. exact (proj2 (header_frame_fun _ _ _ _ _ Hf HF)).
  - right. exact (IH HI HF).
  - exfalso. apply Hne. exact (proj1 (header_frame_fun _ _ _ _ _ Hf HF)).
  - exact (IH HI HF).
Qed.
Lemma frame_as h h' f k v : same_headers h h' -> In f h -> header_frame f k v -> exists f', In f' h' /\ header_frame f' k v.
Proof.
  intros H HI HF. destruct (values_ex k h) as (vs & HV). apply (values_in k h' vs v); [apply H; exact HV|]. exact (values_has _ _ _ _ _ HV HI HF).
Qed.
Lemma offers_as hw h h' k v : same_headers h h' -> offers hw h k v -> offers hw h' k v.
Proof.
  intros H HO. destruct HO as [v HA|f d v n m HI HF HD HM HL|f k v HI HF HK].
  - apply of_hwgroup. exact HA.
  - destruct (frame_as _ _ _ _ _ H HI HF) as (f' & HI' & HF'). eapply of_threads; eassumption.
  - destruct (frame_as _ _ _ _ _ H HI HF) as (f' & HI' & HF'). eapply of_other; eassumption.
Qed.
Lemma reaches_as hw h h' need before : same_headers h h' -> reaches hw h need before -> reaches hw h' need before.
Proof.
  intros H ((f & d & HI & HF) & HA & HB). destruct (frame_as _ _ _ _ _ H HI HF) as (f' & HI' & HF').
  split; [exists f', d; split; assumption|]. split; intros; eapply offers_as; eauto.
Qed.
Lemma bad_as h h' before f : same_headers h h' -> first_bad h before f -> first_bad h' before f.
Proof. intros H (v & after & HV & HB). exists v, after. split; [apply H; exact HV|exact HB]. Qed.
Lemma guest_as_refl g : guest_as g g.
Proof. repeat split; auto. Qed.
Lemma guest_as_sym g g' : guest_as g g' -> guest_as g' g.
Proof. intros (A & B & C & D & E & F). repeat (split; [auto using headers_sym|]). auto. Qed.
Lemma shown_guest g g' : guest_as g g' -> shown_as g = shown_as g'.
Proof. intros (A & _ & _ & D & _). unfold shown_as. rewrite A, D. reflexivity. Qed.
Lemma complaint_as g g' : guest_as g g' -> complaint g = complaint g'.
Proof. intros H. unfold complaint. rewrite (shown_guest _ _ H). reflexivity. Qed.
Lemma renew_as n g g' : guest_as g g' -> guest_as (renew n g) (renew n g').
Proof. intros (A & B & C & D & E & F). unfold renew. repeat split; auto; apply C. Qed.
Lemma headers_guest g g' h : guest_as g g' -> same_headers (g_frames g) h <-> same_headers (g_frames g') h.
Proof. intros (_ & _ & C & _). split; intros H; [exact (headers_trans _ _ _ (headers_sym _ _ C) H)|exact (headers_trans _ _ _ C H)]. Qed.
Lemma desk_as_sym d d' : desk_as d d' -> desk_as d' d.
Proof.
  intros (A & B & C & D). split; [auto|]. split; [apply guest_as_sym; exact B|]. split; [|apply (Forall2_sym task_as task_as_sym); exact D].
  destruct C; constructor. apply task_as_sym. assumption.
Qed.
Lemma ledger_as_sym L L' : ledger_as L L' -> ledger_as L' L.
Proof. intros ((A & B) & C). repeat split; try apply C; auto; [apply (Forall2_sym desk_as desk_as_sym); exact A|..]; symmetry; apply C. Qed.
Lemma can_as d d' k k' : desk_as d d' -> task_as k k' -> can d k -> can d' k'.
Proof. intros (A & (_ & B & E & _) & _) (_ & _ & C & _) H h v HR. unfold can, provides in H. rewrite <- B. apply (offers_as _ _ _ _ _ E). apply H. apply C. exact HR. Qed.
Lemma cannot_as d d' k k' : desk_as d d' -> task_as k k' -> ~ can d k -> ~ can d' k'.
Proof. intros A B H HC. apply H. exact (can_as _ _ _ _ (desk_as_sym _ _ A) (task_as_sym _ _ B) HC). Qed.
Lemma hand_as d d' k k' : desk_as d d' -> task_as k k' -> hand d k = hand d' k'.
Proof. intros (A & (B & _) & _) (_ & _ & _ & C & _). unfold hand, name_of. rewrite B, C. reflexivity. Qed.
Lemma find_as p ds ds' : (forall d d', desk_as d d' -> p d = p d') -> desks_as ds ds' -> may_be desk_as (find p ds) (find p ds').
Proof.
  intros HP H. induction H as [|d d' ds ds' HD H IH]; cbn [find]; [constructor|]. rewrite <- (HP _ _ HD). destruct (p d); [constructor; exact HD|exact IH].
Qed.
Lemma at_as x ds ds' : desks_as ds ds' -> may_be desk_as (desk_at x ds) (desk_at x ds').
Proof. apply find_as. intros d d' (A & _). rewrite A. reflexivity. Qed.
Lemma named_as i ds ds' : desks_as ds ds' -> may_be desk_as (desk_named i ds) (desk_named i ds').
Proof. apply find_as. intros d d' (_ & (A & _) & _). unfold name_of. rewrite A. reflexivity. Qed.
Lemma change_as x f g ds ds' : (forall d d', desk_as d d' -> desk_as (f d) (g d')) -> desks_as ds ds' -> desks_as (change x f ds) (change x g ds').
Proof.
  intros HF H. unfold change. induction H as [|d d' ds ds' HD H IH]; cbn [map]; [constructor|]. constructor; [|exact IH].
  rewrite <- (proj1 HD). destruct (Nat.eqb (d_key d) x); [apply HF|]; exact HD.
Qed.
Lemma filter_as p q ds ds' : (forall d d', desk_as d d' -> p d = q d') -> desks_as ds ds' -> desks_as (filter p ds) (filter q ds').
Proof. intros HP H. induction H as [|d d' ds ds' HD H IH]; cbn [filter]; [constructor|]. rewrite <- (HP _ _ HD). destruct (p d); [constructor; assumption|exact IH]. Qed.
Lemma keys_as ds ds' : desks_as ds ds' -> map d_key ds = map d_key ds'.
Proof. intros H. induction H as [|d d' ds ds' HD H IH]; cbn [map]; [reflexivity|]. rewrite (proj1 HD), IH. reflexivity. Qed.
Lemma has_as x x' d d' : may_be task_as x x' -> desk_as d d' -> desk_as (has x d) (has x' d').
Proof. intros H (A & B & C & D). split; [exact A|]. split; [exact B|]. split; assumption. Qed.
Lemma lines_as x x' d d' : Forall2 task_as x x' -> desk_as d d' -> desk_as (lines x d) (lines x' d').
Proof. intros H (A & B & C & D). split; [exact A|]. split; [exact B|]. split; assumption. Qed.
Lemma with_as g g' d d' : guest_as g g' -> desk_as d d' -> desk_as (with_guest g d) (with_guest g' d').
Proof. intros H (A & B & C & D). split; [exact A|]. split; [exact H|]. split; assumption. Qed.
Lemma attend_as n i ds ds' : desks_as ds ds' -> desks_as (attend n i ds) (attend n i ds').
Proof.
  intros H. induction H as [|d d' ds ds' HD H IH]; cbn [attend]; [constructor|]. pose proof HD as (_ & B & _). unfold name_of. rewrite <- (proj1 B).
  destruct (String.eqb (g_name (d_guest d)) i); constructor; auto. apply with_as; [apply renew_as; exact B|exact HD].
Qed.
Lemma pass_as cfg z ds ds' : desks_as ds ds' -> desks_as (map (pass cfg z) ds) (map (pass cfg z) ds').
Proof.
  intros H. induction H as [|d d' ds ds' HD H IH]; cbn [map]; [constructor|]. constructor; [|exact IH]. pose proof HD as (_ & B & _).
  pose proof B as (G1 & G2 & G3 & G4 & G5 & G6). unfold pass, late. rewrite <- G5, <- G6. apply with_as; [|exact HD].
  destruct (Z.ltb (c_ping_interval cfg) (g_waited (d_guest d) + z)); [apply renew_as; exact B|]. repeat split; auto; apply G3.
Qed.
Lemma lost_as cfg z d d' : desk_as d d' -> lost cfg z d = lost cfg z d'.
Proof. intros (_ & (_ & _ & _ & _ & B & C) & _). unfold lost, late. rewrite B, C. reflexivity. Qed.
Lemma some_as {A} (R : A -> A -> Prop) x y a : may_be R x y -> x = Some a -> exists b, y = Some b /\ R a b.
Proof. intros H E. destruct H; [discriminate|]. injection E as <-. eauto. Qed.
Lemma none_as {A} (R : A -> A -> Prop) x y : may_be R x y -> x = None -> y = None.
Proof. intros H E. destruct H; [reflexivity|discriminate]. Qed.
Lemma some_back {A} (R : A -> A -> Prop) x y b : may_be R x y -> y = Some b -> exists a, x = Some a /\ R a b.
Proof. intros H E. destruct H; [discriminate|]. injection E as <-. eauto. Qed.
Lemma sent_refl outs : sent outs outs.
Proof. induction outs; constructor; [apply rt_same|assumption]. Qed.
Lemma in_as {A} (R : A -> A -> Prop) l l' a : Forall2 R l l' -> In a l -> exists b, In b l' /\ R a b.
Proof. intros H. induction H as [|x y l l' HR H IH]; [intros []|]. intros [->|HI]; [exists y; cbn; auto|]. destruct (IH HI) as (b & ? & ?). exists b. cbn. auto. Qed.
Lemma in_back {A} (R : A -> A -> Prop) l l' b : Forall2 R l l' -> In b l' -> exists a, In a l /\ R a b.
Proof. intros H. induction H as [|x y l l' HR H IH]; [intros []|]. intros [->|HI]; [exists x; cbn; auto|]. destruct (IH HI) as (a & ? & ?). exists a. cbn. auto. Qed.
Lemma as_length {A B} (R : A -> B -> Prop) l l' : Forall2 R l l' -> length l = length l'.
Proof. intros H. induction H; cbn [length]; congruence. Qed.
Lemma line_count ds ds' : desks_as ds ds' -> length (flat_map d_line ds) = length (flat_map d_line ds').
Proof.
  intros H. induction H as [|d d' ds ds' (_ & _ & _ & HL) H IH]; cbn [flat_map]; [reflexivity|]. rewrite !app_length, IH, (as_length _ _ _ HL). reflexivity.
Qed.
Lemma free_as d d' : desk_as d d' -> unoccupied d = unoccupied d'.
Proof. intros (_ & _ & C & _). unfold unoccupied. destruct C; reflexivity. Qed.
Lemma look_as ds ds' : desks_as ds ds' -> look_round ds = look_round ds'.
Proof.
  intros H. unfold look_round. rewrite (line_count _ _ H), (as_length _ _ _ H), (as_length _ _ _ (filter_as _ _ _ _ free_as H)). reflexivity.
Qed.
Lemma dieded_as ks ks' w : Forall2 task_as ks ks' -> map (fun k => failed_report (k_name k) w) ks = map (fun k => failed_report (k_name k) w) ks'.
Proof. intros H. induction H as [|k k' ks ks' (A & _) H IH]; cbn [map]; [reflexivity|]. rewrite A, IH. reflexivity. Qed.

Lemma place_as F k b outs F1 : place F k b outs F1 -> forall F' k', floor_as F F' -> task_as k k' -> exists F1', place F' k' b outs F1' /\ floor_as F1 F1'.
Proof.
  intros H F' k' HF HK.
  assert (HB : forall ds ds' l, desks_as ds ds' -> (forall y e, In y l -> desk_at y ds = Some e -> ~ can e k) -> forall y e, In y l -> desk_at y ds' = Some e -> ~ can e k').
  { intros ds ds' l HD HA y e HY HE. destruct (some_back _ _ _ _ (at_as y _ _ HD) HE) as (e0 & E0 & R0). apply (cannot_as e0 e k k' R0 HK). exact (HA y e0 HY E0). }
  destruct H as [ds rota k HN|ds before x after d k HN HD HC HX|ds before x after d k c HN HD HC HX]; destruct F' as [ds' rota'], HF as (HS & HR); cbn [f_desks f_rota] in *; subst rota'.
  - eexists. split; [apply pl_nobody; exact (HB _ _ _ HS HN)|]. split; [exact HS|reflexivity].
  - destruct (some_as _ _ _ _ (at_as x _ _ HS) HD) as (d' & HD' & RD). rewrite (hand_as _ _ _ _ RD HK). eexists. split.
    + apply pl_now; [exact (HB _ _ _ HS HN)|exact HD'|exact (can_as _ _ _ _ RD HK HC)|]. exact (none_as _ _ _ (proj1 (proj2 (proj2 RD))) HX).
    + split; [|reflexivity]. apply change_as; [|exact HS]. intros. apply has_as; [constructor; exact HK|assumption].
  - destruct (some_as _ _ _ _ (at_as x _ _ HS) HD) as (d' & HD' & RD). destruct (some_as _ _ _ _ (proj1 (proj2 (proj2 RD))) HX) as (c' & HX' & _). eexists. split.
    + eapply pl_wait; [exact (HB _ _ _ HS HN)|exact HD'|exact (can_as _ _ _ _ RD HK HC)|exact HX'].
    + split; [|reflexivity]. apply change_as; [|exact HS]. intros. apply lines_as; [|assumption]. apply Forall2_app; [apply RD|]. constructor; [exact HK|constructor].
Qed.
Lemma next_as d ds outs ds1 : takes_next d ds = (outs, ds1) -> forall d' ds', desk_as d d' -> desks_as ds ds' -> exists ds1', takes_next d' ds' = (outs, ds1') /\ desks_as ds1 ds1'.
Proof.
  unfold takes_next. intros E d' ds' RD HS. pose proof (proj2 (proj2 (proj2 RD))) as HL. rewrite <- (proj1 RD).
  destruct HL as [|k k' l l' HK HL]; injection E as <- <-.
  - eexists. split; [reflexivity|]. apply change_as; [|exact HS]. intros. apply has_as; [constructor|assumption].
  - rewrite (hand_as _ _ _ _ RD HK). eexists. split; [reflexivity|]. apply change_as; [|exact HS]. intros. apply lines_as; [exact HL|]. apply has_as; [constructor; exact HK|assumption].
Qed.
Lemma rehome_as cfg F ks outs left F1 : rehome cfg F ks outs left F1 -> forall F' ks', floor_as F F' -> Forall2 task_as ks ks' ->
  exists left' F1', rehome cfg F' ks' outs left' F1' /\ Forall2 task_as left left' /\ floor_as F1 F1'.
Proof.
  intros H. induction H as [F|F k ks outs left F1 HW H IH|F k ks outs left F1 HW HM H IH|F k ks out F2 outs left F1 HW HM HP H IH|F k ks out F2 outs left F1 HW HM HP H IH];
    intros F' ks' HF HK; inversion HK as [|a k' b ks1 RK HK']; subst; try (pose proof RK as (EN & EW & _ & _ & ES); rewrite EN).
  - exists [], F'. repeat split; try constructor; apply HF.
  - destruct (IH _ _ HF HK') as (l & G & A & B & C). exists l, G. repeat split; try assumption; try apply C. apply rh_announced; [congruence|exact A].
  - destruct (IH _ _ HF HK') as (l & G & A & B & C). exists l, G. repeat split; try assumption; try apply C. rewrite ES. apply rh_worn; [congruence|rewrite <- ES; exact HM|exact A].
  - destruct (place_as _ _ _ _ _ HP _ _ HF RK) as (G2 & HP' & HF'). destruct (IH _ _ HF' HK') as (l & G & A & B & C). exists (k' :: l), G. repeat split; try apply C; [|constructor; assumption].
    eapply rh_left; [congruence|rewrite <- ES; exact HM|exact HP'|exact A].
  - destruct (place_as _ _ _ _ _ HP _ _ HF RK) as (G2 & HP' & HF'). destruct (IH _ _ HF' HK') as (l & G & A & B & C). exists l, G. repeat split; try apply C; [|assumption].
    eapply rh_placed; [congruence|rewrite <- ES; exact HM|exact HP'|exact A].
Qed.
Lemma now_as d d' : desk_as d d' -> Forall2 task_as (match d_now d with Some k => [struck k] | None => [] end) (match d_now d' with Some k => [struck k] | None => [] end).
Proof. intros (_ & _ & C & _). destruct C as [|k k' RK]; constructor; [apply struck_as; exact RK|constructor]. Qed.
Lemma without_as x ds ds' : desks_as ds ds' -> desks_as (filter (fun e => negb (Nat.eqb (d_key e) x)) ds) (filter (fun e => negb (Nat.eqb (d_key e) x)) ds').
Proof. apply filter_as. intros d d' (A & _). rewrite A. reflexivity. Qed.
Lemma close_as cfg F xs outs F1 : close cfg F xs outs F1 -> forall F', floor_as F F' -> exists F1', close cfg F' xs outs F1' /\ floor_as F1 F1'.
Proof.
  intros H. induction H as [F|ds rota x xs d outs left F2 outs' F1 HD HR H IH]; intros F' HF.
  - exists F'. split; [constructor|exact HF].
  - destruct F' as [ds' rota'], HF as (HS & HE); cbn [f_desks f_rota] in *; subst rota'. destruct (some_as _ _ _ _ (at_as x _ _ HS) HD) as (d' & HD' & RD).
    destruct (rehome_as _ _ _ _ _ _ HR (Floor (filter (fun e => negb (Nat.eqb (d_key e) x)) ds') (filter (fun y => negb (Nat.eqb y x)) rota))
      (match d_now d' with Some k => [struck k] | None => [] end ++ d_line d')) as (l & G & A & B & C).
    { split; [apply without_as; exact HS|reflexivity]. }
    { apply Forall2_app; [apply now_as; exact RD|apply RD]. }
    destruct (IH _ C) as (G' & A' & C'). exists G'. split; [|exact C']. rewrite (dieded_as _ _ _ B), (shown_guest _ _ (proj1 (proj2 RD))). eapply cl_next; eassumption.
Qed.
Lemma report_as cfg d F fr outs F1 a b : report cfg d F fr outs F1 a b -> forall d' F', desk_as d d' -> floor_as F F' ->
  exists F1', report cfg d' F' fr outs F1' a b /\ floor_as F1 F1'.
Proof.
  intros H d' F' RD HF. pose proof RD as (EK & _ & RN & _).
  destruct H as [d F rest HL|d F k j st rest HN HJ|d ds rota k rest outs ds1 HN HT|d ds rota k text outs ds1 HN HT|d ds rota k text HN HW|d ds rota k text outs ds1 HN HW HM HT|d ds rota k text outs F1 HN HW HM HP|d F k st rest HN HS|d F k st rest HN HS HL];
    try (destruct (some_as _ _ _ _ RN HN) as (k' & HN' & RK); pose proof RK as (EN & EW & _ & _ & ES); try rewrite EN);
    lazymatch type of HF with floor_as (Floor _ _) _ => destruct F' as [ds' rota'], HF as (HD & HE); cbn [f_desks f_rota] in HD, HE; subst rota' | _ => idtac end.
  - exists F'. split; [constructor; exact HL|exact HF].
  - exists F'. split; [eapply re_other; [exact HN'|congruence]|exact HF].
  - destruct (next_as _ _ _ _ HT _ _ RD HD) as (ds2 & HT' & HD'). eexists. split; [eapply re_ok; eassumption|split; [exact HD'|reflexivity]].
  - destruct (next_as _ _ _ _ HT _ _ RD HD) as (ds2 & HT' & HD'). eexists. split; [eapply re_failed; eassumption|split; [exact HD'|reflexivity]].
  - eexists. split; [eapply re_unknown; [exact HN'|congruence]|split; [|reflexivity]]. cbn [f_desks]. rewrite <- EK. apply change_as; [|exact HD]. intros. apply has_as; [constructor|assumption].
  - destruct (next_as _ _ _ _ HT _ _ RD HD) as (ds2 & HT' & HD'). rewrite ES. eexists. split; [eapply re_worn; [exact HN'|congruence|rewrite <- ES; exact HM|exact HT']|split; [exact HD'|reflexivity]].
  - destruct (place_as _ _ _ _ _ HP (Floor (change (d_key d') (has None) ds') rota) (struck k')) as (G & HP' & HF').
    { split; [|reflexivity]. cbn [f_desks]. rewrite <- EK. apply change_as; [|exact HD]. intros. apply has_as; [constructor|assumption]. }
    { apply struck_as. exact RK. }
    exists G. split; [|exact HF']. eapply re_again; [exact HN'|congruence|rewrite <- ES; exact HM|exact HP'].
  - exists F'. split; [eapply re_status; eassumption|exact HF].
  - exists F'. split; [eapply re_frames; eassumption|exact HF].
Qed.

Lemma counted_bad need before f : counted need -> ~ first_bad need before f.
Proof.
  intros HC (v & after & HV & _ & HB). destruct (values_in _ _ _ v HV) as (fr & HI & HF); [apply in_or_app; right; left; reflexivity|].
  destruct (HC v) as (n & neg & w & HN & HL & _).
  { exists fr. split; [exact HI|]. split; [exact HF|]. intros m E. unfold meta_name in E. discriminate E. }
  destruct HB as [(_ & HB)|(_ & neg' & w' & HN' & HL')]; [exact (HB _ _ HN)|]. destruct (number_fun _ _ _ _ _ HN HN') as (_ & ->). lia.
Qed.
Lemma counted_as need need' : same_wants need need' -> counted need -> counted need'.
Proof. intros H HC v HV. apply HC. apply H. exact HV. Qed.
Lemma reworded_sym m m' : reworded m m' -> reworded m' m.
Proof. intros H. destruct H; [constructor|eapply rw_eval; eauto using wants_sym, counted_as|apply rw_init; auto using headers_sym]. Qed.

Lemma block_as hdrs rest : ~ In "" hdrs -> hd_error rest = Some "" \/ rest = [] -> init_block (hdrs ++ rest) hdrs.
Proof.
  intros HI [HT| ->]; [|right; rewrite app_nil_r; split; [reflexivity|exact HI]]. left. destruct rest as [|x rest]; [discriminate|]. injection HT as ->. exists rest. split; [reflexivity|exact HI].
Qed.
Lemma extra_as k hw hdrs hdrs' rest : ~ In "" hdrs -> ~ In "" hdrs' -> hd_error rest = Some "" \/ rest = [] ->
  last_extra k ("init" :: hw :: hdrs ++ rest) = last_extra k ("init" :: hw :: hdrs' ++ rest).
Proof.
  intros HI HI' HT. unfold last_extra. cbn [skipn]. f_equal. destruct HT as [HT| ->].
  - destruct rest as [|x rest]; [discriminate|]. injection HT as ->. rewrite !after_empty_block by assumption. reflexivity.
  - rewrite !app_nil_r. assert (N : forall l, ~ In "" l -> after_empty l = []).
    { induction l as [|x l IH]; [reflexivity|]. cbn [after_empty In]. intros H. destruct (String.eqb_spec x "") as [->|HX]; [exfalso; apply H; left; reflexivity|]. apply IH. intros HL. apply H. right. exact HL. }
    rewrite !N by assumption. reflexivity.
Qed.
Lemma doomed_as L L' m m' outs f : ledger_as L L' -> reworded m m' -> doomed L m outs f -> doomed L' m' outs f.
Proof.
  intros ((HS & _) & _ & HZ & _) HM HD. destruct HM as [m|i job frames frames' need need' payload HB HB' HW HC|i hw hdrs hdrs' rest HH HI HI' HT].
  - destruct HD as [i|i|i|i|i j|i j frames need payload before f d H1 H2 H3 H4 H5|i hw frames hdrs before f H1 H2 H3|i hw frames hdrs before f d H1 H2 H3 H4|i d j st rest H1 H2|i t rest f H1|i t rest z d H1 H2 H3]; [constructor|constructor|constructor|constructor|constructor|..].
    + destruct (in_as _ _ _ _ HS H4) as (d' & I' & RD). pose proof RD as (_ & (_ & G2 & G3 & _) & _). rewrite G2 in H5. apply (reaches_as _ _ _ _ _ G3) in H5. eapply dm_eval_threads; try eassumption. congruence.
    + eapply dm_init_new; try eassumption. exact (none_as _ _ _ (named_as i _ _ HS) H1).
    + destruct (some_as _ _ _ _ (named_as i _ _ HS) H1) as (d' & H1' & RD). rewrite (complaint_as _ _ (proj1 (proj2 RD))). eapply dm_init_changed; try eassumption. rewrite <- (headers_guest _ _ _ (proj1 (proj2 RD))). exact H3.
    + destruct (some_as _ _ _ _ (named_as i _ _ HS) H1) as (d' & H1' & RD). eapply dm_done_idle; [eassumption|]. exact (none_as _ _ _ (proj1 (proj2 (proj2 RD))) H2).
    + apply dm_tick_text. exact H1.
    + destruct (in_as _ _ _ _ HS H2) as (d' & I' & RD). pose proof RD as (_ & (_ & _ & _ & _ & _ & G6) & _). rewrite G6 in H3. eapply dm_tick_overflow; eassumption.
  - exfalso. inversion HD; subst.
    + destruct HB as (E & _). destruct need; discriminate E.
    + match goal with A : header_block frames ?n ?p |- _ => destruct (header_block_fun _ _ _ _ _ HB A) as (-> & ->) end.
      match goal with A : first_bad _ _ _ |- _ => exact (counted_bad _ _ _ HC A) end.
  - pose proof (block_as _ _ HI HT) as HB. pose proof (block_as _ _ HI' HT) as HB'. inversion HD; subst.
    + match goal with A : init_block _ _ |- _ => pose proof (init_block_fun _ _ _ HB A); subst end.
      eapply dm_init_new; [|exact HB'|eapply bad_as; eassumption]. match goal with A : desk_named _ _ = None |- _ => exact (none_as _ _ _ (named_as i _ _ HS) A) end.
    + match goal with A : init_block _ _ |- _ => pose proof (init_block_fun _ _ _ HB A); subst end.
      match goal with A : desk_named _ _ = Some _ |- _ => destruct (some_as _ _ _ _ (named_as i _ _ HS) A) as (d' & H1' & RD) end.
      rewrite (complaint_as _ _ (proj1 (proj2 RD))). eapply dm_init_changed; [eassumption|exact HB'| |eapply bad_as; eassumption].
      rewrite <- (headers_guest _ _ _ (proj1 (proj2 RD))). intros HE. match goal with A : ~ same_headers _ _ |- _ => apply A end. exact (headers_trans _ _ _ HE (headers_sym _ _ HH)).
Qed.
Lemma enumerates_ex need : exists text, enumerates need text.
Proof. eexists. exact (enumerates_store need). Qed.

Lemma numbers_as L L' : ledger_as L L' -> numbers L = numbers L'.
Proof. intros (_ & _ & A & B & C & D). unfold numbers. rewrite A, B, C, D. reflexivity. Qed.
Lemma complaints_as i ds ds' : desks_as ds ds' ->
  sent (match desk_named i ds with Some d => [complaint (d_guest d)] | None => [] end) (match desk_named i ds' with Some d => [complaint (d_guest d)] | None => [] end).
Proof. intros HS. destruct (named_as i _ _ HS) as [|d d' RD]; [apply sent_refl|]. rewrite (complaint_as _ _ (proj1 (proj2 RD))). apply sent_refl. Qed.
Lemma new_as x i hw hdrs hdrs' n n' j j' : same_headers hdrs hdrs' -> n = n' -> j = j' ->
  desk_as (Desk x (Guest i hw hdrs n 0 0) (match j with Some j => Some (Task j false [] [] 0) | None => None end) [])
          (Desk x (Guest i hw hdrs' n' 0 0) (match j' with Some j => Some (Task j false [] [] 0) | None => None end) []).
Proof.
  intros H <- <-. split; [reflexivity|]. split; [repeat split; apply H|]. split; [|constructor]. cbn [d_now]. destruct j; constructor. apply task_as_refl.
Qed.
Ltac done_as := repeat split; cbn [l_floor l_next l_frozen l_done l_failed l_seen f_desks f_rota]; auto using attend_as.

Theorem react_as cfg L m outs L1 : react cfg L m outs L1 -> forall L' m', ledger_as L L' -> reworded m m' ->
  exists outs' L1', sent outs outs' /\ react cfg L' m' outs' L1' /\ ledger_as L1 L1'.
Proof.
  intros H L' m' HL HM. pose proof HL as HL0. destruct HM as [m|i job frames frames' need need' payload HB HB' HW HC|i hw hdrs hdrs' rest HH HI HI' HT].
  - destruct H; destruct L' as [[ds' rota'] next' f' dn' fl' seen']; destruct HL as ((HS & HR) & H3 & H4 & H5 & H6 & H7); cbn [l_floor l_next l_frozen l_done l_failed l_seen f_desks f_rota] in HS, HR, H3, H4, H5, H6, H7; subst.
    + destruct (some_as _ _ _ _ (named_as i _ _ HS) H0) as (d' & HD' & RD). eexists _, _. split; [apply sent_refl|].
      split; [eapply rc_again; [eassumption|eassumption|rewrite <- (headers_guest _ _ _ (proj1 (proj2 RD))); assumption]|done_as].
    + eexists (match desk_named i ds' with Some d => [complaint (d_guest d)] | None => [] end), _. split; [apply (complaints_as i _ _ HS)|]. split.
      * eapply rc_new; [eassumption|]. intros d' E. destruct (some_back _ _ _ _ (named_as i _ _ HS) E) as (d & E' & RD). rewrite <- (headers_guest _ _ _ (proj1 (proj2 RD))). exact (H0 d E').
      * done_as. apply Forall2_app; [apply attend_as; exact HS|]. constructor; [|constructor]. apply new_as; try reflexivity. apply headers_refl.
    + eexists _, _. split; [apply sent_refl|]. split; [eapply rc_short_init; eassumption|done_as].
    + destruct (some_as _ _ _ _ (named_as i _ _ HS) H) as (d' & HD' & RD).
      destruct (report_as _ _ _ _ _ _ _ _ H0 d' (Floor (attend (c_max_liveness cfg) i ds') rota') RD) as (G & A & B); [done_as|].
      eexists _, _. split; [apply sent_refl|]. split; [eapply rc_report; eassumption|]. done_as; apply B.
    + eexists _, _. split; [apply sent_refl|]. split; [eapply rc_stranger; exact (none_as _ _ _ (named_as i _ _ HS) H)|done_as].
    + eexists [Msg "workers" i [match desk_named i ds' with Some _ => "pong" | None => "intro" end]], _. split; [|split; [apply rc_ping|done_as]].
      destruct (named_as i _ _ HS); apply sent_refl.
    + eexists _, _. split; [apply sent_refl|]. split; [eapply rc_progress|done_as].
    + eexists _, _. split; [apply sent_refl|]. split; [eapply rc_word; eassumption|done_as].
    + eexists _, _. split; [apply sent_refl|]. split; [eapply rc_endless; eassumption|exact HL0].
    + eexists _, _. split; [apply sent_refl|]. split; [eapply rc_frozen; eassumption|exact HL0].
    + destruct (place_as _ _ _ _ _ H0 (Floor ds' (f_rota F)) (Task job true need ("eval" :: job :: payload) 0) (conj HS eq_refl) (task_as_refl _)) as (G & A & B).
      eexists _, _. split; [apply sent_refl|]. split; [eapply rc_accept; eassumption|]. done_as; apply B.
    + destruct (place_as _ _ _ _ _ H1 (Floor ds' (f_rota F)) (Task job true need ("eval" :: job :: payload) 0) (conj HS eq_refl) (task_as_refl _)) as (G & A & B).
      eexists _, _. split; [apply sent_refl|]. split; [eapply rc_refuse; eassumption|exact HL0].
    + rewrite (numbers_as _ _ HL0). eexists _, _. split; [apply sent_refl|]. split; [eapply rc_numbers|exact HL0].
    + eexists _, _. split; [apply sent_refl|]. split; [eapply rc_freeze|done_as].
    + eexists _, _. split; [apply sent_refl|]. split; [eapply rc_unfreeze|done_as].
    + eexists _, _. split; [apply sent_refl|]. split; [eapply rc_client; eassumption|exact HL0].
    + destruct (close_as _ _ _ _ _ H0 (Floor (map (pass cfg z) ds') rota')) as (G & A & B); [split; [apply pass_as; exact HS|reflexivity]|].
      eexists _, _. split; [apply sent_refl|]. split; [eapply rc_tick; [eassumption|]|].
      * rewrite <- (keys_as _ _ (filter_as _ _ _ _ (lost_as cfg z) HS)). exact A.
      * done_as; try apply B. rewrite (look_as _ _ (proj1 B)). reflexivity.
    + eexists _, _. split; [apply sent_refl|]. split; [eapply rc_other; eassumption|exact HL0].
  - assert (HE : ~ In "" frames -> False) by (intros HI; apply HI; rewrite (proj1 HB); apply in_or_app; right; left; reflexivity).
    inversion H; subst; try tauto;
      repeat match goal with A : header_block frames ?n ?p |- _ => lazymatch n with need => fail | _ => destruct (header_block_fun _ _ _ _ _ HB A) as (<- & <-); clear A end end;
      destruct L' as [G0 next' f' dn' fl' seen']; destruct HL as (HF & H3' & H4' & H5' & H6' & H7'); cbn [l_floor l_next l_frozen l_done l_failed l_seen] in HF, H3', H4', H5', H6', H7'; subst.
    + eexists _, _. split; [apply sent_refl|]. split; [eapply rc_frozen; eassumption|exact HL0].
    + match goal with A : place _ _ _ _ _ |- _ => destruct (place_as _ _ _ _ _ A G0 (Task job true need' ("eval" :: job :: payload) 0) HF) as (G & A' & B) end; [repeat split; apply HW|].
      eexists _, _. split; [apply sent_refl|]. split; [eapply rc_accept; eassumption|]. done_as; apply B.
    + match goal with A : place _ _ _ _ _ |- _ => destruct (place_as _ _ _ _ _ A G0 (Task job true need' ("eval" :: job :: payload) 0) HF) as (G & A' & B) end; [repeat split; apply HW|].
      destruct (enumerates_ex need') as (text' & HT'). eexists _, _. split; [|split; [eapply rc_refuse; eassumption|exact HL0]].
      repeat (constructor; [first [apply rt_same|eapply rt_refusal; eassumption]|]). constructor.
    + exfalso. match goal with A : ~ In "eval" client_words |- _ => apply A; cbn; auto end.
    + exfalso. match goal with A : ~ In (m_key _) _ |- _ => apply A; cbn; auto end.
  - pose proof (block_as _ _ HI HT) as HB. pose proof (block_as _ _ HI' HT) as HB'.
    inversion H; subst;
      try match goal with A : init_block _ _ |- _ => pose proof (init_block_fun _ _ _ HB A); subst end.
    + destruct L' as [[ds' rota'] next' f' dn' fl' seen']; destruct HL as ((HS & HR) & E3 & E4 & E5 & E6 & E7); cbn [l_floor l_next l_frozen l_done l_failed l_seen f_desks f_rota] in HS, HR, E3, E4, E5, E6, E7; subst.
      match goal with A : desk_named _ _ = Some _ |- _ => destruct (some_as _ _ _ _ (named_as i _ _ HS) A) as (d' & HD' & RD) end.
      eexists _, _. split; [apply sent_refl|]. split; [eapply rc_again; [exact HB'|eassumption|]|done_as].
      rewrite <- (headers_guest _ _ _ (proj1 (proj2 RD))). eapply headers_trans; eassumption.
    + destruct L' as [[ds' rota'] next' f' dn' fl' seen']; destruct HL as ((HS & HR) & E3 & E4 & E5 & E6 & E7); cbn [l_floor l_next l_frozen l_done l_failed l_seen f_desks f_rota] in HS, HR, E3, E4, E5, E6, E7; subst.
      eexists (match desk_named i ds' with Some d => [complaint (d_guest d)] | None => [] end), _. split; [apply (complaints_as i _ _ HS)|]. split.
      * eapply rc_new; [exact HB'|]. intros d' E. destruct (some_back _ _ _ _ (named_as i _ _ HS) E) as (d & E' & RD). rewrite <- (headers_guest _ _ _ (proj1 (proj2 RD))).
        intros HE. match goal with A : forall d, desk_named _ _ = Some d -> _ |- _ => apply (A d E') end. exact (headers_trans _ _ _ HE (headers_sym _ _ HH)).
      * done_as. apply Forall2_app; [apply attend_as; exact HS|]. constructor; [|constructor]. apply new_as; [exact HH|f_equal|]; apply extra_as; assumption.
    + exfalso. match goal with A : ~ In "init" worker_words |- _ => apply A; cbn; auto end.
    + exfalso. match goal with A : ~ In (m_key _) _ |- _ => apply A; cbn; auto end.
Qed.

Lemma reacted_as cfg ms outss L : reacted cfg ms outss L -> forall ms', Forall2 reworded ms ms' ->
  exists outss' L', Forall2 sent outss outss' /\ reacted cfg ms' outss' L' /\ ledger_as L L'.
Proof.
  intros H. induction H as [|ms outss L m outs L1 H IH HN HR]; intros ms' HM.
  - inversion HM; subst. exists [], (Ledger (Floor [] []) 0 false 0 0 None). repeat split; constructor.
  - apply Forall2_app_inv_l in HM. destruct HM as (ms1 & tl & HM1 & HM2 & ->). inversion HM2 as [|a m' b tl' RM HT]; subst. inversion HT; subst.
    destruct (IH _ HM1) as (o1 & L' & S1 & R1 & RL). destruct (react_as _ _ _ _ _ HR _ _ RL RM) as (o2 & L1' & S2 & R2 & RL').
    exists (o1 ++ [o2]), L1'. split; [apply Forall2_app; [exact S1|constructor; [exact S2|constructor]]|]. split; [|exact RL'].
    eapply rd_snoc; [exact R1| |exact R2]. intros x f HD. exact (HN x f (doomed_as _ _ _ _ _ _ (ledger_as_sym _ _ RL) (reworded_sym _ _ RM) HD)).
Qed.

(* the hall *)
Section Hall.
Context (rank : nat -> N) (clock : nat -> Z).
Definition wait_as (x y : task * Z) : Prop := task_as (fst x) (fst y) /\ snd x = snd y.
Definition hall_as (H H' : hall) : Prop := desks_as (h_desks H) (h_desks H') /\ Forall2 wait_as (h_pool H) (h_pool H') /\ h_read H = h_read H'.
Definition roll_as (R R' : roll) : Prop :=
  hall_as (p_hall R) (p_hall R') /\ p_next R = p_next R' /\ p_frozen R = p_frozen R' /\ p_done R = p_done R' /\ p_failed R = p_failed R' /\ p_seen R = p_seen R'.

Lemma roll_ledger R R' : roll_as R R' -> ledger_as (as_ledger R) (as_ledger R').
Proof. intros ((A & _) & B & C & D & E & G). repeat split; auto. Qed.
Lemma in_time_as pool pool' order : Forall2 wait_as pool pool' -> in_time pool order -> exists order', in_time pool' order' /\ Forall2 wait_as order order'.
Proof.
  intros H (HP & HS). destruct (Permutation_Forall2 HP H) as (order' & HP' & HF). exists order'. split; [|exact HF]. split; [exact HP'|].
  clear - HF HS. unfold by_time in *. induction HF as [|x y l l' RX HF IH]; [constructor|]. inversion HS as [|a b HS' HA]; subst. constructor; [exact (IH HS')|].
  rewrite Forall_forall in *. intros z HZ. destruct (in_back _ _ _ _ HF HZ) as (z0 & I0 & R0). rewrite <- (proj2 RX), <- (proj2 R0). exact (HA z0 I0).
Qed.
Lemma ask_as ds ds' k k' : desks_as ds ds' -> task_as k k' -> (forall d, In d ds -> ~ can d k) -> forall d, In d ds' -> ~ can d k'.
Proof. intros HS HK HN d HD. destruct (in_back _ _ _ _ HS HD) as (e & HE & RE). exact (cannot_as _ _ _ _ RE HK (HN e HE)). Qed.
Lemma join_as H k b outs H1 : join rank clock H k b outs H1 -> forall H' k', hall_as H H' -> task_as k k' -> exists H1', join rank clock H' k' b outs H1' /\ hall_as H1 H1'.
Proof.
  intros J H' k' HH HK. destruct J as [ds pool n k HN|ds pool n d k HD HF HC HA|ds pool n d k HN HD HC]; destruct H' as [ds' pool' n'], HH as (HS & HP & HE); cbn [h_desks h_pool h_read] in HS, HP, HE; subst n'.
  - eexists. split; [apply jn_nobody; exact (ask_as _ _ _ _ HS HK HN)|repeat split; assumption].
  - destruct (in_as _ _ _ _ HS HD) as (d' & HD' & RD). rewrite (hand_as _ _ _ _ RD HK). eexists. split.
    + apply (jn_now rank clock _ _ _ d'); [exact HD'|exact (none_as _ _ _ (proj1 (proj2 (proj2 RD))) HF)|exact (can_as _ _ _ _ RD HK HC)|].
      intros e HE HEF HEC. destruct (in_back _ _ _ _ HS HE) as (e0 & HE0 & RE). rewrite <- (proj1 RD), <- (proj1 RE). apply HA; [exact HE0| |].
      * apply desk_as_sym in RE. exact (none_as _ _ _ (proj1 (proj2 (proj2 RE))) HEF).
      * exact (can_as _ _ _ _ (desk_as_sym _ _ RE) (task_as_sym _ _ HK) HEC).
    + repeat split; [|exact HP]. cbn [h_desks]. rewrite <- (proj1 RD). apply change_as; [|exact HS]. intros. apply has_as; [constructor; exact HK|assumption].
  - destruct (in_as _ _ _ _ HS HD) as (d' & HD' & RD). eexists. split.
    + apply (jn_wait rank clock _ _ _ d'); [|exact HD'|exact (can_as _ _ _ _ RD HK HC)].
      intros e HE HEF. destruct (in_back _ _ _ _ HS HE) as (e0 & HE0 & RE). apply (cannot_as _ _ _ _ RE HK). apply HN; [exact HE0|].
      apply desk_as_sym in RE. exact (none_as _ _ _ (proj1 (proj2 (proj2 RE))) HEF).
    + repeat split; [exact HS|]. cbn [h_pool]. apply Forall2_app; [exact HP|]. constructor; [split; [exact HK|reflexivity]|constructor].
Qed.
Lemma cannot_pool d d' l l' : desk_as d d' -> Forall2 wait_as l l' -> (forall x, In x l -> ~ can d (fst x)) -> forall x, In x l' -> ~ can d' (fst x).
Proof. intros RD HF HN x HX. destruct (in_back _ _ _ _ HF HX) as (y & HY & RY). exact (cannot_as _ _ _ _ RD (proj1 RY) (HN y HY)). Qed.
Lemma takes_as d H outs H1 : takes in_time d H outs H1 -> forall d' H', desk_as d d' -> hall_as H H' -> exists H1', takes in_time d' H' outs H1' /\ hall_as H1 H1'.
Proof.
  intros J d' H' RD HH. destruct J as [ds pool n order HO HN|ds pool n before k t after HO HN HC]; destruct H' as [ds' pool' n'], HH as (HS & HP & HE); cbn [h_desks h_pool h_read] in HS, HP, HE; subst n';
    destruct (in_time_as _ _ _ HP HO) as (order' & HO' & HF).
  - eexists. split; [eapply tk_none; [exact HO'|exact (cannot_pool _ _ _ _ RD HF HN)]|]. repeat split; [|exact HF]. cbn [h_desks]. rewrite <- (proj1 RD).
    apply change_as; [|exact HS]. intros. apply has_as; [constructor|assumption].
  - apply Forall2_app_inv_l in HF. destruct HF as (b' & tl & HB & HT & ->). inversion HT as [|x [k' t'] l2 after' RX HA]; subst. destruct RX as (RK & ET). cbn [fst snd] in RK, ET.
    rewrite (hand_as _ _ _ _ RD RK). eexists. split; [eapply tk_some; [exact HO'|exact (cannot_pool _ _ _ _ RD HB HN)|exact (can_as _ _ _ _ RD RK HC)]|].
    repeat split; [|apply Forall2_app; assumption]. cbn [h_desks]. rewrite <- (proj1 RD). apply change_as; [|exact HS]. intros. apply has_as; [constructor; exact RK|assumption].
Qed.
Lemma sift_as ds pool kept gone : sift ds pool kept gone -> forall ds' pool', desks_as ds ds' -> Forall2 wait_as pool pool' ->
  exists kept' gone', sift ds' pool' kept' gone' /\ Forall2 wait_as kept kept' /\ Forall2 task_as gone gone'.
Proof.
  intros H. induction H as [|k t pool kept gone d HD HC H IH|k t pool kept gone HN H IH]; intros ds' pool' HS HP; inversion HP as [|x [k' t'] y pool1 RX HP']; subst.
  - exists [], []. repeat split; constructor.
  - destruct (IH _ _ HS HP') as (a & b & A & B & C). destruct RX as (RK & ET). cbn [fst snd] in RK, ET. subst t'. destruct (in_as _ _ _ _ HS HD) as (d' & HD' & RD).
    exists ((k', t) :: a), b. split; [eapply sf_keep; [exact HD'|exact (can_as _ _ _ _ RD RK HC)|exact A]|]. split; [constructor; [split; [exact RK|reflexivity]|exact B]|exact C].
  - destruct (IH _ _ HS HP') as (a & b & A & B & C). destruct RX as (RK & ET). cbn [fst snd] in RK, ET. subst t'.
    exists a, (k' :: b). split; [apply sf_drop; [exact (ask_as _ _ _ _ HS RK HN)|exact A]|]. split; [exact B|constructor; assumption].
Qed.
Lemma resettle_as cfg F ks outs left F1 : resettle rank clock cfg F ks outs left F1 -> forall F' ks', hall_as F F' -> Forall2 task_as ks ks' ->
  exists left' F1', resettle rank clock cfg F' ks' outs left' F1' /\ Forall2 task_as left left' /\ hall_as F1 F1'.
Proof.
  intros H. induction H as [F|F k ks outs left F1 HW H IH|F k ks outs left F1 HW HM H IH|F k ks out F2 outs left F1 HW HM HP H IH|F k ks out F2 outs left F1 HW HM HP H IH];
    intros F' ks' HF HK; inversion HK as [|a k' b ks1 RK HK']; subst; try (pose proof RK as (EN & EW & _ & _ & ES); rewrite EN).
  - exists [], F'. split; [constructor|]. split; [constructor|exact HF].
  - destruct (IH _ _ HF HK') as (l & G & A & B & C). exists l, G. split; [|split; assumption]. apply rs_announced; [congruence|exact A].
  - destruct (IH _ _ HF HK') as (l & G & A & B & C). exists l, G. split; [|split; assumption]. rewrite ES. apply rs_worn; [congruence|rewrite <- ES; exact HM|exact A].
  - destruct (join_as _ _ _ _ _ HP _ _ HF RK) as (G2 & HP' & HF'). destruct (IH _ _ HF' HK') as (l & G & A & B & C). exists (k' :: l), G. split; [|split; [constructor; assumption|assumption]].
    eapply rs_left; [congruence|rewrite <- ES; exact HM|exact HP'|exact A].
  - destruct (join_as _ _ _ _ _ HP _ _ HF RK) as (G2 & HP' & HF'). destruct (IH _ _ HF' HK') as (l & G & A & B & C). exists l, G. split; [|split; assumption].
    eapply rs_placed; [congruence|rewrite <- ES; exact HM|exact HP'|exact A].
Qed.
Lemma clear_as cfg F xs outs F1 : clear_out rank clock cfg F xs outs F1 -> forall F', hall_as F F' -> exists F1', clear_out rank clock cfg F' xs outs F1' /\ hall_as F1 F1'.
Proof.
  intros H. induction H as [F|ds pool n x xs d kept gone outs left F2 outs' F1 HD HS HR H IH]; intros F' HF.
  - exists F'. split; [constructor|exact HF].
  - destruct F' as [ds' pool' n'], HF as (HDS & HP & HE); cbn [h_desks h_pool h_read] in HDS, HP, HE; subst n'. destruct (some_as _ _ _ _ (at_as x _ _ HDS) HD) as (d' & HD' & RD).
    destruct (sift_as _ _ _ _ HS _ _ (without_as x _ _ HDS) HP) as (kept' & gone' & HS' & HK & HG).
    destruct (resettle_as _ _ _ _ _ _ HR (Hall (filter (fun e => negb (Nat.eqb (d_key e) x)) ds') kept' n)
      (match d_now d' with Some k => [struck k] | None => [] end ++ gone')) as (l & G & A & B & C).
    { repeat split; [apply without_as; exact HDS|exact HK]. }
    { apply Forall2_app; [apply now_as; exact RD|exact HG]. }
    destruct (IH _ C) as (G' & A' & C'). exists G'. split; [|exact C']. rewrite (dieded_as _ _ _ B), (shown_guest _ _ (proj1 (proj2 RD))). eapply co_next; eassumption.
Qed.
Lemma tells_as cfg d H fr outs H1 a b : tells rank clock in_time cfg d H fr outs H1 a b -> forall d' H', desk_as d d' -> hall_as H H' ->
  exists H1', tells rank clock in_time cfg d' H' fr outs H1' a b /\ hall_as H1 H1'.
Proof.
  intros J d' H' RD HH. pose proof RD as (EK & _ & RN & _).
  destruct J as [d H rest HL|d H k j st rest HN HJ|d H k rest outs H1 HN HT|d H k text outs H1 HN HT|d ds pool n k text HN HW|d H k text outs H1 HN HW HM HT|d ds pool n k text outs H1 HN HW HM HP|d H k st rest HN HS|d H k st rest HN HS HL];
    try (destruct (some_as _ _ _ _ RN HN) as (k' & HN' & RK); pose proof RK as (EN & EW & _ & _ & ES); try rewrite EN).
  - exists H'. split; [constructor; exact HL|exact HH].
  - exists H'. split; [eapply te_other; [exact HN'|congruence]|exact HH].
  - destruct (takes_as _ _ _ _ HT _ _ RD HH) as (G & A & B). exists G. split; [eapply te_ok; eassumption|exact B].
  - destruct (takes_as _ _ _ _ HT _ _ RD HH) as (G & A & B). exists G. split; [eapply te_failed; eassumption|exact B].
  - destruct H' as [ds' pool' n'], HH as (HDS & HP & HE); cbn [h_desks h_pool h_read] in HDS, HP, HE; subst n'.
    eexists. split; [eapply te_unknown; [exact HN'|congruence]|]. repeat split; [|exact HP]. cbn [h_desks]. rewrite <- EK. apply change_as; [|exact HDS]. intros. apply has_as; [constructor|assumption].
  - destruct (takes_as _ _ _ _ HT _ _ RD HH) as (G & A & B). exists G. split; [|exact B]. rewrite ES. eapply te_worn; [exact HN'|congruence|rewrite <- ES; exact HM|exact A].
  - destruct H' as [ds' pool' n'], HH as (HDS & HPO & HE); cbn [h_desks h_pool h_read] in HDS, HPO, HE; subst n'.
    destruct (join_as _ _ _ _ _ HP (Hall (change (d_key d') (has None) ds') pool' n) (struck k')) as (G & A & B).
    { repeat split; [|exact HPO]. cbn [h_desks]. rewrite <- EK. apply change_as; [|exact HDS]. intros. apply has_as; [constructor|assumption]. }
    { apply struck_as. exact RK. }
    exists G. split; [|exact B]. eapply te_again; [exact HN'|congruence|rewrite <- ES; exact HM|exact A].
  - exists H'. split; [eapply te_status; eassumption|exact HH].
  - exists H'. split; [eapply te_frames; eassumption|exact HH].
Qed.
Lemma opens_as d H outs H1 : opens in_time d H outs H1 -> forall d' H', desk_as d d' -> hall_as H H' -> exists H1', opens in_time d' H' outs H1' /\ hall_as H1 H1'.
Proof.
  intros J d' H' RD HH. pose proof RD as (_ & (EN & _) & RN & _).
  destruct J as [d ds pool n k HN|d ds pool n outs H1 HN HT]; destruct H' as [ds' pool' n'], HH as (HDS & HP & HE); cbn [h_desks h_pool h_read] in HDS, HP, HE; subst n'.
  - destruct (some_as _ _ _ _ RN HN) as (k' & HN' & _). unfold name_of. rewrite EN. eexists. split; [eapply op_busy; exact HN'|]. repeat split; [|exact HP].
    apply Forall2_app; [exact HDS|]. constructor; [exact RD|constructor].
  - destruct (takes_as _ _ _ _ HT d' (Hall (ds' ++ [d']) pool' n) RD) as (G & A & B).
    { repeat split; [|exact HP]. apply Forall2_app; [exact HDS|]. constructor; [exact RD|constructor]. }
    exists G. split; [apply op_free; [exact (none_as _ _ _ RN HN)|exact A]|exact B].
Qed.
Lemma about_as H H' : hall_as H H' -> look_about H = look_about H'.
Proof.
  intros (A & B & _). unfold look_about. rewrite (as_length _ _ _ A), (as_length _ _ _ B), (as_length _ _ _ (filter_as _ _ _ _ free_as A)). reflexivity.
Qed.
Ltac hall_done := repeat split; cbn [p_hall p_next p_frozen p_done p_failed p_seen h_desks h_pool h_read]; auto using attend_as.

Theorem respond_as cfg R m outs R1 : respond rank clock in_time cfg R m outs R1 -> forall R' m', roll_as R R' -> reworded m m' ->
  exists outs' R1', sent outs outs' /\ respond rank clock in_time cfg R' m' outs' R1' /\ roll_as R1 R1'.
Proof.
  intros H R' m' HL HM. pose proof HL as HL0. destruct HM as [m|i job frames frames' need need' payload HB HB' HW HC|i hw hdrs hdrs' rest HH HI HI' HT].
  - destruct H; destruct R' as [[ds' pool' n'] next' f' dn' fl' seen']; destruct HL as ((HS & HP & HR) & E3 & E4 & E5 & E6 & E7); cbn [p_hall p_next p_frozen p_done p_failed p_seen h_desks h_pool h_read] in HS, HP, HR, E3, E4, E5, E6, E7; subst.
    + destruct (some_as _ _ _ _ (named_as i _ _ HS) H0) as (d' & HD' & RD). eexists _, _. split; [apply sent_refl|].
      split; [eapply rp_again; [eassumption|eassumption|rewrite <- (headers_guest _ _ _ (proj1 (proj2 RD))); assumption]|hall_done].
    + destruct (opens_as _ _ _ _ H1 (Desk next' (Guest i hw hdrs (fallback (last_extra "description" ("init" :: hw :: frames))) 0 0)
          (match last_extra "current_job" ("init" :: hw :: frames) with Some j => Some (Task j false [] [] 0) | None => None end) []) (Hall (attend (c_max_liveness cfg) i ds') pool' n')) as (G & A & B);
        [apply new_as; try reflexivity; apply headers_refl|hall_done|].
      eexists (match desk_named i ds' with Some d => [complaint (d_guest d)] | None => [] end ++ outs), _.
      split; [apply Forall2_app; [apply (complaints_as i _ _ HS)|apply sent_refl]|]. split; [eapply rp_new; [eassumption| |exact A]|hall_done; apply B].
      intros d' E. destruct (some_back _ _ _ _ (named_as i _ _ HS) E) as (d & E' & RD). rewrite <- (headers_guest _ _ _ (proj1 (proj2 RD))). exact (H0 d E').
    + eexists _, _. split; [apply sent_refl|]. split; [eapply rp_short_init; eassumption|hall_done].
    + destruct (some_as _ _ _ _ (named_as i _ _ HS) H) as (d' & HD' & RD).
      destruct (tells_as _ _ _ _ _ _ _ _ H0 d' (Hall (attend (c_max_liveness cfg) i ds') pool' n') RD) as (G & A & B); [hall_done|].
      eexists _, _. split; [apply sent_refl|]. split; [eapply rp_report; eassumption|]. hall_done; apply B.
    + eexists _, _. split; [apply sent_refl|]. split; [eapply rp_stranger; exact (none_as _ _ _ (named_as i _ _ HS) H)|hall_done].
    + eexists [Msg "workers" i [match desk_named i ds' with Some _ => "pong" | None => "intro" end]], _. split; [|split; [apply rp_ping|hall_done]].
      destruct (named_as i _ _ HS); apply sent_refl.
    + eexists _, _. split; [apply sent_refl|]. split; [eapply rp_progress|hall_done].
    + eexists _, _. split; [apply sent_refl|]. split; [eapply rp_word; eassumption|hall_done].
    + eexists _, _. split; [apply sent_refl|]. split; [eapply rp_endless; eassumption|exact HL0].
    + eexists _, _. split; [apply sent_refl|]. split; [eapply rp_frozen; eassumption|exact HL0].
    + destruct (join_as _ _ _ _ _ H1 (Hall ds' pool' (h_read H)) (Task job true need ("eval" :: job :: payload) 0) (conj HS (conj HP eq_refl)) (task_as_refl _)) as (G & A & B).
      eexists _, _. split; [apply sent_refl|]. split; [eapply rp_accept; eassumption|]. hall_done; apply B.
    + destruct (join_as _ _ _ _ _ H2 (Hall ds' pool' (h_read H)) (Task job true need ("eval" :: job :: payload) 0) (conj HS (conj HP eq_refl)) (task_as_refl _)) as (G & A & B).
      eexists _, _. split; [apply sent_refl|]. split; [eapply rp_refuse; eassumption|exact HL0].
    + rewrite (numbers_as _ _ (roll_ledger _ _ HL0)). eexists _, _. split; [apply sent_refl|]. split; [eapply rp_numbers|exact HL0].
    + eexists _, _. split; [apply sent_refl|]. split; [eapply rp_freeze|hall_done].
    + eexists _, _. split; [apply sent_refl|]. split; [eapply rp_unfreeze|hall_done].
    + eexists _, _. split; [apply sent_refl|]. split; [eapply rp_client; eassumption|exact HL0].
    + destruct (clear_as _ _ _ _ _ H0 (Hall (map (pass cfg z) ds') pool' n')) as (G & A & B); [repeat split; [apply pass_as; exact HS|exact HP]|].
      eexists _, _. split; [apply sent_refl|]. split; [eapply rp_tick; [eassumption|]|].
      * rewrite <- (keys_as _ _ (filter_as _ _ _ _ (lost_as cfg z) HS)). exact A.
      * hall_done; try apply B. rewrite (about_as _ _ B). reflexivity.
    + eexists _, _. split; [apply sent_refl|]. split; [eapply rp_other; eassumption|exact HL0].
  - assert (HE : ~ In "" frames -> False) by (intros HI; apply HI; rewrite (proj1 HB); apply in_or_app; right; left; reflexivity).
    inversion H; subst; try tauto;
      repeat match goal with A : header_block frames ?n ?p |- _ => lazymatch n with need => fail | _ => destruct (header_block_fun _ _ _ _ _ HB A) as (<- & <-); clear A end end;
      destruct R' as [G0 next' f' dn' fl' seen']; destruct HL as (HF & E3 & E4 & E5 & E6 & E7); cbn [p_hall p_next p_frozen p_done p_failed p_seen] in HF, E3, E4, E5, E6, E7; subst.
    + eexists _, _. split; [apply sent_refl|]. split; [eapply rp_frozen; eassumption|exact HL0].
    + match goal with A : join _ _ _ _ _ _ _ |- _ => destruct (join_as _ _ _ _ _ A G0 (Task job true need' ("eval" :: job :: payload) 0) HF) as (G & A' & B) end; [repeat split; apply HW|].
      eexists _, _. split; [apply sent_refl|]. split; [eapply rp_accept; eassumption|]. hall_done; apply B.
    + match goal with A : join _ _ _ _ _ _ _ |- _ => destruct (join_as _ _ _ _ _ A G0 (Task job true need' ("eval" :: job :: payload) 0) HF) as (G & A' & B) end; [repeat split; apply HW|].
      destruct (enumerates_ex need') as (text' & HT'). eexists _, _. split; [|split; [eapply rp_refuse; eassumption|exact HL0]].
      repeat (constructor; [first [apply rt_same|eapply rt_refusal; eassumption]|]). constructor.
    + exfalso. match goal with A : ~ In "eval" client_words |- _ => apply A; cbn; auto end.
    + exfalso. match goal with A : ~ In (m_key _) _ |- _ => apply A; cbn; auto end.
  - pose proof (block_as _ _ HI HT) as HB. pose proof (block_as _ _ HI' HT) as HB'.
    inversion H; subst;
      try match goal with A : init_block _ _ |- _ => pose proof (init_block_fun _ _ _ HB A); subst end.
    + destruct R' as [[ds' pool' n'] next' f' dn' fl' seen']; destruct HL as ((HS & HP & HR) & E3 & E4 & E5 & E6 & E7); cbn [p_hall p_next p_frozen p_done p_failed p_seen h_desks h_pool h_read] in HS, HP, HR, E3, E4, E5, E6, E7; subst.
      match goal with A : desk_named _ _ = Some _ |- _ => destruct (some_as _ _ _ _ (named_as i _ _ HS) A) as (d' & HD' & RD) end.
      eexists _, _. split; [apply sent_refl|]. split; [eapply rp_again; [exact HB'|eassumption|]|hall_done].
      rewrite <- (headers_guest _ _ _ (proj1 (proj2 RD))). eapply headers_trans; eassumption.
    + destruct R' as [[ds' pool' n'] next' f' dn' fl' seen']; destruct HL as ((HS & HP & HR) & E3 & E4 & E5 & E6 & E7); cbn [p_hall p_next p_frozen p_done p_failed p_seen h_desks h_pool h_read] in HS, HP, HR, E3, E4, E5, E6, E7; subst.
      match goal with HOP : opens _ _ _ ?outs _ |- _ => destruct (opens_as _ _ _ _ HOP (Desk next' (Guest i hw hdrs' (fallback (last_extra "description" ("init" :: hw :: hdrs' ++ rest))) 0 0)
          (match last_extra "current_job" ("init" :: hw :: hdrs' ++ rest) with Some j => Some (Task j false [] [] 0) | None => None end) []) (Hall (attend (c_max_liveness cfg) i ds') pool' n')) as (G & A & B);
        [apply new_as; [exact HH|f_equal|]; apply extra_as; assumption|hall_done|];
        exists (match desk_named i ds' with Some d => [complaint (d_guest d)] | None => [] end ++ outs) end. eexists.
      split; [apply Forall2_app; [apply (complaints_as i _ _ HS)|apply sent_refl]|]. split; [eapply rp_new; [exact HB'| |exact A]|hall_done; apply B].
      intros d' E. destruct (some_back _ _ _ _ (named_as i _ _ HS) E) as (d & E' & RD). rewrite <- (headers_guest _ _ _ (proj1 (proj2 RD))).
      intros HE. match goal with A : forall d, desk_named _ _ = Some d -> _ |- _ => apply (A d E') end. exact (headers_trans _ _ _ HE (headers_sym _ _ HH)).
    + exfalso. match goal with A : ~ In "init" worker_words |- _ => apply A; cbn; auto end.
    + exfalso. match goal with A : ~ In (m_key _) _ |- _ => apply A; cbn; auto end.
Qed.
Lemma responded_as cfg ms outss R : responded rank clock in_time cfg ms outss R -> forall ms', Forall2 reworded ms ms' ->
  exists outss' R', Forall2 sent outss outss' /\ responded rank clock in_time cfg ms' outss' R' /\ roll_as R R'.
Proof.
  intros H. induction H as [|ms outss R m outs R1 H IH HN HR]; intros ms' HM.
  - inversion HM; subst. exists [], (Roll (Hall [] [] 0) 0 false 0 0 None). split; [constructor|]. split; [constructor|]. repeat split; constructor.
  - apply Forall2_app_inv_l in HM. destruct HM as (ms1 & tl & HM1 & HM2 & ->). inversion HM2 as [|a m' b tl' RM HT]; subst. inversion HT; subst.
    destruct (IH _ HM1) as (o1 & R' & S1 & R1' & RL). destruct (respond_as _ _ _ _ _ HR _ _ RL RM) as (o2 & R2' & S2 & R2 & RL').
    exists (o1 ++ [o2]), R2'. split; [apply Forall2_app; [exact S1|constructor; [exact S2|constructor]]|]. split; [|exact RL'].
    eapply ro_snoc; [exact R1'| |exact R2]. intros x f HD.
    exact (HN x f (doomed_as _ _ _ _ _ _ (ledger_as_sym _ _ (roll_ledger _ _ RL)) (reworded_sym _ _ RM) HD)).
Qed.
End Hall.
