(* The ledger and the hall with every worker under another name. *)
From Coq Require Import Lia Permutation.
From Verif Require Import Base Bytes Containers Worker Multi Single Queue Handler SpecText Spec SpecRun SpecMsg SpecPings SpecOutcome SpecJoin SpecTick SpecFront SpecBook SpecFatal SpecLedger SpecPool SpecAlias Facts.
Local Open Scope string_scope.
Local Open Scope list_scope.

Section Alias.
Context (alias : string -> string) (HI : forall i j, alias i = alias j -> i = j).
Notation sent := (Forall2 (readdressed alias)).

Definition rg (g : guest) : guest := Guest (alias (g_name g)) (g_group g) (g_frames g) (g_note g) (g_chances g) (g_waited g).
Definition rd (d : desk) : desk := with_guest (rg (d_guest d)) d.
Definition rf (F : floor) : floor := Floor (map rd (f_desks F)) (f_rota F).
Definition rl (L : ledger) : ledger := Ledger (rf (l_floor L)) (l_next L) (l_frozen L) (l_done L) (l_failed L) (l_seen L).

Lemma eqb_alias i j : String.eqb (alias i) (alias j) = String.eqb i j.
Proof.
  destruct (String.eqb_spec i j) as [->|H]; [apply String.eqb_refl|]. apply String.eqb_neq. intros E. apply H. apply HI. exact E.
Qed.
Lemma desk_at_rd k ds : desk_at k (map rd ds) = option_map rd (desk_at k ds).
Proof. unfold desk_at. induction ds as [|d t IH]; cbn; [reflexivity|]. destruct (Nat.eqb (d_key d) k); [reflexivity|exact IH]. Qed.
Lemma desk_named_rd i ds : desk_named (alias i) (map rd ds) = option_map rd (desk_named i ds).
Proof.
  unfold desk_named. induction ds as [|d t IH]; cbn; [reflexivity|]. unfold name_of at 1. cbn. rewrite eqb_alias. unfold name_of at 1.
  destruct (String.eqb (g_name (d_guest d)) i); [reflexivity|exact IH].
Qed.
Lemma change_rd k f f' ds : (forall d, f' (rd d) = rd (f d)) -> change k f' (map rd ds) = map rd (change k f ds).
Proof.
  intros H. unfold change. rewrite !map_map. apply map_ext. intros d. cbn. destruct (Nat.eqb (d_key d) k); [apply H|reflexivity].
Qed.
Lemma attend_rd n i ds : attend n (alias i) (map rd ds) = map rd (attend n i ds).
Proof.
  induction ds as [|d t IH]; [reflexivity|]. cbn [map attend]. unfold name_of at 1. cbn [rd with_guest d_guest rg g_name]. rewrite eqb_alias.
  unfold name_of. destruct (String.eqb (g_name (d_guest d)) i); [reflexivity|]. cbn [map]. f_equal. exact IH.
Qed.
Lemma filter_rd (p : desk -> bool) ds : (forall d, p (rd d) = p d) -> filter p (map rd ds) = map rd (filter p ds).
Proof. intros H. induction ds as [|d t IH]; cbn; [reflexivity|]. rewrite H. destruct (p d); cbn; rewrite IH; reflexivity. Qed.
Lemma key_rd ds : map d_key (map rd ds) = map d_key ds.
Proof. rewrite map_map. apply map_ext. reflexivity. Qed.
Lemma pass_rd cfg z ds : map (pass cfg z) (map rd ds) = map rd (map (pass cfg z) ds).
Proof.
  rewrite !map_map. apply map_ext. intros d. unfold pass, rd, late. cbn. destruct (Z.ltb _ _); reflexivity.
Qed.
Lemma at_rd x ds d : desk_at x ds = Some d -> desk_at x (map rd ds) = Some (rd d).
Proof. intros H. rewrite desk_at_rd, H. reflexivity. Qed.
Lemma at_back x ds e : desk_at x (map rd ds) = Some e -> exists d, desk_at x ds = Some d /\ e = rd d.
Proof. rewrite desk_at_rd. destruct (desk_at x ds) as [d|]; [|discriminate]. intros [= <-]. exists d. split; reflexivity. Qed.
Lemma named_rd i ds d : desk_named i ds = Some d -> desk_named (alias i) (map rd ds) = Some (rd d).
Proof. intros H. rewrite desk_named_rd, H. reflexivity. Qed.

Lemma hand_rd d k : readdressed alias (hand d k) (hand (rd d) k).
Proof. apply ra_worker. Qed.
Lemma same_status i d : readdressed alias (Msg "status_notifier" i d) (Msg "status_notifier" i d).
Proof. apply ra_other. discriminate. Qed.
Lemma same_monitor i d : readdressed alias (Msg "monitor" i d) (Msg "monitor" i d).
Proof. apply ra_other. discriminate. Qed.
Lemma same_client i d : readdressed alias (Msg "clients" i d) (Msg "clients" i d).
Proof. apply ra_other. discriminate. Qed.
Hint Resolve hand_rd same_status same_monitor same_client : core.
Lemma complaint_rd g : readdressed alias (complaint g) (complaint (rg g)).
Proof. unfold complaint, shown_as. apply ra_twice. Qed.

Lemma place_rd F k b outs F' : place F k b outs F' -> exists outs', sent outs outs' /\ place (rf F) k b outs' (rf F').
Proof.
  intros H. destruct H as [ds rota k HN|ds before x after d k HN HD HC HF|ds before x after d k c HN HD HC HF]; unfold rf; cbn [f_desks f_rota].
  - exists []. split; [constructor|]. constructor. intros x e Hx He. destruct (at_back _ _ _ He) as (d & Hd & ->). exact (HN x d Hx Hd).
  - exists [hand (rd d) k]. split; [repeat constructor|]. rewrite <- (change_rd x (has (Some k)) (has (Some k))) by reflexivity.
    apply pl_now; [|apply at_rd; exact HD|exact HC|exact HF]. intros y e Hy He. destruct (at_back _ _ _ He) as (e' & He' & ->). exact (HN y e' Hy He').
  - exists []. split; [constructor|]. rewrite <- (change_rd x (lines (d_line d ++ [k])) (lines (d_line d ++ [k]))) by reflexivity.
    apply (pl_wait _ _ _ _ (rd d) k c); [|apply at_rd; exact HD|exact HC|exact HF]. intros y e Hy He. destruct (at_back _ _ _ He) as (e' & He' & ->). exact (HN y e' Hy He').
Qed.
Lemma next_rd d ds outs ds' : takes_next d ds = (outs, ds') -> exists outs', sent outs outs' /\ takes_next (rd d) (map rd ds) = (outs', map rd ds').
Proof.
  unfold takes_next. cbn [rd with_guest d_line d_key]. destruct (d_line d) as [|k rest]; intros [= <- <-].
  - exists []. split; [constructor|]. rewrite (change_rd (d_key d) (has None) (has None)) by reflexivity. reflexivity.
  - exists [hand (rd d) k]. split; [repeat constructor|].
    rewrite (change_rd (d_key d) (fun e => lines rest (has (Some k) e)) (fun e => lines rest (has (Some k) e))) by reflexivity. reflexivity.
Qed.
Lemma rehome_rd cfg F ks outs left F' : rehome cfg F ks outs left F' -> exists outs', sent outs outs' /\ rehome cfg (rf F) ks outs' left (rf F').
Proof.
  intros H. induction H as [F|F k ks outs left F' HW H (o1 & S1 & IH)|F k ks outs left F' HW HM H (o1 & S1 & IH)|F k ks out F1 outs left F' HW HM HP H (o1 & S1 & IH)|F k ks out F1 outs left F' HW HM HP H (o1 & S1 & IH)].
  - exists []. split; constructor.
  - eexists. split; [|apply rh_announced; eassumption]. repeat (constructor; [unfold failed_report, tell; auto|]). exact S1.
  - eexists. split; [|apply rh_worn; eassumption]. repeat (constructor; [unfold failed_report, tell; auto|]). exact S1.
  - destruct (place_rd _ _ _ _ _ HP) as (o2 & S2 & HP'). eexists. split; [|eapply rh_left; eassumption].
    apply Forall2_app; [exact S2|]. constructor; [unfold tell; auto|exact S1].
  - destruct (place_rd _ _ _ _ _ HP) as (o2 & S2 & HP'). eexists. split; [|eapply rh_placed; eassumption].
    apply Forall2_app; [exact S2|]. constructor; [unfold tell; auto|exact S1].
Qed.
Lemma dieded_rd g left : sent (map (fun k => failed_report (k_name k) ("Worker " ++ shown_as g ++ " dieded")%string) left)
  (map (fun k => failed_report (k_name k) ("Worker " ++ shown_as (rg g) ++ " dieded")%string) left).
Proof. induction left as [|k t IH]; cbn [map]; constructor; [apply ra_dieded|exact IH]. Qed.
Lemma close_rd cfg F xs outs F' : close cfg F xs outs F' -> exists outs', sent outs outs' /\ close cfg (rf F) xs outs' (rf F').
Proof.
  intros H. induction H as [F|ds rota x xs d outs left F1 outs' F' HD HR H (o1 & S1 & IH)].
  - exists []. split; constructor.
  - destruct (rehome_rd _ _ _ _ _ _ HR) as (o2 & S2 & HR'). unfold rf in HR' at 1. cbn [f_desks f_rota] in HR'. rewrite <- filter_rd in HR' by reflexivity.
    eexists. split; [|eapply cl_next; [apply at_rd; exact HD|exact HR'|exact IH]].
    apply Forall2_app; [exact S2|]. apply Forall2_app; [apply dieded_rd|exact S1].
Qed.
Lemma report_rd cfg d F fr outs F' a b : report cfg d F fr outs F' a b -> exists outs', sent outs outs' /\ report cfg (rd d) (rf F) fr outs' (rf F') a b.
Proof.
  intros H. destruct H as [d F rest|d F k j st rest|d ds rota k rest outs ds' HN HT|d ds rota k text outs ds' HN HT|d ds rota k text HN HW|d ds rota k text outs ds' HN HW HM HT|d ds rota k text outs F' HN HW HM HP|d F k st rest|d F k st rest].
  - exists []. split; [constructor|]. constructor. assumption.
  - exists []. split; [constructor|]. eapply re_other; eassumption.
  - destruct (next_rd _ _ _ _ HT) as (o1 & S1 & HT'). eexists. split; [|eapply re_ok; eassumption]. constructor; [unfold ok_report; auto|exact S1].
  - destruct (next_rd _ _ _ _ HT) as (o1 & S1 & HT'). eexists. split; [|eapply re_failed; eassumption]. constructor; [unfold failed_report; auto|exact S1].
  - eexists. split; [|unfold rf; cbn [f_desks f_rota]; rewrite <- (change_rd (d_key d) (has None) (has None)) by reflexivity; eapply (re_unknown cfg (rd d)); eassumption].
    constructor; [unfold failed_report; auto|constructor].
  - destruct (next_rd _ _ _ _ HT) as (o1 & S1 & HT'). eexists. split; [|eapply re_worn; eassumption].
    repeat (constructor; [unfold failed_report, tell; auto|]). exact S1.
  - destruct (place_rd _ _ _ _ _ HP) as (o1 & S1 & HP'). unfold rf in HP' at 1. cbn [f_desks f_rota] in HP'. rewrite <- (change_rd (d_key d) (has None) (has None)) in HP' by reflexivity.
    exists o1. split; [exact S1|]. eapply (re_again cfg (rd d)); eassumption.
  - exists []. split; [constructor|]. eapply re_status; eassumption.
  - exists []. split; [constructor|]. eapply re_frames; eassumption.
Qed.
Lemma under_worker i d : under alias (Msg "workers" i d) = Msg "workers" (alias i) d.
Proof. reflexivity. Qed.
Lemma under_other m : m_key m <> "workers" -> under alias m = m.
Proof. intros H. unfold under. rewrite (proj2 (String.eqb_neq _ _) H). reflexivity. Qed.
Lemma look_rd ds : look_round (map rd ds) = look_round ds.
Proof.
  unfold look_round. rewrite map_length. f_equal; [f_equal; f_equal|].
  - rewrite flat_map_concat_map, map_map, flat_map_concat_map. reflexivity.
  - rewrite filter_rd by reflexivity. rewrite map_length. reflexivity.
Qed.

Theorem react_rd cfg L m outs L' : react cfg L m outs L' -> exists outs', sent outs outs' /\ react cfg (rl L) (under alias m) outs' (rl L').
Proof.
  intros H. destruct H; try rewrite under_worker; try (rewrite under_other by discriminate); unfold rl; cbn [l_floor l_next l_frozen l_done l_failed l_seen]; unfold rf; cbn [f_desks f_rota];
    rewrite <- ?attend_rd.
  - exists []. split; [constructor|]. eapply rc_again; [eassumption|apply named_rd; eassumption|assumption].
  - eexists. split; [|rewrite map_app, <- attend_rd; eapply (rc_new _ (map rd ds) rota next f dn fl seen (alias i)); [eassumption|]].
    + rewrite desk_named_rd. destruct (desk_named i ds) as [d|]; cbn [option_map]; [|constructor]. constructor; [apply complaint_rd|constructor].
    + intros d. rewrite desk_named_rd. destruct (desk_named i ds) as [d0|] eqn:E; [|discriminate]. intros [= <-]. exact (H0 d0 eq_refl).
  - exists []. split; [constructor|]. apply rc_short_init.
  - destruct (report_rd _ _ _ _ _ _ _ _ H0) as (o1 & S1 & HR). exists o1. split; [exact S1|]. eapply rc_report; [apply named_rd; eassumption|]. rewrite attend_rd. exact HR.
  - exists []. split; [constructor|]. apply rc_stranger. rewrite desk_named_rd, H. reflexivity.
  - eexists. split; [|apply rc_ping]. rewrite desk_named_rd. constructor; [|constructor]. destruct (desk_named i ds); apply ra_worker.
  - eexists. split; [|apply rc_progress]. repeat (constructor; auto).
  - exists []. split; [constructor|]. apply rc_word. assumption.
  - eexists. split; [|apply rc_endless; assumption]. repeat (constructor; auto).
  - eexists. split; [|eapply rc_frozen; eassumption]. repeat (constructor; auto).
  - destruct (place_rd _ _ _ _ _ H0) as (o1 & S1 & HP). eexists. split; [|eapply rc_accept; eassumption].
    constructor; [auto|]. apply Forall2_app; [exact S1|]. repeat (constructor; auto).
  - destruct (place_rd _ _ _ _ _ H1) as (o1 & S1 & HP). eexists. split; [|eapply rc_refuse; eassumption]. unfold tell. repeat (constructor; auto).
  - eexists. split; [|apply rc_numbers]. repeat (constructor; auto).
  - eexists. split; [|apply rc_freeze]. repeat (constructor; auto).
  - eexists. split; [|apply rc_unfreeze]. repeat (constructor; auto).
  - eexists. split; [|apply rc_client; assumption]. constructor.
  - destruct (close_rd _ _ _ _ _ H0) as (o1 & S1 & HC). exists o1. split; [exact S1|].
    rewrite <- (look_rd (f_desks F')). eapply (rc_tick _ (map rd ds) rota next f dn fl seen i t rest z o1 (rf F')); [assumption|].
    rewrite pass_rd, filter_rd, key_rd by reflexivity. exact HC.
  - exists []. split; [constructor|]. rewrite under_other by (intros E; apply H; rewrite E; left; reflexivity). apply rc_other. assumption.
Qed.
Theorem doomed_rd L m outs f : doomed L m outs f -> exists outs', sent outs outs' /\ doomed (rl L) (under alias m) outs' f.
Proof.
  intros H. destruct H; try rewrite under_worker; try (rewrite under_other by discriminate).
  1-5: eexists; (split; [|constructor]; repeat (constructor; auto)).
  - eexists. split; [|eapply (dm_eval_threads (rl L)) with (d := rd d); [assumption|eassumption|eassumption|apply in_map; assumption|assumption]]. repeat (constructor; auto).
  - eexists. split; [|eapply dm_init_new; [|eassumption|eassumption]]; [constructor|]. cbn [rl l_floor rf f_desks]. rewrite desk_named_rd, H. reflexivity.
  - eexists. split; [|eapply (dm_init_changed (rl L)) with (d := rd d); [apply named_rd; eassumption|eassumption|assumption|eassumption]]. constructor; [apply complaint_rd|constructor].
  - eexists. split; [|eapply (dm_done_idle (rl L)) with (d := rd d); [apply named_rd; eassumption|assumption]]. constructor.
  - eexists. split; [|eapply dm_tick_text; eassumption]. constructor.
  - eexists. split; [|eapply (dm_tick_overflow (rl L)) with (d := rd d); [eassumption|apply in_map; eassumption|assumption]]. constructor.
Qed.
Lemma rl_desks L : f_desks (l_floor (rl L)) = map rd (f_desks (l_floor L)).
Proof. reflexivity. Qed.
Theorem doomed_back L m outs' f : doomed (rl L) (under alias m) outs' f -> exists outs, doomed L m outs f.
Proof.
  intros H. remember (under alias m) as m' eqn:E. destruct m as (key, i, data). unfold under in E. cbn [m_key m_ident m_data] in E.
  destruct (String.eqb_spec key "workers") as [->|HK]; destruct H; try discriminate E; (injection E as E1 E2; subst) || (injection E as E1 E2 E3; subst); try (exfalso; congruence).
  - eexists. apply dm_empty_worker.
  - eexists. eapply dm_init_new; [|eassumption|eassumption]. rewrite rl_desks, desk_named_rd in H. destruct (desk_named i _); [discriminate|reflexivity].
  - rewrite rl_desks, desk_named_rd in H. destruct (desk_named i _) as [d0|] eqn:E; [|discriminate]. injection H as <-.
    eexists. eapply dm_init_changed; eassumption.
  - rewrite rl_desks, desk_named_rd in H. destruct (desk_named i _) as [d0|] eqn:E; [|discriminate]. injection H as <-.
    eexists. eapply dm_done_idle; eassumption.
  - eexists. apply dm_empty_client.
  - eexists. apply dm_empty_tick.
  - eexists. apply dm_eval_bare.
  - eexists. apply dm_eval_job.
  - rewrite rl_desks in *. match goal with HIn : In d (map rd _) |- _ => apply in_map_iff in HIn; destruct HIn as (d0 & <- & HIn) end.
    eexists. eapply dm_eval_threads; eassumption.
  - eexists. eapply dm_tick_text; eassumption.
  - rewrite rl_desks in *. match goal with HIn : In d (map rd _) |- _ => apply in_map_iff in HIn; destruct HIn as (d0 & <- & HIn) end.
    eexists. eapply dm_tick_overflow; eassumption.
Qed.
Theorem reacted_rd cfg ms outss L : reacted cfg ms outss L -> exists outss', Forall2 sent outss outss' /\ reacted cfg (map (under alias) ms) outss' (rl L).
Proof.
  intros H. induction H as [|ms outss L m outs L' H (o1 & S1 & IH) HN HR].
  - exists []. split; [constructor|]. apply rd_nil.
  - destruct (react_rd _ _ _ _ _ HR) as (o2 & S2 & HR'). exists (o1 ++ [o2]). split; [apply Forall2_app; [exact S1|repeat constructor; exact S2]|].
    rewrite map_app. eapply rd_snoc; [exact IH| |exact HR']. intros x f HD. destruct (doomed_back _ _ _ _ HD) as (y & HD'). exact (HN _ _ HD').
Qed.

(* the hall *)
Section Hall.
Context (rank : nat -> N) (clock : nat -> Z) (arranged : list (task * Z) -> list (task * Z) -> Prop).
Definition rh (H : hall) : hall := Hall (map rd (h_desks H)) (h_pool H) (h_read H).
Definition rr (R : roll) : roll := Roll (rh (p_hall R)) (p_next R) (p_frozen R) (p_done R) (p_failed R) (p_seen R).

Lemma all_rd (P : desk -> Prop) ds : (forall d, In d ds -> P (rd d)) -> forall e, In e (map rd ds) -> P e.
Proof. intros H e He. apply in_map_iff in He. destruct He as (d & <- & Hd). exact (H d Hd). Qed.
Lemma join_rd H k b outs H' : join rank clock H k b outs H' -> exists outs', sent outs outs' /\ join rank clock (rh H) k b outs' (rh H').
Proof.
  intros J. destruct J as [ds pool n k HN|ds pool n d k HD HF HC HA|ds pool n d k HN HD HC]; unfold rh; cbn [h_desks h_pool h_read].
  - exists []. split; [constructor|]. constructor. apply all_rd. exact HN.
  - exists [hand (rd d) k]. split; [repeat constructor|]. rewrite <- (change_rd (d_key d) (has (Some k)) (has (Some k))) by reflexivity.
    apply (jn_now rank clock _ _ _ (rd d)); [apply in_map; exact HD|exact HF|exact HC|]. apply (all_rd (fun e => d_now e = None -> can e k -> ahead rank (d_key (rd d)) (d_key e))). exact HA.
  - exists []. split; [constructor|]. apply (jn_wait rank clock _ _ _ (rd d)); [|apply in_map; exact HD|exact HC].
    apply (all_rd (fun e => d_now e = None -> ~ can e k)). exact HN.
Qed.
Lemma takes_rd d H outs H' : takes arranged d H outs H' -> exists outs', sent outs outs' /\ takes arranged (rd d) (rh H) outs' (rh H').
Proof.
  intros J. destruct J as [ds pool n order HO HN|ds pool n before k t after HO HN HC]; unfold rh; cbn [h_desks h_pool h_read].
  - exists []. split; [constructor|]. rewrite <- (change_rd (d_key d) (has None) (has None)) by reflexivity. apply (tk_none arranged (rd d)); [exact HO|exact HN].
  - exists [hand (rd d) k]. split; [repeat constructor|]. rewrite <- (change_rd (d_key d) (has (Some k)) (has (Some k))) by reflexivity.
    apply (tk_some arranged (rd d) _ _ _ _ _ t); assumption.
Qed.
Lemma sift_rd ds pool kept gone : sift ds pool kept gone -> sift (map rd ds) pool kept gone.
Proof.
  intros H. induction H as [|k t pool kept gone d HD HC H IH|k t pool kept gone HN H IH]; [constructor| |].
  - apply (sf_keep _ _ _ _ _ _ (rd d)); [apply in_map; exact HD|exact HC|exact IH].
  - apply sf_drop; [apply all_rd; exact HN|exact IH].
Qed.
Lemma resettle_rd cfg F ks outs left F' : resettle rank clock cfg F ks outs left F' -> exists outs', sent outs outs' /\ resettle rank clock cfg (rh F) ks outs' left (rh F').
Proof.
  intros H. induction H as [F|F k ks outs left F' HW H (o1 & S1 & IH)|F k ks outs left F' HW HM H (o1 & S1 & IH)|F k ks out F1 outs left F' HW HM HP H (o1 & S1 & IH)|F k ks out F1 outs left F' HW HM HP H (o1 & S1 & IH)].
  - exists []. split; constructor.
  - eexists. split; [|apply rs_announced; eassumption]. repeat (constructor; [unfold failed_report, tell; auto|]). exact S1.
  - eexists. split; [|apply rs_worn; eassumption]. repeat (constructor; [unfold failed_report, tell; auto|]). exact S1.
  - destruct (join_rd _ _ _ _ _ HP) as (o2 & S2 & HP'). eexists. split; [|eapply rs_left; eassumption].
    apply Forall2_app; [exact S2|]. constructor; [unfold tell; auto|exact S1].
  - destruct (join_rd _ _ _ _ _ HP) as (o2 & S2 & HP'). eexists. split; [|eapply rs_placed; eassumption].
    apply Forall2_app; [exact S2|]. constructor; [unfold tell; auto|exact S1].
Qed.
Lemma clear_rd cfg F xs outs F' : clear_out rank clock cfg F xs outs F' -> exists outs', sent outs outs' /\ clear_out rank clock cfg (rh F) xs outs' (rh F').
Proof.
  intros H. induction H as [F|ds pool n x xs d kept gone outs left F1 outs' F' HD HS HR H (o1 & S1 & IH)].
  - exists []. split; constructor.
  - destruct (resettle_rd _ _ _ _ _ _ HR) as (o2 & S2 & HR'). unfold rh in HR' at 1. cbn [h_desks h_pool h_read] in HR'. rewrite <- filter_rd in HR' by reflexivity.
    apply sift_rd in HS. rewrite <- filter_rd in HS by reflexivity.
    eexists. split; [|eapply co_next; [apply at_rd; exact HD|exact HS|exact HR'|exact IH]].
    apply Forall2_app; [exact S2|]. apply Forall2_app; [apply dieded_rd|exact S1].
Qed.
Lemma tells_rd cfg d H fr outs H' a b : tells rank clock arranged cfg d H fr outs H' a b ->
  exists outs', sent outs outs' /\ tells rank clock arranged cfg (rd d) (rh H) fr outs' (rh H') a b.
Proof.
  intros J. destruct J as [d H rest|d H k j st rest|d H k rest outs H' HN HT|d H k text outs H' HN HT|d ds pool n k text HN HW|d H k text outs H' HN HW HM HT|d ds pool n k text outs H' HN HW HM HP|d H k st rest|d H k st rest].
  - exists []. split; [constructor|]. constructor. assumption.
  - exists []. split; [constructor|]. eapply te_other; eassumption.
  - destruct (takes_rd _ _ _ _ HT) as (o1 & S1 & HT'). eexists. split; [|eapply te_ok; eassumption]. constructor; [unfold ok_report; auto|exact S1].
  - destruct (takes_rd _ _ _ _ HT) as (o1 & S1 & HT'). eexists. split; [|eapply te_failed; eassumption]. constructor; [unfold failed_report; auto|exact S1].
  - eexists. split; [|unfold rh; cbn [h_desks h_pool h_read]; rewrite <- (change_rd (d_key d) (has None) (has None)) by reflexivity; eapply (te_unknown _ _ _ cfg (rd d)); eassumption].
    constructor; [unfold failed_report; auto|constructor].
  - destruct (takes_rd _ _ _ _ HT) as (o1 & S1 & HT'). eexists. split; [|eapply te_worn; eassumption].
    repeat (constructor; [unfold failed_report, tell; auto|]). exact S1.
  - destruct (join_rd _ _ _ _ _ HP) as (o1 & S1 & HP'). unfold rh in HP' at 1. cbn [h_desks h_pool h_read] in HP'. rewrite <- (change_rd (d_key d) (has None) (has None)) in HP' by reflexivity.
    exists o1. split; [exact S1|]. eapply (te_again _ _ _ cfg (rd d)); eassumption.
  - exists []. split; [constructor|]. eapply te_status; eassumption.
  - exists []. split; [constructor|]. eapply te_frames; eassumption.
Qed.
Lemma opens_rd d H outs H' : opens arranged d H outs H' -> exists outs', sent outs outs' /\ opens arranged (rd d) (rh H) outs' (rh H').
Proof.
  intros J. destruct J as [d ds pool n k HN|d ds pool n outs H' HN HT].
  - eexists. split; [|unfold rh; cbn [h_desks h_pool h_read]; rewrite map_app; eapply (op_busy arranged (rd d)); exact HN]. constructor; [apply ra_worker|constructor].
  - destruct (takes_rd _ _ _ _ HT) as (o1 & S1 & HT'). unfold rh in HT' at 1. cbn [h_desks h_pool h_read] in HT'. rewrite map_app in HT'.
    exists o1. split; [exact S1|]. apply (op_free arranged (rd d)); assumption.
Qed.
Theorem respond_rd cfg R m outs R' : respond rank clock arranged cfg R m outs R' ->
  exists outs', sent outs outs' /\ respond rank clock arranged cfg (rr R) (under alias m) outs' (rr R').
Proof.
  intros H. destruct H; try rewrite under_worker; try (rewrite under_other by discriminate); unfold rr; cbn [p_hall p_next p_frozen p_done p_failed p_seen]; unfold rh at 1; cbn [h_desks h_pool h_read].
  - exists []. split; [constructor|]. unfold rh. cbn [h_desks h_pool h_read]. rewrite <- attend_rd. eapply rp_again; [eassumption|apply named_rd; eassumption|assumption].
  - destruct (opens_rd _ _ _ _ H1) as (o1 & S1 & HO). unfold rh in HO at 1. cbn [h_desks h_pool h_read] in HO. rewrite <- attend_rd in HO.
    eexists. split; [|eapply (rp_new _ _ _ _ (map rd ds) pool n next f dn fl seen (alias i)); [eassumption| |exact HO]].
    + apply Forall2_app; [|exact S1]. rewrite desk_named_rd. destruct (desk_named i ds) as [d|]; cbn [option_map]; [|constructor]. constructor; [apply complaint_rd|constructor].
    + intros d. rewrite desk_named_rd. destruct (desk_named i ds) as [d0|] eqn:E; [|discriminate]. intros [= <-]. exact (H0 d0 eq_refl).
  - exists []. split; [constructor|]. unfold rh. cbn [h_desks h_pool h_read]. rewrite <- attend_rd. apply rp_short_init.
  - destruct (tells_rd _ _ _ _ _ _ _ _ H0) as (o1 & S1 & HR). exists o1. split; [exact S1|]. eapply rp_report; [apply named_rd; eassumption|]. rewrite attend_rd. exact HR.
  - exists []. split; [constructor|]. apply rp_stranger. rewrite desk_named_rd, H. reflexivity.
  - unfold rh. cbn [h_desks h_pool h_read]. rewrite <- attend_rd. eexists. split; [|apply rp_ping]. rewrite desk_named_rd. constructor; [|constructor]. destruct (desk_named i ds); apply ra_worker.
  - unfold rh. cbn [h_desks h_pool h_read]. rewrite <- attend_rd. eexists. split; [|apply rp_progress]. repeat (constructor; auto).
  - exists []. split; [constructor|]. unfold rh. cbn [h_desks h_pool h_read]. rewrite <- attend_rd. apply rp_word. assumption.
  - eexists. split; [|apply rp_endless; assumption]. repeat (constructor; auto).
  - eexists. split; [|eapply rp_frozen; eassumption]. repeat (constructor; auto).
  - destruct (join_rd _ _ _ _ _ H1) as (o1 & S1 & HP). eexists. split; [|eapply rp_accept; eassumption].
    constructor; [auto|]. apply Forall2_app; [exact S1|]. repeat (constructor; auto).
  - destruct (join_rd _ _ _ _ _ H2) as (o1 & S1 & HP). eexists. split; [|eapply rp_refuse; eassumption]. unfold tell. repeat (constructor; auto).
  - eexists. split; [|apply (rp_numbers _ _ _ _ (rr R))]. repeat (constructor; auto).
  - eexists. split; [|apply rp_freeze]. repeat (constructor; auto).
  - eexists. split; [|apply rp_unfreeze]. repeat (constructor; auto).
  - eexists. split; [|apply (rp_client _ _ _ _ (rr R)); assumption]. constructor.
  - destruct (clear_rd _ _ _ _ _ H0) as (o1 & S1 & HC). exists o1. split; [exact S1|].
    assert (EL : look_about (rh H') = look_about H').
    { unfold look_about, rh. cbn [h_desks h_pool]. rewrite map_length, filter_rd, map_length by reflexivity. reflexivity. }
    rewrite <- EL. eapply rp_tick; [eassumption|]. rewrite pass_rd, filter_rd, key_rd by reflexivity. exact HC.
  - exists []. split; [constructor|]. rewrite under_other by (intros E; apply H; rewrite E; left; reflexivity). apply rp_other. assumption.
Qed.
Theorem responded_rd cfg ms outss R : responded rank clock arranged cfg ms outss R ->
  exists outss', Forall2 sent outss outss' /\ responded rank clock arranged cfg (map (under alias) ms) outss' (rr R).
Proof.
  intros H. induction H as [|ms outss R m outs R' H (o1 & S1 & IH) HN HR].
  - exists []. split; [constructor|]. apply ro_nil.
  - destruct (respond_rd _ _ _ _ _ HR) as (o2 & S2 & HR'). exists (o1 ++ [o2]). split; [apply Forall2_app; [exact S1|repeat constructor; exact S2]|].
    rewrite map_app. eapply ro_snoc; [exact IH| |exact HR']. intros x f HD. destruct (doomed_back (as_ledger R) _ _ _ HD) as (y & HD'). exact (HN _ _ HD').
Qed.
End Hall.
End Alias.
