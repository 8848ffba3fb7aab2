(* When nothing is heard of any worker any more (C60). *)
From Coq Require Import Permutation Lia.
From Verif Require Import Base Bytes Containers Worker Multi Single Queue Handler SpecText Spec SpecRun SpecMsg SpecPings SpecFatal SpecLost
  Facts QueueInv Atoms HandlerSim Conserve Members Pings Fatal Stuck.
Local Open Scope string_scope.
Local Open Scope list_scope.

Lemma worker_eq_dec : forall a b : worker, {a = b} + {a <> b}.
Proof.
  assert (forall a b : matcher, {a = b} + {a <> b}) by (decide equality; first [apply string_dec|apply N.eq_dec]).
  assert (forall a b : string * string, {a = b} + {a <> b}) by (decide equality; auto using string_dec).
  assert (forall a b : string * matcher, {a = b} + {a <> b}) by (decide equality; auto using string_dec).
  decide equality; first [apply string_dec|apply N.eq_dec|apply Nat.eq_dec|apply list_eq_dec; assumption].
Defined.
Lemma hears_dec w e : {hears w e} + {~ hears w e}.
Proof.
  unfold hears. destruct (string_dec (m_key (ev_in e)) "workers") as [E|N]; [|right; intros (? & _); contradiction].
  destruct (sender (m_ident (ev_in e)) (ev_pre e)) as [w'|]; [|right; intros (_ & ?); discriminate].
  destruct (worker_eq_dec w' w) as [->|N]; [left; auto|right; intros (_ & [= ->]); contradiction].
Defined.
Lemma last_heard w tr : (exists e, In e tr /\ hears w e) -> exists a e b, tr = a ++ e :: b /\ hears w e /\ silent w b.
Proof.
  induction tr as [|x tr IH] using rev_ind; intros (e & I & H); [destruct I|].
  destruct (hears_dec w x) as [Hx|Nx].
  - exists tr, x, []. repeat split; try apply Hx. intros e' [].
  - destruct IH as (a & y & b & -> & Hy & Sb).
    { exists e. split; [|exact H]. apply in_app_iff in I. destruct I as [I|[<-|[]]]; [exact I|contradiction]. }
    exists a, y, (b ++ [x]). rewrite <- app_assoc. split; [reflexivity|]. split; [exact Hy|]. intros e' I'. apply in_app_iff in I'.
    destruct I' as [I'|[<-|[]]]; auto.
Qed.

Lemma ticks_app_inv a : forall b zs, ticks (a ++ b) zs -> exists x y, zs = x ++ y /\ ticks a x /\ ticks b y.
Proof.
  induction a as [|e a IH]; intros b zs H; [exists [], zs; repeat split; [constructor|exact H]|].
  simpl in H. inversion H; subst.
  - match goal with HH : ticks (a ++ b) _ |- _ => destruct (IH _ _ HH) as (x & y & -> & X & Y) end. exists (z :: x), y.
    repeat split; [|exact Y]. eapply ti_tick; eauto.
  - match goal with HH : ticks (a ++ b) _ |- _ => destruct (IH _ _ HH) as (x & y & -> & X & Y) end. exists x, y.
    repeat split; [|exact Y]. apply ti_other; auto.
Qed.
Lemma ticks_app a b x y : ticks a x -> ticks b y -> ticks (a ++ b) (x ++ y).
Proof. intros H Hb. induction H; simpl; [exact Hb|eapply ti_tick; eauto|apply ti_other; auto]. Qed.
Lemma ticks_fun tr : forall a b, ticks tr a -> ticks tr b -> a = b.
Proof.
  induction tr as [|e tr IH]; intros a b Ha Hb.
  - inversion Ha; inversion Hb; reflexivity.
  - inversion Ha as [|? ? ? ? ? ? K D R T|? ? ? K T]; subst; inversion Hb as [|? ? ? ? ? ? K2 D2 R2 T2|? ? ? K2 T2]; subst; try contradiction.
    + rewrite D in D2. injection D2 as <- <-. f_equal; [eapply reads_fun; eassumption|auto].
    + auto.
Qed.
Lemma sum_app a b : sum (a ++ b) = (sum a + sum b)%Z.
Proof. unfold sum. induction a; simpl; lia. Qed.
Lemma sum_pos d a : Forall (fun z => 0 <= z <= d)%Z a -> (0 <= sum a)%Z.
Proof. induction 1; unfold sum in *; simpl; lia. Qed.

(* decided, for the examples *)
Definition all_heardb (tr : list event) (s : state) : bool :=
  forallb (fun w => existsb (fun e => if hears_dec w e then true else false) tr) (s_reg s).
Lemma all_heardb_ok tr s : all_heardb tr s = true -> all_heard tr s.
Proof.
  unfold all_heardb, all_heard. rewrite forallb_forall. intros H w Hw. specialize (H w Hw). apply existsb_exists in H.
  destruct H as (e & I & E). exists e. split; [exact I|]. destruct (hears_dec w e); [assumption|discriminate].
Qed.

Section WithConfig.
Context (o : oracle) (cfg : config).

(* without workers nothing is held *)
Lemma nobody_holds m : qinv m [] -> held m = [].
Proof.
  intros HQ. pose proof (qi_keys _ _ HQ) as HK. apply Permutation_sym, Permutation_nil in HK. unfold held, running.
  destruct (current_map m) as [|p t] eqn:E; [|discriminate]. simpl. destruct HQ as [_ _ H]. destruct m as [q|q]; simpl.
  - destruct (sq_jobs q) as [|e t] eqn:Ej; [reflexivity|]. destruct (si_assignable _ _ H e) as (w & [] & _). rewrite Ej. left. reflexivity.
  - pose proof (mi_queues _ _ H) as P. apply Permutation_sym, Permutation_nil in P. destruct (mq_queues q); [reflexivity|discriminate].
Qed.

Lemma no_newcomers k tr2 : forall tr1 s1 s, run o cfg k tr1 s1 -> run o cfg k (tr1 ++ tr2) s -> dead_silence tr2 ->
  incl (s_reg s) (s_reg s1).
Proof.
  induction tr2 as [|e tr2 IH] using rev_ind; intros tr1 s1 s H1 H2 HD.
  - rewrite app_nil_r in H2. rewrite (run_fun _ _ _ _ _ H1 _ H2). apply incl_refl.
  - rewrite app_assoc in H2. destruct (run_last _ _ _ _ _ _ H2) as (H3 & Hs & <-).
    assert (HD' : dead_silence tr2) by (intros e' I; apply HD, in_or_app; auto).
    intros w Hw. apply (IH _ _ _ H1 H3 HD').
    destruct (step_pings _ _ _ _ _ _ (run_inv _ _ _ _ _ H3) (run_ping_inv _ _ _ _ _ H3) Hs) as (_ & _ & PN & _).
    destruct (PN w Hw) as [?|(K & _)]; [assumption|]. exfalso. apply (HD e); [apply in_or_app; simpl; auto|exact K].
Qed.

Theorem all_lost k tr1 s1 tr2 s zs d : run o cfg k tr1 s1 -> run o cfg k (tr1 ++ tr2) s -> all_heard tr1 s1 -> dead_silence tr2 ->
  good_clock d (tr1 ++ tr2) -> (0 <= d)%Z -> (0 <= c_ping_interval cfg)%Z -> (1 <= c_max_liveness cfg)%N ->
  ticks tr2 zs -> (patience cfg d < sum zs)%Z ->
  s_reg s = [] /\ held (s_queue s) = [] /\
  forall j, acceptances j (tr1 ++ tr2) + adoptions j (tr1 ++ tr2) = reports j (tr1 ++ tr2).
Proof.
  intros H1 H2 HA HD (zs0 & HT & HF) Hd Hp Hm HT2 Hsum.
  assert (E : s_reg s = []).
  { destruct (s_reg s) as [|w ws] eqn:E; [reflexivity|exfalso]. assert (Hw : In w (s_reg s)) by (rewrite E; left; reflexivity).
    pose proof (no_newcomers _ _ _ _ _ H1 H2 HD w Hw) as Hw1. destruct (last_heard w tr1 (HA w Hw1)) as (a & e & b & -> & He & Sb).
    rewrite <- app_assoc in H2, HT. simpl in H2, HT.
    change (a ++ e :: b ++ tr2) with (a ++ ([e] ++ (b ++ tr2))) in HT. rewrite app_assoc in HT.
    destruct (ticks_app_inv _ _ _ HT) as (x & y & -> & _ & Ty). apply Forall_app in HF. destruct HF as (_ & Fy).
    refine (silent_removed o cfg k a e (b ++ tr2) s w y d H2 He _ Ty Fy Hd Hp Hm _ Hw).
    - intros e' I. apply in_app_iff in I. destruct I as [I|I]; [auto|]. intros (K & _). exact (HD e' I K).
    - destruct (ticks_app_inv _ _ _ Ty) as (y1 & y2 & -> & T1 & T2). rewrite (ticks_fun _ _ _ T2 HT2), sum_app.
      apply Forall_app in Fy. destruct Fy as (F1 & _). pose proof (sum_pos _ _ F1). unfold patience in Hsum. lia. }
  split; [exact E|]. assert (HH : held (s_queue s) = []).
  { apply nobody_holds. pose proof (inv_q _ _ (run_inv _ _ _ _ _ H2)) as HQ. rewrite E in HQ. exact HQ. }
  split; [exact HH|]. intros j. rewrite (conservation _ _ _ _ _ H2 j), HH. simpl. unfold list_count. simpl. lia.
Qed.

(* the timers of a good_clock clock *)
Lemma timers_steady k tr s : run o cfg k tr s -> forall zs d, ticks tr zs -> Forall (fun z => 0 <= z <= d)%Z zs -> (0 <= c_ping_interval cfg)%Z ->
  forall w t, In w (s_reg s) -> ping_timer s w = Some t -> (0 <= t <= c_ping_interval cfg)%Z.
Proof.
  induction 1 as [|tr s m outs s' HR IH Hs]; intros zs d HT HF Hp w t Hw Ht; [destruct Hw|].
  destruct (step_pings _ _ _ _ _ _ (run_inv _ _ _ _ _ HR) (run_ping_inv _ _ _ _ _ HR) Hs) as (PE & _ & PN & _).
  assert (HC : exists zs', ticks tr zs' /\ Forall (fun z => 0 <= z <= d)%Z zs' /\
    (forall t rest z, m_key m = "timer" -> m_data m = t :: rest -> reads t z -> (0 <= z)%Z)).
  { destruct (ticks_snoc _ _ _ HT) as [(N & T)|(t0 & rest & z & zs1 & K & D & R & -> & T)]; simpl in *.
    - exists zs. repeat split; auto. intros; contradiction.
    - apply Forall_app in HF. destruct HF as (F1 & F2). exists zs1. repeat split; auto. intros t1 rest1 z1 _ D1 R1. rewrite D in D1.
      injection D1 as <- <-. rewrite (reads_fun _ _ _ R1 R). inversion F2; lia. }
  destruct HC as (zs' & T' & F' & Hz).
  destruct (PN w Hw) as [Hi|(_ & _ & _ & E)]; [|rewrite Ht in E; injection E as ->; lia].
  destruct (PE w Hi) as [t0 rest z K D R (SI & SC) _|_ _ _ _ E|_ _ _ _ E].
  - specialize (Hz _ _ _ K D R). destruct (proj1 (run_ping_inv _ _ _ _ _ HR) w Hi) as (old & Eo).
    assert (Ho : old_timer s w = old) by (unfold old_timer; unfold ping_timer in Eo; rewrite Eo; reflexivity). rewrite Ho in SC.
    pose proof (IH _ _ T' F' Hp w old Hi Eo). destruct (Z.ltb_spec (c_ping_interval cfg) (old + z)); destruct SC as (_ & E & _);
      rewrite Ht in E; injection E as ->; lia.
  - rewrite Ht in E. injection E as ->. lia.
  - rewrite Ht in E. symmetry in E. eauto.
Qed.

(* ticks can always be processed *)
Lemma ticks_go_on k t z i n : forall tr s, run o cfg k tr s -> reads t z -> (0 <= z)%Z -> (0 <= c_ping_interval cfg)%Z ->
  in_i64 (c_ping_interval cfg + z) = true -> (exists d, good_clock d tr /\ (z <= d)%Z) ->
  exists tr2 s2, run o cfg k (tr ++ tr2) s2 /\ map ev_in tr2 = repeat (Msg "timer" i [t]) n.
Proof.
  induction n as [|n IH]; intros tr s HR Rt Hz Hp Hb (d & (zs & HT & HF) & Hd).
  - exists [], s. rewrite app_nil_r. auto.
  - assert (HB : benign s (Msg "timer" i [t])).
    { eapply be_tick; [exact Rt|]. intros w old Hw Ho. pose proof (timers_steady _ _ _ HR _ _ HT HF Hp w old Hw Ho).
      clear - H Hb Hz. unfold in_i64, min_i64, max_i64 in *. rewrite andb_true_iff, !Z.leb_le in *. simpl in *. lia. }
    destruct (benign_harmless _ _ _ _ _ _ HR HB) as (outs & s' & Hs). pose proof (run_snoc _ _ _ _ _ _ _ _ HR Hs) as HR'.
    destruct (IH _ _ HR' Rt Hz Hp Hb) as (tr2 & s2 & H2 & E2).
    { exists d. split; [|exact Hd]. exists (zs ++ [z]). split.
      - apply ticks_app; [exact HT|]. eapply ti_tick; simpl; eauto. constructor.
      - apply Forall_app. split; [exact HF|]. constructor; [lia|constructor]. }
    rewrite <- app_assoc in H2. eexists _, s2. split; [exact H2|]. simpl. rewrite E2. reflexivity.
Qed.
Lemma ticks_of_repeat t z i n : forall tr, reads t z -> map ev_in tr = repeat (Msg "timer" i [t]) n -> ticks tr (repeat z n) /\ dead_silence tr.
Proof.
  induction n as [|n IH]; intros tr R E; destruct tr as [|e tr]; try discriminate; [split; [constructor|intros ? []]|].
  simpl in E. injection E as Ee E. destruct (IH tr R E) as (T & D). split.
  - simpl. eapply ti_tick; [rewrite Ee; reflexivity|rewrite Ee; reflexivity|exact R|exact T].
  - intros e' [<-|I]; [rewrite Ee; discriminate|auto].
Qed.
Lemma sum_repeat z n : sum (repeat z n) = (Z.of_nat n * z)%Z.
Proof. unfold sum. induction n; simpl repeat; simpl fold_right; [lia|]. rewrite IHn. lia. Qed.

Theorem will_be_lost k tr s d t i : run o cfg k tr s -> all_heard tr s -> good_clock d tr -> reads t d -> (0 < d)%Z -> (0 <= c_ping_interval cfg)%Z ->
  (1 <= c_max_liveness cfg)%N -> in_i64 (c_ping_interval cfg + d) = true ->
  exists n tr2 s2, run o cfg k (tr ++ tr2) s2 /\ map ev_in tr2 = repeat (Msg "timer" i [t]) n /\ (Z.of_nat n * d <= patience cfg d + d)%Z /\
  s_reg s2 = [] /\ held (s_queue s2) = [] /\ forall j, acceptances j (tr ++ tr2) + adoptions j (tr ++ tr2) = reports j (tr ++ tr2).
Proof.
  intros HR HA HS Rt Hd Hp Hm Hb.
  assert (HP : (0 <= patience cfg d)%Z) by (unfold patience; nia).
  set (n := Z.to_nat (patience cfg d / d + 1)). destruct (ticks_go_on k t d i n tr s HR Rt) as (tr2 & s2 & H2 & E2); try lia; auto.
  { exists d. split; [exact HS|lia]. }
  destruct (ticks_of_repeat _ _ _ _ _ Rt E2) as (T2 & D2).
  assert (Hn : (Z.of_nat n = patience cfg d / d + 1)%Z).
  { unfold n. rewrite Z2Nat.id; [reflexivity|]. pose proof (Z.div_pos (patience cfg d) d HP Hd). lia. }
  exists n, tr2, s2. split; [exact H2|]. split; [exact E2|]. split.
  { rewrite Hn. pose proof (Z.mul_div_le (patience cfg d) d Hd). lia. }
  apply (all_lost k tr s tr2 s2 (repeat d n) d); auto; try lia.
  - destruct HS as (zs & HT & HF). exists (zs ++ repeat d n). split; [apply ticks_app; assumption|]. apply Forall_app. split; [exact HF|].
    apply Forall_forall. intros x I. apply repeat_spec in I. subst. lia.
  - rewrite sum_repeat, Hn. pose proof (Z.mod_pos_bound (patience cfg d) d Hd). pose proof (Z.div_mod (patience cfg d) d). lia.
Qed.
End WithConfig.
