(* How many messages the broker sends (C62). *)
From Coq Require Import Permutation Lia.
From Verif Require Import Base Bytes Containers Worker Multi Single Queue Handler SpecText Spec SpecRun SpecMsg SpecQueue SpecPings SpecOutcome SpecJoin SpecTick SpecFlood
  Facts QueueInv Atoms HandlerSim OwnQueue Conserve Provenance Budget WorkConserving Tick Pings TickOutcome Again.
Local Open Scope string_scope.
Local Open Scope list_scope.

(* ---- at most n messages, also if the handler fails ---- *)

Definition at_most {A} (n : nat) (m : M A) : Prop := forall s, length (fst (m s)) <= n.

Lemma am_bind {A B} n1 n2 n (m : M A) (k : A -> M B) : at_most n1 m -> (forall a, at_most n2 (k a)) -> n1 + n2 <= n -> at_most n (bind m k).
Proof.
  intros H1 H2 Hn s. unfold bind. specialize (H1 s). destruct (m s) as (o1 & [f|(a & s1)]); simpl in *; [lia|].
  specialize (H2 a s1). destruct (k a s1) as (o2 & r). simpl in *. rewrite app_length. lia.
Qed.
Lemma am_free {A B} n (m : M A) (k : A -> M B) : at_most 0 m -> (forall a, at_most n (k a)) -> at_most n (bind m k).
Proof. intros H1 H2. exact (am_bind 0 n n m k H1 H2 (le_n _)). Qed.
Lemma am_say {B} n x (k : unit -> M B) : (forall a, at_most n (k a)) -> at_most (S n) (bind (respond x) k).
Proof. intros H2. refine (am_bind 1 n (S n) _ k _ H2 (le_n _)). intros s. simpl. lia. Qed.
Lemma am_respond n x : at_most (S n) (respond x).
Proof. intros s. simpl. lia. Qed.
Lemma am_ret {A} n (a : A) : at_most n (ret a).
Proof. intros s. simpl. lia. Qed.
Lemma am_fail {A} n f : at_most n (@fail A f).
Proof. intros s. simpl. lia. Qed.
Lemma am_get n : at_most n get.
Proof. intros s. simpl. lia. Qed.
Lemma am_modify n g : at_most n (modify g).
Proof. intros s. simpl. lia. Qed.
Lemma am_lift {A} n (x : res A) : at_most n (lift x).
Proof. intros s. destruct x; simpl; lia. Qed.
Lemma am_at n v i : at_most n (at_ v i).
Proof. intros s. unfold at_. destruct (nth_error v i); simpl; lia. Qed.
Lemma am_queue_call {A} n (g : manager -> res (A * manager)) : at_most n (queue_call g).
Proof. intros s. unfold queue_call. destruct (g (s_queue s)) as [(a & m)|f]; simpl; lia. Qed.
Lemma am_mono {A} n n' (m : M A) : at_most n m -> n <= n' -> at_most n' m.
Proof. intros H Hn s. specialize (H s). lia. Qed.

Ltac count :=
  repeat (intros; cbv zeta; lazymatch goal with
  | |- at_most _ (bind (bind _ _) _) => eapply am_bind; [| |apply le_n]
  | |- at_most (S _) (bind (respond _) _) => apply am_say
  | |- at_most _ (bind (match ?x with _ => _ end) _) => destruct x
  | |- at_most _ (bind _ _) => apply am_free
  | |- at_most _ (ret _) => apply am_ret
  | |- at_most _ get => apply am_get
  | |- at_most _ (fail _) => apply am_fail
  | |- at_most _ (respond _) => apply am_respond
  | |- at_most _ (lift _) => apply am_lift
  | |- at_most _ (at_ _ _) => apply am_at
  | |- at_most _ (modify _) => apply am_modify
  | |- at_most _ (queue_call _) => apply am_queue_call
  | |- at_most _ (let '(_, _) := ?x in _) => destruct x
  | |- at_most _ (match ?x with _ => _ end) => destruct x
  end).

Section Handlers.
Context (o : oracle) (cfg : config).

Lemma eval_at_most i d : at_most 3 (process_client_eval o i d).
Proof. unfold process_client_eval, send_request, notify_monitor. count. Qed.
Lemma stats_at_most i d : at_most 3 (process_client_get_runtime_stats i d).
Proof. unfold process_client_get_runtime_stats. count. Qed.
Lemma freeze_at_most i d : at_most 3 (process_client_freeze i d).
Proof. unfold process_client_freeze. count. Qed.
Lemma unfreeze_at_most i d : at_most 3 (process_client_unfreeze i d).
Proof. unfold process_client_unfreeze. count. Qed.
Lemma ping_at_most i d : at_most 3 (process_worker_ping i d).
Proof. unfold process_worker_ping. count. Qed.
Lemma progress_at_most i d : at_most 3 (process_worker_progress i d).
Proof. unfold process_worker_progress. count. Qed.
Lemma init_at_most i d : at_most 3 (process_worker_init o i d).
Proof.
  unfold process_worker_init, notify_error, send_if, send_request. destruct (Nat.ltb _ _); [apply am_ret|]. apply am_free; [apply am_at|]. intros hw.
  destruct (parse_init_headers _ _) as (headers, rest). apply am_free; [apply am_get|]. intros s. cbv zeta.
  match goal with |- context [bind (lift (make_worker ?a ?b ?c ?d ?e)) ?k] => set (reg := bind (lift (make_worker a b c d e)) k) end.
  assert (HR : at_most 1 reg).
  { subst reg. count. }
  destruct (find_worker_by_identity _ _) as [w|]; [|eapply am_mono; [exact HR|lia]]. destruct (headers_equal _ _); [apply am_ret|].
  eapply (am_bind 1 1); [count|intros _; exact HR|lia].
Qed.
Lemma send_if_at_most w x : at_most 1 (send_if w x).
Proof. unfold send_if, send_request. count. Qed.
Lemma check_at_most r t : at_most 2 (check_failure_count cfg r t).
Proof. unfold check_failure_count, job_failed, notify_monitor. count. Qed.
Lemma reassign_at_most r : at_most 1 (reassign_request o r).
Proof.
  unfold reassign_request, notify_monitor, send_request. apply am_free; [apply am_queue_call|]. intros y.
  destruct (negb _); count.
Qed.
Lemma done_at_most i d : at_most 3 (process_worker_done o cfg i d).
Proof.
  unfold process_worker_done, job_done, job_failed, rejected_job, stat_incr, failures_incr.
  apply am_free; [apply am_get|]. intros s. destruct (find_worker_by_identity _ _) as [w|]; [|apply am_ret]. destruct (Nat.ltb _ _); [apply am_ret|].
  apply am_free; [apply am_queue_call|]. intros cur. apply am_free; [apply am_at|]. intros job. destruct cur as [cur|]; [|apply am_fail].
  destruct (negb _); [apply am_ret|]. apply am_free; [apply am_at|]. intros st. cbv zeta. destruct (String.eqb st "OK"); [|destruct (String.eqb st "INTERNAL_ERROR"); [|destruct (String.eqb st "FAILED")]].
  - apply am_say. intros _. apply am_free; [apply am_queue_call|]. intros x. eapply (am_bind 1 0); [apply send_if_at_most|count|lia].
  - destruct (negb _); [apply am_ret|]. apply am_free; [apply am_queue_call|]. intros [f|]; [|apply am_fail]. apply am_free; [apply am_modify|]. intros _.
    apply am_free; [apply am_at|]. intros text. eapply (am_bind 3 0); [|count|lia].
    destruct (negb _); [apply am_respond|].
    eapply (am_bind 2 1); [apply check_at_most| |lia]. intros b. destruct b.
    + eapply (am_bind 1 0); [apply reassign_at_most|intros; apply am_ret|lia].
    + apply am_free; [apply am_queue_call|]. intros x. apply send_if_at_most.
  - destruct (negb _); [apply am_ret|]. apply am_free; [apply am_at|]. intros text. apply am_say. intros _. apply am_free; [apply am_queue_call|].
    intros [f|]; [|apply am_fail]. apply am_free; [apply am_modify|]. intros _. apply am_free; [apply am_queue_call|]. intros x.
    eapply (am_bind 1 0); [apply send_if_at_most|count|lia].
  - count.
Qed.
Lemma call_at_most n cs c i d : (forall p, In p cs -> at_most n (snd p i d)) -> at_most n (call_function cs c i d).
Proof.
  intros H. unfold call_function. destruct (sm_find c cs) as [f|] eqn:E; [|apply am_ret]. apply (H (c, f)). clear H.
  induction cs as [|(k, g) cs IH]; simpl in E; [discriminate|]. destruct (String.eqb_spec k c) as [->|Hn]; [injection E as ->; left; reflexivity|].
  right. apply IH. exact E.
Qed.
Theorem each_at_most m s : m_key m <> "timer" -> length (fst (on_request o cfg m s)) <= 3.
Proof.
  intros Hk. revert s. change (at_most 3 (on_request o cfg m)). unfold on_request, when, KEY_WORKERS, KEY_CLIENTS, KEY_TIMER.
  destruct (String.eqb_spec (m_key m) "timer") as [E|_]; [contradiction|].
  destruct (String.eqb_spec (m_key m) "workers") as [E|_].
  - rewrite E. change (String.eqb "workers" "clients") with false. cbv iota. eapply (am_bind 3 0); [|count|lia].
    apply am_free; [apply am_get|]. intros s. apply am_free; [count|]. intros _. apply am_free; [apply am_at|]. intros c. apply call_at_most.
    intros p [<-|[<-|[<-|[<-|[]]]]]; cbn [snd]; [apply init_at_most|apply done_at_most|apply ping_at_most|apply progress_at_most].
  - apply am_free; [apply am_ret|]. intros _. destruct (String.eqb _ "clients"); [|count]. eapply (am_bind 3 0); [|count|lia].
    apply am_free; [apply am_at|]. intros c. apply call_at_most.
    intros p [<-|[<-|[<-|[<-|[]]]]]; cbn [snd]; [apply eval_at_most|apply stats_at_most|apply freeze_at_most|apply unfreeze_at_most].
Qed.
End Handlers.

(* ---- ticks ---- *)

(* what the manager holds, seen from the workers ws *)
Definition content (ws : list worker) (m : manager) : list request := flat_map (fun w => olist (current_of m w)) ws ++ queued m.

Lemma content_held m ws : qinv m ws -> Permutation (held m) (content ws m).
Proof. intros H. unfold held, content. apply Permutation_app_tail. exact (running_current m ws H). Qed.

Lemma now_has_upd m m' w x : now_has m m' w x -> forall w', current_of m' w' = upd (current_of m) w x w'.
Proof.
  intros (H1 & H2) w'. unfold upd. destruct (Nat.eqb_spec (w_id w) (w_id w')) as [E|E].
  - rewrite <- H1. apply current_of_id. symmetry. exact E.
  - apply H2. intros E'. apply E. symmetry. exact E'.
Qed.

Lemma currents_upd m m' ws w x : NoDup (ids ws) -> In w ws -> now_has m m' w x ->
  Permutation (flat_map (fun w' => olist (current_of m' w')) ws ++ olist (current_of m w)) (flat_map (fun w' => olist (current_of m w')) ws ++ olist x).
Proof.
  intros Hn Hw H. rewrite (flat_map_ext _ (fun w' => olist (upd (current_of m) w x w'))) by (intros w'; rewrite (now_has_upd _ _ _ _ H); reflexivity).
  apply flat_map_upd; assumption.
Qed.

Section Removed.
Context (cfg : config) (ws0 : list worker) (Hnd : NoDup (ids ws0)).

Lemma content_given m m1 w r : In w ws0 -> current_of m w = None -> now_has m m1 w (Some r) -> still_wait m m1 ->
  Permutation (content ws0 m1) (r :: content ws0 m).
Proof.
  intros Hw Hc Hh (Hq & _). unfold content. rewrite Hq. pose proof (currents_upd _ _ _ _ _ Hnd Hw Hh) as P. rewrite Hc, app_nil_r in P. rewrite P.
  rewrite <- app_assoc. symmetry. apply Permutation_middle.
Qed.
Lemma content_queued m m1 r : (forall w, current_of m1 w = current_of m w) -> lines_up m m1 r -> Permutation (content ws0 m1) (r :: content ws0 m).
Proof.
  intros Hc (P & _). unfold content. rewrite P. rewrite (flat_map_ext _ (fun w => olist (current_of m w))) by (intros w; rewrite Hc; reflexivity).
  symmetry. apply Permutation_middle.
Qed.
Lemma content_lost ws m m1 w rs : In w ws0 -> lost_with ws m m1 w rs -> Permutation (content ws0 m) (rs ++ content ws0 m1).
Proof.
  intros Hw (gone & -> & Hh & (P & _) & _). unfold content. pose proof (currents_upd _ _ _ _ _ Hnd Hw Hh) as P1. rewrite app_nil_r in P1. rewrite <- P1, P.
  set (A := flat_map _ _). set (c := olist _). rewrite <- !app_assoc. rewrite (Permutation_app_comm A (c ++ gone ++ queued m1)), <- !app_assoc.
  do 2 apply Permutation_app_head. apply Permutation_app_comm.
Qed.

(* f values a request before, g after; every request dealt with is worth at least 1 and loses at least 1 *)
Lemma settled_cost ws att m rs outs un m' (f g : request -> nat) : settled cfg ws att m rs outs un m' -> incl ws ws0 ->
  (forall r, In r rs -> 1 <= f r) ->
  (forall r, In r rs -> (att r < c_max_failures cfg)%N -> (exists w, In w ws /\ fits w r) -> 1 + g r <= f r) ->
  length outs + length un + 2 * total g (content ws0 m') <= 2 * total f rs + 2 * total g (content ws0 m) /\
  exists gone, Permutation (rs ++ content ws0 m) (gone ++ content ws0 m').
Proof.
  intros H Hws. induction H; intros F1 F2.
  - split; [simpl; lia|]. exists []. reflexivity.
  - destruct IHsettled as (I1 & gone & I2); [intros; apply F1; right; assumption|intros; apply F2; [right|..]; assumption|]. specialize (F1 r (or_introl eq_refl)).
    split; [cbn [length total fold_right] in *; unfold total in *; lia|]. exists (r :: gone). simpl. rewrite I2. reflexivity.
  - destruct IHsettled as (I1 & gone & I2); [intros; apply F1; right; assumption|intros; apply F2; [right|..]; assumption|]. specialize (F1 r (or_introl eq_refl)).
    split; [cbn [length total fold_right] in *; unfold total in *; lia|]. exists (r :: gone). simpl. rewrite I2. reflexivity.
  - destruct IHsettled as (I1 & gone & I2); [intros; apply F1; right; assumption|intros; apply F2; [right|..]; assumption|]. specialize (F1 r (or_introl eq_refl)).
    split; [cbn [length total fold_right] in *; unfold total in *; lia|]. exists (r :: gone). simpl. rewrite I2. reflexivity.
  - destruct IHsettled as (I1 & gone & I2); [intros; apply F1; right; assumption|intros; apply F2; [right|..]; assumption|].
    specialize (F2 r (or_introl eq_refl) H0 (ex_intro _ w (conj H1 H2))). pose proof (content_given _ _ _ _ (Hws w H1) H3 H4 H5) as P.
    rewrite (total_perm g _ _ P) in I1. split; [cbn [length total fold_right] in *; unfold total in *; lia|]. exists gone. simpl. rewrite Permutation_middle, <- P. exact I2.
  - destruct IHsettled as (I1 & gone & I2); [intros; apply F1; right; assumption|intros; apply F2; [right|..]; assumption|].
    specialize (F2 r (or_introl eq_refl) H0 (ex_intro _ w (conj H1 H2))). pose proof (content_queued _ _ _ H3 H4) as P.
    rewrite (total_perm g _ _ P) in I1. split; [cbn [length total fold_right] in *; unfold total in *; lia|]. exists gone. simpl. rewrite Permutation_middle, <- P. exact I2.
Qed.

Lemma settled_low ws att m rs outs un m' : settled cfg ws att m rs outs un m' -> incl ws ws0 ->
  forall r, In r (content ws0 m') -> In r (content ws0 m) \/ (att r < c_max_failures cfg)%N.
Proof.
  intros H Hws. induction H; intros r0 Hr; auto.
  - destruct (IHsettled r0 Hr) as [Hi|Hi]; [|auto]. pose proof (content_given _ _ _ _ (Hws w H1) H3 H4 H5) as P.
    eapply Permutation_in in Hi; [|exact P]. destruct Hi as [<-|Hi]; auto.
  - destruct (IHsettled r0 Hr) as [Hi|Hi]; [|auto]. pose proof (content_queued _ _ _ H3 H4) as P.
    eapply Permutation_in in Hi; [|exact P]. destruct Hi as [<-|Hi]; auto.
Qed.

Lemma total_const (n : nat) (l : list request) : total (fun _ => n) l = n * length l.
Proof. induction l as [|a l IH]; [simpl; lia|]. change (n + total (fun _ => n) l = n * S (length l)). rewrite IH. lia. Qed.

Lemma removals_count rm ws att m outs att' m' : removals cfg rm ws att m outs att' m' -> incl rm ws0 -> incl ws ws0 ->
  length outs <= 2 * length rm * length (content ws0 m) /\ length (content ws0 m') <= length (content ws0 m).
Proof.
  induction 1; intros Hrm Hws; [simpl; lia|].
  assert (Hw : In w ws0) by (apply Hrm; left; reflexivity).
  assert (Hws1 : incl ws1 ws0) by (intros w' Hw'; apply H0 in Hw'; apply Hws; tauto).
  pose proof (Permutation_length (content_lost _ _ _ _ _ Hw H)) as P1. rewrite app_length in P1.
  destruct (settled_cost ws1 att1 m1 rs outs un m2 (fun _ => 1) (fun _ => 0) H2 Hws1) as (C & gone & P2); [intros; lia|intros; lia|].
  rewrite !total_const in C. apply Permutation_length in P2. rewrite !app_length in P2.
  destruct IHremovals as (I1 & I2); [intros w' Hw'; apply Hrm; right; exact Hw'|exact Hws1|].
  rewrite !app_length, map_length. cbn [length]. split; [|lia].
  assert (length rm * length (content ws0 m2) <= length rm * length (content ws0 m)) by (apply Nat.mul_le_mono_l; lia). nia.
Qed.

(* what a request may still cost *)
Definition worth (att : request -> N) (r : request) : nat := N.to_nat (limit cfg - att r).

Lemma removals_single rm ws att m outs att' m' : removals cfg rm ws att m outs att' m' -> incl rm ws0 -> incl ws ws0 -> kind_of m = KSingle ->
  NoDup (map r_id (content ws0 m)) -> (forall r, In r (content ws0 m) -> (att r < limit cfg)%N) ->
  length outs + 2 * total (worth att') (content ws0 m') <= 2 * total (worth att) (content ws0 m).
Proof.
  induction 1; intros Hrm Hws Hk Hid Hlow; [simpl; lia|].
  assert (Hw : In w ws0) by (apply Hrm; left; reflexivity).
  assert (Hws1 : incl ws1 ws0) by (intros w' Hw'; apply H0 in Hw'; apply Hws; tauto).
  pose proof (content_lost _ _ _ _ _ Hw H) as P.
  assert (Hid' : NoDup (map r_id (rs ++ content ws0 m1))) by (eapply Permutation_NoDup; [apply Permutation_map; exact P|exact Hid]).
  assert (Hlow' : forall r, In r (rs ++ content ws0 m1) -> (att r < limit cfg)%N) by (intros r Hr; apply Hlow; eapply Permutation_in; [symmetry; exact P|exact Hr]).
  destruct H as (gone & -> & Hnow & Hleave & Hgone). destruct m as [q|q]; [|discriminate]. destruct Hgone as (Hgone & _).
  assert (Hsame : forall r, In r (content ws0 m1) -> att1 r = att r).
  { intros r Hr. rewrite H1. destruct (current_of (QSingle q) w) as [c|] eqn:Ec; [|lia]. destruct (Nat.eqb_spec (r_id r) (r_id c)) as [E|_]; [|lia]. exfalso.
    cbn [olist app map] in Hid'. inversion Hid' as [|? ? Hni _]; subst. apply Hni. rewrite <- E. apply in_map. rewrite in_app_iff. auto. }
  destruct (settled_cost ws1 att1 m1 _ outs un m2 (worth att) (worth att1) H2 Hws1) as (C & gone' & P2).
  { intros r Hr. specialize (Hlow' r (in_or_app _ _ _ (or_introl Hr))). unfold worth. lia. }
  { intros r Hr Hlt (w' & Hw' & Hf). specialize (Hlow' r (in_or_app _ _ _ (or_introl Hr))). apply H0 in Hw'. apply in_app_iff in Hr. destruct Hr as [Hr|Hr].
    - unfold worth. rewrite H1. destruct (current_of (QSingle q) w) as [c|]; [|destruct Hr]. destruct Hr as [<-|[]]. rewrite Nat.eqb_refl. lia.
    - destruct Hw' as (Hw' & Hne). destruct (Hne (Hgone r Hr w' Hw' Hf)). }
  assert (Hid2 : NoDup (map r_id (content ws0 m2))).
  { eapply Permutation_NoDup in Hid'; [|apply Permutation_map; exact P2]. rewrite map_app in Hid'. apply NoDup_app_r in Hid'. exact Hid'. }
  assert (Hlow2 : forall r, In r (content ws0 m2) -> (att1 r < limit cfg)%N).
  { intros r Hr. destruct (settled_low _ _ _ _ _ _ _ H2 Hws1 r Hr) as [Hi|Hi]; [|unfold limit; lia].
    rewrite (Hsame r Hi). apply Hlow'. rewrite in_app_iff. auto. }
  specialize (IHremovals (fun w' Hw' => Hrm w' (or_intror Hw')) Hws1 ltac:(rewrite H3; exact Hk) Hid2 Hlow2).
  rewrite (total_perm _ _ _ P), total_app. rewrite !app_length, map_length.
  rewrite (total_ext (worth att1) (worth att) (content ws0 m1)) in C by (intros r Hr; unfold worth; rewrite (Hsame r Hr); reflexivity).
  lia.
Qed.
End Removed.

(* ---- runs ---- *)

Section WithConfig.
Context (o : oracle) (cfg : config).
Local Notation atoms := (atoms o cfg).
Local Notation atom := (atom o cfg).

(* held requests have attempts left *)
Definition low (s : state) : Prop := forall r, In r (held (s_queue s)) -> (attempts s r < limit cfg)%N.

Lemma incr_other r r' s : r_id r' <> r_id r -> attempts (incr_fails r s) r' = attempts s r'.
Proof. intros H. unfold attempts, incr_fails. cbn [s_fails set_fails]. apply tbl_get_set_ne. auto. Qed.

Lemma attempts_grow s h l s' h' r : atom s h l s' h' -> (attempts s r <= attempts s' r)%N.
Proof.
  assert (HI : forall r0 s0, (attempts s0 r <= attempts (incr_fails r0 s0) r)%N).
  { intros r0 s0. destruct (Nat.eq_dec (r_id r) (r_id r0)) as [E|E]; [|rewrite (incr_other _ _ _ E); lia].
    unfold attempts, incr_fails, failures. cbn [s_fails set_fails]. rewrite E, tbl_get_set_eq. lia. }
  intros Ha. destruct Ha; try apply N.le_refl.
  - unfold core in H. injection H as _ _ E _ _. unfold attempts. rewrite E. lia.
  - unfold core in H4. injection H4 as _ _ E _ _. unfold attempts. rewrite E. lia.
  - destruct H3 as [->| ->]; [apply N.le_refl|exact (HI r0 (set_queue m' s))].
  - exact (HI r0 (set_queue m' s)).
  - cbn. destruct (current_of (s_queue s) w) as [c|]; [|apply N.le_refl]. exact (HI c s).
Qed.
Lemma atoms_grow s h ls s' h' r : atoms s h ls s' h' -> (attempts s r <= attempts s' r)%N.
Proof. induction 1 as [s h|s h l s1 h1 ls s2 h2 Ha _ IH]; [lia|]. pose proof (attempts_grow _ _ _ _ _ r Ha). lia. Qed.

Lemma atom_low s h l s' h' : inv s h -> low s -> atom s h l s' h' -> low s'.
Proof.
  intros HI HL Ha. pose proof (atom_conserve _ _ _ _ _ _ _ HI Ha) as P. pose proof (inv_nodup _ _ HI) as Hnd. pose proof (inv_f _ _ HI) as Hf.
  unfold low in *. destruct Ha; cbn [created_of dropped_of finished_of app] in P.
  - unfold core in H. injection H as _ E2 E3 _ _. unfold attempts in *. rewrite <- E2, <- E3. exact HL.
  - exact HL.
  - exact HL.
  - exact HL.
  - exact HL.
  - rewrite app_assoc in P. apply Permutation_app_inv_r in P. unfold core in H4. injection H4 as _ _ E3 _ _. intros r0 Hr.
    assert (Ea : attempts s' r0 = attempts s r0) by (unfold attempts; rewrite E3; reflexivity). rewrite Ea.
    eapply Permutation_in in Hr; [|symmetry; exact P]. apply in_app_iff in Hr. destruct Hr as [Hr|Hr]; [|apply HL; exact Hr].
    destruct cur as [c|]; [|destruct Hr]. destruct Hr as [<-|[]]. unfold attempts. rewrite Hf by apply (H2 c eq_refl). unfold limit. lia.
  - change (r :: held (s_queue s') ++ h) with ((r :: held (s_queue s')) ++ h) in P. apply Permutation_app_inv_r in P. intros r0 Hr.
    assert (Hr' : In r0 (held (s_queue s))) by (eapply Permutation_in; [symmetry; exact P|right; exact Hr]).
    assert (Hne : r_id r0 <> r_id r).
    { intros E. rewrite map_app in Hnd. apply NoDup_app_l in Hnd. eapply Permutation_NoDup in Hnd; [|apply Permutation_map; exact P].
      simpl in Hnd. inversion Hnd as [|? ? Hni _]; subst. apply Hni. rewrite <- E. apply in_map. exact Hr. }
    destruct H3 as [->| ->]; [exact (HL r0 Hr')|]. rewrite (incr_other _ _ _ Hne). exact (HL r0 Hr').
  - intros r0 Hr. assert (P' : Permutation (held (s_queue s)) (r :: held m')).
    { apply (Permutation_app_inv_r h). rewrite P. cbn [set_queue s_queue incr_fails set_fails]. symmetry. apply Permutation_middle. }
    cbn [set_queue s_queue incr_fails set_fails] in Hr. assert (Hr' : In r0 (held (s_queue s))) by (eapply Permutation_in; [symmetry; exact P'|right; exact Hr]).
    assert (Hne : r_id r0 <> r_id r).
    { intros E. rewrite map_app in Hnd. apply NoDup_app_l in Hnd. eapply Permutation_NoDup in Hnd; [|apply Permutation_map; exact P'].
      simpl in Hnd. inversion Hnd as [|? ? Hni _]; subst. apply Hni. rewrite <- E. apply in_map. exact Hr. }
    rewrite (incr_other _ _ _ Hne). exact (HL r0 Hr').
  - apply Permutation_app_inv_r in P. cbn [set_queue s_queue] in *. intros r0 Hr. apply (HL r0). eapply Permutation_in; [symmetry; exact P|exact Hr].
  - intros r0 Hr. assert (P' : Permutation (r :: held (s_queue s)) (held m')).
    { apply (Permutation_app_inv_r h). rewrite <- P. simpl. apply Permutation_middle. }
    cbn [set_queue s_queue] in Hr. eapply Permutation_in in Hr; [|symmetry; exact P']. destruct Hr as [<-|Hr]; [|exact (HL r0 Hr)].
    change (attempts (set_queue m' s) r) with (failures r s). unfold limit. lia.
  - exact HL.
  - destruct (q_terminated_spec _ _ _ _ _ (inv_q _ _ HI) H H0) as (gone & -> & _).
    assert (Eq : s_queue (set_queue m' (incr_opt (current_of (s_queue s) w) (set_reg (reg_remove w (s_reg s)) s))) = m') by reflexivity. rewrite Eq in *.
    assert (P' : Permutation (held (s_queue s)) ((olist (current_of (s_queue s) w) ++ gone) ++ held m')).
    { apply (Permutation_app_inv_r h). rewrite P, (Permutation_app_comm _ (held m')), <- !app_assoc. reflexivity. }
    intros r0 Hr. assert (Hr' : In r0 (held (s_queue s))) by (eapply Permutation_in; [symmetry; exact P'|rewrite in_app_iff; auto]).
    destruct (current_of (s_queue s) w) as [c|]; [|exact (HL r0 Hr')].
    assert (Hne : r_id r0 <> r_id c).
    { intros E. rewrite map_app in Hnd. apply NoDup_app_l in Hnd. eapply Permutation_NoDup in Hnd; [|apply Permutation_map; exact P'].
      simpl in Hnd. inversion Hnd as [|? ? Hni _]; subst. apply Hni. rewrite <- E. apply in_map. rewrite in_app_iff. auto. }
    cbn [incr_opt]. change (attempts (incr_fails c (set_reg (reg_remove w (s_reg s)) s)) r0 < limit cfg)%N. rewrite (incr_other _ _ _ Hne). exact (HL r0 Hr').
Qed.
Lemma atoms_low s h ls s' h' : atoms s h ls s' h' -> inv s h -> low s -> low s'.
Proof. induction 1 as [s h|s h l s1 h1 ls s2 h2 Ha _ IH]; intros HI HL; [exact HL|]. apply IH; [eapply atom_inv; eauto|eapply atom_low; eauto]. Qed.

Lemma run_low k tr s : run o cfg k tr s -> low s.
Proof.
  induction 1 as [|tr s m outs s' HR IH Hstep]; [destruct k; intros r []|].
  destruct (on_request_sim _ _ _ _ _ _ (run_inv _ _ _ _ _ HR) Hstep) as (ls & HA & _). exact (atoms_low _ _ _ _ _ HA (run_inv _ _ _ _ _ HR) IH).
Qed.

Lemma creates_one m s s' ls : shape o cfg m s s' ls -> m_key m <> "timer" -> length (created ls) <= 1.
Proof.
  intros Sh Hk. destruct Sh as [ls Hq _|ls Ht _|ls rest _ _ He|pre w0 cur x next rest _ _ Hq _ _|ls rest _ _ Hds].
  - destruct (quiet_stays _ Hq) as (_ & _ & ->). simpl. lia.
  - contradiction.
  - destruct He; simpl; lia.
  - destruct (quiet_stays _ Hq) as (_ & _ & E). unfold created in *. rewrite flat_map_app, E. destruct cur; simpl; lia.
  - destruct Hds as [_|w0 r0 m0 x st _ _ _ _ _|w0 r0 ls _ _ _ _ _ He]; simpl; try lia. destruct He; simpl; lia.
Qed.

Lemma worth_limit att r : worth cfg att r <= N.to_nat (limit cfg).
Proof. unfold worth. lia. Qed.

Lemma total_le {A} (f g : A -> nat) l : (forall a, In a l -> f a <= g a) -> total f l <= total g l.
Proof.
  induction l as [|a l IH]; intros H; [reflexivity|]. change (f a + total f l <= g a + total g l).
  apply Nat.add_le_mono; [apply H; left; reflexivity|]. apply IH. intros b Hb. apply H. right. exact Hb.
Qed.

Lemma nodup_join {A} (l1 l2 : list A) : NoDup l1 -> NoDup l2 -> (forall a, In a l1 -> ~ In a l2) -> NoDup (l1 ++ l2).
Proof.
  intros H1 H2 H. induction H1 as [|a l1 Hn H1 IH]; [exact H2|]. simpl. constructor.
  - rewrite in_app_iff. intros [Hc|Hc]; [exact (Hn Hc)|exact (H a (or_introl eq_refl) Hc)].
  - apply IH. intros b Hb. apply H. right. exact Hb.
Qed.

Theorem tick_count k tr s i d outs s' : run o cfg k tr s -> on_request o cfg (Msg "timer" i d) s = (outs, inr (tt, s')) ->
  length outs <= 2 * (length (s_reg s) - length (s_reg s')) * length (held (s_queue s)).
Proof.
  intros HR H. destruct (tick_reads _ _ _ _ _ _ _ H) as (t & rest & z & -> & Hz).
  destruct (tick_outcome o cfg k tr s i t rest z outs s' HR Hz H) as (rm & att' & HS & _ & HI & HRm & _).
  pose proof (inv_q _ _ (run_inv _ _ _ _ _ HR)) as HQ. pose proof (qi_nodup _ _ HQ) as Hn. destruct (subseq_ids _ _ HS Hn) as (Hn1 & Hi).
  destruct (removals_count cfg (s_reg s) Hn _ _ _ _ _ _ _ HRm Hi (incl_refl _)) as (H1 & _).
  rewrite (Permutation_length (content_held _ _ HQ)).
  assert (HL : length rm + length (s_reg s') <= length (s_reg s)).
  { rewrite <- app_length. apply NoDup_incl_length.
    - assert (HR' : run o cfg k (tr ++ [mkEvent s (Msg "timer" i (t :: rest)) outs s']) s') by (econstructor; eassumption).
      pose proof (qi_nodup _ _ (inv_q _ _ (run_inv _ _ _ _ _ HR'))) as Hn'. unfold ids in Hn1, Hn'. apply NoDup_map_inv in Hn1. apply NoDup_map_inv in Hn'.
      apply nodup_join; [exact Hn1|exact Hn'|]. intros w Hw Hc. apply HI in Hc. tauto.
    - intros w Hw. apply in_app_iff in Hw. destruct Hw as [Hw|Hw]; [apply Hi; exact Hw|apply HI in Hw; tauto]. }
  assert (length rm <= length (s_reg s) - length (s_reg s')) by lia. etransitivity; [exact H1|]. apply Nat.mul_le_mono_r. lia.
Qed.

Lemma single_step tr s m outs s' : run o cfg KSingle tr s -> on_request o cfg m s = (outs, inr (tt, s')) ->
  length outs + 2 * total (worth cfg (attempts s')) (held (s_queue s')) <=
    2 * total (worth cfg (attempts s)) (held (s_queue s)) + (if is_tick (mkEvent s m outs s') then 0 else 3 + 2 * N.to_nat (limit cfg)).
Proof.
  intros HR H. pose proof (run_inv _ _ _ _ _ HR) as HI. pose proof (inv_q _ _ HI) as HQ. pose proof (qi_nodup _ _ HQ) as Hn. unfold is_tick. cbn [ev_in].
  destruct (String.eqb_spec (m_key m) "timer") as [Ek|Ek].
  - destruct m as [mk mi md]. cbn [m_key] in Ek. subst mk. destruct (tick_reads _ _ _ _ _ _ _ H) as (t & rest & z & -> & Hz).
    destruct (tick_outcome o cfg KSingle tr s mi t rest z outs s' HR Hz H) as (rm & att' & HS & _ & Hreg & HRm & Hatt & _).
    destruct (subseq_ids _ _ HS Hn) as (_ & Hi).
    assert (HR' : run o cfg KSingle (tr ++ [mkEvent s (Msg "timer" mi (t :: rest)) outs s']) s') by (econstructor; eassumption).
    assert (Hk : kind_of (s_queue s) = KSingle).
    { pose proof (run_kind o cfg _ _ _ HR) as HK. unfold kind_of. destruct (s_queue s); [reflexivity|destruct HK]. }
    pose proof (content_held _ _ HQ) as P.
    pose proof (removals_single cfg (s_reg s) Hn _ _ _ _ _ _ _ HRm Hi (incl_refl _) Hk) as HS1.
    assert (HS2 : length outs + 2 * total (worth cfg att') (content (s_reg s) (s_queue s')) <= 2 * total (worth cfg (attempts s)) (content (s_reg s) (s_queue s))).
    { apply HS1.
      - pose proof (inv_nodup _ _ HI) as Hnd. rewrite app_nil_r in Hnd. eapply Permutation_NoDup; [apply Permutation_map; exact P|exact Hnd].
      - intros r Hr. apply (run_low _ _ _ HR). eapply Permutation_in; [symmetry; exact P|exact Hr]. }
    rewrite (total_perm _ _ _ P). rewrite (total_ext _ (worth cfg att') (held (s_queue s'))) by (intros r _; unfold worth; rewrite Hatt; reflexivity).
    pose proof (inv_q _ _ (run_inv _ _ _ _ _ HR')) as HQ'. rewrite (total_perm _ _ _ (content_held _ _ HQ')).
    assert (HC : total (worth cfg att') (content (s_reg s') (s_queue s')) <= total (worth cfg att') (content (s_reg s) (s_queue s'))).
    { unfold content. rewrite !total_app. apply Nat.add_le_mono_r.
      assert (HF : forall ws, total (worth cfg att') (flat_map (fun w => olist (current_of (s_queue s') w)) ws) = total (fun w => total (worth cfg att') (olist (current_of (s_queue s') w))) ws).
      { induction ws as [|w ws IH]; [reflexivity|]. cbn [flat_map]. rewrite total_app, IH. reflexivity. }
      rewrite !HF. apply total_mono_sub.
      - pose proof (qi_nodup _ _ HQ') as Hn'. unfold ids in Hn'. apply NoDup_map_inv in Hn'. exact Hn'.
      - intros w Hw. apply Hreg in Hw. tauto. }
    lia.
  - pose proof (each_at_most o cfg m s Ek) as H3. rewrite H in H3. cbn [fst] in H3.
    destruct (on_request_sim _ _ _ _ _ _ HI H) as (ls & HA & _ & Sh). pose proof (creates_one _ _ _ _ Sh Ek) as HC.
    pose proof (atoms_conserve _ _ _ _ _ _ _ HA HI) as P. rewrite !app_nil_r in P. apply (total_perm (worth cfg (attempts s))) in P. rewrite !total_app in P.
    assert (HW : total (worth cfg (attempts s)) (created ls) <= N.to_nat (limit cfg)).
    { destruct (created ls) as [|r [|r' l]]; simpl in *; [lia| |lia]. pose proof (worth_limit (attempts s) r). lia. }
    assert (HD : total (worth cfg (attempts s')) (held (s_queue s')) <= total (worth cfg (attempts s)) (held (s_queue s'))).
    { apply total_le. intros r _. pose proof (atoms_grow _ _ _ _ _ r HA). unfold worth. lia. }
    lia.
Qed.

Theorem single_linear tr s : run o cfg KSingle tr s ->
  (N.of_nat (sent tr) <= (3 + 2 * N.max 1 (c_max_failures cfg)) * N.of_nat (received tr))%N.
Proof.
  intros HR. assert (H : sent tr + 2 * total (worth cfg (attempts s)) (held (s_queue s)) <= (3 + 2 * N.to_nat (limit cfg)) * received tr).
  { induction HR as [|tr s m outs s' HR IH Hstep]; [simpl; lia|]. pose proof (single_step _ _ _ _ _ HR Hstep) as H1.
    unfold sent, received in *. rewrite total_app, list_count_app, list_count_cons, count_nil. cbn [total fold_right ev_out].
    destruct (is_tick (mkEvent s m outs s')); cbn [negb]; lia. }
  unfold limit in H. nia.
Qed.
End WithConfig.
