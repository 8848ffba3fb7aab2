(* The lines change nothing else, and what they are. *)
From Coq Require Import Lia Permutation.
From Verif Require Import Base Bytes Containers Worker Multi Single Queue Handler Logger LogHandler SpecText Spec SpecRun SpecMsg SpecQueue SpecPings
  SpecOutcome SpecJoin SpecTick SpecJournal
  Facts TextFacts QueueInv Atoms Members HandlerSim Provenance HeaderFacts OrderFacts Messages QueueContract QueueOrder WorkConserving Keeps Pings Outcome Joining
  TickOutcome.
Local Open Scope string_scope.
Local Open Scope list_scope.

(* ---- without its lines the logging handler is the handler ---- *)

Definition erases {A} (l : L A) (m : M A) : Prop := forall s, m s = (said (fst (l s)), snd (l s)).

Lemma said_app a b : said (a ++ b) = said a ++ said b.
Proof. apply flat_map_app. Qed.
Lemma said_says l : said (map Say l) = l.
Proof. induction l as [|m l IH]; simpl; [reflexivity|]. f_equal. exact IH. Qed.

Lemma er_bind {A B} (l : L A) (m : M A) (k : A -> L B) (k' : A -> M B) :
  erases l m -> (forall a, erases (k a) (k' a)) -> erases (lbind l k) (bind m k').
Proof.
  intros H1 H2 s. unfold lbind, bind. rewrite H1. destruct (l s) as (o1, [f|(a, s1)]); cbn [fst snd]; [reflexivity|].
  rewrite H2. destruct (k a s1) as (o2, r). cbn [fst snd]. rewrite said_app. reflexivity.
Qed.
Lemma er_plain {A} (m : M A) : erases (plain m) m.
Proof. intros s. unfold plain. destruct (m s) as (outs, r). cbn [fst snd]. rewrite said_says. reflexivity. Qed.
Lemma er_ret {A} (a : A) : erases (lret a) (ret a). Proof. intros s. reflexivity. Qed.
Lemma er_log lv f a : erases (log lv f a) (ret tt). Proof. intros s. reflexivity. Qed.
Lemma er_log_first {B} lv f a (k : L B) (m : M B) : erases k m -> erases (lbind (log lv f a) (fun _ => k)) m.
Proof. intros H s. rewrite H. unfold lbind, log. destruct (k s) as (o2, r). reflexivity. Qed.
Lemma er_log_last lv f a (k : L unit) (m : M unit) : erases k m -> erases (lbind k (fun _ => log lv f a)) m.
Proof.
  intros H s. rewrite H. unfold lbind, log. destruct (k s) as (o1, [e|([], s1)]); cbn [fst snd]; [reflexivity|].
  rewrite said_app. simpl. rewrite app_nil_r. reflexivity.
Qed.
Lemma er_get {B} (k : state -> L B) (m : M B) : (forall s, erases (k s) m) -> erases (lbind (plain get) k) m.
Proof. intros H s. rewrite (H s). unfold lbind, plain, get. cbn [map]. destruct (k s s) as (o2, r). reflexivity. Qed.
Lemma er_lines hs : forall s, exists l, reject_lines hs s = (l, inr (tt, s)) /\ said l = [].
Proof.
  induction hs as [|(k, v) hs IH]; intros s; simpl; [exists []; auto|]. destruct (IH s) as (l & E & S).
  unfold lbind, log. rewrite E. eexists. split; [reflexivity|exact S].
Qed.
Lemma er_lines_first {B} hs (k : L B) (m : M B) : erases k m -> erases (lbind (reject_lines hs) (fun _ => k)) m.
Proof.
  intros H s. rewrite H. unfold lbind. destruct (er_lines hs s) as (l & -> & S). destruct (k s) as (o2, r). cbn [fst snd]. rewrite said_app, S. reflexivity.
Qed.

Ltac er1 :=
  first
  [ apply er_plain | apply er_ret | apply er_log
  | apply er_log_first | apply er_lines_first
  | apply er_bind; [|intros ?]
  | apply er_log_last
  | match goal with |- erases (match ?x with _ => _ end) _ => destruct x eqn:?; cbv beta iota end ].

Section WithConfig.
Context (o : oracle) (cfg : config).

Lemma er_send w r : erases (send_request_log w r) (send_request w r).
Proof. apply er_log_last. apply er_plain. Qed.
Lemma er_send_if w x : erases (send_if_log w x) (send_if w x).
Proof. destruct x; [apply er_send|apply er_ret]. Qed.

Lemma er_reassign r : erases (reassign_request_log o r) (reassign_request o r).
Proof.
  unfold reassign_request_log, reassign_request. apply er_get. intros s. apply er_log_first. repeat (apply er_send || er1).
Qed.

Lemma er_eval i d : erases (process_client_eval_log o i d) (process_client_eval o i d).
Proof.
  unfold process_client_eval_log, process_client_eval. repeat (apply er_send || er1).
Qed.
Lemma er_init i d : erases (process_worker_init_log o i d) (process_worker_init o i d).
Proof.
  unfold process_worker_init_log, process_worker_init. repeat (er1 || apply er_send_if).
Qed.
Lemma er_finish w : erases (lbind (plain (queue_call (q_get_current w))) (fun now => match now with None => log LDebug " - worker {} is now free" [get_description w] | Some _ => lret tt end))
  (bind (queue_call (q_get_current w)) (fun _ => ret tt)).
Proof. repeat er1. Qed.
Lemma er_done i d : erases (process_worker_done_log o cfg i d) (process_worker_done o cfg i d).
Proof.
  unfold process_worker_done_log, process_worker_done. cbv zeta. repeat (apply er_finish || er1 || apply er_send_if || apply er_reassign).
Qed.
Lemma er_expire_requests rs : erases (expire_requests_log o cfg rs) (expire_requests o cfg rs).
Proof. induction rs as [|r rs IH]; simpl; repeat (exact IH || apply er_reassign || er1). Qed.
Lemma er_expire_workers ws : erases (expire_workers_log o cfg ws) (expire_workers o cfg ws).
Proof. induction ws as [|w ws IH]; simpl; repeat (exact IH || apply er_expire_requests || er1). Qed.
Lemma er_timer m : erases (process_timer_log o cfg m) (process_timer o cfg m).
Proof. unfold process_timer_log, process_timer. repeat (apply er_expire_workers || er1). Qed.

Theorem erased m : erases (on_request_log o cfg m) (on_request o cfg m).
Proof.
  unfold on_request_log, on_request, when_log, when. apply er_bind; [|intros _; apply er_bind; [|intros _]].
  - destruct (String.eqb _ _); [|apply er_ret]. apply er_bind; [apply er_plain|intros s]. apply er_bind; [apply er_plain|intros _].
    apply er_bind; [apply er_plain|intros c]. unfold call_function_log, call_function, worker_commands_log, worker_commands. cbn [sm_find].
    repeat (destruct (String.eqb _ _); [first [apply er_init|apply er_done|apply er_plain]|]). apply er_ret.
  - destruct (String.eqb _ _); [|apply er_ret]. apply er_bind; [apply er_plain|intros c].
    unfold call_function_log, call_function, client_commands_log, client_commands. cbn [sm_find].
    destruct (String.eqb _ _); [apply er_eval|]. destruct (String.eqb _ _); [apply er_log_first; apply er_plain|].
    destruct (String.eqb _ _); [unfold process_client_freeze_log, process_client_freeze; repeat er1|].
    destruct (String.eqb _ _); [unfold process_client_unfreeze_log, process_client_unfreeze; repeat er1|]. apply er_ret.
  - destruct (String.eqb _ _); [apply er_timer|apply er_ret].
Qed.

(* ---- inversion ---- *)

Lemma lbind_inv {A B} (m : L A) (k : A -> L B) s outs b s' : lbind m k s = (outs, inr (b, s')) ->
  exists o1 a s1 o2, m s = (o1, inr (a, s1)) /\ k a s1 = (o2, inr (b, s')) /\ outs = o1 ++ o2.
Proof.
  unfold lbind. destruct (m s) as (o1, [f|(a, s1)]); [discriminate|]. destruct (k a s1) as (o2, r) eqn:E. intros [= <- ->]. eauto 10.
Qed.
Lemma plain_inv {A} (m : M A) s outs (b : A) s' : plain m s = (outs, inr (b, s')) -> exists o1, m s = (o1, inr (b, s')) /\ outs = map Say o1.
Proof. unfold plain. destruct (m s) as (o1, r). intros [= <- ->]. eauto. Qed.
Lemma log_inv lv f a s outs b s' : log lv f a s = (outs, inr (b, s')) -> outs = [Line lv f a] /\ s' = s.
Proof. unfold log. intros [= <- <- <-]. auto. Qed.
Lemma lret_inv {A} (a : A) s outs b s' : lret a s = (outs, inr (b, s')) -> outs = [] /\ b = a /\ s' = s.
Proof. unfold lret. intros [= <- <- <-]. auto. Qed.

(* forward *)
Lemma log_step {B} lv f a (k : L B) s : lbind (log lv f a) (fun _ => k) s = (Line lv f a :: fst (k s), snd (k s)).
Proof. unfold lbind, log. destruct (k s) as (o2, r). reflexivity. Qed.

Lemma when_last (l : L unit) s : lbind l (fun _ => lbind (lret tt) (fun _ => lret tt)) s = l s.
Proof. unfold lbind, lret. destruct (l s) as (o1, [f|([], s1)]); [reflexivity|]. rewrite app_nil_r. reflexivity. Qed.

Lemma worker_record i c rest s : on_request_log o cfg (Msg "workers" i (c :: rest)) s =
  call_function_log (worker_commands_log o cfg) c i (c :: rest) (refresh cfg i s).
Proof.
  unfold on_request_log. cbn [m_key m_ident m_data]. change (String.eqb "workers" KEY_WORKERS) with true.
  change (String.eqb "workers" KEY_CLIENTS) with false. change (String.eqb "workers" KEY_TIMER) with false. unfold when_log. rewrite when_last.
  unfold lbind at 1, plain at 1, get. cbn [map]. unfold refresh. unfold lbind at 1, plain at 1.
  destruct (find_worker_by_identity i (s_reg s)) as [w|]; cbn; destruct (call_function_log _ _ _ _ _) as (x, y); reflexivity.
Qed.
Lemma client_record i c rest s : on_request_log o cfg (Msg "clients" i (c :: rest)) s =
  call_function_log (client_commands_log o) c i (c :: rest) s.
Proof.
  unfold on_request_log. cbn [m_key m_ident m_data]. change (String.eqb "clients" KEY_WORKERS) with false.
  change (String.eqb "clients" KEY_CLIENTS) with true. change (String.eqb "clients" KEY_TIMER) with false. unfold when_log.
  unfold lbind at 1, lret at 1. cbn [at_ nth_error]. unfold lbind, plain, ret, lret. cbn [map app].
  destruct (call_function_log _ _ _ _ _) as (x, [f|([], s1)]); [reflexivity|]. rewrite app_nil_r. reflexivity.
Qed.
Lemma timer_record i d s : on_request_log o cfg (Msg "timer" i d) s = process_timer_log o cfg (Msg "timer" i d) s.
Proof.
  unfold on_request_log. cbn [m_key m_ident m_data]. change (String.eqb "timer" KEY_WORKERS) with false.
  change (String.eqb "timer" KEY_CLIENTS) with false. change (String.eqb "timer" KEY_TIMER) with true. unfold when_log.
  unfold lbind, lret. cbn [app]. destruct (process_timer_log _ _ _ _) as (x, y). reflexivity.
Qed.
End WithConfig.

Ltac linv1 H :=
  match type of H with
  | lbind _ _ _ = (_, inr _) =>
      let o1 := fresh "o" in let a := fresh "x" in let s1 := fresh "s" in let o2 := fresh "o" in
      let H1 := fresh "Hm" in let H2 := fresh "Hk" in let E := fresh "Eo" in
      apply lbind_inv in H; destruct H as (o1 & a & s1 & o2 & H1 & H2 & E); subst
  | plain _ _ = _ => let o1 := fresh "o" in let E := fresh "Eo" in apply plain_inv in H; destruct H as (o1 & H & E); subst
  | log _ _ _ _ = _ => apply log_inv in H; destruct H as (? & ?); subst
  | lret _ _ = _ => apply lret_inv in H; destruct H as (? & ? & ?); subst
  end.
Ltac linv :=
  repeat (match goal with
  | H : lbind _ _ _ = (_, inr _) |- _ => linv1 H; cbv beta zeta in *
  | H : plain _ _ = (_, inr _) |- _ => linv1 H
  | H : log _ _ _ _ = (_, inr _) |- _ => linv1 H
  | H : lret _ _ = (_, inr _) |- _ => linv1 H
  end || minv).

Lemma log_then {A} lv f a (k : unit -> L A) s l x : lbind (log lv f a) k s = (l, x) -> exists l', k tt s = (l', x) /\ l = Line lv f a :: l'.
Proof. unfold lbind, log. destruct (k tt s) as (l', y). intros [= <- <-]. eauto. Qed.
Lemma sent_log w r s : send_request_log w r s = (sent w r, inr (tt, s)).
Proof. unfold send_request_log, lbind, plain, send_request, respond, log, sent, handover. rewrite shown_description. reflexivity. Qed.
Lemma sent_if_log w x s : send_if_log w x s = (flat_map (sent w) (olist x), inr (tt, s)).
Proof. destruct x as [r|]; [|reflexivity]. simpl olist. cbn [send_if_log flat_map]. rewrite sent_log, app_nil_r. reflexivity. Qed.

Section Steps.
Context (o : oracle) (cfg : config).
Local Notation refresh := (refresh cfg).

Lemma enqueue_fact m ws r y m' : used o m ws -> r_complete r = true -> q_enqueue_request o r m = Val (y, m') ->
  used o m' ws /\
  match assigned_to y, enqueued y with
  | Some w, true => In w ws /\ fits w r /\ current_of m w = None /\ now_has m m' w (Some r)
  | None, true => (exists w, In w ws /\ fits w r) /\ In r (queued m') /\ forall w, current_of m' w = current_of m w
  | None, false => m' = m /\ forall w, In w ws -> ~ fits w r
  | Some _, false => False
  end.
Proof.
  intros HU Hc E. split; [exact (us_enqueue o _ _ _ _ _ HU Hc E)|]. destruct (used_inv o _ _ HU) as (HI & HB).
  destruct (q_enqueue_spec o _ _ _ _ _ HI Hc E) as (_ & HE).
  destruct y as [[w|] [|]]; cbn [assigned_to enqueued]; try (destruct HE; fail).
  - destruct HE as (Hw & Hi & Hcap & Hu & Hq). apply (fits_capable w r (HB w Hw)) in Hcap. split; [exact Hw|]. split; [exact Hcap|]. split; [exact Hi|]. apply upd_now. exact Hu.
  - destruct HE as ((w & Hw & Hcap) & Hu & Hq). apply (fits_capable w r (HB w Hw)) in Hcap. split; [eauto|]. split; [|exact Hu].
    eapply Permutation_in; [symmetry; exact Hq|]. left. reflexivity.
  - destruct HE as (-> & Hno). split; [reflexivity|]. intros w Hw Hf. apply (fits_capable w r (HB w Hw)) in Hf. unfold capable in Hf. rewrite (Hno w Hw) in Hf. discriminate.
Qed.

(* the last step of a done message *)
Lemma finish_log w s ws outs s' : used o (s_queue s) ws -> In w ws ->
  lbind (plain (queue_call (q_get_current w))) (fun now => match now with None => log LDebug " - worker {} is now free" [get_description w] | Some _ => lret tt end) s
    = (outs, inr (tt, s')) -> outs = free s w /\ s' = s.
Proof.
  intros HU Hw H. apply lbind_inv in H. destruct H as (o1 & now & s1 & o2 & H1 & H & ->). apply plain_inv in H1. destruct H1 as (o3 & H1 & ->).
  apply queue_call_inv in H1. destruct H1 as (m & -> & E & ->). rewrite (current_contract o _ _ _ HU Hw) in E. injection E as <- <-.
  rewrite set_queue_id in H. unfold free. rewrite <- shown_description. destruct (current_of (s_queue s) w).
  - apply lret_inv in H. destruct H as (-> & _ & ->). auto.
  - apply log_inv in H. destruct H as (-> & ->). auto.
Qed.

Lemma journal_done k tr s i rest l s' : run o cfg k tr s ->
  process_worker_done_log o cfg i ("done" :: rest) (refresh i s) = (l, inr (tt, s')) ->
  journal cfg s s' (Msg "workers" i ("done" :: rest)) l.
Proof.
  intros HR H. unfold process_worker_done_log in H. apply log_then in H. destruct H as (l0 & H & ->).
  apply lbind_inv in H. destruct H as (? & s1 & s2 & l2 & H1 & H & ->). apply plain_inv in H1. destruct H1 as (? & H1 & ->). apply get_inv in H1. destruct H1 as (-> & -> & ->).
  cbn [map app]. rewrite refresh_reg, <- sender_find in H. destruct (sender i s) as [w|] eqn:HS.
  2: { apply log_inv in H. destruct H as (-> & ->). exact (jo_done_unknown cfg s _ i rest HS). }
  destruct (Nat.ltb_spec (length ("done" :: rest)) 3) as [Hl|Hl].
  { apply log_inv in H. destruct H as (-> & ->). rewrite shown_description. apply (jo_done_short cfg s _ i rest w HS). simpl in Hl. lia. }
  destruct rest as [|j [|st rest]]; [simpl in Hl; lia|simpl in Hl; lia|]. clear Hl.
  set (s0 := refresh i s) in *.
  assert (Hw : In w (s_reg s)) by (rewrite sender_find in HS; exact (proj1 (find_by_identity_in _ _ _ HS))).
  assert (HU : used o (s_queue s0) (s_reg s)) by (unfold s0; rewrite refresh_queue; exact (run_used o cfg k tr s HR)).
  assert (EQ : s_queue s0 = s_queue s) by apply refresh_queue.
  apply lbind_inv in H. destruct H as (? & cur & s1 & l1 & H1 & H & ->). apply plain_inv in H1. destruct H1 as (? & H1 & ->).
  apply queue_call_inv in H1. destruct H1 as (m & -> & E & ->). rewrite (current_contract o _ _ _ HU Hw) in E. injection E as <- <-. rewrite set_queue_id in H.
  rewrite EQ in H. destruct (current_of (s_queue s) w) as [r|] eqn:HC; [|linv].
  apply lbind_inv in H. destruct H as (? & j1 & s1 & l2 & H1 & H & ->). apply plain_inv in H1. destruct H1 as (? & H1 & ->). apply at_inv in H1. destruct H1 as (-> & [= <-] & ->).
  cbn [map app]. destruct (String.eqb_spec j (r_job r)) as [->|Hj]; cbn [negb] in H.
  2: { apply log_inv in H. destruct H as (-> & ->). rewrite shown_description. exact (jo_done_other cfg s _ i j st rest w r HS HC Hj). }
  apply lbind_inv in H. destruct H as (? & st1 & s1 & l1 & H1 & H & ->). apply plain_inv in H1. destruct H1 as (? & H1 & ->). apply at_inv in H1. destruct H1 as (-> & [= <-] & ->).
  cbn [map app]. cbv zeta in H.
  destruct (String.eqb_spec st "OK") as [->|N1].
  { apply lbind_inv in H. destruct H as (? & [] & s1 & l2 & H1 & H & ->). apply plain_inv in H1. destruct H1 as (? & H1 & ->). unfold job_done in H1. apply respond_inv in H1. destruct H1 as (-> & _ & ->).
    apply lbind_inv in H. destruct H as (? & x & s1 & l1 & H1 & H & ->). apply plain_inv in H1. destruct H1 as (? & H1 & ->). apply queue_call_inv in H1. destruct H1 as (m' & -> & E & ->).
    destruct (finished_contract o (s_queue s0) (s_reg s) w HU Hw) as (x' & m'' & E' & HU' & HN & HO). rewrite E in E'. injection E' as <- <-.
    apply lbind_inv in H. destruct H as (? & [] & s1 & l2 & H1 & H & ->). rewrite sent_if_log in H1. injection H1 as <- <-.
    apply lbind_inv in H. destruct H as (? & [] & s1 & l1 & H1 & H & ->). apply plain_inv in H1. destruct H1 as (? & H1 & ->). unfold stat_incr in H1. apply modify_inv in H1. destruct H1 as (-> & _ & ->).
    apply (finish_log w _ (s_reg s)) in H; [|exact HU'|exact Hw]. destruct H as (-> & ->).
    cbn [map app]. apply (jo_done_ok cfg s _ i rest w r x HS HC). cbn [set_stats set_queue s_queue]. exact (proj1 HN). }
  destruct (String.eqb_spec st "INTERNAL_ERROR") as [->|N2].
  { destruct (Nat.eqb_spec (length ("done" :: r_job r :: "INTERNAL_ERROR" :: rest)) 4) as [Hl|Hl]; cbn [negb] in H.
    2: { apply log_inv in H. destruct H as (-> & ->). rewrite shown_description. apply (jo_done_frames_error cfg s _ i rest w r HS HC). simpl in Hl. lia. }
    destruct rest as [|text [|? ?]]; [discriminate| |discriminate]. clear Hl.
    apply lbind_inv in H. destruct H as (? & y & s1 & l2 & H1 & H & ->). apply plain_inv in H1. destruct H1 as (? & H1 & ->). apply queue_call_inv in H1. destruct H1 as (m1 & -> & E & ->).
    destruct (cancelled_contract o (s_queue s0) (s_reg s) w HU Hw) as (m1' & E' & HU1 & HN1 & HQ1). rewrite E in E'. injection E' as -> <-. rewrite EQ, HC in H.
    apply lbind_inv in H. destruct H as (? & [] & s1 & l1 & H1 & H & ->). apply plain_inv in H1. destruct H1 as (? & H1 & ->). unfold failures_incr in H1. apply modify_inv in H1. destruct H1 as (-> & _ & ->).
    apply lbind_inv in H. destruct H as (? & text1 & s1 & l2 & H1 & H & ->). apply plain_inv in H1. destruct H1 as (? & H1 & ->). apply at_inv in H1. destruct H1 as (-> & [= <-] & ->).
    cbn [map app]. apply lbind_inv in H. destruct H as (l1 & [] & s1 & l3 & HB & H & ->).
    assert (HF : failures r (set_fails (tbl_set (r_id r) (failures r (set_queue m1 s0) + 1)%N (s_fails (set_queue m1 s0))) (set_queue m1 s0)) = (attempts s r + 1)%N)
      by apply failures_now.
    set (s2 := set_fails _ _) in *.
    apply lbind_inv in H. destruct H as (? & [] & s3 & l4 & H1 & H & ->). apply plain_inv in H1. destruct H1 as (? & H1 & ->). unfold stat_incr in H1. apply modify_inv in H1. destruct H1 as (-> & _ & ->).
    cbn [map app]. destruct (r_complete r) eqn:Hcm; cbn [negb] in HB.
    - apply lbind_inv in HB. destruct HB as (? & b & s3 & l5 & H1 & HB & ->). apply plain_inv in H1. destruct H1 as (? & H1 & ->). rewrite too_many, HF in H1.
      destruct (N.leb_spec (c_max_failures cfg) (attempts s r + 1)) as [Hle|Hlt]; injection H1 as <- <- <-.
      + apply lbind_inv in HB. destruct HB as (? & x & s3 & l6 & H1 & HB & ->). apply plain_inv in H1. destruct H1 as (? & H1 & ->). apply queue_call_inv in H1. destruct H1 as (m2 & -> & E2 & ->).
        destruct (assign_contract o m1 (s_reg s) w HU1 Hw (proj1 HN1)) as (x' & m2' & E2' & HU2 & HN2 & HO2).
        assert (E3 : Val (x, m2) = Val (x', m2')) by (rewrite <- E2, <- E2'; reflexivity). injection E3 as <- <-.
        rewrite sent_if_log in HB. injection HB as <- <-.
        apply (finish_log w _ (s_reg s)) in H; [|exact HU2|exact Hw]. destruct H as (-> & ->).
        assert (one_less (attempts s r + 1) = attempts s r) as -> by (unfold one_less; destruct (N.eqb_spec (attempts s r + 1) 0); lia).
        cbn [map app]. apply (jo_done_last cfg s _ i text w r x HS HC Hcm Hle). cbn [set_stats set_queue s_queue]. exact (proj1 HN2).
      + apply lbind_inv in HB. destruct HB as (l6 & b & s3 & l7 & H1 & HB & ->). apply lret_inv in HB. destruct HB as (-> & _ & ->).
        unfold reassign_request_log in H1. apply lbind_inv in H1. destruct H1 as (? & s4 & s5 & l8 & H2 & H1 & ->). apply plain_inv in H2. destruct H2 as (? & H2 & ->). apply get_inv in H2. destruct H2 as (-> & -> & ->).
        apply log_then in H1. destruct H1 as (l00 & H1 & ->). rewrite HF.
        apply lbind_inv in H1. destruct H1 as (? & y & s4 & l8 & H2 & H1 & ->). apply plain_inv in H2. destruct H2 as (? & H2 & ->). apply queue_call_inv in H2. destruct H2 as (m2 & -> & E2 & ->).
        change (s_queue s2) with m1 in E2. destruct (enqueue_fact m1 (s_reg s) r y m2 HU1 Hcm E2) as (HU2 & HE).
        destruct (used_inv o _ _ (run_used o cfg k tr s HR)) as (HV & HBd).
        assert (HFit : fits w r) by (apply (proj1 (fits_capable w r (HBd w Hw))); exact (qi_current _ _ HV w r Hw HC Hcm)).
        destruct y as [[w'|] [|]]; cbn [assigned_to enqueued negb] in *; try (destruct HE; fail).
        * apply lbind_inv in H1. destruct H1 as (? & [] & s4 & l9 & H2 & H1 & ->). rewrite sent_log in H2. injection H2 as <- <-. apply lret_inv in H1. destruct H1 as (-> & -> & ->).
          apply (finish_log w _ (s_reg s)) in H; [|exact HU2|exact Hw]. destruct H as (-> & ->). cbn [map app]. destruct HE as (Hw' & Hf' & _ & HN2).
          refine (jo_done_again cfg s _ i text w r (Some w') HS HC Hcm Hlt _). cbn [set_stats set_queue s_queue]. split; [exact Hw'|]. split; [exact Hf'|exact (proj1 HN2)].
        * apply lbind_inv in H1. destruct H1 as (? & [] & s4 & l9 & H2 & H1 & ->). apply log_inv in H2. destruct H2 as (-> & ->). apply lret_inv in H1. destruct H1 as (-> & -> & ->).
          apply (finish_log w _ (s_reg s)) in H; [|exact HU2|exact Hw]. destruct H as (-> & ->). cbn [map app]. destruct HE as (_ & Hq & Hcur).
          refine (jo_done_again cfg s _ i text w r None HS HC Hcm Hlt _). cbn [set_stats set_queue s_queue]. split; [exact Hq|]. rewrite Hcur. exact (proj1 HN1).
        * destruct HE as (_ & Hno). destruct (Hno w Hw HFit).
    - apply plain_inv in HB. destruct HB as (? & HB & ->). unfold rejected_job in HB. apply respond_inv in HB. destruct HB as (-> & _ & ->).
      apply (finish_log w _ (s_reg s)) in H; [|exact HU1|exact Hw]. destruct H as (-> & ->). cbn [map app].
      refine (jo_done_announced cfg s _ i text w r HS HC Hcm _). exact (proj1 HN1). }
  destruct (String.eqb_spec st "FAILED") as [->|N3].
  { destruct (Nat.eqb_spec (length ("done" :: r_job r :: "FAILED" :: rest)) 4) as [Hl|Hl]; cbn [negb] in H.
    2: { apply log_inv in H. destruct H as (-> & ->). rewrite shown_description. apply (jo_done_frames_failed cfg s _ i rest w r HS HC). simpl in Hl. lia. }
    destruct rest as [|text [|? ?]]; [discriminate| |discriminate]. clear Hl.
    apply lbind_inv in H. destruct H as (? & text1 & s1 & l2 & H1 & H & ->). apply plain_inv in H1. destruct H1 as (? & H1 & ->). apply at_inv in H1. destruct H1 as (-> & [= <-] & ->).
    apply lbind_inv in H. destruct H as (? & [] & s1 & l1 & H1 & H & ->). apply plain_inv in H1. destruct H1 as (? & H1 & ->). unfold job_failed in H1. apply respond_inv in H1. destruct H1 as (-> & _ & ->).
    apply lbind_inv in H. destruct H as (? & y & s1 & l2 & H1 & H & ->). apply plain_inv in H1. destruct H1 as (? & H1 & ->). apply queue_call_inv in H1. destruct H1 as (m1 & -> & E & ->).
    destruct (cancelled_contract o (s_queue s0) (s_reg s) w HU Hw) as (m1' & E' & HU1 & HN1 & HQ1). rewrite E in E'. injection E' as -> <-. rewrite EQ, HC in H.
    apply lbind_inv in H. destruct H as (? & [] & s1 & l1 & H1 & H & ->). apply plain_inv in H1. destruct H1 as (? & H1 & ->). unfold failures_incr in H1. apply modify_inv in H1. destruct H1 as (-> & _ & ->).
    apply lbind_inv in H. destruct H as (? & x & s3 & l6 & H1 & H & ->). apply plain_inv in H1. destruct H1 as (? & H1 & ->). apply queue_call_inv in H1. destruct H1 as (m2 & -> & E2 & ->).
    destruct (assign_contract o m1 (s_reg s) w HU1 Hw (proj1 HN1)) as (x' & m2' & E2' & HU2 & HN2 & HO2).
    assert (E3 : Val (x, m2) = Val (x', m2')) by (rewrite <- E2, <- E2'; reflexivity). injection E3 as <- <-.
    apply lbind_inv in H. destruct H as (? & [] & s1 & l2 & H1 & H & ->). rewrite sent_if_log in H1. injection H1 as <- <-.
    apply lbind_inv in H. destruct H as (? & [] & s1 & l1 & H1 & H & ->). apply plain_inv in H1. destruct H1 as (? & H1 & ->). unfold stat_incr in H1. apply modify_inv in H1. destruct H1 as (-> & _ & ->).
    apply (finish_log w _ (s_reg s)) in H; [|exact HU2|exact Hw]. destruct H as (-> & ->).
    cbn [map app]. apply (jo_done_failed cfg s _ i text w r x HS HC). cbn [set_stats set_queue s_queue]. exact (proj1 HN2). }
  apply log_then in H. destruct H as (l00 & E3 & ->).
  apply (finish_log w _ (s_reg s)) in E3; [|exact HU|exact Hw]. destruct E3 as (-> & ->). unfold free. rewrite EQ, HC, shown_description.
  apply (jo_done_status cfg s _ i st rest w r HS HC). simpl. intros [?|[?|[?|[]]]]; congruence.
Qed.

Lemma store_length hdrs : forall h md, length (fst (store hdrs h md)) <= length hdrs + length h.
Proof.
  assert (HE : forall k v (m : mmap string), length (mm_emplace k v m) = S (length m)).
  { intros k v m. induction m as [|(k', v') m IH]; simpl; [reflexivity|]. destruct (String.ltb k k'); simpl; auto. }
  induction hdrs as [|f t IH]; intros h md; simpl; [lia|]. destruct (split_header f) as (k, v). destruct (is_meta k).
  - specialize (IH h (sm_emplace (str_drop 5 k) v md)). eapply Nat.le_trans; [apply IH|]. lia.
  - eapply Nat.le_trans; [apply IH|]. rewrite HE. lia.
Qed.
Lemma store_listed need : laid_out need (fst (store need [] [])).
Proof.
  split; [exact (store_ordered need [] [] ordered_nil)|]. split; [pose proof (store_length need [] []) as HL; simpl in HL; lia|]. intros h. split.
  - intros (m & Hm) Hin. apply in_map_iff in Hin. destruct Hin as ((h', v) & E & Hin). simpl in E. subst h'.
    apply (store_headers_in need [] [] h v) in Hin. destruct Hin as [[]|(f & _ & _ & Hn)]. exact (Hn m Hm).
  - intros Hn. destruct (values_ex h need) as (vs & Hv). pose proof (store_range h need Hn [] [] vs ordered_nil Hv) as E.
    unfold mm_equal_range at 1 in E. rewrite E. exact Hv.
Qed.
Lemma reject_lines_log l s : reject_lines l s = (map (fun p => Line LErr " - {}: {}" [fst p; snd p]) l, inr (tt, s)).
Proof. induction l as [|(h, v) l IH]; [reflexivity|]. cbn [reject_lines map fst snd]. unfold lbind, log. rewrite IH. reflexivity. Qed.

Lemma journal_eval k tr s i rest l s' : run o cfg k tr s ->
  process_client_eval_log o i ("eval" :: rest) s = (l, inr (tt, s')) -> journal cfg s s' (Msg "clients" i ("eval" :: rest)) l.
Proof.
  intros HR H. unfold process_client_eval_log in H. apply log_then in H. destruct H as (l0 & H & ->).
  apply lbind_inv in H. destruct H as (? & [] & s1 & l1 & H1 & H & ->). apply plain_inv in H1. destruct H1 as (? & H1 & ->). apply respond_inv in H1. destruct H1 as (-> & _ & ->).
  apply lbind_inv in H. destruct H as (? & job & s1 & l2 & H1 & H & ->). apply plain_inv in H1. destruct H1 as (? & H1 & ->). apply at_inv in H1. destruct H1 as (-> & Ej & ->).
  destruct rest as [|j frames]; [discriminate|]. injection Ej as <-.
  apply lbind_inv in H. destruct H as (? & parsed & s1 & l1 & H1 & H & ->). apply plain_inv in H1. destruct H1 as (? & H1 & ->). apply lift_inv in H1. destruct H1 as (-> & Ep & ->).
  cbn [skipn] in Ep. cbn [map app]. destruct (block_dec frames) as [(need & payload & HB)|HB].
  2: { destruct frames as [|f0 frames]; [discriminate|]. rewrite parse_eval_no_block in Ep by (discriminate || exact HB). injection Ep as <-.
       apply log_inv in H. destruct H as (-> & ->). exact (jo_eval_broken cfg s _ i j _ HB). }
  rewrite (parse_eval_block _ _ _ _ _ HB) in Ep. destruct (store need [] []) as (reqs, md) eqn:Es. injection Ep as <-.
  assert (HH : forall h v, In (h, v) reqs <-> requires need h v).
  { intros h v. pose proof (store_headers_in need [] [] h v) as E. rewrite Es in E. simpl in E. tauto. }
  assert (HM : forall m x, sm_find m md = Some x <-> first_meta m need x).
  { intros m x. pose proof (store_meta need [] [] m x) as E. rewrite Es in E. simpl in E. rewrite E. split; [|auto]. intros [|]; [discriminate|tauto]. }
  apply lbind_inv in H. destruct H as (? & s1 & s2 & l2 & H1 & H & ->). apply plain_inv in H1. destruct H1 as (? & H1 & ->). apply get_inv in H1. destruct H1 as (-> & -> & ->).
  cbn [map app]. destruct (s_frozen s) eqn:HZ.
  { apply lbind_inv in H. destruct H as (? & [] & s1 & l3 & H1 & H & ->). apply plain_inv in H1. destruct H1 as (? & H1 & ->). apply respond_inv in H1. destruct H1 as (-> & _ & ->).
    apply log_inv in H. destruct H as (-> & ->). apply jo_eval_frozen; [|exact HZ]. destruct HB as (-> & _). apply in_or_app. right. left. reflexivity. }
  apply log_then in H. destruct H as (l3 & H & ->). cbv zeta in H.
  set (r := complete_request (s_next_r s) reqs md j payload) in *.
  assert (HF : request_for s j need payload r).
  { split; [reflexivity|]. split; [exact (inv_f _ _ (run_inv _ _ _ _ _ HR) _ (le_n _))|]. split; [reflexivity|]. split; [reflexivity|]. split; [reflexivity|]. split; [exact HH|exact HM]. }
  apply lbind_inv in H. destruct H as (? & [] & s1 & l1 & H1 & H & ->). apply plain_inv in H1. destruct H1 as (? & H1 & ->). apply modify_inv in H1. destruct H1 as (-> & _ & ->).
  apply lbind_inv in H. destruct H as (? & y & s1 & l3 & H1 & H & ->). apply plain_inv in H1. destruct H1 as (? & H1 & ->). apply queue_call_inv in H1. destruct H1 as (m' & -> & E & ->).
  cbn [set_next_r s_queue] in E. destruct (enqueue_fact (s_queue s) (s_reg s) r y m' (run_used o cfg k tr s HR) eq_refl E) as (_ & HE).
  cbn [map app]. destruct y as [[w|] [|]]; cbn [assigned_to enqueued] in *; try (destruct HE; fail).
  - apply lbind_inv in H. destruct H as (? & [] & s1 & l4 & H1 & H & ->). rewrite sent_log in H1. injection H1 as <- <-.
    apply plain_inv in H. destruct H as (? & H & ->). apply respond_inv in H. destruct H as (-> & _ & ->).
    destruct HE as (Hw & Hf & Hi & _). exact (jo_eval_sent cfg s _ i j frames need payload w r HB HZ HF Hw Hf Hi).
  - apply lbind_inv in H. destruct H as (? & [] & s1 & l4 & H1 & H & ->). apply log_inv in H1. destruct H1 as (-> & ->).
    apply plain_inv in H. destruct H as (? & H & ->). apply respond_inv in H. destruct H as (-> & _ & ->).
    destruct HE as ((w & Hw & Hf) & Hq & _). refine (jo_eval_queued cfg s _ i j frames need payload w r HB HZ HF Hw Hf _). exact Hq.
  - apply log_then in H. destruct H as (l4 & H & ->).
    apply lbind_inv in H. destruct H as (? & [] & s1 & l5 & H1 & H & ->). rewrite reject_lines_log in H1. injection H1 as <- <-.
    apply lbind_inv in H. destruct H as (? & [] & s1 & l4 & H1 & H & ->). apply plain_inv in H1. destruct H1 as (? & H1 & ->). apply respond_inv in H1. destruct H1 as (-> & _ & ->).
    apply plain_inv in H. destruct H as (? & H & ->). unfold notify_monitor in H. apply respond_inv in H. destruct H as (-> & _ & ->).
    destruct HE as (_ & Hno). assert (HLs : laid_out need (r_headers r)) by (pose proof (store_listed need) as HLs; rewrite Es in HLs; exact HLs). pose proof (jo_eval_rejected cfg s (set_queue m' (set_next_r (S (s_next_r s)) s)) i j frames need payload r HB HZ HF Hno HLs) as J.
    rewrite reject_text_concat. cbn [r_headers r complete_request] in J.
    assert (HC : forall a t, String.concat "" (a :: t) = (a ++ String.concat "" t)%string).
    { intros a [|b t]; simpl; [rewrite append_nil_r; reflexivity|reflexivity]. }
    rewrite HC in J. exact J.
Qed.

Lemma spaced_concat l : spaced l = String.concat "" (map (fun f => f ++ " ")%string l).
Proof.
  assert (HC : forall a t, String.concat "" (a :: t) = (a ++ String.concat "" t)%string).
  { intros a [|b t]; simpl; [rewrite append_nil_r; reflexivity|reflexivity]. }
  induction l as [|f l IH]; [reflexivity|]. cbn [spaced map]. rewrite HC, <- IH, append_assoc_s. reflexivity.
Qed.

Lemma journal_init k tr s i rest l s' : run o cfg k tr s ->
  process_worker_init_log o i ("init" :: rest) (refresh i s) = (l, inr (tt, s')) -> journal cfg s s' (Msg "workers" i ("init" :: rest)) l.
Proof.
  intros HR H. unfold process_worker_init_log in H. pose proof (run_inv _ _ _ _ _ HR) as HI. pose proof (run_used o cfg k tr s HR) as HU. apply log_then in H. destruct H as (l0 & H & ->).
  destruct rest as [|hw frames]; [apply log_inv in H; destruct H as (-> & ->); constructor|]. cbn [length Nat.ltb Nat.leb skipn] in H.
  apply lbind_inv in H. destruct H as (? & hw1 & s1 & l2 & H1 & H & ->). apply plain_inv in H1. destruct H1 as (? & H1 & ->). apply at_inv in H1. destruct H1 as (-> & [= <-] & ->).
  destruct (parse_init_headers frames []) as (headers, rest) eqn:Ep.
  apply lbind_inv in H. destruct H as (? & s1 & s2 & l3 & H1 & H & ->). apply plain_inv in H1. destruct H1 as (? & H1 & ->). apply get_inv in H1. destruct H1 as (-> & -> & ->).
  cbv zeta in H. cbn [map app].
  match type of H with match _ with Some _ => if _ then _ else lbind _ (fun _ => ?g) | None => _ end _ = _ => set (reg := g) in H end.
  assert (HG : forall s1 l s', s1 = refresh i s -> reg s1 = (l, inr (tt, s')) -> exists w x, w_identity w = i /\ s_reg s' = s_reg s ++ [w] /\
    match x with Some r => current_of (s_queue s') w = Some r | None => True end /\
    l = flat_map (sent w) (olist x) ++ [Line LDebug " - added new worker {} with headers: {}" [shown w; String.concat "" (map (fun f => f ++ " ")%string (hw :: frames))]]).
  { clear H. intros s1 l s'0 -> H. unfold reg in H.
    apply lbind_inv in H. destruct H as (? & w0 & s1 & l1 & H1 & H & ->). apply plain_inv in H1. destruct H1 as (? & H1 & ->). apply lift_inv in H1. destruct H1 as (-> & Ew & ->).
    apply lbind_inv in H. destruct H as (? & [] & s1 & l2 & H1 & H & ->). apply plain_inv in H1. destruct H1 as (? & H1 & ->). apply modify_inv in H1. destruct H1 as (-> & _ & ->).
    destruct (parse_init_extra rest "" None (s_next_r (refresh i s))) as ((desc, cur), next) eqn:Ee.
    apply lbind_inv in H. destruct H as (? & [] & s1 & l1 & H1 & H & ->). apply plain_inv in H1. destruct H1 as (? & H1 & ->). apply modify_inv in H1. destruct H1 as (-> & _ & ->).
    cbv zeta in H. set (w := set_description desc w0) in *.
    apply lbind_inv in H. destruct H as (? & [] & s1 & l2 & H1 & H & ->). apply plain_inv in H1. destruct H1 as (? & H1 & ->). apply modify_inv in H1. destruct H1 as (-> & _ & ->).
    apply lbind_inv in H. destruct H as (? & x & s1 & l1 & H1 & H & ->). apply plain_inv in H1. destruct H1 as (? & H1 & ->). apply queue_call_inv in H1. destruct H1 as (m' & -> & E & ->).
    apply lbind_inv in H. destruct H as (? & [] & s1 & l2 & H1 & H & ->). rewrite sent_if_log in H1. injection H1 as <- <-.
    apply lbind_inv in H. destruct H as (? & [] & s1 & l1 & H1 & H & ->). apply plain_inv in H1. destruct H1 as (? & H1 & ->). apply modify_inv in H1. destruct H1 as (-> & _ & ->).
    apply log_inv in H. destruct H as (-> & ->). exists w, x. rewrite <- shown_description, <- spaced_concat. cbn [map app].
    assert (Hid : w_identity w = i) by (unfold w; unfold make_worker in Ew; destruct (make_matchers _ _); [injection Ew as <-; reflexivity|discriminate]).
    split; [exact Hid|]. split; [cbn; unfold reg_add; rewrite refresh_reg; reflexivity|]. split; [|reflexivity]. cbn [set_timers set_queue s_queue].
    cbn [set_reg set_next_r set_next_w s_queue] in E. rewrite refresh_queue in E. rewrite refresh_next_w in Ew.
    assert (Hcons : constructed w) by (exists (s_next_w s), (o_addr o (s_next_w s)), i, hw, headers, w0, desc; auto).
    assert (Hnew : forall w', In w' (s_reg s) -> w_id w' <> w_id w).
    { intros w' Hw'. pose proof (inv_w _ _ HI w' Hw'). destruct (make_worker_fields _ _ _ _ _ _ Ew) as (F1 & _). unfold w. simpl. lia. }
    destruct (add_contract o (s_queue s) (s_reg s) w cur HU Hcons Hnew) as (x' & m'' & Ea & _ & HA).
    { intros r Hr. pose proof (parse_init_extra_spec _ _ _ _ _ _ _ Ee) as (_ & Hc & _). destruct (Hc r Hr) as [?|(-> & _)]; [discriminate|reflexivity]. }
    rewrite E in Ea. injection Ea as <- <-. destruct x as [r|]; [|exact I]. destruct cur as [c|]; [|exact (proj1 (proj1 HA))].
    destruct HA as (HN & _ & Hx). destruct (s_queue s); [injection Hx as <-; exact (proj1 HN)|discriminate]. }
  clearbody reg. rewrite refresh_reg, <- sender_find in H. destruct (sender i s) as [w|] eqn:HS.
  - destruct (headers_equal w headers).
    + apply lret_inv in H. destruct H as (-> & _ & ->). apply (jo_init_known cfg s _ i hw frames w HS). apply refresh_reg.
    + apply lbind_inv in H. destruct H as (? & [] & s1 & l1 & H1 & H & ->). apply plain_inv in H1. destruct H1 as (? & H1 & ->). unfold notify_error in H1. apply respond_inv in H1. destruct H1 as (-> & _ & ->).
      apply (HG _ _ _ eq_refl) in H. destruct H as (w' & x & Hi & Hr & Hx & ->).
      pose proof (jo_init cfg s s' i hw frames w' x Hi Hr Hx) as J. rewrite HS in J. cbn [olist map app] in *.
      unfold two_inits in J. rewrite <- shown_description in J. exact J.
  - apply (HG _ _ _ eq_refl) in H. destruct H as (w' & x & Hi & Hr & Hx & ->).
    pose proof (jo_init cfg s s' i hw frames w' x Hi Hr Hx) as J. rewrite HS in J. exact J.
Qed.

Lemma rescue ws rs : forall s l un s', used o (s_queue s) ws -> expire_requests_log o cfg rs s = (l, inr (un, s')) ->
  rescued cfg ws (attempts s) (s_queue s) rs l un (s_queue s').
Proof.
  induction rs as [|r rs IH]; intros s l un s' HU H; cbn [expire_requests_log] in H.
  { apply lret_inv in H. destruct H as (-> & -> & ->). constructor. }
  destruct (r_complete r) eqn:Hc; cbn [negb] in H.
  - apply lbind_inv in H. destruct H as (? & ok & s1 & l1 & H1 & H & ->). apply plain_inv in H1. destruct H1 as (? & H1 & ->). rewrite too_many in H1. change (failures r s) with (attempts s r) in H1.
    destruct (N.leb_spec (c_max_failures cfg) (attempts s r)) as [Hle|Hlt]; injection H1 as <- <- <-; cbn [negb] in H.
    + cbn [map app]. exact (re_last cfg ws (attempts s) _ r rs l1 un _ Hc Hle (IH _ _ _ _ HU H)).
    + apply lbind_inv in H. destruct H as (l2 & d & s2 & l3 & H2 & H & ->). unfold reassign_request_log in H2.
      apply lbind_inv in H2. destruct H2 as (? & s4 & s5 & l8 & H1 & H2 & ->). apply plain_inv in H1. destruct H1 as (? & H1 & ->). apply get_inv in H1. destruct H1 as (-> & -> & ->).
      apply log_then in H2. destruct H2 as (l9 & H2 & ->). change (failures r s) with (attempts s r).
      apply lbind_inv in H2. destruct H2 as (? & y & s4 & l8 & H1 & H2 & ->). apply plain_inv in H1. destruct H1 as (? & H1 & ->). apply queue_call_inv in H1. destruct H1 as (m1 & -> & E & ->).
      destruct (enqueue_fact _ _ _ _ _ HU Hc E) as (HU1 & HE). destruct (used_inv o _ _ HU) as (HI & HB). pose proof (enqueue_waiting o _ _ _ _ _ HI HB Hc E) as HW.
      destruct y as [[w|] [|]]; cbn [assigned_to enqueued negb] in *; try (destruct HE; fail).
      * apply lbind_inv in H2. destruct H2 as (? & [] & s4 & l9 & H1 & H2 & ->). rewrite sent_log in H1. injection H1 as <- <-. apply lret_inv in H2. destruct H2 as (-> & -> & ->). cbn [negb] in H.
        apply lbind_inv in H. destruct H as (? & [] & s4 & l4 & H1 & H & ->). apply plain_inv in H1. destruct H1 as (? & H1 & ->). unfold notify_monitor in H1. apply respond_inv in H1. destruct H1 as (-> & _ & ->).
        cbn [map app]. destruct HE as (Hw & Hf & Hi & HN). refine (re_given cfg ws (attempts s) _ r rs l4 un _ w m1 Hc Hlt Hw Hf Hi HN HW _). exact (IH (set_queue m1 s) _ _ _ HU1 H).
      * apply lbind_inv in H2. destruct H2 as (? & [] & s4 & l9 & H1 & H2 & ->). apply log_inv in H1. destruct H1 as (-> & ->). apply lret_inv in H2. destruct H2 as (-> & -> & ->). cbn [negb] in H.
        apply lbind_inv in H. destruct H as (? & [] & s4 & l4 & H1 & H & ->). apply plain_inv in H1. destruct H1 as (? & H1 & ->). unfold notify_monitor in H1. apply respond_inv in H1. destruct H1 as (-> & _ & ->).
        cbn [map app]. destruct HE as ((w & Hw & Hf) & _ & Hu). refine (re_queued cfg ws (attempts s) _ r rs l4 un _ w m1 Hc Hlt Hw Hf Hu HW _). exact (IH (set_queue m1 s) _ _ _ HU1 H).
      * apply lbind_inv in H2. destruct H2 as (? & [] & s4 & l9 & H1 & H2 & ->). apply plain_inv in H1. destruct H1 as (? & H1 & ->). unfold notify_monitor in H1. apply respond_inv in H1. destruct H1 as (-> & _ & ->).
        apply log_then in H2. destruct H2 as (l4 & H2 & ->). apply lret_inv in H2. destruct H2 as (-> & -> & ->). cbn [negb] in H.
        apply lbind_inv in H. destruct H as (l4 & un1 & s4 & l5 & H1 & H & ->). apply lret_inv in H. destruct H as (-> & -> & ->). rewrite app_nil_r.
        cbn [map app]. destruct HE as (-> & Hno). refine (re_nobody cfg ws (attempts s) _ r rs l4 un1 _ Hc Hlt Hno _). exact (IH (set_queue (s_queue s) s) _ _ _ HU H1).
  - apply lbind_inv in H. destruct H as (? & [] & s1 & l1 & H1 & H & ->). apply plain_inv in H1. destruct H1 as (? & H1 & ->). unfold rejected_job in H1. apply respond_inv in H1. destruct H1 as (-> & _ & ->).
    apply lbind_inv in H. destruct H as (? & [] & s1 & l2 & H1 & H & ->). apply plain_inv in H1. destruct H1 as (? & H1 & ->). unfold notify_monitor in H1. apply respond_inv in H1. destruct H1 as (-> & _ & ->).
    cbn [map app]. exact (re_announced cfg ws (attempts s) _ r rs l2 un _ Hc (IH _ _ _ _ HU H)).
Qed.

Lemma erases_val {A} (l : L A) (m : M A) s outs a s' : erases l m -> l s = (outs, inr (a, s')) -> m s = (said outs, inr (a, s')).
Proof. intros HE H. rewrite HE, H. reflexivity. Qed.

Lemma expire rm : forall s l s', used o (s_queue s) (s_reg s) -> NoDup (ids rm) -> incl rm (s_reg s) ->
  expire_workers_log o cfg rm s = (l, inr (tt, s')) -> expired cfg rm (s_reg s) (attempts s) (s_queue s) l (s_queue s').
Proof.
  induction rm as [|w rm IH]; intros s l s' HU Hnd Hin H; cbn [expire_workers_log] in H.
  { apply lret_inv in H. destruct H as (-> & _ & ->). constructor. }
  assert (Hw : In w (s_reg s)) by (apply Hin; left; reflexivity). destruct (used_inv o _ _ HU) as (HI & HB).
  pose proof (qi_nodup _ _ HI) as Hn. inversion Hnd as [|? ? Hni Hnd']; subst.
  destruct (terminated_contract o _ _ _ HU Hw) as (gone & m1 & Et & HU1 & HN1 & HQ1 & HK1). rewrite (reg_remove_eq _ _ Hn) in HU1.
  apply log_then in H. destruct H as (l0 & H & ->).
  apply lbind_inv in H. destruct H as (? & [] & s1 & l1 & H1 & H & ->). apply plain_inv in H1. destruct H1 as (? & H1 & ->). apply modify_inv in H1. destruct H1 as (-> & _ & ->).
  apply lbind_inv in H. destruct H as (? & cur & s1 & l2 & H1 & H & ->). apply plain_inv in H1. destruct H1 as (? & H1 & ->). apply queue_call_inv in H1. destruct H1 as (m & -> & E & ->).
  cbn [set_reg s_queue] in E. rewrite (current_contract o _ _ _ HU Hw) in E. injection E as <- <-.
  set (s1 := set_queue (s_queue s) (set_reg (reg_remove w (s_reg s)) s)) in H.
  apply lbind_inv in H. destruct H as (? & [] & s2 & l1 & H1 & H & ->). apply plain_inv in H1. destruct H1 as (o1 & H1 & ->).
  assert (H2 : o1 = [] /\ s_queue s2 = s_queue s /\ s_reg s2 = reg_remove w (s_reg s) /\
    forall r, attempts s2 r = (attempts s r + match current_of (s_queue s) w with Some c => if Nat.eqb (r_id r) (r_id c) then 1 else 0 | None => 0 end)%N).
  { destruct (current_of (s_queue s) w) as [c|]; unfold failures_incr in H1; minv1 H1; (split; [reflexivity|]; split; [reflexivity|]; split; [reflexivity|]); intros r.
    - exact (attempts_incr c s1 r).
    - change (attempts s1 r) with (attempts s r). lia. }
  destruct H2 as (-> & Q2 & R2 & A2). clear H1.
  apply lbind_inv in H. destruct H as (? & rs & s3 & l2 & H1 & H & ->). apply plain_inv in H1. destruct H1 as (? & H1 & ->). apply queue_call_inv in H1. destruct H1 as (m & -> & E & ->).
  rewrite Q2, Et in E. injection E as <- <-.
  apply lbind_inv in H. destruct H as (l3 & un & s4 & l4 & H1 & H & ->).
  pose proof (rescue (reg_remove w (s_reg s)) _ (set_queue m1 s2) _ _ _ HU1 H1) as HRs.
  pose proof (erases_val _ _ _ _ _ _ (er_expire_requests o cfg _) H1) as H1'.
  destruct (settle o cfg (reg_remove w (s_reg s)) _ (set_queue m1 s2) _ _ _ HU1 H1') as (_ & HU4 & E4).
  apply lbind_inv in H. destruct H as (? & [] & s5 & l5 & H5 & H & ->). apply plain_inv in H5. destruct H5 as (? & H5 & ->). apply reject_all_outs in H5. destruct H5 as (-> & ->).
  assert (R4 : s_reg s4 = reg_remove w (s_reg s)) by (rewrite E4; exact R2).
  assert (A4 : attempts s4 = attempts s2) by (rewrite E4; reflexivity).
  rewrite <- R4 in HU4. pose proof (IH s4 l5 s' HU4 Hnd') as HX.
  cbn [map app]. rewrite shown_description, map_map.
  rewrite (map_ext _ (fun r => Say (died_report w r))) by reflexivity.
  refine (ex_next cfg w rm (s_reg s) (reg_remove w (s_reg s)) (attempts s) (s_queue s) _ m1 (attempts s2) l3 un (s_queue s4) l5 (s_queue s') _ _ A2 HRs _ _).
  - exists gone. split; [reflexivity|]. split; [exact HN1|]. split; [exact HQ1|]. destruct (s_queue s) as [q|q] eqn:Eq; [|exact HK1].
    destruct HK1 as (K1 & K3). destruct (terminated_order _ _ _ _ _ HI Hw Et) as (T1 & T2). auto.
  - intros w'. apply (reg_remove_in _ _ _ Hn Hw).
  - pose proof (settle_kind o cfg _ _ _ _ _ H1') as HKd. unfold kind_now in HKd. rewrite HKd. cbn [set_queue s_queue]. exact (terminated_kind _ _ _ _ Et).
  - rewrite R4, A4 in HX. apply HX; [|exact H]. intros w' Hw'. apply (reg_remove_in _ _ _ Hn Hw). split; [apply Hin; right; exact Hw'|]. intros ->. apply Hni. apply in_ids. exact Hw'.
Qed.

Lemma journal_tick k tr s i d l s' : run o cfg k tr s ->
  process_timer_log o cfg (Msg "timer" i d) s = (l, inr (tt, s')) -> journal cfg s s' (Msg "timer" i d) l.
Proof.
  intros HR H. unfold process_timer_log in H. cbn [m_data] in H. destruct d as [|t rest]; [linv|].
  pose proof (run_inv _ _ _ _ _ HR) as HI. pose proof (run_used o cfg k tr s HR) as HU.
  pose proof (qi_nodup _ _ (inv_q _ _ HI)) as Hn.
  apply lbind_inv in H. destruct H as (? & z & s1 & l1 & H1 & H & ->). apply plain_inv in H1. destruct H1 as (? & H1 & ->). apply lift_inv in H1. destruct H1 as (-> & _ & ->).
  apply lbind_inv in H. destruct H as (? & s1 & s2 & l2 & H1 & H & ->). apply plain_inv in H1. destruct H1 as (? & H1 & ->). apply get_inv in H1. destruct H1 as (-> & -> & ->).
  apply lbind_inv in H. destruct H as (? & rm & s3 & l1 & H1 & H & ->). apply plain_inv in H1. destruct H1 as (o1 & H1 & ->).
  apply lbind_inv in H. destruct H as (l3 & [] & s4 & l4 & H2 & H & ->).
  destruct (timer_scan_exact _ _ _ _ _ _ _ Hn H1) as (-> & S1 & _ & S3). pose proof (timer_scan_sub _ _ _ _ _ _ _ H1) as HSub.
  destruct (timer_scan_core _ _ _ _ _ _ _ H1) as (_ & HC & _ & Hr). specialize (Hr Hn).
  unfold core in HC. injection HC as C1 C2 C3 C4 C5.
  assert (HU3 : used o (s_queue s3) (s_reg s3)) by (rewrite <- C1, <- C2; exact HU).
  assert (Hi3 : incl rm (s_reg s3)) by (rewrite <- C1; exact S3).
  assert (Hn3 : NoDup (ids (s_reg s3))) by (rewrite <- C1; exact Hn).
  pose proof (expire rm s3 l3 s4 HU3 Hr Hi3 H2) as HX.
  pose proof (erases_val _ _ _ _ _ _ (er_expire_workers o cfg _) H2) as H2'.
  destruct (remove_all o cfg rm s3 (said l3) s4 HU3 Hr Hi3 H2') as (att' & _ & _ & _ & HU4).
  pose proof (expire_workers_reg _ _ _ _ _ _ Hn3 Hr Hi3 H2') as R4.
  apply lbind_inv in H. destruct H as (? & ? & ? & l5 & H3 & H & ->). apply plain_inv in H3. destruct H3 as (? & H3 & ->). apply get_inv in H3. destruct H3 as (-> & -> & ->). unfold stat_set in H.
  do 3 (apply lbind_inv in H; destruct H as (? & [] & ? & ? & H3 & H & ->); apply plain_inv in H3; destruct H3 as (? & H3 & ->); apply modify_inv in H3; destruct H3 as (-> & _ & ->)).
  apply lbind_inv in H. destruct H as (? & [] & s8 & l8 & H3 & H & ->). apply plain_inv in H3. destruct H3 as (? & H3 & ->).
  apply (idle_scan o) in H3; [|exact HU4|apply incl_refl]. cbn [set_stats s_queue s_reg s_fails] in H3. destruct H3 as (-> & Q8 & F8 & R8 & K8).
  apply lbind_inv in H. destruct H as (? & ? & ? & ? & H3 & H & ->). apply plain_inv in H3. destruct H3 as (? & H3 & ->). apply get_inv in H3. destruct H3 as (-> & -> & ->).
  apply plain_inv in H. destruct H as (? & H & ->). apply modify_inv in H. destruct H as (-> & _ & ->).
  cbn [map app]. rewrite app_nil_r. apply (jo_tick cfg s _ i t rest rm l3 HSub).
  - intros w. cbn [set_stats s_reg]. rewrite R8, R4, C1. reflexivity.
  - assert (EA : attempts s = attempts s3) by (unfold attempts; rewrite C3; reflexivity). cbn [set_stats s_queue]. rewrite EA, C1, C2, Q8. exact HX.
Qed.

Theorem journal_kept k tr s m l s' : run o cfg k tr s -> on_request_log o cfg m s = (l, inr (tt, s')) -> journal cfg s s' m l.
Proof.
  intros HR H. destruct m as [key i d].
  destruct (String.eqb_spec key "workers") as [->|N1].
  { destruct d as [|c rest].
    - unfold on_request_log in H. cbn [m_key m_data m_ident] in H. change (String.eqb "workers" KEY_WORKERS) with true in H. unfold when_log in H at 1. linv. discriminate.
    - rewrite worker_record in H. unfold call_function_log, worker_commands_log in H. cbn [sm_find] in H.
      destruct (String.eqb_spec "init" c) as [<-|W1]; [apply (journal_init _ _ _ _ _ _ _ HR H)|].
      destruct (String.eqb_spec "done" c) as [<-|W2]; [apply (journal_done _ _ _ _ _ _ _ HR H)|].
      destruct (String.eqb_spec "ping" c) as [<-|W3].
      { apply plain_inv in H. destruct H as (o1 & H & ->). pose proof (jo_ping cfg s s' i rest) as J. rewrite sender_find in J.
        unfold process_worker_ping in H. apply bind_inv in H. destruct H as (? & ? & ? & o2 & H1 & H & ->). apply get_inv in H1. destruct H1 as (-> & -> & ->). rewrite refresh_reg in H.
        destruct (find_worker_by_identity i (s_reg s)); apply respond_inv in H; destruct H as (-> & _ & ->); exact J. }
      destruct (String.eqb_spec "progress" c) as [<-|W4].
      { apply plain_inv in H. destruct H as (o1 & H & ->). unfold process_worker_progress in H. apply respond_inv in H. destruct H as (-> & _ & ->). apply jo_progress. }
      apply lret_inv in H. destruct H as (-> & _ & ->). apply jo_worker_word. unfold worker_words. simpl. intuition congruence. }
  destruct (String.eqb_spec key "clients") as [->|N2].
  { destruct d as [|c rest].
    - unfold on_request_log in H. cbn [m_key m_data m_ident] in H. change (String.eqb "clients" KEY_WORKERS) with false in H. change (String.eqb "clients" KEY_CLIENTS) with true in H. unfold when_log in H at 1 2. linv. discriminate.
    - rewrite client_record in H. unfold call_function_log, client_commands_log in H. cbn [sm_find] in H.
      destruct (String.eqb_spec "eval" c) as [<-|W1]; [apply (journal_eval _ _ _ _ _ _ _ HR H)|].
      destruct (String.eqb_spec "get-runtime-stats" c) as [<-|W2].
      { unfold process_client_get_runtime_stats_log in H. apply log_then in H. destruct H as (l0 & H & ->). apply plain_inv in H. destruct H as (o1 & H & ->).
        unfold process_client_get_runtime_stats in H. minv1 H. minv1 Hm. apply respond_inv in Hk. destruct Hk as (-> & _ & ->). apply jo_stats. }
      destruct (String.eqb_spec "freeze" c) as [<-|W3].
      { unfold process_client_freeze_log in H. apply lbind_inv in H. destruct H as (? & [] & ? & ? & H1 & H & ->). apply plain_inv in H1. destruct H1 as (? & H1 & ->). apply modify_inv in H1. destruct H1 as (-> & _ & ->).
        apply log_then in H. destruct H as (l0 & H & ->). apply plain_inv in H. destruct H as (o1 & H & ->). apply respond_inv in H. destruct H as (-> & _ & ->). apply jo_freeze. }
      destruct (String.eqb_spec "unfreeze" c) as [<-|W4].
      { unfold process_client_unfreeze_log in H. apply lbind_inv in H. destruct H as (? & [] & ? & ? & H1 & H & ->). apply plain_inv in H1. destruct H1 as (? & H1 & ->). apply modify_inv in H1. destruct H1 as (-> & _ & ->).
        apply log_then in H. destruct H as (l0 & H & ->). apply plain_inv in H. destruct H as (o1 & H & ->). apply respond_inv in H. destruct H as (-> & _ & ->). apply jo_unfreeze. }
      apply lret_inv in H. destruct H as (-> & _ & ->). apply jo_client_word. unfold client_words. simpl. intuition congruence. }
  destruct (String.eqb_spec key "timer") as [->|N3]; [rewrite timer_record in H; exact (journal_tick _ _ _ _ _ _ _ HR H)|].
  unfold on_request_log in H. cbn [m_key m_data m_ident] in H.
  destruct (String.eqb_spec key KEY_WORKERS) as [?|_]; [contradiction|]. destruct (String.eqb_spec key KEY_CLIENTS) as [?|_]; [contradiction|]. destruct (String.eqb_spec key KEY_TIMER) as [?|_]; [contradiction|].
  unfold when_log in H. linv. apply jo_channel. simpl. intuition congruence.
Qed.

Theorem event_record k tr1 e tr2 s : run o cfg k (tr1 ++ e :: tr2) s ->
  on_request_log o cfg (ev_in e) (ev_pre e) = (record o cfg e, inr (tt, ev_post e)) /\ said (record o cfg e) = ev_out e.
Proof.
  intros HR. apply run_split in HR. destruct HR as (HR & HE). pose proof (erased o cfg (ev_in e) (ev_pre e)) as ER. rewrite HE in ER.
  unfold record. destruct (on_request_log o cfg (ev_in e) (ev_pre e)) as (l, r). cbn [fst snd] in *. injection ER as E1 E2. subst r. auto.
Qed.
Theorem event_journal k tr1 e tr2 s : run o cfg k (tr1 ++ e :: tr2) s -> journal cfg (ev_pre e) (ev_post e) (ev_in e) (record o cfg e).
Proof.
  intros HR. destruct (event_record _ _ _ _ _ HR) as (E & _). apply run_split in HR. exact (journal_kept _ _ _ _ _ _ (proj1 HR) E).
Qed.
End Steps.
