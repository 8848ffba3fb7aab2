(* The log of the process (C78). *)
From Coq Require Import Lia.
From Verif Require Import Base Bytes Containers Worker Multi Single Queue Handler Logger LogHandler SpecText Spec SpecRun SpecFatal SpecMsg SpecOracle SpecJournal SpecChronicle
  Reactor SpecReactor Config SpecConfig Startup SpecStartup SpecLedger SpecPool SpecWhole Chronicle SpecPings SpecQueue Facts TextFacts HeaderFacts OrderFacts QueueInv Atoms HandlerSim Members Provenance Messages QueueContract Keeps Pings WorkConserving Fatal Journal JournalFacts Blind Whole WholeTies StartupFacts Oracle OracleRun OracleLog.
Local Open Scope string_scope.
Local Open Scope list_scope.

Lemma noted_app a b : noted (a ++ b) = noted a ++ noted b.
Proof. apply flat_map_app. Qed.
Lemma calls_app a b : calls_made (a ++ b) = calls_made a ++ calls_made b.
Proof. apply flat_map_app. Qed.
Lemma handed_app a b : handed (a ++ b) = handed a ++ handed b.
Proof. apply flat_map_app. Qed.

Lemma texts_calls lvl l : texts lvl l = written_lines lvl (calls_made l).
Proof.
  unfold written_lines, texts, calls_made. induction l as [|[m|lv fmt args] l IH]; [reflexivity|exact IH|].
  cbn [flat_map]. rewrite IH, filter_app, map_app. f_equal. destruct (render fmt args); cbn [filter map fst snd]; [destruct (should_log lvl lv)|destruct (should_log lvl lv)]; reflexivity.
Qed.

(* ---- texts ---- *)
Lemma noted_mentions effs : mentions effs (noted effs).
Proof. induction effs as [|e effs IH]; [constructor|]. destruct e; try exact (mt_note _ _ _ _ IH); refine (mt_other _ _ _ _ IH); intros ? ? E; discriminate E. Qed.
Lemma prelude_lines g : noted (prelude g) = first_lines g.
Proof. unfold prelude, begun, log_head, first_lines. destruct (Z.leb _ _); reflexivity. Qed.

Lemma render_two c d t a : render (String c (String d t)) a = if Ascii.eqb c "{" && Ascii.eqb d "}" then match a with [] => None | x :: a => option_map (fun y => (x ++ y)%string) (render t a) end
  else option_map (String c) (render (String d t) a).
Proof. reflexivity. Qed.
Lemma fills_render f a t : fills f a t -> render f a = Some t.
Proof.
  induction 1 as [|x f a t H IH|c f a t Hc H IH]; [reflexivity| |].
  - cbn [append]. rewrite render_two. cbn. rewrite IH. reflexivity.
  - destruct f as [|d f]; [inversion H; reflexivity|]. rewrite render_two.
    destruct (Ascii.eqb_spec c "{") as [->|_]; [destruct (Ascii.eqb_spec d "}") as [->|_]; [exfalso; exact (Hc f eq_refl)|]|]; cbn [andb]; rewrite IH; reflexivity.
Qed.
(* the number of arguments a format needs *)
Fixpoint holes (f : string) : nat :=
  match f with
  | EmptyString => 0
  | String c t => match t with
                  | String d r => if Ascii.eqb c "{" && Ascii.eqb d "}" then S (holes r) else holes t
                  | EmptyString => 0
                  end
  end.
Lemma holes_fill n : forall f a, String.length f <= n -> length a = holes f -> exists t, fills f a t.
Proof.
  induction n as [|n IH]; intros f a Hn Ha.
  - destruct f; [|simpl in Hn; lia]. destruct a; [|discriminate]. eexists. constructor.
  - destruct f as [|c f]; [destruct a; [|discriminate]; eexists; constructor|]. destruct f as [|d f].
    + destruct a; [|discriminate]. eexists. apply fi_char; [intros r; discriminate|constructor].
    + change (holes (String c (String d f))) with (if Ascii.eqb c "{" && Ascii.eqb d "}" then S (holes f) else holes (String d f)) in Ha. simpl in Hn.
      destruct (Ascii.eqb c "{" && Ascii.eqb d "}") eqn:E.
      * apply andb_true_iff in E. destruct E as (E1 & E2). apply Ascii.eqb_eq in E1. apply Ascii.eqb_eq in E2. subst. destruct a as [|x a]; [discriminate|].
        destruct (IH f a ltac:(lia) ltac:(simpl in Ha; lia)) as (t & Ht). eexists. exact (fi_hole x _ _ _ Ht).
      * destruct (IH (String d f) a ltac:(simpl; lia) Ha) as (t & Ht). eexists. apply fi_char; [|exact Ht]. intros r Er. injection Er as -> -> _. discriminate.
Qed.
Definition line_known (x : out) : Prop := match x with Say _ => True | Line lv f a => In (lv, f, length a) formats end.
Lemma formats_holes : forallb (fun p => Nat.eqb (snd p) (holes (snd (fst p)))) formats = true.
Proof. vm_compute. reflexivity. Qed.
Lemma calls_down l : Forall line_known l -> puts_down l (calls_made l).
Proof.
  induction 1 as [|x l Hx Hl IH]; [constructor|]. destruct x as [m|lv f a]; [apply pd_say; exact IH|]. cbn [line_known] in Hx.
  pose proof formats_holes as HF. rewrite forallb_forall in HF. specialize (HF _ Hx). cbn [fst snd] in HF. apply Nat.eqb_eq in HF.
  destruct (holes_fill _ _ _ (le_n _) HF) as (t & Ht). unfold calls_made. cbn [flat_map]. rewrite (fills_render _ _ _ Ht). exact (pd_line lv f a t _ _ Ht IH).
Qed.
Lemma puts_down_fun l c1 c2 : puts_down l c1 -> puts_down l c2 -> c1 = c2.
Proof.
  intros H. revert c2. induction H as [|m l c H IH|lv f a t l c Ht H IH]; intros c2 H2; inversion H2; subst; auto.
  match goal with A : fills f a ?u |- _ => apply fills_render in A; apply fills_render in Ht; rewrite Ht in A; injection A as <- end. f_equal. auto.
Qed.
Lemma last_known m outs l : last_words m outs l -> Forall line_known l.
Proof.
  assert (HM : forall os, Forall line_known (map Say os)) by (induction os; constructor; [exact I|assumption]).
  assert (HR : forall a b, (a = "eval" /\ b = "clients") \/ (a = "init" /\ b = "workers") \/ (a = "done" /\ b = "workers") -> line_known (received a b)).
  { intros a b [(-> & ->)|[(-> & ->)|(-> & ->)]]; cbn [line_known received length]; cbn; tauto. }
  destruct 1; repeat (apply Forall_cons || apply Forall_nil || (apply Forall_app; split)); auto; cbn; tauto.
Qed.

Section Steps.
Context (o : oracle) (cfg : config).

Lemma replay_run k tr s : run o cfg k tr s -> forall later,
  handler_record o cfg (init_state (empty_manager k)) (map ev_in tr ++ later) = concat (map (record o cfg) tr) ++ handler_record o cfg s later.
Proof.
  induction 1 as [|tr s m outs s1 HR IH Hm]; intros later; [reflexivity|]. rewrite !map_app, concat_app, <- !app_assoc. cbn [map ev_in app concat]. rewrite IH.
  rewrite app_nil_r. f_equal. unfold record. cbn [ev_in ev_pre handler_record]. pose proof (erased o cfg m s) as E. rewrite Hm in E.
  destruct (on_request_log o cfg m s) as (l, r). cbn [fst snd] in *. injection E as _ <-. reflexivity.
Qed.
Lemma replay_crash s m outs f : crashes o cfg s m outs f -> handler_record o cfg s [m] = fst (on_request_log o cfg m s).
Proof.
  intros H. pose proof (erased o cfg m s) as E. unfold crashes in H. rewrite H in E. cbn [handler_record].
  destruct (on_request_log o cfg m s) as (l, r). cbn [fst snd] in *. injection E as _ <-. reflexivity.
Qed.

Ltac calc := unfold lbind, lret, plain, log, bind, get, modify, Handler.respond, lift, at_, fail, queue_call, ret.

Lemma eval_last i j fr frames need payload s l f : s_frozen s = false -> header_block (fr :: frames) need payload ->
  process_client_eval_log o i ("eval" :: j :: fr :: frames) s = (l, inl f) ->
  l = [received "eval" "clients"; Say (Msg "clients" i ["ack"]); Line LDebug " - incoming job {}" [j]].
Proof.
  intros Hz HB. unfold process_client_eval_log. calc. cbn [nth_error skipn map]. rewrite (parse_eval_block _ _ _ _ _ HB).
  destruct (store need [] []) as (reqs, md). cbv beta iota. cbn [map app]. 
rewrite Hz. cbn [s_queue set_next_r].
  match goal with |- context [q_enqueue_request ?a ?b ?c] => destruct (q_enqueue_request a b c) as [(x, m')|e] end.
  - cbn [map]. destruct (enqueued x).
    + destruct (assigned_to x) as [w|]; [rewrite sent_log|]; discriminate.
    + rewrite reject_lines_log. discriminate.
  - cbn [map app]. intros [= <- _]. reflexivity.
Qed.

Lemma init_last i hw frames s l f f' : (forall wid addr, make_worker wid addr i hw (fst (parse_init_headers frames [])) = Fail f') ->
  process_worker_init_log o i ("init" :: hw :: frames) s = (l, inl f) -> l = received "init" "workers" :: map Say (said l).
Proof.
  intros HM. unfold process_worker_init_log. calc. cbn [length Nat.ltb Nat.leb nth_error skipn map].
  destruct (parse_init_headers frames []) as (hs, rest). cbn [fst] in HM. rewrite HM.
  destruct (find_worker_by_identity i (s_reg s)) as [w|]; [destruct (headers_equal w hs); [discriminate|]|]; cbn [app map]; unfold notify_error, Handler.respond; cbn [app map]; intros [= <- _]; reflexivity.
Qed.

Lemma fatal_record k tr s m outs f : run o cfg k tr s -> crashes o cfg s m outs f -> last_words m outs (fst (on_request_log o cfg m s)).
Proof.
  intros HR HC. pose proof (proj1 (crash_iff _ _ _ _ _ _ _ _ HR) HC) as HD. pose proof (erased o cfg m s) as E. unfold crashes in HC. rewrite HC in E.
  destruct (on_request_log o cfg m s) as (l, r) eqn:EL. cbn [fst snd] in *. injection E as E1 <-.
  destruct HD as [i|i|i|i|i j|i j frames need payload before f w reg hw hdrs Hz HB HF Hw Hin HJ HX
                  |i hw frames hdrs before f Hs HB HF|i hw frames hdrs before f w reg hw0 hdrs0 Hs Hin HJ HB HE HF
                  |i w j st rest Hs Hc|i t rest f Hb|i t rest z w old Hr Hw Ho Hi].
  - assert (l = []) as -> by (unfold on_request_log in EL; cbn [m_key m_data m_ident] in EL; change (String.eqb "workers" KEY_WORKERS) with true in EL;
      unfold when_log in EL at 1; revert EL; calc; destruct (find_worker_by_identity _ _); cbn [nth_error map app]; intros [= <-]; reflexivity). constructor.
  - assert (l = []) as -> by (unfold on_request_log in EL; cbn [m_key m_data m_ident] in EL; change (String.eqb "clients" KEY_WORKERS) with false in EL;
      change (String.eqb "clients" KEY_CLIENTS) with true in EL; unfold when_log in EL at 1 2; revert EL; calc; cbn [nth_error map app]; intros [= <-]; reflexivity). constructor.
  - rewrite timer_record in EL. cbn in EL. injection EL as <-. constructor.
  - rewrite client_record in EL. cbn in EL. injection EL as <-. exact (lw_short i [] _ (Nat.le_0_l _)).
  - rewrite client_record in EL. cbn in EL. injection EL as <-. exact (lw_short i [j] _ (le_n _)).
  - destruct frames as [|fr frames]; [exfalso; destruct need; discriminate (proj1 HB)|].
    rewrite client_record in EL. cbn [call_function_log client_commands_log sm_find String.eqb] in EL.
    apply (eval_last _ _ _ _ _ _ _ _ _ Hz HB) in EL. subst l. exact (lw_eval i j fr frames [Msg "clients" i ["ack"]]).
  - rewrite worker_record in EL. assert (EI : l = received "init" "workers" :: map Say (said l)).
    { refine (init_last i hw frames (refresh cfg i s) l f f _ EL). intros wid addr. apply (make_worker_bad wid addr i hw frames hdrs f HB). exists before. exact HF. }
    rewrite EI, <- E1. constructor.
  - rewrite worker_record in EL. assert (EI : l = received "init" "workers" :: map Say (said l)).
    { refine (init_last i hw frames (refresh cfg i s) l f f _ EL). intros wid addr. apply (make_worker_bad wid addr i hw frames hdrs f HB). exists before. exact HF. }
    rewrite EI, <- E1. constructor.
  - rewrite worker_record in EL. cbn [call_function_log worker_commands_log sm_find String.eqb Ascii.eqb Bool.eqb] in EL. revert EL. unfold process_worker_done_log. calc. cbn [length Nat.ltb Nat.leb nth_error].
    rewrite sender_find in Hs. rewrite refresh_reg, Hs, refresh_queue. pose proof (run_used _ _ _ _ _ HR) as HU.
    destruct (find_by_identity_in _ _ _ Hs) as (Hw & _). rewrite (current_contract _ _ _ _ HU Hw), Hc. cbn [app map]. intros [= <-]. constructor.
  - rewrite timer_record in EL. unfold process_timer_log in EL. cbn [m_data] in EL. revert EL. apply stoll_bad in Hb. calc. rewrite Hb. cbn. intros [= <-]. constructor.
  - rewrite timer_record in EL. unfold process_timer_log in EL. cbn [m_data] in EL. revert EL. apply reads_stoll in Hr. calc. rewrite Hr. cbn [map app].
    destruct (timer_scan cfg z (s_reg s) s) as (os, [f1|(rm, s1)]) eqn:ES.
    + apply timer_scan_fails in ES. destruct ES as (-> & ->). intros [= <-]. constructor.
    + exfalso. pose proof (qi_nodup _ _ (inv_q _ _ (run_inv _ _ _ _ _ HR))) as Hnd.
      destruct (timer_scan_exact _ _ _ _ _ _ _ Hnd ES) as (_ & S1 & _). destruct (S1 w Hw) as (Hi' & _). unfold ping_timer in Ho. unfold old_timer in Hi'. rewrite Ho in Hi'. congruence.
Qed.
End Steps.

Lemma handed_routes outs : handed (map Act (flat_map broker_route outs)) = [].
Proof.
  induction outs as [|m outs IH]; [reflexivity|]. cbn [flat_map]. rewrite map_app, handed_app, IH, app_nil_r. unfold broker_route.
  destruct (String.eqb (m_key m) "workers"); [reflexivity|]. destruct (String.eqb (m_key m) "clients"); [reflexivity|]. destruct (String.eqb (m_key m) "monitor"); reflexivity.
Qed.
Lemma handed_one m outs : handed (shown_one (m, outs)) = [m].
Proof. unfold shown_one. cbn [fst snd]. change (handed (Act (ACall 0 m) :: ?x)) with (m :: handed x). rewrite handed_routes. reflexivity. Qed.
Lemma handed_run tr : handed (shown (map ev_in tr) (map ev_out tr)) = map ev_in tr.
Proof.
  unfold shown. induction tr as [|e tr IH]; [reflexivity|]. cbn [map combine flat_map]. rewrite handed_app, handed_one, IH. reflexivity.
Qed.
Lemma handed_prelude g : handed (prelude g) = [].
Proof. unfold prelude, begun, log_head. destruct (Z.leb _ _); reflexivity. Qed.

Section Process.
Context (env : environment) (args : list string) (o : oracle).

Lemma records_kept cfg k tr s : run o cfg k tr s -> Forall2 (kept cfg) tr (map (record o cfg) tr).
Proof.
  intros HR. assert (H : forall e, In e tr -> kept cfg e (record o cfg e)).
  { intros e He. apply in_split in He. destruct He as (tr1 & tr2 & ->). split; [exact (event_journal _ _ _ _ _ _ _ HR)|exact (proj2 (event_record _ _ _ _ _ _ _ HR))]. }
  clear HR. induction tr as [|e tr IH]; constructor; [apply H; left; reflexivity|apply IH; intros x Hx; apply H; right; exact Hx].
Qed.

Lemma records_known cfg k tr s : run o cfg k tr s -> Forall line_known (concat (map (record o cfg) tr)).
Proof.
  intros HR. apply Forall_forall. intros x Hx. apply in_concat in Hx. destruct Hx as (l & Hl & Hx). apply in_map_iff in Hl. destruct Hl as (e & <- & He).
  apply in_split in He. destruct He as (tr1 & tr2 & ->). destruct x as [m|lv f a]; [exact I|]. exact (proj1 (lines_known _ _ _ _ _ _ _ HR _ _ _ Hx)).
Qed.

Lemma log_served fuel ws g k tr s : (forall w, In w ws -> w_async w = []) -> started env args g k -> run o (handler_config g) k tr s -> map ev_in tr = agenda [] [] ws ->
  log_calls env args o (S fuel) ws = noted (prelude g) ++ calls_made (concat (map (record o (handler_config g)) tr)).
Proof.
  intros Hw HS HR EI. unfold log_calls. rewrite (proj1 (started_serves _ _ _ _) HS). destruct (ran_serves env args o fuel ws g k tr s Hw HS HR EI) as (l & ->).
  cbn [fst]. rewrite handed_app, handed_prelude, <- EI, handed_run. cbn [app]. pose proof (replay_run _ _ _ _ _ HR []) as E. rewrite !app_nil_r in E. cbn [handler_record] in E.
  rewrite ?app_nil_r in E. rewrite E. reflexivity.
Qed.
Lemma log_died fuel ws g k tr s m later outs f : (forall w, In w ws -> w_async w = []) -> started env args g k -> run o (handler_config g) k tr s ->
  agenda [] [] ws = map ev_in tr ++ m :: later -> crashes o (handler_config g) s m outs f ->
  log_calls env args o (S fuel) ws = noted (prelude g) ++ calls_made (concat (map (record o (handler_config g)) tr) ++ fst (on_request_log o (handler_config g) m s)).
Proof.
  intros Hw HS HR EI HC. unfold log_calls. rewrite (proj1 (started_serves _ _ _ _) HS). rewrite (ran_dies env args o fuel ws g k tr s m later outs f Hw HS HR EI HC).
  cbn [fst]. rewrite !handed_app, handed_prelude, handed_run, handed_one. cbn [app]. rewrite (replay_run _ _ _ _ _ HR), (replay_crash _ _ _ _ _ _ HC). reflexivity.
Qed.

Theorem log_process fuel ws : (forall w, In w ws -> w_async w = []) ->
  match process env args o (S fuel) ws with
  | (effs, Exited _) => mentions effs (log_calls env args o (S fuel) ws)
  | (effs, Serving _) => exists g k tr s ls c, started env args g k /\ run o (handler_config g) k tr s /\ map ev_in tr = agenda [] [] ws /\
      Forall2 (kept (handler_config g)) tr ls /\ puts_down (concat ls) c /\ log_calls env args o (S fuel) ws = first_lines g ++ c
  | (effs, Unwinding) => start_up env args = (effs, Unwinding) /\ mentions effs (log_calls env args o (S fuel) ws) \/
      exists g k tr s m later outs f ls l c, started env args g k /\ run o (handler_config g) k tr s /\ agenda [] [] ws = map ev_in tr ++ m :: later /\
      crashes o (handler_config g) s m outs f /\ Forall2 (kept (handler_config g)) tr ls /\ last_words m outs l /\
      puts_down (concat ls ++ l) c /\ log_calls env args o (S fuel) ws = first_lines g ++ c
  end.
Proof.
  intros Hw. destruct (start_up env args) as (first, [c| |(k, g)]) eqn:E.
  - unfold process, log_calls. rewrite E. apply noted_mentions.
  - unfold process, log_calls. rewrite E. left. split; [reflexivity|apply noted_mentions].
  - assert (HS : started env args g k).
    { pose proof E as ES. apply serves in ES. destruct ES as (doc & C1 & C2 & C3 & C4 & _). exists doc. auto. }
    destruct (loop_agenda o (handler_config g) k fuel ws [] (broker_start (empty_manager k)) (run_nil _ _ _) eq_refl Hw) as (acts & r & EL & HD).
    cbn [broker_start l_queues app] in HD. destruct r as [e|l].
    + destruct HD as (tr & s & m & outs & f & later & HR & HC & _ & EA). rewrite (ran_dies env args o fuel ws g k tr s m later outs f Hw HS HR EA HC). right.
      exists g, k, tr, s, m, later, outs, f, (map (record o (handler_config g)) tr), (fst (on_request_log o (handler_config g) m s)). eexists.
      split; [exact HS|]. split; [exact HR|]. split; [exact EA|]. split; [exact HC|]. split; [exact (records_kept _ _ _ _ HR)|].
      pose proof (fatal_record _ _ _ _ _ _ _ _ HR HC) as HL. split; [exact HL|].
      split; [|rewrite <- prelude_lines; exact (log_died fuel ws g k tr s m later outs f Hw HS HR EA HC)].
      apply calls_down. apply Forall_app. split; [exact (records_known _ _ _ _ HR)|exact (last_known _ _ _ HL)].
    + destruct HD as (tr & HR & _ & EA). destruct (ran_serves env args o fuel ws g k tr _ Hw HS HR EA) as (l' & ->).
      exists g, k, tr, (l_states l 0), (map (record o (handler_config g)) tr). eexists. split; [exact HS|]. split; [exact HR|]. split; [exact EA|].
      split; [exact (records_kept _ _ _ _ HR)|]. split; [|rewrite <- prelude_lines; exact (log_served fuel ws g k tr _ Hw HS HR EA)].
      apply calls_down. exact (records_known _ _ _ _ HR).
Qed.
End Process.

Lemma seen_in tr tr' : seen tr' = seen tr -> map ev_in tr' = map ev_in tr.
Proof. unfold seen. intros E. apply (f_equal (map fst)) in E. rewrite !map_map in E. exact E. Qed.
Lemma seen_out tr tr' : seen tr' = seen tr -> map ev_out tr' = map ev_out tr.
Proof. unfold seen. intros E. apply (f_equal (map snd)) in E. rewrite !map_map in E. exact E. Qed.

Section Same.
Context (env : environment) (args : list string) (o1 o2 : oracle).

Lemma same_process fuel ws : (forall w, In w ws -> w_async w = []) ->
  (forall g k, started env args g k -> let cfg := handler_config g in
    (forall tr s, run o1 cfg k tr s -> exists tr' s', run o2 cfg k tr' s' /\ seen tr' = seen tr) /\
    (forall tr s m outs f, run o1 cfg k tr s -> crashes o1 cfg s m outs f -> exists tr' s', run o2 cfg k tr' s' /\ seen tr' = seen tr /\ crashes o2 cfg s' m outs f) /\
    forall tr1 s1 tr2 s2, run o1 cfg k tr1 s1 -> run o2 cfg k tr2 s2 -> map ev_in tr1 = map ev_in tr2 ->
      map (record o1 cfg) tr1 = map (record o2 cfg) tr2 /\ forall m, fst (on_request_log o1 cfg m s1) = fst (on_request_log o2 cfg m s2)) ->
  fst (process env args o1 (S fuel) ws) = fst (process env args o2 (S fuel) ws) /\ log_calls env args o1 (S fuel) ws = log_calls env args o2 (S fuel) ws.
Proof.
  intros Hw HX. destruct (start_up env args) as (first, [c| |(k, g)]) eqn:E; [unfold process, log_calls; rewrite E; auto..|].
  assert (HS : started env args g k).
  { pose proof E as ES. apply serves in ES. destruct ES as (doc & C1 & C2 & C3 & C4 & _). exists doc. auto. }
  destruct (HX g k HS) as (X1 & X2 & X3).
  destruct (loop_agenda o1 (handler_config g) k fuel ws [] (broker_start (empty_manager k)) (run_nil _ _ _) eq_refl Hw) as (acts & r & EL & HD).
  cbn [broker_start l_queues app] in HD. destruct r as [e|l].
  - destruct HD as (tr & s & m & outs & f & later & HR & HC & _ & EA). destruct (X2 _ _ _ _ _ HR HC) as (tr' & s' & HR' & ES & HC').
    pose proof (seen_in _ _ ES) as EI. assert (EA' : agenda [] [] ws = map ev_in tr' ++ m :: later) by (rewrite EI; exact EA).
    destruct (X3 _ _ _ _ HR HR' (eq_sym EI)) as (Y1 & Y2).
    rewrite (log_died env args o1 fuel ws g k tr s m later outs f Hw HS HR EA HC), (log_died env args o2 fuel ws g k tr' s' m later outs f Hw HS HR' EA' HC').
    rewrite (ran_dies env args o1 fuel ws g k tr s m later outs f Hw HS HR EA HC), (ran_dies env args o2 fuel ws g k tr' s' m later outs f Hw HS HR' EA' HC').
    rewrite Y1, (Y2 m), EI, (seen_out _ _ ES). auto.
  - destruct HD as (tr & HR & _ & EA). destruct (X1 _ _ HR) as (tr' & s' & HR' & ES). pose proof (seen_in _ _ ES) as EI.
    assert (EA' : map ev_in tr' = agenda [] [] ws) by (rewrite EI; exact EA).
    destruct (X3 _ _ _ _ HR HR' (eq_sym EI)) as (Y1 & _).
    rewrite (log_served env args o1 fuel ws g k tr _ Hw HS HR EA), (log_served env args o2 fuel ws g k tr' _ Hw HS HR' EA').
    destruct (ran_serves env args o1 fuel ws g k tr _ Hw HS HR EA) as (l1 & ->). destruct (ran_serves env args o2 fuel ws g k tr' _ Hw HS HR' EA') as (l2 & ->).
    rewrite Y1, (seen_out _ _ ES). auto.
Qed.

Theorem process_multi fuel ws : (forall w, In w ws -> w_async w = []) -> (forall g, ~ started env args g KSingle) ->
  fst (process env args o1 (S fuel) ws) = fst (process env args o2 (S fuel) ws) /\ log_calls env args o1 (S fuel) ws = log_calls env args o2 (S fuel) ws.
Proof.
  intros Hw HN. apply same_process; [exact Hw|]. intros g k HS cfg. destruct k; [exfalso; exact (HN g HS)|].
  split; [intros tr s; apply multi_environment|]. split; [intros tr s m outs f; apply multi_environment_crash|]. intros *. apply multi_log.
Qed.
Theorem process_single fuel ws : same_addresses o1 o2 -> same_clocks o1 o2 -> no_ties o1 \/ same_ties o1 o2 -> (forall w, In w ws -> w_async w = []) ->
  fst (process env args o1 (S fuel) ws) = fst (process env args o2 (S fuel) ws) /\ log_calls env args o1 (S fuel) ws = log_calls env args o2 (S fuel) ws.
Proof.
  intros HA HK HT Hw. apply same_process; [exact Hw|]. intros g k HS cfg. destruct k.
  - split; [intros tr s; apply single_environment; assumption|]. split; [intros tr s m outs f; apply single_environment_crash; assumption|]. intros *. apply single_log; assumption.
  - split; [intros tr s; apply multi_environment|]. split; [intros tr s m outs f; apply multi_environment_crash|]. intros *. apply multi_log.
Qed.
End Same.

Lemma down_calls l c : puts_down l c -> calls_made l = c.
Proof.
  induction 1 as [|m l c H IH|lv f a t l c Ht H IH]; [reflexivity|exact IH|]. unfold calls_made. cbn [flat_map]. rewrite (fills_render _ _ _ Ht). cbn [app]. f_equal. exact IH.
Qed.
Theorem levels_written lvl l c : puts_down l c -> texts lvl l = written_lines lvl c.
Proof. intros H. rewrite texts_calls, (down_calls _ _ H). reflexivity. Qed.
