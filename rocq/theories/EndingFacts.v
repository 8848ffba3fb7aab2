(* The end of the process. *)
From Coq Require Import Permutation.
From Verif Require Import Base Bytes Containers Worker Multi Single Queue Handler SpecText Spec SpecRun
  Reactor SpecReactor Config SpecConfig Logger Startup SpecStartup StartupFacts Ending SpecEnding.
Local Open Scope string_scope.
Local Open Scope list_scope.

Lemma part_dec (x y : part) : {x = y} + {x <> y}.
Proof. decide equality; apply string_dec. Defined.

Lemma same_count l l' x : Permutation l l' -> count_occ part_dec l x = count_occ part_dec l' x.
Proof. intros H. apply (Permutation_count_occ part_dec). exact H. Qed.

Lemma handler_orders l : Permutation l handler_owners ->
  let a := Owner "asynchronous wrapper" in let b := Owner "handler wrapper" in
  l = [a; b; b; b] \/ l = [b; a; b; b] \/ l = [b; b; a; b] \/ l = [b; b; b; a].
Proof.
  intros HP a b. pose proof (Permutation_length HP) as HL. pose proof (same_count _ _ a HP) as HC.
  assert (HA : forall x, In x l -> x = a \/ x = b).
  { intros x Hx. apply (Permutation_in _ HP) in Hx. cbn in Hx. unfold a, b. intuition auto. }
  destruct l as [|x1 [|x2 [|x3 [|x4 [|]]]]]; try discriminate HL.
  destruct (HA x1 ltac:(cbn; auto)) as [-> | ->]; destruct (HA x2 ltac:(cbn; auto)) as [-> | ->];
    destruct (HA x3 ltac:(cbn; auto)) as [-> | ->]; destruct (HA x4 ltac:(cbn; auto 6)) as [-> | ->];
    try (vm_compute in HC; discriminate HC); auto.
Qed.

Lemma socket_orders l : Permutation l socket_owners ->
  let a := Owner "clients socket" in let b := Owner "monitor socket" in let c := Owner "workers socket" in
  l = [a; b; c] \/ l = [a; c; b] \/ l = [b; a; c] \/ l = [b; c; a] \/ l = [c; a; b] \/ l = [c; b; a].
Proof.
  intros HP a b c. pose proof (Permutation_length HP) as HL. pose proof (same_count _ _ a HP) as CA. pose proof (same_count _ _ b HP) as CB.
  pose proof (same_count _ _ c HP) as CC.
  assert (HA : forall x, In x l -> x = a \/ x = b \/ x = c).
  { intros x Hx. apply (Permutation_in _ HP) in Hx. cbn in Hx. unfold a, b, c. intuition auto. }
  destruct l as [|x1 [|x2 [|x3 [|]]]]; try discriminate HL.
  destruct (HA x1 ltac:(cbn; auto)) as [-> |[-> | ->]]; destruct (HA x2 ltac:(cbn; auto)) as [-> |[-> | ->]];
    destruct (HA x3 ltac:(cbn; auto)) as [-> |[-> | ->]];
    try (vm_compute in CA; discriminate CA); try (vm_compute in CB; discriminate CB); try (vm_compute in CC; discriminate CC); auto 8.
Qed.

Section Containers.
Context (handlers sockets : list part) (Hh : Permutation handlers handler_owners) (Hs : Permutation sockets socket_owners).

Lemma exception_end : main_end handlers sockets serving_life true = (map Does curl_end, Undefined "async_handler_socket_").
Proof.
  destruct (handler_orders _ Hh) as [-> |[-> |[-> | ->]]]; destruct (socket_orders _ Hs) as [-> |[-> |[-> |[-> |[-> | ->]]]]]; vm_compute; reflexivity.
Qed.

Theorem terminated_end : terminated handlers sockets =
  ([SendTerminate; JoinThread] ++ map Does (Note LCritical "The main loop terminated" :: Note LInfo "Broker will now end." :: curl_end), Status 0%N).
Proof.
  destruct (handler_orders _ Hh) as [-> |[-> |[-> | ->]]]; destruct (socket_orders _ Hs) as [-> |[-> |[-> |[-> |[-> | ->]]]]]; vm_compute; reflexivity.
Qed.

Context (env : environment) (args : list string).

Theorem whole_course o fuel ws : (forall w, In w ws -> w_async w = []) ->
  match whole handlers sockets env args o (S fuel) ws with
  | (ds, Status c) => c = 1%N /\ exists effs, ds = map Does effs /\ refused env args (lines effs)
  | (ds, Endless) => exists first k g tr s, start_up env args = (first, Serving (k, g)) /\
      run o (handler_config g) k tr s /\ ds = map Does (first ++ map Act (flat_map event_actions tr))
  | (ds, Unknown) => False
  | (ds, Undefined n) => n = "async_handler_socket_" /\ exists effs, ds = map Does (effs ++ curl_end) /\
      (start_up env args = (effs, Unwinding) \/
       exists first k g tr s m outs f, start_up env args = (first, Serving (k, g)) /\ run o (handler_config g) k tr s /\
         crashes o (handler_config g) s m outs f /\
         effs = first ++ map Act (flat_map event_actions tr ++ ACall 0 m :: flat_map broker_route outs))
  end.
Proof.
  intros Hw. pose proof (process_course env args o fuel ws Hw) as HP. unfold whole. destruct (process env args o (S fuel) ws) as (effs, [c| |l]).
  - destruct HP as (-> & HR). eauto.
  - rewrite exception_end. split; [reflexivity|]. exists effs. rewrite map_app. split; [reflexivity|exact HP].
  - destruct HP as (first & k & g & tr & E & HR & -> & _). eauto 10.
Qed.

Lemma start_up_notes effs r l t : start_up env args = (effs, r) -> In (Note l t) effs -> t <> "The main loop terminated" /\ t <> "Broker will now end.".
Proof.
  intros E Hin.
  assert (HH : forall g, In (Note l t) (log_opened g :: log_head g) -> t <> "The main loop terminated" /\ t <> "Broker will now end.").
  { intros g H. unfold log_head in H. destruct (Z.leb _ _); cbn in H; repeat (destruct H as [[=]|H]; [subst; split; discriminate|] || destruct H as [[=]|H] || destruct H). }
  assert (HB : forall g rest, In (Note l t) (begun g ++ map opening rest) -> t <> "The main loop terminated" /\ t <> "Broker will now end.").
  { intros g rest H. apply in_app_or in H. destruct H as [H|H].
    - unfold begun in H. change (In (Note l t) ((log_opened g :: log_head g) ++
        [Note LDebug ("Binding clients to " ++ tcp (g_client_address g) (g_client_port g));
         Note LDebug ("Binding workers to " ++ tcp (g_worker_address g) (g_worker_port g));
         Note LDebug ("Binding monitor to " ++ tcp (g_monitor_address g) (g_monitor_port g));
         Note LInfo "Broker connection initialized."; Note LInfo "Broker will now start brokering."])) in H.
      apply in_app_or in H. destruct H as [H|H]; [exact (HH g H)|]. cbn [In] in H.
      repeat (destruct H as [H|H]; [injection H as <- <-; split; discriminate|]). destruct H.
    - apply in_map_iff in H. destruct H as (([|], a) & [=] & _). }
  destruct r as [c| |(k, g)].
  - destruct (refuses _ _ _ _ E) as (_ & _ & HT).
    assert (HS : In (Note l t) (silent effs)) by (apply filter_In; auto). destruct HT as [|doc g t' HC HL Hw H1 H2].
    + destruct HS.
    + change (In (Note l t) ((log_opened g :: log_head g) ++ [Note LCritical ("Unknown queue manager '" ++ t' ++ "'. Available managers are 'single' and 'multi'.")])) in HS.
      apply in_app_or in HS. destruct HS as [HS|[HS|[]]]; [exact (HH g HS)|]. injection HS as <- <-. split; discriminate.
  - apply unwinds in E. destruct E as (doc & g & k & opened & x & rest & _ & _ & _ & _ & _ & _ & ->). exact (HB g _ Hin).
  - apply serves in E. destruct E as (doc & _ & _ & _ & _ & ->). exact (HB g _ Hin).
Qed.

Theorem never_said o fuel ws ds e : (forall w, In w ws -> w_async w = []) -> whole handlers sockets env args o (S fuel) ws = (ds, e) ->
  (forall l t, In (Does (Note l t)) ds -> t <> "The main loop terminated" /\ t <> "Broker will now end.") /\
  ~ In SendTerminate ds /\ ~ In JoinThread ds /\
  (In (Does CurlCleanup) ds <-> exists n, e = Undefined n).
Proof.
  intros Hw E.
  assert (HA : forall x acts, In x (map Act acts) -> exists a, x = Act a) by (intros x acts Hx; apply in_map_iff in Hx; destruct Hx as (a & <- & _); eauto).
  assert (HC : forall effs r, start_up env args = (effs, r) -> ~ In CurlCleanup effs).
  { intros effs r Es Hin. assert (HH : forall g, ~ In CurlCleanup (log_opened g :: log_head g))
      by (intros g H; unfold log_head in H; destruct (Z.leb _ _); cbn in H; intuition discriminate).
    assert (HB : forall g rest, ~ In CurlCleanup (begun g ++ map opening rest)).
    { intros g rest H. apply in_app_or in H. destruct H as [H|H].
      - unfold begun in H. rewrite app_comm_cons in H. apply in_app_or in H. destruct H as [H|H]; [exact (HH g H)|]. cbn [In] in H. intuition discriminate.
      - apply in_map_iff in H. destruct H as (([|], a) & [=] & _). }
    destruct r as [c| |(k, g)].
    - destruct (refuses _ _ _ _ Es) as (_ & _ & HT). assert (HS : In CurlCleanup (silent effs)) by (apply filter_In; auto). destruct HT as [|doc g t' _ _ _ _ _].
      + destruct HS.
      + rewrite app_comm_cons in HS. apply in_app_or in HS. destruct HS as [HS|[[=]|[]]]. exact (HH g HS).
    - apply unwinds in Es. destruct Es as (doc & g & k & opened & x & rest & _ & _ & _ & _ & _ & _ & ->). exact (HB g _ Hin).
    - apply serves in Es. destruct Es as (doc & _ & _ & _ & _ & ->). exact (HB g _ Hin). }
  assert (HD : forall effs, ~ In SendTerminate (map Does effs) /\ ~ In JoinThread (map Does effs))
    by (intros effs; split; intros H; apply in_map_iff in H; destruct H as (x & [=] & _)).
  assert (HI : forall x effs, In (Does x) (map Does effs) <-> In x effs).
  { intros x effs. split; [intros H; apply in_map_iff in H; destruct H as (y & [= ->] & Hy); exact Hy|apply in_map]. }
  assert (HG : forall effs effs', ds = map Does (effs ++ effs') -> (exists r, start_up env args = (effs, r)) ->
    (forall l t, In (Note l t) effs' -> t <> "The main loop terminated" /\ t <> "Broker will now end.") ->
    (forall l t, In (Does (Note l t)) ds -> t <> "The main loop terminated" /\ t <> "Broker will now end.") /\
    ~ In SendTerminate ds /\ ~ In JoinThread ds /\ (In (Does CurlCleanup) ds <-> In CurlCleanup effs')).
  { intros effs effs' -> (r & Es) Hn. split; [|split; [apply HD|split; [apply HD|]]].
    - intros l t H. apply HI, in_app_or in H. destruct H as [H|H]; [exact (start_up_notes _ _ _ _ Es H)|exact (Hn _ _ H)].
    - rewrite HI. split; [|intros H; apply in_or_app; auto]. intros H. apply in_app_or in H. destruct H as [H|H]; [destruct (HC _ _ Es H)|exact H]. }
  assert (HE : forall l t, In (Note l t) curl_end -> t <> "The main loop terminated" /\ t <> "Broker will now end.").
  { intros l t H. cbn [curl_end In] in H. repeat (destruct H as [H|H]; [first [discriminate H|injection H as <- <-; split; discriminate]|]). destruct H. }
  assert (HN : forall acts l t, In (Note l t) (map Act acts) -> t <> "The main loop terminated" /\ t <> "Broker will now end.")
    by (intros acts l t H; apply HA in H; destruct H as (a & [=])).
  pose proof (process_course env args o fuel ws Hw) as HP. unfold whole in E.
  destruct (process env args o (S fuel) ws) as (effs, [c| |l]) eqn:Ep.
  - injection E as <- <-. unfold process in Ep. destruct (start_up env args) as (first, [c'| |(k, g)]) eqn:Es; [|discriminate Ep|destruct (loop _ _ _ _ _ _) as (acts, [|]); discriminate Ep].
    injection Ep as -> ->. destruct (HG effs [] ltac:(rewrite app_nil_r; reflexivity) ltac:(eauto) ltac:(intros l t [])) as (G1 & G2 & G3 & G4).
    repeat split; try assumption; [apply (G1 l t); assumption|apply (G1 l t); assumption|intros H; apply G4 in H; destruct H|intros (n & [=])].
  - rewrite exception_end in E. assert (Ed : ds = map Does (effs ++ curl_end)) by (rewrite map_app; congruence).
    assert (Eu : e = Undefined "async_handler_socket_") by congruence. clear E.
    destruct HP as [Es|(first & k & g & tr & s & m & outs & f & Es & _ & _ & Ee)].
    + destruct (HG effs curl_end Ed ltac:(eauto) HE) as (G1 & G2 & G3 & G4).
      split; [exact G1|]. split; [exact G2|]. split; [exact G3|]. rewrite G4. split; [eauto|intros _; cbn; auto].
    + rewrite Ee, <- app_assoc in Ed. edestruct (HG first _ Ed ltac:(eauto)) as (G1 & G2 & G3 & G4).
      { intros l t H. apply in_app_or in H. destruct H as [H|H]; [exact (HN _ _ _ H)|exact (HE _ _ H)]. }
      split; [exact G1|]. split; [exact G2|]. split; [exact G3|]. rewrite G4. split; [eauto|intros _; apply in_or_app; right; cbn; auto].
  - injection E as <- <-. destruct HP as (first & k & g & tr & Es & _ & -> & _).
    destruct (HG first _ eq_refl ltac:(eauto) (HN _)) as (G1 & G2 & G3 & G4).
    split; [exact G1|]. split; [exact G2|]. split; [exact G3|]. rewrite G4. split; [intros H; apply HA in H; destruct H as (a & [=])|intros (n & [=])].
Qed.
End Containers.
