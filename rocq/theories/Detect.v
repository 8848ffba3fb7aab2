(* Concrete runs about silent workers: what detection does not guarantee. *)
From Verif Require Import Base Bytes Containers Worker Multi Single Queue Handler SpecText Spec SpecRun SpecMsg SpecPings
  HexFacts Pings Demo.
Local Open Scope string_scope.
Local Open Scope list_scope.

Definition up_oracle : oracle := mkOracle (fun n => N.of_nat n) (fun n => Z.of_nat n) (fun _ r => N.of_nat r).

Fixpoint ticks_of (tr : list event) : option (list Z) :=
  match tr with
  | [] => Some []
  | e :: tr =>
      if String.eqb (m_key (ev_in e)) "timer" then
        match m_data (ev_in e) with
        | t :: _ => match stoll t, ticks_of tr with Val z, Some zs => Some (z :: zs) | _, _ => None end
        | [] => None
        end
      else ticks_of tr
  end.

Lemma ticks_of_ticks tr zs : ticks_of tr = Some zs -> ticks tr zs.
Proof.
  revert zs. induction tr as [|e tr IH]; simpl; intros zs H.
  - injection H as <-. constructor.
  - destruct (String.eqb_spec (m_key (ev_in e)) "timer") as [E|E].
    + destruct (m_data (ev_in e)) as [|t rest] eqn:Ed; [discriminate|].
      destruct (stoll t) as [z|f] eqn:Ez; [|discriminate]. destruct (ticks_of tr) as [zs'|]; [|discriminate].
      injection H as <-. apply (ti_tick _ _ t rest); auto. apply reads_stoll. exact Ez.
    + apply ti_other; auto.
Qed.

Definition silentb (i : string) (tr : list event) : bool :=
  forallb (fun e => negb (String.eqb (m_key (ev_in e)) "workers" && String.eqb (m_ident (ev_in e)) i)) tr.

Lemma silentb_silent w tr : silentb (w_identity w) tr = true -> silent w tr.
Proof.
  unfold silentb, silent, hears. rewrite forallb_forall. intros H e He (K & S). specialize (H e He). rewrite K in H.
  unfold sender in S. apply List.find_some in S. destruct S as (_ & S). apply String.eqb_eq in S. rewrite S, !String.eqb_refl in H.
  discriminate.
Qed.

(* the whole history of an execution, split at its n-th event *)
Lemma exec_split o cfg k ms n x s : exec o cfg (start k) ms = x ->
  Nat.ltb n (length (fst x)) = true -> snd x = inr s ->
  run o cfg k (firstn n (fst x) ++ event_at x n :: skipn (S n) (fst x)) s.
Proof.
  intros Hx Hn Hs. unfold event_at. rewrite <- split_nth by (apply Nat.ltb_lt; exact Hn).
  apply (exec_start o cfg k ms). rewrite Hx. destruct x as (tr, r). simpl in *. congruence.
Qed.

Definition fresh_inputs : list msg := from_worker "A" ["init"; "g"] :: repeat (tick "1001") 5.

Lemma fresh_silence_refuted : forall k, ~ (forall o cfg tr1 e tr2 s w zs d,
  run o cfg k (tr1 ++ e :: tr2) s -> enters w e -> silent w tr2 -> ticks tr2 zs ->
  Forall (fun z => 0 <= z <= d)%Z zs -> (0 <= d)%Z -> (0 <= c_ping_interval cfg)%Z -> (1 <= c_max_liveness cfg)%N ->
  (Z.of_N (c_max_liveness cfg) * (c_ping_interval cfg + d) < sum zs)%Z ->
  ~ In w (s_reg s)).
Proof.
  intros k H. remember (exec up_oracle demo_cfg (start k) fresh_inputs) as x eqn:Ex.
  assert (E : exists s, snd x = inr s /\ Nat.ltb 0 (length (fst x)) = true /\
    exists w, s_reg s = [w] /\ s_reg (ev_pre (event_at x 0)) = [] /\ s_reg (ev_post (event_at x 0)) = [w] /\
      w_identity w = "A" /\ silentb "A" (skipn 1 (fst x)) = true /\ ticks_of (skipn 1 (fst x)) = Some (repeat 1001%Z 5)).
  { rewrite Ex. clear. destruct k; vm_compute; eexists; (split; [reflexivity|]); (split; [reflexivity|]); eexists; repeat split. }
  destruct E as (s & Es & Hn & w & E1 & E2 & E3 & E4 & E5 & E6).
  refine (H up_oracle demo_cfg _ _ _ s w (repeat 1001%Z 5) 1001%Z (exec_split _ _ k fresh_inputs 0 x s (eq_sym Ex) Hn Es) _ _ _ _ _ _ _ _ _).
  - split; rewrite ?E2, ?E3; simpl; auto.
  - apply silentb_silent. rewrite E4. exact E5.
  - apply ticks_of_ticks. exact E6.
  - repeat constructor; discriminate.
  - discriminate.
  - discriminate.
  - discriminate.
  - reflexivity.
  - rewrite E1. simpl. auto.
Qed.

(* x runs on A; A and B expire in one tick, C survives and is idle *)
Definition doomed_inputs : list msg :=
  [from_worker "A" ["init"; "a"]; from_worker "B" ["init"; "b"]; from_worker "C" ["init"; "c"];
   from_client "u" ["eval"; "y"; "hwgroup=b"; ""; "p"]; from_client "u" ["eval"; "z"; "hwgroup=c"; ""; "p"];
   from_client "u" ["eval"; "x"; "hwgroup=a|b|c"; ""; "p"];
   from_worker "A" ["ping"]; from_worker "B" ["done"; "y"; "OK"]; from_client "u" ["eval"; "t"; "hwgroup=c"; ""; "p"];
   from_worker "C" ["done"; "z"; "OK"]; from_worker "C" ["done"; "t"; "OK"];
   tick "1001"; from_worker "C" ["ping"]; tick "1001"].

Lemma survivors_refuted : forall k, ~ (forall o cfg tr1 e tr2 s,
  run o cfg k (tr1 ++ e :: tr2) s -> m_key (ev_in e) = "timer" ->
  forall out rest, In out (ev_out e) -> m_key out = "workers" -> m_data out = "eval" :: rest ->
  exists w, In w (s_reg (ev_post e)) /\ w_identity w = m_ident out).
Proof.
  intros k H. remember (exec up_oracle demo_cfg (start k) doomed_inputs) as x eqn:Ex.
  assert (E : exists s, snd x = inr s /\ Nat.ltb 13 (length (fst x)) = true /\
    m_key (ev_in (event_at x 13)) = "timer" /\ In (Msg "workers" "B" ["eval"; "x"; "p"]) (ev_out (event_at x 13)) /\
    map w_identity (s_reg (ev_post (event_at x 13))) = ["C"]).
  { rewrite Ex. clear. destruct k; vm_compute; eexists; repeat split; auto. }
  destruct E as (s & Es & Hn & E1 & E2 & E3).
  destruct (H up_oracle demo_cfg _ _ _ s (exec_split _ _ k doomed_inputs 13 x s (eq_sym Ex) Hn Es) E1 _ _ E2 eq_refl eq_refl) as (w & Hw & Ew).
  apply (in_map w_identity) in Hw. rewrite E3, Ew in Hw. simpl in Hw. destruct Hw as [Hw|[]]. discriminate.
Qed.

Lemma extra_failure_refuted : forall k, ~ (forall o cfg tr1 e tr2 s r w,
  run o cfg k (tr1 ++ e :: tr2) s -> m_key (ev_in e) = "timer" ->
  (2 <= c_max_failures cfg)%N -> In r (held (s_queue (ev_pre e))) -> dispatches (r_job r) tr1 = 1 ->
  In w (s_reg (ev_post e)) -> capable w r -> owned (s_queue (ev_pre e)) w = [] ->
  forall d, ~ In (failed_report (r_job r) d) (ev_out e)).
Proof.
  intros k H. remember (exec up_oracle demo_cfg (start k) doomed_inputs) as x eqn:Ex.
  assert (E : exists s, snd x = inr s /\ Nat.ltb 13 (length (fst x)) = true /\
    m_key (ev_in (event_at x 13)) = "timer" /\ exists r, held (s_queue (ev_pre (event_at x 13))) = [r] /\
    dispatches (r_job r) (firstn 13 (fst x)) = 1 /\ exists w, s_reg (ev_post (event_at x 13)) = [w] /\
    check_headers w (r_headers r) = Val true /\ owned (s_queue (ev_pre (event_at x 13))) w = [] /\
    exists d, In (failed_report (r_job r) d) (ev_out (event_at x 13))).
  { rewrite Ex. clear. destruct k; eexists; (split; [vm_compute; reflexivity|]); (split; [vm_compute; reflexivity|]);
      (split; [vm_compute; reflexivity|]); eexists; (split; [vm_compute; reflexivity|]); (split; [vm_compute; reflexivity|]);
      eexists; (split; [vm_compute; reflexivity|]); (split; [vm_compute; reflexivity|]); (split; [vm_compute; reflexivity|]);
      eexists; vm_compute; right; right; left; reflexivity. }
  destruct E as (s & Es & Hn & E1 & r & E2 & E3 & w & E4 & E5 & E6 & d & E7).
  refine (H up_oracle demo_cfg _ _ _ s r w (exec_split _ _ k doomed_inputs 13 x s (eq_sym Ex) Hn Es) E1 _ _ E3 _ E5 E6 d E7).
  - discriminate.
  - rewrite E2. simpl. auto.
  - rewrite E4. simpl. auto.
Qed.
