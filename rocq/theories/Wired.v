(* The closed system with the ROUTER socket in between. *)
From Verif Require Import Base Bytes Containers Worker Multi Single Queue Handler Wire SpecText Spec SpecRun SpecMsg SpecFatal SpecWire SpecSystem
  SpecWired WireFacts Out System.
Local Open Scope string_scope.
Local Open Scope list_scope.

Lemma mail_arrives i outs : arrives_at i (ideal (to_workers outs)) = mail i outs.
Proof.
  unfold to_workers, mail, arrives_at. induction outs as [|m l IH]; simpl; [reflexivity|].
  destruct (String.eqb (m_key m) "workers"); simpl; [|exact IH]. destruct (String.eqb (m_ident m) i); simpl; rewrite IH; reflexivity.
Qed.
Lemma local_settled : local_restriction settled.
Proof. intros s s' ns ns' E H w Hin Hout. destruct (H w Hin Hout) as (H1 & H2). rewrite <- E. split; assumption. Qed.
Lemma local_anytime : local_restriction anytime.
Proof. intros s s' ns ns' _ _. exact I. Qed.

Section Wired.
Context (o : oracle) (cfg : config) (k : kind) (cards : string -> card) (ok : state -> state -> nodes -> Prop).
Context (Hok : local_restriction ok).
Notation wired := (wired o cfg k cards ok).
Notation system := (system o cfg k cards ok).

Lemma wired_run tr s ns r : wired tr s ns r -> run o cfg k tr s.
Proof. intros H. induction H; [constructor|exact IHwired|..]; econstructor; eassumption. Qed.

Lemma sends_ideal tr s m outs s' : run o cfg k (tr ++ [mkEvent s m outs s']) s' ->
  (k = KMulti \/ forall e j, In e (tr ++ [mkEvent s m outs s']) -> adopts j e = false) ->
  send_messages (to_workers outs) None = (ideal (to_workers outs), None).
Proof.
  intros HR HK. apply delivered. intros can x Hin. unfold to_workers in Hin. apply in_map_iff in Hin. destruct Hin as (y & E & Hin).
  injection E as <- <-. apply filter_In in Hin. destruct Hin as (Hin & Hk). apply String.eqb_eq in Hk. intros He.
  destruct (proj1 (empty_iff _ _ _ _ _ _ _ HR y) (conj Hin He)) as [(HS & (j & Hj) & _)|(_ & Ey)].
  - destruct HK as [HM|HN]; [congruence|]. rewrite (HN _ j) in Hj; [discriminate|]. apply in_or_app. right. left. reflexivity.
  - rewrite Ey in Hk. discriminate.
Qed.

Theorem wired_ideal tr s ns r : wired tr s ns r -> (k = KMulti \/ forall e j, In e tr -> adopts j e = false) ->
  r = None /\ exists ns', (forall i, ns i = ns' i) /\ system tr s ns'.
Proof.
  intros H. induction H as [|tr s ns r i n HW IH Hw|tr s ns r i m out outs s' ds r' HW IH Ho Hs Hd|tr s ns r m outs s' ds r' HW IH Hk Hb Hs Hy Hd];
    intros HK.
  - split; [reflexivity|]. exists (fun _ => mkNode Off [] []). split; [reflexivity|constructor].
  - destruct (IH HK) as (-> & ns' & E & HS). split; [reflexivity|]. exists (put i n ns'). split.
    + intros x. unfold put. destruct (String.eqb x i); [reflexivity|apply E].
    + constructor; [exact HS|]. rewrite <- E. exact Hw.
  - assert (HK' : k = KMulti \/ forall e j, In e tr -> adopts j e = false).
    { destruct HK as [HK|HK]; [left; exact HK|right]. intros e j Hin. apply HK. apply in_or_app. left. exact Hin. }
    destruct (IH HK') as (-> & ns' & E & HS).
    assert (HR : run o cfg k (tr ++ [mkEvent s (Msg "workers" i (frames (cards i) m)) outs s']) s') by (eapply wired_run; econstructor; eassumption).
    rewrite (sends_ideal _ _ _ _ _ HR HK) in Hd. injection Hd as <- <-. split; [reflexivity|]. exists (deliver outs (taken i out ns')). split.
    + intros x. unfold arrive, deliver, taken, put. rewrite mail_arrives. destruct (String.eqb x i); simpl; rewrite <- ?E; reflexivity.
    + eapply sy_read; [exact HS|rewrite <- E; exact Ho|exact Hs].
  - assert (HK' : k = KMulti \/ forall e j, In e tr -> adopts j e = false).
    { destruct HK as [HK|HK]; [left; exact HK|right]. intros e j Hin. apply HK. apply in_or_app. left. exact Hin. }
    destruct (IH HK') as (-> & ns' & E & HS).
    assert (HR : run o cfg k (tr ++ [mkEvent s m outs s']) s') by (eapply wired_run; econstructor; eassumption).
    rewrite (sends_ideal _ _ _ _ _ HR HK) in Hd. injection Hd as <- <-. split; [reflexivity|]. exists (deliver outs ns'). split.
    + intros x. unfold arrive, deliver. rewrite mail_arrives, <- E. reflexivity.
    + eapply sy_other; [exact HS|exact Hk|exact Hb|exact Hs|]. eapply Hok; [exact E|exact Hy].
Qed.
(* and conversely *)
Theorem ideal_wired tr s ns : system tr s ns -> (k = KMulti \/ forall e j, In e tr -> adopts j e = false) ->
  exists ns', (forall i, ns i = ns' i) /\ wired tr s ns' None.
Proof.
  intros H. induction H as [|tr s ns i n HW IH Hw|tr s ns i m out outs s' HW IH Ho Hs|tr s ns m outs s' HW IH Hk Hb Hs Hy]; intros HK.
  - exists (fun _ => mkNode Off [] []). split; [reflexivity|constructor].
  - destruct (IH HK) as (ns' & E & HS). exists (put i n ns'). split.
    + intros x. unfold put. destruct (String.eqb x i); [reflexivity|apply E].
    + constructor; [exact HS|]. rewrite <- E. exact Hw.
  - assert (HK' : k = KMulti \/ forall e j, In e tr -> adopts j e = false).
    { destruct HK as [HK|HK]; [left; exact HK|right]. intros e j Hin. apply HK. apply in_or_app. left. exact Hin. }
    destruct (IH HK') as (ns' & E & HS).
    assert (HR : run o cfg k (tr ++ [mkEvent s (Msg "workers" i (frames (cards i) m)) outs s']) s')
      by (econstructor; [eapply wired_run; exact HS|exact Hs]).
    exists (arrive (ideal (to_workers outs)) (taken i out ns')). split.
    + intros x. unfold arrive, deliver, taken, put. rewrite mail_arrives. destruct (String.eqb x i); simpl; rewrite <- ?E; reflexivity.
    + eapply wi_read; [exact HS|rewrite <- E; exact Ho|exact Hs|]. eapply sends_ideal; eassumption.
  - assert (HK' : k = KMulti \/ forall e j, In e tr -> adopts j e = false).
    { destruct HK as [HK|HK]; [left; exact HK|right]. intros e j Hin. apply HK. apply in_or_app. left. exact Hin. }
    destruct (IH HK') as (ns' & E & HS).
    assert (HR : run o cfg k (tr ++ [mkEvent s m outs s']) s') by (econstructor; [eapply wired_run; exact HS|exact Hs]).
    exists (arrive (ideal (to_workers outs)) ns'). split.
    + intros x. unfold arrive, deliver. rewrite mail_arrives, <- E. reflexivity.
    + eapply wi_other; [exact HS|exact Hk|exact Hb|exact Hs| |eapply sends_ideal; eassumption]. eapply Hok; [exact E|exact Hy].
Qed.
End Wired.

Section Claims.
Context (o : oracle) (cfg : config) (k : kind) (cards : string -> card) (Hcards : forall i, proper (cards i)).
Lemma wired_survives tr s ns r : wired o cfg k cards settled tr s ns r -> (k = KMulti \/ forall e j, In e tr -> adopts j e = false) ->
  forall i m out, n_outbox (ns i) = m :: out -> exists outs s', on_request o cfg (Msg "workers" i (frames (cards i) m)) s = (outs, inr (tt, s')).
Proof.
  intros HW HK i m out Ho. destruct (wired_ideal _ _ _ _ _ local_settled _ _ _ _ HW HK) as (_ & ns' & E & HS). rewrite E in Ho.
  exact (survives _ _ _ _ Hcards _ _ _ HS _ _ _ Ho).
Qed.
Lemma wired_no_phantom tr s ns r : wired o cfg k cards settled tr s ns r -> (k = KMulti \/ forall e j, In e tr -> adopts j e = false) ->
  forall i w q, sender i s = Some w -> current_of (s_queue s) w = Some q ->
  n_proc (ns i) = On (Some (r_job q)) \/ (exists pl, In ("eval" :: r_job q :: pl) (n_inbox (ns i))) \/
  exists v, In (Done (r_job q) v) (n_outbox (ns i)).
Proof.
  intros HW HK i w q Hs Hc. destruct (wired_ideal _ _ _ _ _ local_settled _ _ _ _ HW HK) as (_ & ns' & E & HS). rewrite E.
  exact (no_phantom _ _ _ _ Hcards _ _ _ HS _ _ _ Hs Hc).
Qed.
End Claims.
