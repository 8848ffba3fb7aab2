(* The ledger of SpecLedger is deterministic (C71). *)
From Coq Require Import Lia.
From Verif Require Import Base Bytes Containers Worker Multi Single Queue Handler SpecText Spec SpecRun SpecMsg SpecPings SpecOutcome SpecJoin SpecTick SpecFront SpecBook SpecLedger
  Facts TextFacts HeaderFacts OrderFacts Blind Messages Pings Outcome Joining Front Book.
Local Open Scope string_scope.
Local Open Scope list_scope.

Lemma split_at {A} (b1 : list A) : forall b2 x1 x2 a1 a2, b1 ++ x1 :: a1 = b2 ++ x2 :: a2 ->
  (b1 = b2 /\ x1 = x2 /\ a1 = a2) \/ In x1 b2 \/ In x2 b1.
Proof.
  induction b1 as [|y b1 IH]; intros [|z b2] x1 x2 a1 a2 E; cbn [app] in E.
  - left. injection E as -> ->. auto.
  - right. left. injection E as -> _. left. reflexivity.
  - right. right. injection E as -> _. left. reflexivity.
  - injection E as -> E. destruct (IH _ _ _ _ _ E) as [(-> & H)|[H|H]]; simpl; auto.
Qed.

Lemma place_fun F k b1 o1 F1 : place F k b1 o1 F1 -> forall b2 o2 F2, place F k b2 o2 F2 -> b1 = b2 /\ o1 = o2 /\ F1 = F2.
Proof.
  intros H b2 o2 F2 H2.
  assert (HN : forall ds rota x d before after, rota = before ++ x :: after -> desk_at x ds = Some d -> can d k ->
    (forall x d, In x rota -> desk_at x ds = Some d -> ~ can d k) -> False).
  { intros ds rota x d before after -> Hd Hc Hn. eapply Hn; [|exact Hd|exact Hc]. apply in_or_app. right. left. reflexivity. }
  inversion H; subst; inversion H2; subst; try (split; [|split]; reflexivity);
    try (exfalso; eapply HN; [reflexivity|eassumption|eassumption|eassumption]; fail);
    try (exfalso; eapply HN; [symmetry; eassumption|eassumption|eassumption|eassumption]; fail);
    match goal with E : _ ++ _ :: _ = _ ++ _ :: _ |- _ => destruct (split_at _ _ _ _ _ _ E) as [(-> & -> & ->)|[Hi|Hi]] end;
    try (exfalso; match goal with G : forall y e, In y ?b -> _, Hi : In _ ?b |- _ => eapply G; [exact Hi|eassumption|eassumption] end);
    match goal with A : desk_at ?x ?ds = Some _, B : desk_at ?x ?ds = Some _ |- _ => rewrite A in B; injection B as -> end;
    try congruence; auto.
Qed.

Lemma rehome_fun cfg F ks o1 l1 F1 : rehome cfg F ks o1 l1 F1 -> forall o2 l2 F2, rehome cfg F ks o2 l2 F2 -> o1 = o2 /\ l1 = l2 /\ F1 = F2.
Proof.
  induction 1; intros o2 l2 F2 GG; inversion GG; subst; auto; try congruence; try lia;
    try (match goal with A : place ?F ?k _ _ _, B : place ?F ?k _ _ _ |- _ => destruct (place_fun _ _ _ _ _ A _ _ _ B) as (Eb & -> & ->) end; try discriminate);
    match goal with IH : forall o l F, _ -> _, G : rehome _ _ _ _ _ _ |- _ => destruct (IH _ _ _ G) as (-> & -> & ->) end; auto.
Qed.

Lemma close_fun cfg F xs o1 F1 : close cfg F xs o1 F1 -> forall o2 F2, close cfg F xs o2 F2 -> o1 = o2 /\ F1 = F2.
Proof.
  induction 1 as [|ds rota x xs d outs left F1 outs' F' Hd Hr Hc IH]; intros o2 F2 H2; inversion H2; subst; auto.
  match goal with A : desk_at x ds = Some _ |- _ => rewrite Hd in A; injection A as <- end.
  match goal with A : rehome _ _ _ _ _ _ |- _ => destruct (rehome_fun _ _ _ _ _ _ Hr _ _ _ A) as (<- & <- & <-) end.
  match goal with A : close _ F1 _ _ _ |- _ => destruct (IH _ _ A) as (<- & <-) end. auto.
Qed.

Lemma report_fun cfg d F fr o1 F1 a1 b1 : report cfg d F fr o1 F1 a1 b1 -> forall o2 F2 a2 b2, report cfg d F fr o2 F2 a2 b2 ->
  o1 = o2 /\ F1 = F2 /\ a1 = a2 /\ b1 = b2.
Proof.
  destruct 1; intros o2 F2 a2 b2 GG; inversion GG; subst; auto.
  all: try (cbn [length] in *; lia).
  all: repeat match goal with A : d_now ?d = Some _, B : d_now ?d = Some _ |- _ => rewrite A in B; injection B as <- end.
  all: try congruence; try (exfalso; lia).
  all: try (exfalso; match goal with H : ~ In _ _ |- _ => apply H; simpl; auto end).
  all: try (exfalso; match goal with H : In _ [_; _] |- _ => simpl in H; intuition discriminate end).
  all: try (match goal with A : takes_next ?d ?ds = _, B : takes_next ?d ?ds = _ |- _ => rewrite A in B; injection B as <- <- end; auto).
  match goal with A : place ?F ?k _ _ _, B : place ?F ?k _ _ _ |- _ => destruct (place_fun _ _ _ _ _ A _ _ _ B) as (_ & -> & ->) end. auto.
Qed.

Lemma react_fun cfg L m o1 L1 : react cfg L m o1 L1 -> forall o2 L2, react cfg L m o2 L2 -> o1 = o2 /\ L1 = L2.
Proof.
  assert (HBN : forall frames need payload, header_block frames need payload -> ~ In "" frames -> False).
  { intros frames need payload (-> & _) Hn. apply Hn. apply in_or_app. simpl. auto. }
  destruct 1; intros o2 L2 GG; inversion GG; subst; try (split; reflexivity).
  all: try (exfalso; match goal with H : ~ In _ _ |- _ => apply H; simpl; tauto end).
  all: try congruence.
  all: try (exfalso; eauto; fail).
  all: try (match goal with A : init_block ?f _, B : init_block ?f _ |- _ => rewrite (init_block_fun _ _ _ A B) in * end; try (split; reflexivity)).
  all: try (exfalso; match goal with H : forall d, desk_named _ _ = Some d -> ~ _ |- _ => eapply H; eassumption end).
  all: try (match goal with A : header_block ?f _ _, B : header_block ?f _ _ |- _ => destruct (header_block_fun _ _ _ _ _ A B) as (-> & ->) end).
  all: try (match goal with A : place ?F ?k _ _ _, B : place ?F ?k _ _ _ |- _ => destruct (place_fun _ _ _ _ _ A _ _ _ B) as (Eb & Eo & EF); try discriminate; subst end; try (split; reflexivity)).
  - match goal with A : desk_named ?i ?ds = Some _, B : desk_named ?i ?ds = Some _ |- _ => rewrite A in B; injection B as <- end.
    match goal with A : report _ _ _ _ _ _ _ _, B : report _ _ _ _ _ _ _ _ |- _ => destruct (report_fun _ _ _ _ _ _ _ _ A _ _ _ _ B) as (-> & -> & -> & ->) end. auto.
  - match goal with A : enumerates _ _, B : enumerates _ _ |- _ => rewrite (enumerates_fun _ _ _ A B) end. auto.
  - match goal with A : reads _ _, B : reads _ _ |- _ => rewrite (reads_fun _ _ _ A B) in * end.
    match goal with A : close _ _ _ _ _, B : close _ _ _ _ _ |- _ => destruct (close_fun _ _ _ _ _ A _ _ B) as (-> & ->) end. auto.
Qed.

Theorem reacted_fun cfg ms os1 L1 : reacted cfg ms os1 L1 -> forall os2 L2, reacted cfg ms os2 L2 -> os1 = os2 /\ L1 = L2.
Proof.
  induction 1 as [|ms oss L m a L' _ IH _ HS]; intros os2 L2 H2; inversion H2 as [E1 E2 E3|ms2 oss2 c m2 a2 c' H2' _ HS2 E1 E2 E3]; subst.
  - auto.
  - destruct ms2; discriminate.
  - destruct ms; discriminate.
  - apply app_inj_tail in E1. destruct E1 as (-> & ->). destruct (IH _ _ H2') as (-> & ->).
    destruct (react_fun _ _ _ _ _ HS _ _ HS2) as (-> & ->). auto.
Qed.
