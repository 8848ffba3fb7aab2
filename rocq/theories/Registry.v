(* Facts about the worker registry (C72). *)
From Coq Require Import Lia.
From Verif Require Import Base Bytes Containers Worker Multi Single Queue Handler SpecText Spec SpecRun SpecMsg SpecPings SpecFatal SpecRegistry
  Facts TextFacts HeaderFacts OrderFacts Messages Fatal.
Local Open Scope string_scope.
Local Open Scope list_scope.

Lemma perform_snoc acts a : perform (acts ++ [a]) = match a with Add w => reg_add w (perform acts) | Remove w => reg_remove w (perform acts) end.
Proof. unfold perform. rewrite fold_left_app. reflexivity. Qed.

Lemma sub_snoc {A} (l m : list A) a : sub l m -> sub (l ++ [a]) (m ++ [a]).
Proof. induction 1; cbn [app]; [apply sub_keep, sub_nil|apply sub_skip; assumption|apply sub_keep; assumption]. Qed.
Lemma sub_snoc_skip {A} (l m : list A) a : sub l m -> sub l (m ++ [a]).
Proof. induction 1; cbn [app]; [apply sub_skip, sub_nil|apply sub_skip; assumption|apply sub_keep; assumption]. Qed.
Lemma sub_in {A} (l m : list A) x : sub l m -> In x l -> In x m.
Proof. induction 1; simpl; intuition. Qed.
Lemma sub_remove w l m : sub l m -> sub (reg_remove w l) m.
Proof.
  induction 1 as [|a l m _ IH|a l m H IH]; cbn [reg_remove]; [apply sub_nil|apply sub_skip; exact IH|].
  destruct (same_worker a w); [apply sub_skip; exact H|apply sub_keep; exact IH].
Qed.

Lemma perform_sub acts : sub (perform acts) (added acts).
Proof.
  induction acts as [|a acts IH] using rev_ind; [apply sub_nil|]. rewrite perform_snoc. unfold added in *. rewrite flat_map_app. destruct a as [w|w]; cbn [flat_map app].
  - unfold reg_add. apply sub_snoc. exact IH.
  - rewrite app_nil_r. apply sub_remove. exact IH.
Qed.

Lemma sub_nodup (l m : list worker) : sub l m -> NoDup (map w_id m) -> NoDup (map w_id l).
Proof.
  induction 1 as [|a l m _ IH|a l m H IH]; cbn [map]; intros ND; [exact ND| |]; inversion ND as [|? ? N1 N2]; subst; [exact (IH N2)|].
  constructor; [|exact (IH N2)]. intros Hin. apply N1. apply in_map_iff in Hin. destruct Hin as (x & <- & Hx). apply in_map. eapply sub_in; eassumption.
Qed.

Lemma same_worker_id a b : same_worker a b = true <-> w_id a = w_id b.
Proof. unfold same_worker. apply Nat.eqb_eq. Qed.

Lemma reg_remove_in w l x : NoDup (map w_id l) -> (In x (reg_remove w l) <-> In x l /\ w_id w <> w_id x).
Proof.
  induction l as [|a l IH]; cbn [reg_remove map]; intros ND; [simpl; tauto|]. inversion ND as [|? ? N1 N2]; subst.
  destruct (same_worker a w) eqn:E.
  - apply same_worker_id in E. simpl. split.
    + intros H. split; [auto|]. intros H2. apply N1. rewrite E, H2. apply in_map. exact H.
    + intros ([->|H] & Hn); [congruence|exact H].
  - assert (Ne : w_id a <> w_id w) by (intros H; apply same_worker_id in H; congruence).
    simpl. rewrite (IH N2). split; [intros [->|(H1 & H2)]; split; auto|intros ([->|H1] & H2); auto].
Qed.

Theorem perform_in acts w : NoDup (map w_id (added acts)) -> (In w (perform acts) <-> present acts w).
Proof.
  induction acts as [|a acts IH] using rev_ind; intros ND.
  - split; [intros []|]. intros (b & c & E & _). destruct b; discriminate.
  - assert (ND' : NoDup (map w_id (added acts))).
    { unfold added in *. rewrite flat_map_app, map_app in ND. revert ND. generalize (map w_id (flat_map (fun a => match a with Add w => [w] | Remove _ => [] end) acts)).
      generalize (map w_id (flat_map (fun a => match a with Add w => [w] | Remove _ => [] end) [a])). intros y x. induction x as [|n x IHx]; [constructor|].
      cbn [app]. intros ND. inversion ND as [|? ? N1 N2]; subst. constructor; [|apply IHx; exact N2]. intros Hn. apply N1. apply in_or_app. auto. }
    specialize (IH ND'). rewrite perform_snoc. destruct a as [v|v].
    + unfold reg_add. rewrite in_app_iff, IH. simpl. split.
      * intros [(b & c & -> & H)|[->|[]]].
        -- exists b, (c ++ [Add v]). split; [rewrite <- app_assoc; reflexivity|]. intros x Hx. apply in_app_or in Hx. destruct Hx as [Hx|[Hx|[]]]; [auto|discriminate].
        -- exists acts, []. split; [reflexivity|]. intros x [].
      * intros (b & c & E & H). destruct c as [|x c] using rev_ind.
        -- apply app_inj_tail in E. destruct E as (_ & E). injection E as ->. auto.
        -- left. clear IHc. change (Add w :: c ++ [x]) with ((Add w :: c) ++ [x]) in E. rewrite app_assoc in E. apply app_inj_tail in E. destruct E as (-> & _).
           exists b, c. split; [reflexivity|]. intros y Hy. apply H. apply in_or_app. auto.
    + rewrite reg_remove_in, IH by (eapply sub_nodup; [apply perform_sub|exact ND']). split.
      * intros ((b & c & -> & H) & Hn). exists b, (c ++ [Remove v]). split; [rewrite <- app_assoc; reflexivity|].
        intros x Hx. apply in_app_or in Hx. destruct Hx as [Hx|[Hx|[]]]; [auto|]. injection Hx as ->. exact Hn.
      * intros (b & c & E & H). destruct c as [|x c] using rev_ind.
        -- apply app_inj_tail in E. destruct E as (_ & E). discriminate.
        -- clear IHc. change (Add w :: c ++ [x]) with ((Add w :: c) ++ [x]) in E. rewrite app_assoc in E. apply app_inj_tail in E. destruct E as (-> & <-).
           split; [exists b, c; split; [reflexivity|]; intros y Hy|]; apply H; apply in_or_app; simpl; auto.
Qed.

Theorem found_by_name i ws w : find_worker_by_identity i ws = Some w <->
  exists before after, ws = before ++ w :: after /\ w_identity w = i /\ forall v, In v before -> w_identity v <> i.
Proof.
  induction ws as [|a ws IH]; cbn [find_worker_by_identity].
  - split; [discriminate|]. intros (b & c & E & _). destruct b; discriminate.
  - destruct (String.eqb_spec (w_identity a) i) as [E|E].
    + split.
      * intros [= <-]. exists [], ws. split; [reflexivity|]. split; [exact E|]. intros v [].
      * intros (b & c & E1 & E2 & H). destruct b as [|x b]; [injection E1 as -> _; reflexivity|]. injection E1 as -> _. destruct (H x); [left; reflexivity|exact E].
    + rewrite IH. split; intros (b & c & E1 & E2 & H).
      * exists (a :: b), c. split; [rewrite E1; reflexivity|]. split; [exact E2|]. intros v [<-|Hv]; auto.
      * destruct b as [|x b]; [injection E1 as -> _; contradiction|]. injection E1 as -> ->. exists b, c. split; [reflexivity|]. split; [exact E2|]. intros v Hv. apply H. right. exact Hv.
Qed.

(* ---- searching by requirements ---- *)
Lemma made_from_made w c : made_from w c -> made w (fst c) (fst (parse_init_headers (snd c) [])) /\ declares (fst (parse_init_headers (snd c) [])) (snd c).
Proof.
  intros (NB & wid & addr & i & d & w0 & E & ->). split.
  - exact (make_worker_made _ _ _ _ _ _ E).
  - intros k v. rewrite (parse_init_in (snd c) [] k v NB). simpl. tauto.
Qed.

Section Search.
Context (need : list string).
Let reqs := fst (store need [] []).

Lemma check_able w c : made_from w c -> (check_headers w reqs = Val true <-> able c need).
Proof.
  intros H. destruct (made_from_made _ _ H) as (HM & HD). rewrite check_headers_true. unfold able.
  assert (HQ : forall h v, In (h, v) reqs <-> requires need h v) by (intros h v; unfold reqs; rewrite store_headers_in; simpl; tauto).
  split; intros G k v Hk; [apply (check_header_true _ _ _ _ _ _ HM HD), G, HQ, Hk|apply (check_header_true _ _ _ _ _ _ HM HD), G, HQ, Hk].
Qed.
Lemma check_chokes w c f : made_from w c -> (check_headers w reqs = Fail f <-> chokes c need f).
Proof. intros H. destruct (made_from_made _ _ H) as (HM & HD). exact (made_bad need reqs w _ _ _ f eq_refl HM HD). Qed.

Lemma before_cons (P : string * list string -> Prop) n c cs : P c -> all_before P n cs -> all_before P (S n) (c :: cs).
Proof. intros H1 H2 [|i] d Hi Hd; [injection Hd as <-; exact H1|]. apply (H2 i); [lia|exact Hd]. Qed.

Lemma search_outcome ws cs : Forall2 made_from ws cs -> outcome need ws cs (find_worker reqs ws).
Proof.
  induction 1 as [|w c ws cs H _ IH]; cbn [find_worker]; [intros i c Hi; cbn in Hi; lia|].
  destruct (check_headers w reqs) as [[]|f] eqn:E; cbn [rbind].
  - exists 0, c. split; [reflexivity|]. split; [reflexivity|]. split; [apply (check_able _ _ H); exact E|]. intros i d Hi. lia.
  - assert (HP : passes c need).
    { split; [intros Ha; apply (check_able _ _ H) in Ha; congruence|]. intros f Hf. apply (check_chokes _ _ _ H) in Hf. congruence. }
    destruct (find_worker reqs ws) as [[v|]|f]; cbn [outcome] in *.
    + destruct IH as (n & d & I1 & I2 & I3 & I4). exists (S n), d. split; [exact I1|]. split; [exact I2|]. split; [exact I3|]. apply before_cons; assumption.
    + cbn [length]. apply before_cons; assumption.
    + destruct IH as (n & d & I1 & I2 & I3). exists (S n), d. split; [exact I1|]. split; [exact I2|]. apply before_cons; assumption.
  - exists 0, c. split; [reflexivity|]. split; [apply (check_chokes _ _ _ H); exact E|]. intros i d Hi. lia.
Qed.

Lemma apart ws cs n c : Forall2 made_from ws cs -> nth_error cs n = Some c -> forall f, able c need -> chokes c need f -> False.
Proof.
  intros HF Hn f Ha Hc. assert (exists w, made_from w c) as (w & Hw).
  { revert n Hn. induction HF as [|w d ws cs H _ IH]; intros [|n] Hn; try discriminate; [injection Hn as <-; eauto|eauto]. }
  apply (check_able _ _ Hw) in Ha. apply (check_chokes _ _ _ Hw) in Hc. congruence.
Qed.

Lemma outcome_fun ws cs x y : Forall2 made_from ws cs -> outcome need ws cs x -> outcome need ws cs y -> x = y.
Proof.
  intros HF.
  assert (LT : forall n m c, all_before (fun c => passes c need) n cs -> nth_error cs m = Some c -> (able c need \/ exists f, chokes c need f) -> n <= m).
  { intros n m c H1 H2 H3. destruct (Nat.lt_ge_cases m n) as [Hl|Hl]; [|exact Hl]. exfalso. destruct (H1 _ _ Hl H2) as (N1 & N2). destruct H3 as [H3|(f & H3)]; [exact (N1 H3)|exact (N2 f H3)]. }
  assert (LL : forall m c, nth_error cs m = Some c -> m < length cs) by (intros m c H; apply nth_error_Some; congruence).
  destruct x as [[w|]|f]; destruct y as [[v|]|g]; cbn [outcome]; try reflexivity.
  - intros (n & c & A1 & A2 & A3 & A4) (m & d & B1 & B2 & B3 & B4). assert (n = m) as ->; [|congruence].
    pose proof (LT _ _ _ A4 B2 (or_introl B3)). pose proof (LT _ _ _ B4 A2 (or_introl A3)). lia.
  - intros (n & c & A1 & A2 & A3 & A4) B. pose proof (LT _ _ _ B A2 (or_introl A3)). pose proof (LL _ _ A2). lia.
  - intros (n & c & A1 & A2 & A3 & A4) (m & d & B1 & B2 & B3). exfalso.
    pose proof (LT _ _ _ A4 B1 (or_intror (ex_intro _ g B2))). pose proof (LT _ _ _ B3 A2 (or_introl A3)). assert (n = m) as -> by lia.
    assert (c = d) as -> by congruence. exact (apart _ _ _ _ HF B1 _ A3 B2).
  - intros A (m & d & B1 & B2 & B3 & B4). pose proof (LT _ _ _ A B2 (or_introl B3)). pose proof (LL _ _ B2). lia.
  - intros A (m & d & B1 & B2 & B3). pose proof (LT _ _ _ A B1 (or_intror (ex_intro _ g B2))). pose proof (LL _ _ B1). lia.
  - intros (n & c & A1 & A2 & A3) (m & d & B1 & B2 & B3 & B4). exfalso.
    pose proof (LT _ _ _ B4 A1 (or_intror (ex_intro _ f A2))). pose proof (LT _ _ _ A3 B2 (or_introl B3)). assert (n = m) as -> by lia.
    assert (c = d) as -> by congruence. exact (apart _ _ _ _ HF A1 _ B3 A2).
  - intros (n & c & A1 & A2 & A3) B. pose proof (LT _ _ _ B A1 (or_intror (ex_intro _ f A2))). pose proof (LL _ _ A1). lia.
  - intros (n & c & A1 & A2 & A3) (m & d & B1 & B2 & B3).
    pose proof (LT _ _ _ A3 B1 (or_intror (ex_intro _ g B2))). pose proof (LT _ _ _ B3 A1 (or_intror (ex_intro _ f A2))). assert (n = m) as -> by lia.
    assert (c = d) as -> by congruence. assert (exists w, made_from w d) as (w & Hw).
    { clear - HF B1. revert m B1. induction HF as [|w e ws cs H _ IH]; intros [|m] Hn; try discriminate; [injection Hn as <-; eauto|eauto]. }
    apply (check_chokes _ _ _ Hw) in A2. apply (check_chokes _ _ _ Hw) in B2. congruence.
Qed.

Theorem found_by_need ws cs frames payload rq md : Forall2 made_from ws cs -> header_block frames need payload ->
  parse_eval_headers frames [] [] = Val (Some (rq, md, payload)) -> forall x, find_worker rq ws = x <-> outcome need ws cs x.
Proof.
  intros HF HB E x. rewrite (parse_eval_block _ _ _ _ _ HB) in E. assert (Er : rq = reqs) by (unfold reqs; destruct (store need [] []); injection E as <- <-; reflexivity).
  rewrite Er. split; [intros <-; apply search_outcome; exact HF|].
  intros H. eapply outcome_fun; [exact HF|apply search_outcome; exact HF|exact H].
Qed.
End Search.
