(* Facts about log levels. *)
From Coq Require Import Lia.
From Verif Require Import Base Logger SpecLogger.
Local Open Scope string_scope.
Local Open Scope list_scope.

Theorem names lev l : get_log_level lev = l <-> In (lev, l) level_names \/ l = LTrace /\ forall l', ~ In (lev, l') level_names.
Proof.
  unfold get_log_level. split.
  - intros <-. repeat match goal with |- context [String.eqb lev ?n] => destruct (String.eqb_spec lev n) as [->|]; [left; cbn; auto 10|] end.
    right. split; [reflexivity|]. intros l'. cbn. intros H. repeat destruct H as [H|H]; try congruence.
  - intros [H|(-> & H)].
    + cbn in H. repeat destruct H as [H|H]; try (injection H as <- <-; reflexivity). destruct H.
    + repeat match goal with |- context [String.eqb lev ?n] => destruct (String.eqb_spec lev n) as [->|]; [exfalso; eapply H; cbn; eauto 10|] end. reflexivity.
Qed.

Theorem compare_positive a b : (0 < compare_log_levels a b)%Z <-> says_more a b.
Proof.
  split.
  - intros H. exists a. destruct a, b; cbn in *; try lia; repeat split; discriminate.
  - intros (m & Hm & Ha & Hb). unfold message_level in Hm. destruct a, b, m; cbn in *; try discriminate; try reflexivity; congruence.
Qed.
Theorem compare_negative a b : (compare_log_levels a b < 0)%Z <-> says_more b a.
Proof. rewrite <- compare_positive. unfold compare_log_levels. lia. Qed.
Theorem compare_zero a b : compare_log_levels a b = 0%Z <-> says_the_same a b.
Proof.
  split.
  - intros H m _. destruct a, b; cbn in H; try lia; reflexivity.
  - intros H. destruct (Z.lt_trichotomy (compare_log_levels a b) 0) as [L|[L|L]]; [|exact L|].
    + apply compare_negative in L. destruct L as (m & Hm & Hb & Ha). rewrite (H m Hm) in Ha. congruence.
    + apply compare_positive in L. destruct L as (m & Hm & Ha & Hb). rewrite (H m Hm) in Ha. congruence.
Qed.

Theorem header_written l : written_lines l (header l) = [] <-> l = LOff.
Proof. destruct l; cbn; split; intros H; try reflexivity; discriminate. Qed.
