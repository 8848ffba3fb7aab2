(* string_to_hex prints exactly the text SpecHex describes. *)
From Coq Require Import Lia.
From Verif Require Import Base Bytes SpecHex.
Local Open Scope string_scope.

Lemma digit_small d c : String.get d "0123456789abcdef" = Some c -> d < 16.
Proof.
  intros H. do 16 (destruct d as [|d]; [lia|]). simpl in H. destruct d; discriminate.
Qed.

Lemma digit_unique d e c : String.get d "0123456789abcdef" = Some c ->
  String.get e "0123456789abcdef" = Some c -> d = e.
Proof.
  intros H G. pose proof (digit_small d c H). pose proof (digit_small e c G).
  do 16 (destruct d as [|d];
    [simpl in H; injection H as <-; do 16 (destruct e as [|e]; [first [reflexivity|discriminate]|]); lia|]).
  lia.
Qed.

Lemma pow_S n : (16 ^ N.of_nat (S n) = 16 * 16 ^ N.of_nat n)%N.
Proof. rewrite Nat2N.inj_succ, N.pow_succ_r'. reflexivity. Qed.

Lemma hex_range acc s v : hex_from acc s v ->
  (acc * 16 ^ N.of_nat (String.length s) <= v < (acc + 1) * 16 ^ N.of_nat (String.length s))%N.
Proof.
  induction 1 as [v|acc d c s v Hd _ IH].
  - cbn [String.length N.of_nat]. rewrite N.pow_0_r. lia.
  - cbn [String.length]. rewrite pow_S. apply digit_small in Hd.
    set (P := (16 ^ N.of_nat (String.length s))%N) in *. nia.
Qed.

Lemma hex_same s : forall a b t v, hex_from a s v -> hex_from b t v ->
  String.length s = String.length t -> a = b /\ s = t.
Proof.
  induction s as [|c s IH]; intros a b t v H G L; inversion H; subst; inversion G; subst; try discriminate.
  - auto.
  - cbn [String.length] in L. injection L as L.
    match goal with H1 : hex_from _ s v, H2 : hex_from _ _ v |- _ =>
      destruct (IH _ _ _ _ H1 H2 L) as [E ->] end.
    repeat match goal with H1 : String.get ?d _ = Some _ |- _ =>
      lazymatch goal with _ : d < 16 |- _ => fail | _ => pose proof (digit_small _ _ H1) end end.
    assert (d = d0) by lia. subst d0. split; [lia|congruence].
Qed.

Lemma hex_leading c s v : hex_from 0 (String c s) v -> c <> "0"%char ->
  (16 ^ N.of_nat (String.length s) <= v)%N.
Proof.
  intros H Hc. inversion H as [|? d ? ? ? Hd Hs]; subst. apply hex_range in Hs.
  destruct d as [|d]; [simpl in Hd; congruence|].
  set (P := (16 ^ N.of_nat (String.length s))%N) in *. nia.
Qed.

Lemma long_length p q v : hex_from 0 p v -> hex_from 0 q v ->
  (2 < String.length q /\ forall r, q <> String "0" r) -> 2 <= String.length p ->
  String.length q <= String.length p.
Proof.
  intros Hp Hq [L Z] M. destruct q as [|c q]; [simpl in L; lia|].
  destruct (Nat.le_gt_cases (String.length (String c q)) (String.length p)) as [|G]; [assumption|exfalso].
  assert (Hc : c <> "0"%char) by (intros ->; exact (Z q eq_refl)).
  apply (hex_leading c q v Hq) in Hc. apply hex_range in Hp. cbn [String.length] in G.
  assert (16 ^ N.of_nat (String.length p) <= 16 ^ N.of_nat (String.length q))%N by (apply N.pow_le_mono_r; lia).
  lia.
Qed.

Lemma padded2_unique p q v : padded2 p v -> padded2 q v -> p = q.
Proof.
  intros [Hp Lp] [Hq Lq]. assert (E : String.length p = String.length q).
  { destruct Lp as [Lp|Lp], Lq as [Lq|Lq].
    - congruence.
    - pose proof (long_length p q v Hp Hq Lq). lia.
    - pose proof (long_length q p v Hq Hp Lp). lia.
    - apply Nat.le_antisymm.
      + apply (long_length q p v Hq Hp Lp). lia.
      + apply (long_length p q v Hp Hq Lq). lia. }
  exact (proj2 (hex_same p 0 0 q v Hp Hq E)).
Qed.

Lemma widened_unique a v w : widened a v -> widened a w -> v = w.
Proof. destruct a. unfold widened. intros H G. apply N2Z.inj. congruence. Qed.

Definition wide (a : ascii) : N := if N.ltb (N_of_ascii a) 128 then N_of_ascii a else (4294967040 + N_of_ascii a)%N.

Lemma widened_wide a : widened a (wide a).
Proof. destruct a as [[] [] [] [] [] [] [] []]; reflexivity. Qed.

Ltac digit n := apply (hf_digit _ n); [reflexivity|].
Ltac digits := first
  [ apply hf_end
  | lazymatch goal with |- hex_from _ (String ?c _) _ =>
      let n := eval vm_compute in (match String.index 0 (String c "") "0123456789abcdef" with Some n => n | None => 99 end) in
      apply (hf_digit _ n); [reflexivity|digits] end ].

Lemma char_padded a : padded2 (char_to_hex a) (wide a).
Proof.
  destruct a as [[] [] [] [] [] [] [] []];
    (match goal with |- padded2 ?p ?v => let p' := eval vm_compute in p in change (padded2 p' v) end;
     split; [match goal with |- hex_from _ _ ?v => let v' := eval vm_compute in v in change v with v' end; digits
            |first [left; reflexivity|right; split; [simpl; lia|discriminate]]]).
Qed.

Theorem string_to_hex_text s : forall t, string_to_hex s = t <-> hex_of s t.
Proof.
  induction s as [|a s IH]; intros t; split.
  - simpl. intros <-. constructor.
  - inversion 1. reflexivity.
  - cbn [string_to_hex]. intros <-.
    apply (ho_cons a s (wide a)); [apply widened_wide|apply char_padded|apply IH; reflexivity].
  - inversion 1 as [|? ? v p q W P Q]; subst. cbn [string_to_hex]. apply IH in Q.
    rewrite Q. f_equal. rewrite (widened_unique _ _ _ W (widened_wide a)) in P.
    exact (padded2_unique _ _ _ (char_padded a) P).
Qed.
