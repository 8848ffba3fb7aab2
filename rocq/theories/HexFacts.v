(* Hexadecimal names and decimal texts. *)
From Coq Require Import Lia Decimal DecimalString DecimalN.
From Verif Require Import Base Bytes Containers Worker SpecText TextFacts.
Local Open Scope string_scope.

(* ---- hexadecimal ---- *)

Definition hex_val (a : ascii) : option N :=
  let n := N_of_ascii a in
  if N.leb 48 n && N.leb n 57 then Some (n - 48)%N
  else if N.leb 97 n && N.leb n 102 then Some (n - 87)%N else None.
Definition hex_pair (s : string) : option (ascii * string) :=
  match s with
  | String a (String b t) =>
      match hex_val a, hex_val b with
      | Some x, Some y => Some (ascii_of_N (16 * x + y), t)
      | _, _ => None
      end
  | _ => None
  end.
Definition hex_first (s : string) : option (ascii * string) :=
  match s with
  | String "f" (String "f" (String "f" (String "f" (String "f" (String "f" t))))) => hex_pair t
  | _ => hex_pair s
  end.

Lemma hex_first_char a t : hex_first (char_to_hex a ++ t) = Some (a, t).
Proof. destruct a as [[] [] [] [] [] [] [] []]; reflexivity. Qed.

Lemma hex_nonempty a : char_to_hex a <> "".
Proof. destruct a as [[] [] [] [] [] [] [] []]; discriminate. Qed.

Lemma string_to_hex_inj s : forall t, string_to_hex s = string_to_hex t -> s = t.
Proof.
  induction s as [|a s IH]; intros [|b t]; simpl; intros H.
  - reflexivity.
  - exfalso. destruct (char_to_hex b) eqn:E; [exact (hex_nonempty b E)|discriminate].
  - exfalso. destruct (char_to_hex a) eqn:E; [exact (hex_nonempty a E)|discriminate].
  - pose proof (hex_first_char a (string_to_hex s)) as H1. rewrite H, hex_first_char in H1.
    injection H1 as -> H1. f_equal. apply IH. symmetry. exact H1.
Qed.

Lemma no_char_app c a b : no_char c (a ++ b) <-> no_char c a /\ no_char c b.
Proof.
  induction a as [|x a IH]; simpl.
  - split; [intros H; split; [apply no_char_nil|exact H]|intros (_ & H); exact H].
  - rewrite !no_char_cons, IH. tauto.
Qed.
Lemma no_char_hex s : no_char " " (string_to_hex s).
Proof.
  induction s as [|a s IH]; simpl; [apply no_char_nil|]. apply no_char_app. split; [|exact IH].
  destruct a as [[] [] [] [] [] [] [] []]; cbv [char_to_hex N_of_ascii N_of_digits];
    simpl; rewrite ?no_char_cons; repeat split; try discriminate; apply no_char_nil.
Qed.

Lemma no_char_split c a b u v : no_char c a -> no_char c b -> a ++ String c u = b ++ String c v -> a = b /\ u = v.
Proof.
  revert b. induction a as [|x a IH]; intros [|y b] Ha Hb H; simpl in H.
  - injection H as ->. auto.
  - injection H as <- _. apply no_char_cons in Hb. destruct Hb as (Hb & _). contradiction.
  - injection H as -> _. apply no_char_cons in Ha. destruct Ha as (Ha & _). contradiction.
  - injection H as -> H. apply no_char_cons in Ha. apply no_char_cons in Hb.
    destruct (IH b (proj2 Ha) (proj2 Hb) H) as (-> & ->). auto.
Qed.

Lemma append_last_inj a : forall b c, a ++ String c "" = b ++ String c "" -> a = b.
Proof.
  induction a as [|x a IH]; intros [|y b] c H; simpl in H.
  - reflexivity.
  - injection H as _ H. destruct b; discriminate.
  - injection H as _ H. destruct a; discriminate.
  - injection H as -> H. f_equal. eapply IH. exact H.
Qed.

Lemma get_description_inj w1 w2 : get_description w1 = get_description w2 ->
  w_identity w1 = w_identity w2 /\ w_description w1 = w_description w2.
Proof.
  unfold get_description.
  destruct (String.eqb_spec (w_description w1) "") as [E1|N1]; destruct (String.eqb_spec (w_description w2) "") as [E2|N2]; intros H.
  - split; [apply string_to_hex_inj; exact H|congruence].
  - exfalso. apply (no_char_hex (w_identity w1) (string_to_hex (w_identity w2)) ("(" ++ w_description w2 ++ ")")). exact H.
  - exfalso. apply (no_char_hex (w_identity w2) (string_to_hex (w_identity w1)) ("(" ++ w_description w1 ++ ")")). symmetry. exact H.
  - apply (no_char_split " " _ _ ("(" ++ w_description w1 ++ ")") ("(" ++ w_description w2 ++ ")") (no_char_hex _) (no_char_hex _)) in H.
    destruct H as (H & H'). split; [apply string_to_hex_inj; exact H|].
    apply (append_inj_l "(") in H'. apply append_last_inj in H'. exact H'.
Qed.

(* ---- decimal ---- *)

Lemma read_uint_pos u : forall p, read_digits_acc (Npos p) (NilEmpty.string_of_uint u) = Npos (Pos.of_uint_acc u p).
Proof.
  induction u; intros p; cbn [NilEmpty.string_of_uint read_digits_acc Pos.of_uint_acc]; [reflexivity|..];
    rewrite <- IHu; unfold digit_of; simpl N_of_ascii; cbn [N.leb N.compare Pos.compare Pos.compare_cont andb];
    f_equal; lia.
Qed.
Lemma read_uint u : read_digits_acc 0 (NilEmpty.string_of_uint u) = N.of_uint u.
Proof.
  unfold N.of_uint. induction u; cbn [NilEmpty.string_of_uint read_digits_acc Pos.of_uint]; [reflexivity| |..];
    try (rewrite <- read_uint_pos; reflexivity).
  rewrite <- IHu. reflexivity.
Qed.

Lemma string_of_uint_ne u : u <> Nil -> NilZero.string_of_uint u = NilEmpty.string_of_uint u.
Proof. destruct u; [contradiction|..]; reflexivity. Qed.
Lemma to_uint_ne n : N.to_uint n <> Nil.
Proof. destruct n; [discriminate|]. apply DecimalPos.Unsigned.to_uint_nonnil. Qed.

Lemma uint_first u : u <> Nil -> exists a t d, NilEmpty.string_of_uint u = String a t /\ digit_of a = Some d.
Proof. destruct u; [contradiction|..]; intros _; eexists _, _, _; (split; [reflexivity|]); reflexivity. Qed.

Lemma read_digits_to_string n : read_digits (to_string_N n) = Some n.
Proof.
  unfold to_string_N. rewrite (string_of_uint_ne _ (to_uint_ne n)).
  destruct (uint_first _ (to_uint_ne n)) as (a & t & d & E & Hd).
  assert (Hr : read_digits (NilEmpty.string_of_uint (N.to_uint n)) = Some (read_digits_acc 0 (NilEmpty.string_of_uint (N.to_uint n)))).
  { rewrite E. simpl. rewrite Hd. reflexivity. }
  rewrite Hr, read_uint, DecimalN.Unsigned.of_to. reflexivity.
Qed.

Lemma to_string_first n : exists a t d, to_string_N n = String a t /\ digit a = Some d.
Proof.
  unfold to_string_N. rewrite (string_of_uint_ne _ (to_uint_ne n)).
  destruct (uint_first _ (to_uint_ne n)) as (a & t & d & E & Hd). rewrite digit_of_eq in Hd. eauto.
Qed.

Lemma read_number_to_string n : read_number (to_string_N n) = (false, Some n).
Proof.
  unfold read_number. pose proof (read_digits_to_string n) as Hr.
  destruct (to_string_first n) as (a & t & d & E & Hd). rewrite E in *.
  assert (skip_space (String a t) = String a t) as ->.
  { simpl. destruct (is_space a) eqn:Es; [|reflexivity]. exfalso. apply is_space_blank in Es.
    exact (digit_not_blank _ _ Hd Es). }
  destruct (digit_not_sign _ _ Hd) as (N1 & N2). cbn [read_sign].
  destruct (Ascii.eqb_spec a "-"); [contradiction|]. destruct (Ascii.eqb_spec a "+"); [contradiction|].
  rewrite Hr. reflexivity.
Qed.
Lemma read_number_minus n : read_number (String "-" (to_string_N n)) = (true, Some n).
Proof.
  unfold read_number. change (skip_space (String "-" (to_string_N n))) with (String "-" (to_string_N n)).
  change (read_sign (String "-" (to_string_N n))) with (true, to_string_N n). cbv beta iota.
  rewrite read_digits_to_string. reflexivity.
Qed.

Lemma to_string_number n : number (to_string_N n) false n.
Proof. apply number_of_read. apply read_number_to_string. Qed.

Lemma stoll_read s : stoll s =
  match read_number s with
  | (_, None) => Fail InvalidArgument
  | (neg, Some v) => let z := if neg then Z.opp (Z.of_N v) else Z.of_N v in
                     if in_i64 z then Val z else Fail OutOfRange
  end.
Proof. unfold stoll, read_number. destruct (read_sign _). destruct (read_digits s0); reflexivity. Qed.

Lemma stoll_to_string z : in_i64 z = true -> stoll (to_string_Z z) = Val z.
Proof.
  intros H. rewrite stoll_read. destruct z as [|p|p].
  - reflexivity.
  - unfold to_string_Z. rewrite read_number_to_string. cbv zeta. change (Z.of_N (Z.to_N (Zpos p))) with (Zpos p).
    rewrite H. reflexivity.
  - unfold to_string_Z. rewrite read_number_minus. cbv zeta. change (- Z.of_N (Npos p))%Z with (Zneg p).
    rewrite H. reflexivity.
Qed.

(* the signed number a text denotes for strtoll *)
Lemma stoll_spec s z : stoll s = Val z <->
  exists neg v, number s neg v /\ z = (if neg then - Z.of_N v else Z.of_N v)%Z /\ in_i64 z = true.
Proof.
  rewrite stoll_read. split.
  - destruct (read_number s) as (neg, [v|]) eqn:E; [|discriminate]. cbv zeta.
    destruct (in_i64 _) eqn:Ei; [|discriminate]. intros [= <-]. exists neg, v.
    split; [apply number_of_read; exact E|]. auto.
  - intros (neg & v & Hn & -> & Hi). rewrite (read_number_of _ _ _ Hn). cbv zeta. rewrite Hi. reflexivity.
Qed.
Lemma stoll_fail s : (exists e, stoll s = Fail e) <->
  forall neg v, number s neg v -> in_i64 (if neg then - Z.of_N v else Z.of_N v)%Z = false.
Proof.
  rewrite stoll_read. split.
  - intros (e & H) neg v Hn. rewrite (read_number_of _ _ _ Hn) in H. cbv zeta in H.
    destruct (in_i64 _); [discriminate|reflexivity].
  - intros H. destruct (read_number s) as (neg, [v|]) eqn:E; [|eauto]. cbv zeta.
    apply number_of_read in E. rewrite (H _ _ E). eauto.
Qed.
