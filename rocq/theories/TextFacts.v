(* The parsing code against the textual formats. *)
From Coq Require Import Lia.
From Verif Require Import Base Bytes Containers Worker SpecText.
Local Open Scope string_scope.

(* ---- strings ---- *)

Lemma append_nil_r s : s ++ "" = s.
Proof. induction s; simpl; congruence. Qed.
Lemma append_assoc_s a b c : (a ++ b) ++ c = a ++ (b ++ c).
Proof. induction a; simpl; congruence. Qed.
Lemma length_append a b : String.length (a ++ b) = String.length a + String.length b.
Proof. induction a; simpl; congruence. Qed.
Lemma append_inj_l a b c : a ++ b = a ++ c -> b = c.
Proof. induction a; simpl; intros H; [exact H|]. injection H as H. auto. Qed.

Lemma substring_all s : substring 0 (String.length s) s = s.
Proof. induction s; simpl; congruence. Qed.
Lemma substring_prefix a b : substring 0 (String.length a) (a ++ b) = a.
Proof. induction a; simpl; [destruct b; reflexivity|]. congruence. Qed.
Lemma substring_skip a b n : substring (String.length a) n (a ++ b) = substring 0 n b.
Proof. induction a; simpl; auto. Qed.

Lemma str_take_app a b : str_take (String.length a) (a ++ b) = a.
Proof. apply substring_prefix. Qed.
Lemma str_drop_app a b : str_drop (String.length a) (a ++ b) = b.
Proof.
  unfold str_drop. rewrite length_append.
  replace (String.length a + String.length b - String.length a) with (String.length b) by lia.
  rewrite substring_skip. apply substring_all.
Qed.

Lemma no_char_nil c : no_char c "".
Proof. intros [|x a] b; discriminate. Qed.
Lemma no_char_cons c x s : no_char c (String x s) <-> x <> c /\ no_char c s.
Proof.
  split.
  - intros H. split.
    + intros ->. apply (H "" s). reflexivity.
    + intros a b ->. apply (H (String x a) b). reflexivity.
  - intros (H1 & H2) [|y a] b; simpl; intros [= -> E]; [contradiction|]. subst. eapply H2. reflexivity.
Qed.

Lemma find_char_some c s p : find_char c s = Some p <->
  exists a b, s = a ++ String c b /\ String.length a = p /\ no_char c a.
Proof.
  revert p. induction s as [|x s IH]; intros p; simpl.
  - split; [discriminate|]. intros ([|y a] & b & E & _); discriminate.
  - destruct (Ascii.eqb_spec x c) as [->|Hne].
    + split.
      * intros [= <-]. exists "", s. repeat split; auto. apply no_char_nil.
      * intros ([|y a] & b & E & <- & Hn); [reflexivity|]. exfalso. simpl in E. injection E as <- _.
        apply no_char_cons in Hn. destruct Hn; contradiction.
    + destruct (find_char c s) as [i|] eqn:E.
      * split.
        -- intros [= <-]. destruct (proj1 (IH i) eq_refl) as (a & b & -> & <- & Hn).
           exists (String x a), b. repeat split; auto. apply no_char_cons. auto.
        -- intros ([|y a] & b & E' & <- & Hn); simpl in E'; injection E' as -> E'; [contradiction|].
           apply no_char_cons in Hn. destruct Hn as (_ & Hn).
           f_equal. simpl. f_equal. assert (Some i = Some (String.length a)) as HH; [|congruence].
           apply (proj2 (IH (String.length a))). eauto.
      * split; [discriminate|]. intros ([|y a] & b & E' & <- & Hn); simpl in E'; injection E' as -> E'; [contradiction|].
        apply no_char_cons in Hn. destruct Hn as (_ & Hn).
        assert (None = Some (String.length a)); [|discriminate]. apply (proj2 (IH (String.length a))). eauto.
Qed.
Lemma find_char_none c s : find_char c s = None <-> no_char c s.
Proof.
  split.
  - intros H. induction s as [|x s IH]; [apply no_char_nil|]. simpl in H.
    destruct (Ascii.eqb_spec x c); [discriminate|]. apply no_char_cons. split; [assumption|].
    apply IH. destruct (find_char c s); [discriminate|reflexivity].
  - intros H. destruct (find_char c s) eqn:E; [|reflexivity]. apply find_char_some in E.
    destruct E as (a & b & -> & _). exfalso. eapply H. reflexivity.
Qed.

(* ---- header frames ---- *)

Lemma split_header_spec f k v : split_header f = (k, v) <-> header_frame f k v.
Proof.
  unfold split_header. destruct (find_char "=" f) as [p|] eqn:E.
  - apply find_char_some in E. destruct E as (a & b & -> & <- & Hn).
    rewrite str_take_app.
    replace (a ++ String "=" b) with ((a ++ "=") ++ b) by (rewrite append_assoc_s; reflexivity).
    replace (String.length a + 1) with (String.length (a ++ "=")) by (rewrite length_append; reflexivity).
    rewrite str_drop_app. split.
    + intros [= <- <-]. rewrite append_assoc_s. apply hf_pair. exact Hn.
    + intros H. remember ((a ++ "=") ++ b) as f eqn:Ef. destruct H as [k v Hk|f Hf].
      * assert (G : forall x y, no_char "=" x -> no_char "=" y -> forall u w, x ++ "=" ++ u = y ++ "=" ++ w -> x = y /\ u = w).
        { clear. induction x as [|c x IH]; intros [|d y] Hx Hy u w H; simpl in H.
          - injection H as ->. auto.
          - injection H as <- _. apply no_char_cons in Hy. destruct Hy as (Hy & _). contradiction.
          - injection H as -> _. apply no_char_cons in Hx. destruct Hx as (Hx & _). contradiction.
          - injection H as -> H. apply no_char_cons in Hx. apply no_char_cons in Hy.
            destruct (IH y (proj2 Hx) (proj2 Hy) u w H) as (-> & ->). auto. }
        rewrite append_assoc_s in Ef. destruct (G k a Hk Hn v b Ef) as (-> & ->). reflexivity.
      * exfalso. subst f. rewrite append_assoc_s in Hf. eapply Hf. reflexivity.
  - apply find_char_none in E. split.
    + intros [= <- <-]. apply hf_bare. exact E.
    + intros H. remember f as g eqn:Eg. destruct H as [k v Hk|g Hf]; [|reflexivity].
      exfalso. apply (E k v). reflexivity.
Qed.

Lemma header_frame_fun f k v k' v' : header_frame f k v -> header_frame f k' v' -> k = k' /\ v = v'.
Proof.
  intros H1 H2. apply split_header_spec in H1. apply split_header_spec in H2. rewrite H1 in H2.
  injection H2 as -> ->. auto.
Qed.

(* ---- hwgroup alternatives ---- *)

Lemma segments_nonempty s : segments s <> [].
Proof.
  destruct s as [|a s]; simpl; [discriminate|]. destruct (Ascii.eqb a "|"); [discriminate|].
  induction s as [|b s IH] in a |- *; simpl; [discriminate|]. destruct (Ascii.eqb b "|"); [discriminate|].
  specialize (IH b). destruct (segments s); [contradiction IH; reflexivity|discriminate].
Qed.

Lemma segments_sep a b : no_char "|" a -> segments (a ++ String "|" b) = a :: segments b.
Proof.
  induction a as [|c a IH]; intros H; [reflexivity|]. apply no_char_cons in H. destruct H as (H1 & H2).
  simpl. destruct (Ascii.eqb_spec c "|"); [contradiction|]. rewrite IH by assumption. reflexivity.
Qed.
Lemma segments_one a : no_char "|" a -> segments a = [a].
Proof.
  induction a as [|c a IH]; intros H; [reflexivity|]. apply no_char_cons in H. destruct H as (H1 & H2).
  simpl. destruct (Ascii.eqb_spec c "|"); [contradiction|]. rewrite IH by assumption. reflexivity.
Qed.
Lemma alternatives_sep a b : no_char "|" a -> alternatives (a ++ String "|" b) = a :: alternatives b.
Proof.
  intros H. unfold alternatives. rewrite segments_sep by assumption. pose proof (segments_nonempty b).
  simpl. destruct (segments b); [contradiction|reflexivity].
Qed.
Lemma alternatives_one a : no_char "|" a -> a <> "" -> alternatives a = [a].
Proof.
  intros H Hn. unfold alternatives. rewrite segments_one by assumption. simpl.
  destruct (String.eqb_spec a ""); [contradiction|reflexivity].
Qed.

Lemma multi_loop_spec my : forall fuel pre suf,
  String.length suf < fuel ->
  exists b, multi_loop fuel (String.length pre) (pre ++ suf) my = Some b /\
            (b = true <-> In my (alternatives suf)).
Proof.
  induction fuel as [|fuel IH]; intros pre suf Hf; [lia|]. simpl multi_loop.
  rewrite length_append. destruct (Nat.ltb_spec (String.length pre) (String.length pre + String.length suf)) as [Hl|Hl].
  - unfold find_from. rewrite str_drop_app. unfold delimiter.
    destruct (find_char "|" suf) as [i|] eqn:E.
    + apply find_char_some in E. destruct E as (a & b & -> & <- & Hn).
      replace (String.length pre + String.length a - String.length pre) with (String.length a) by lia.
      rewrite substring_skip, substring_prefix. rewrite (alternatives_sep a b Hn).
      destruct (String.eqb_spec a my) as [->|Hne].
      * exists true. split; [reflexivity|]. simpl. tauto.
      * replace (String.length pre + String.length a + 1) with (String.length (pre ++ a ++ "|"))
          by (rewrite !length_append; simpl; lia).
        replace (pre ++ a ++ String "|" b) with ((pre ++ a ++ "|") ++ b)
          by (rewrite !append_assoc_s; reflexivity).
        destruct (IH (pre ++ a ++ "|") b) as (r & E1 & E2).
        { rewrite length_append in Hf. simpl in Hf. lia. }
        exists r. split; [exact E1|]. rewrite E2. simpl. intuition.
    + apply find_char_none in E.
      replace (String.length pre + String.length suf - String.length pre) with (String.length suf) by lia.
      rewrite substring_skip, substring_all.
      assert (Hne : suf <> "") by (intros ->; simpl in Hl; lia).
      rewrite (alternatives_one suf E Hne).
      destruct (String.eqb_spec suf my) as [->|Hm].
      * exists true. split; [reflexivity|]. simpl. tauto.
      * destruct fuel as [|fuel']; [destruct suf; [contradiction|simpl in Hf; lia]|].
        simpl multi_loop. rewrite length_append.
        destruct (Nat.ltb_spec (String.length pre + String.length suf + 1) (String.length pre + String.length suf)); [lia|].
        exists false. split; [reflexivity|]. simpl. split; [discriminate|]. intros [?|[]]; contradiction.
  - assert (suf = "") as -> by (destruct suf; [reflexivity|simpl in Hl; lia]).
    exists false. split; [reflexivity|]. simpl. split; [discriminate|tauto].
Qed.

Lemma multi_match_spec my v : exists b, multi_match my v = Some b /\ (b = true <-> In my (alternatives v)).
Proof. unfold multi_match. apply (multi_loop_spec my (S (String.length v)) "" v). lia. Qed.

(* ---- numbers ---- *)

Lemma digit_of_eq a : digit_of a = digit a.
Proof. destruct a as [[] [] [] [] [] [] [] []]; reflexivity. Qed.
Lemma is_space_blank a : is_space a = true <-> blank a.
Proof.
  split.
  - destruct a as [[] [] [] [] [] [] [] []]; cbv; intuition congruence.
  - intros H. unfold blank in H. simpl in H. decompose [or] H; subst; try reflexivity. contradiction.
Qed.

Lemma read_digits_acc_dec acc ds v rest : decimal acc ds v -> ~ starts_with_digit rest ->
  read_digits_acc acc (ds ++ rest) = v.
Proof.
  induction 1 as [acc|acc a d s v Hd Hdec IH]; intros Hr; simpl.
  - destruct rest as [|a t]; [reflexivity|]. simpl. rewrite digit_of_eq.
    destruct (digit a) eqn:E; [|reflexivity]. exfalso. apply Hr. exists a, t, n. auto.
  - rewrite digit_of_eq, Hd. replace (acc * 10 + d)%N with (10 * acc + d)%N by lia. auto.
Qed.
Lemma read_digits_acc_ex acc s : exists ds rest v, s = ds ++ rest /\ decimal acc ds v /\ ~ starts_with_digit rest /\
  (starts_with_digit s -> ds <> "").
Proof.
  revert acc. induction s as [|a s IH]; intros acc.
  - exists "", "", acc. repeat split; [constructor| |]; intros (x & t & d & E & _); discriminate.
  - destruct (digit a) as [d|] eqn:E.
    + destruct (IH (10 * acc + d)%N) as (ds & rest & v & -> & H1 & H2 & _).
      exists (String a ds), rest, v. repeat split; auto; [econstructor; eauto|discriminate].
    + exists "", (String a s), acc. repeat split; [constructor| |].
      * intros (x & t & d & E' & Hd). injection E' as <- <-. congruence.
      * intros (x & t & d & E' & Hd). injection E' as <- <-. congruence.
Qed.

Lemma read_digits_spec s : match read_digits s with
  | Some v => exists ds rest, s = ds ++ rest /\ ds <> "" /\ decimal 0 ds v /\ ~ starts_with_digit rest
  | None => ~ starts_with_digit s
  end.
Proof.
  destruct (read_digits s) as [v|] eqn:E.
  - destruct s as [|a s]; [discriminate|]. simpl in E. destruct (digit_of a) as [d|] eqn:Ed; [|discriminate].
    destruct (read_digits_acc_ex 0 (String a s)) as (ds & rest & v' & E1 & H1 & H2 & H3).
    exists ds, rest. split; [exact E1|]. split.
    + apply H3. exists a, s, d. rewrite <- digit_of_eq. auto.
    + split; [|exact H2]. injection E as E.
      pose proof (read_digits_acc_dec 0 ds v' rest H1 H2) as HH. rewrite <- E1 in HH.
      simpl in HH. rewrite Ed in HH. rewrite <- E, HH. exact H1.
  - intros (a & t & d & -> & Hd). simpl in E. rewrite digit_of_eq, Hd in E. discriminate.
Qed.

Lemma skip_space_spec s : exists ws, s = ws ++ skip_space s /\ (forall a, In a (chars ws) -> blank a) /\
  (forall a t, skip_space s = String a t -> ~ blank a).
Proof.
  induction s as [|a s (ws & E & H1 & H2)].
  - exists "". simpl. repeat split; [intros ? []|discriminate].
  - simpl. destruct (is_space a) eqn:Es.
    + exists (String a ws). simpl. split; [rewrite <- E; reflexivity|]. split; [|exact H2].
      intros x [<-|Hx]; [apply is_space_blank; exact Es|auto].
    + exists "". simpl. repeat split; [intros ? []|]. intros x t [= <- <-] Hb.
      apply is_space_blank in Hb. congruence.
Qed.

Lemma skip_space_app ws s : (forall a, In a (chars ws) -> blank a) ->
  (forall a t, s = String a t -> ~ blank a) -> skip_space (ws ++ s) = s.
Proof.
  intros H1 H2. induction ws as [|a ws IH]; simpl.
  - destruct s as [|a s]; [reflexivity|]. simpl. destruct (is_space a) eqn:E; [|reflexivity].
    exfalso. apply (H2 a s eq_refl). apply is_space_blank. exact E.
  - assert (is_space a = true) as -> by (apply is_space_blank; apply H1; simpl; auto).
    apply IH. intros x Hx. apply H1. simpl. auto.
Qed.

Lemma digit_not_blank a d : digit a = Some d -> ~ blank a.
Proof. intros H Hb. apply is_space_blank in Hb. destruct a as [[] [] [] [] [] [] [] []]; cbv in *; discriminate. Qed.
Lemma digit_not_sign a d : digit a = Some d -> a <> "-"%char /\ a <> "+"%char.
Proof. intros H. split; intros ->; discriminate. Qed.

(* the sign and number reading shared by stoul and stoll *)
Definition read_number (s : string) : bool * option N :=
  let '(neg, s') := read_sign (skip_space s) in (neg, read_digits s').

Lemma read_number_of s neg v : number s neg v -> read_number s = (neg, Some v).
Proof.
  intros [ws sign ds rest v' H1 H2 H3 H4 H5]. unfold read_number.
  assert (Hd : exists a t d, ds = String a t /\ digit a = Some d).
  { destruct H4 as [|acc a d s' v'' Hd ?]; [contradiction|]. eauto. }
  destruct Hd as (a & t & d & Eds & Hda).
  assert (Hrd : read_digits (ds ++ rest) = Some v').
  { rewrite Eds. simpl. rewrite digit_of_eq, Hda. f_equal.
    pose proof (read_digits_acc_dec 0 ds v' rest H4 H5) as HH. rewrite Eds in HH. simpl in HH.
    rewrite digit_of_eq, Hda in HH. exact HH. }
  rewrite skip_space_app.
  - destruct H2 as [->|[->| ->]].
    + assert (read_sign ("" ++ ds ++ rest) = (false, ds ++ rest)) as ->; [|rewrite Hrd; reflexivity].
      rewrite Eds. destruct (digit_not_sign _ _ Hda) as (N1 & N2). simpl.
      destruct (Ascii.eqb_spec a "-"); [contradiction|]. destruct (Ascii.eqb_spec a "+"); [contradiction|].
      reflexivity.
    + change (read_sign ("+" ++ ds ++ rest)) with (false, ds ++ rest). cbv beta iota. rewrite Hrd. reflexivity.
    + change (read_sign ("-" ++ ds ++ rest)) with (true, ds ++ rest). cbv beta iota. rewrite Hrd. reflexivity.
  - exact H1.
  - intros b u E. destruct H2 as [->|[->| ->]]; simpl in E.
    + rewrite Eds in E. simpl in E. injection E as <- _. eapply digit_not_blank; eauto.
    + injection E as <- _. unfold blank. simpl. intuition discriminate.
    + injection E as <- _. unfold blank. simpl. intuition discriminate.
Qed.
Lemma number_of_read s neg v : read_number s = (neg, Some v) -> number s neg v.
Proof.
  unfold read_number. destruct (skip_space_spec s) as (ws & E & H1 & H2).
  destruct (read_sign (skip_space s)) as (neg', s') eqn:Er. intros [= <- Hd].
  pose proof (read_digits_spec s') as HD. rewrite Hd in HD. destruct HD as (ds & rest & -> & Hne & Hdec & Hr).
  assert (exists sign, skip_space s = sign ++ ds ++ rest /\ neg' = String.eqb sign "-" /\ (sign = "" \/ sign = "+" \/ sign = "-"))
    as (sign & Es & -> & Hsg).
  { unfold read_sign in Er. destruct (skip_space s) as [|a t].
    - injection Er as <- Er. exists "". rewrite <- Er. auto.
    - destruct (Ascii.eqb_spec a "-") as [->|N1]; [injection Er as <- ->; exists "-"; auto|].
      destruct (Ascii.eqb_spec a "+") as [->|N2]; [injection Er as <- ->; exists "+"; auto|].
      injection Er as <- Er. exists "". rewrite <- Er. auto. }
  rewrite E, Es. constructor; assumption.
Qed.

Lemma number_fun s n v n' v' : number s n v -> number s n' v' -> n = n' /\ v = v'.
Proof. intros H1 H2. apply read_number_of in H1. apply read_number_of in H2. split; congruence. Qed.

Lemma stoul_read s : stoul s =
  match read_number s with
  | (_, None) => Fail InvalidArgument
  | (neg, Some v) => if N.ltb v two64 then Val (if neg then N.modulo (two64 - v) two64 else v) else Fail OutOfRange
  end.
Proof. unfold stoul, read_number. destruct (read_sign _). destruct (read_digits s0); reflexivity. Qed.

Lemma stoul_spec s n : stoul s = Val n <-> denotes s n.
Proof.
  rewrite stoul_read. split.
  - destruct (read_number s) as (neg, [v|]) eqn:E; [|discriminate].
    destruct (N.ltb_spec v two64); [|discriminate]. intros [= <-]. exists neg, v.
    split; [apply number_of_read; exact E|]. auto.
  - intros (neg & v & Hn & Hv & ->). rewrite (read_number_of _ _ _ Hn).
    destruct (N.ltb_spec v two64); [reflexivity|lia].
Qed.
Lemma stoul_invalid s : stoul s = Fail InvalidArgument <-> forall neg v, ~ number s neg v.
Proof.
  rewrite stoul_read. split.
  - intros H neg v Hn. rewrite (read_number_of _ _ _ Hn) in H. destruct (N.ltb v two64); discriminate.
  - intros H. destruct (read_number s) as (neg, [v|]) eqn:E; [|reflexivity].
    apply number_of_read in E. destruct (H _ _ E).
Qed.
Lemma stoul_range s : stoul s = Fail OutOfRange <-> exists neg v, number s neg v /\ (two64 <= v)%N.
Proof.
  rewrite stoul_read. split.
  - destruct (read_number s) as (neg, [v|]) eqn:E; [|discriminate].
    destruct (N.ltb_spec v two64); [discriminate|]. intros _. exists neg, v.
    split; [apply number_of_read; exact E|assumption].
  - intros (neg & v & Hn & Hv). rewrite (read_number_of _ _ _ Hn).
    destruct (N.ltb_spec v two64); [lia|reflexivity].
Qed.
Lemma denotes_fun s n m : denotes s n -> denotes s m -> n = m.
Proof. intros H1 H2. apply stoul_spec in H1. apply stoul_spec in H2. congruence. Qed.
Lemma stoul_or s : (exists n, denotes s n) \/ (exists e, stoul s = Fail e).
Proof.
  destruct (stoul s) as [n|e] eqn:E; [left|right; eauto]. exists n. apply stoul_spec. exact E.
Qed.
