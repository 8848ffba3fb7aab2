(* Order of strings and of multimap sequences. *)
From Coq Require Import Lia Permutation Sorted.
From Verif Require Import Base Bytes Containers Worker Multi Single Queue Handler SpecText TextFacts HeaderFacts.
Local Open Scope string_scope.
Local Open Scope list_scope.

Lemma compare_trans a : forall b c, String.compare a b = Lt -> String.compare b c = Lt -> String.compare a c = Lt.
Proof.
  induction a as [|x a IH]; intros [|y b] [|z c]; simpl; try discriminate; auto.
  unfold Ascii.compare.
  destruct (N.compare_spec (N_of_ascii x) (N_of_ascii y)) as [E1|L1|G1];
  destruct (N.compare_spec (N_of_ascii y) (N_of_ascii z)) as [E2|L2|G2]; try discriminate; intros H1 H2;
  destruct (N.compare_spec (N_of_ascii x) (N_of_ascii z)) as [E3|L3|G3]; try reflexivity; try lia.
  eapply IH; eauto.
Qed.
Lemma compare_refl a : String.compare a a = Eq.
Proof. induction a as [|x a IH]; simpl; [reflexivity|]. unfold Ascii.compare. rewrite N.compare_refl. exact IH. Qed.
Lemma ltb_lt a b : String.ltb a b = true <-> String.compare a b = Lt.
Proof. unfold String.ltb. destruct (String.compare a b); split; congruence. Qed.
Lemma ltb_false a b : String.ltb a b = false <-> a = b \/ String.ltb b a = true.
Proof.
  rewrite ltb_lt. unfold String.ltb. rewrite (String.compare_antisym b a).
  destruct (String.compare a b) eqn:E; simpl.
  - apply String.compare_eq_iff in E. split; auto.
  - split; [discriminate|]. intros [->|?]; [|discriminate]. rewrite compare_refl in E. discriminate.
  - split; auto.
Qed.
Lemma ltb_irrefl a : String.ltb a a = false.
Proof. apply ltb_false. auto. Qed.
Lemma ltb_trans a b c : String.ltb a b = true -> String.ltb b c = true -> String.ltb a c = true.
Proof. rewrite !ltb_lt. apply compare_trans. Qed.

(* keys never decrease *)
Definition le_key {A} (x y : string * A) : Prop := String.ltb (fst y) (fst x) = false.
Definition ordered {A} (m : mmap A) : Prop := StronglySorted le_key m.

Lemma le_key_trans {A} (x y z : string * A) : le_key x y -> le_key y z -> le_key x z.
Proof.
  unfold le_key. intros H1 H2. apply ltb_false in H1. apply ltb_false in H2. apply ltb_false.
  destruct H1 as [<-|H1]; [exact H2|]. destruct H2 as [H2|H2]; [rewrite H2; auto|]. right. eapply ltb_trans; eauto.
Qed.

Lemma emplace_ordered {A} k (v : A) m : ordered m -> ordered (mm_emplace k v m).
Proof.
  unfold ordered. induction 1 as [|(k', v') t Hs IH Hf]; simpl; [repeat constructor|].
  destruct (String.ltb k k') eqn:E.
  - constructor; [constructor; assumption|]. constructor.
    + unfold le_key. simpl. apply ltb_false. auto.
    + eapply Forall_impl; [|exact Hf]. intros a Ha. eapply le_key_trans; [|exact Ha].
      unfold le_key. simpl. apply ltb_false. auto.
  - constructor; [exact IH|]. apply Forall_forall. intros x Hx. apply mm_emplace_in in Hx.
    destruct Hx as [->|Hx]; [exact E|]. rewrite Forall_forall in Hf. auto.
Qed.

Lemma range_cons {A} k k' (v : A) m :
  mm_equal_range k ((k', v) :: m) = if String.eqb k' k then v :: mm_equal_range k m else mm_equal_range k m.
Proof. unfold mm_equal_range. simpl. destruct (String.eqb k' k); reflexivity. Qed.

Lemma range_above {A} k (m : mmap A) : Forall (fun x => String.ltb k (fst x) = true) m -> mm_equal_range k m = [].
Proof.
  induction 1 as [|(k', v) t Hk _ IH]; [reflexivity|]. rewrite range_cons, IH. simpl in Hk.
  destruct (String.eqb_spec k' k) as [->|]; [|reflexivity]. rewrite ltb_irrefl in Hk. discriminate.
Qed.

Lemma range_emplace {A} k k' (v : A) m : ordered m ->
  mm_equal_range k (mm_emplace k' v m) = mm_equal_range k m ++ (if String.eqb k' k then [v] else []).
Proof.
  unfold ordered. induction 1 as [|(k2, v2) t Hs IH Hf]; cbn [mm_emplace].
  - rewrite range_cons. destruct (String.eqb k' k); reflexivity.
  - destruct (String.ltb k' k2) eqn:E.
    + rewrite range_cons. destruct (String.eqb_spec k' k) as [->|]; [|rewrite app_nil_r; reflexivity].
      rewrite range_above; [reflexivity|]. constructor; [exact E|].
      eapply Forall_impl; [|exact Hf]. intros a Ha. unfold le_key in Ha. simpl in Ha. apply ltb_false in Ha.
      destruct Ha as [<-|Ha]; [exact E|]. eapply ltb_trans; eauto.
    + rewrite !range_cons, IH. destruct (String.eqb k2 k); reflexivity.
Qed.

Lemma ordered_ext {A} (m1 : mmap A) : forall m2, ordered m1 -> ordered m2 ->
  (forall k, mm_equal_range k m1 = mm_equal_range k m2) -> m1 = m2.
Proof.
  induction m1 as [|(k1, v1) t1 IH]; intros m2 H1 H2 H.
  - destruct m2 as [|(k2, v2) t2]; [reflexivity|]. specialize (H k2). rewrite range_cons, String.eqb_refl in H. discriminate.
  - destruct m2 as [|(k2, v2) t2].
    + specialize (H k1). rewrite range_cons, String.eqb_refl in H. discriminate.
    + assert (Hin : forall (k : string) (a : string * A) (t : mmap A), ordered (a :: t) -> mm_equal_range k (a :: t) <> [] ->
                String.ltb k (fst a) = false).
      { intros k a t Ho Hne. inversion Ho as [|? ? Hs Hf]; subst.
        destruct (String.ltb k (fst a)) eqn:E; [|reflexivity]. exfalso. apply Hne. apply range_above.
        constructor; [exact E|]. eapply Forall_impl; [|exact Hf]. intros b Hb. unfold le_key in Hb.
        apply ltb_false in Hb. destruct Hb as [Hb|Hb]; [rewrite Hb; exact E|]. eapply ltb_trans; [exact E|exact Hb]. }
      assert (E : k1 = k2).
      { pose proof (Hin k1 (k2, v2) t2 H2) as A1. pose proof (Hin k2 (k1, v1) t1 H1) as A2. simpl in A1, A2.
        rewrite <- H in A1. rewrite H in A2. rewrite !range_cons, String.eqb_refl in A1. rewrite !range_cons, String.eqb_refl in A2.
        specialize (A1 ltac:(discriminate)). specialize (A2 ltac:(discriminate)).
        apply ltb_false in A1. destruct A1 as [A1|A1]; [exact A1|]. congruence. }
      subst k2. pose proof (H k1) as Hk. rewrite !range_cons, String.eqb_refl in Hk. injection Hk as <- _.
      f_equal. inversion H1 as [|? ? S1 F1]; subst. inversion H2 as [|? ? S2 F2]; subst. apply IH; auto.
      intros k. specialize (H k). rewrite !range_cons in H. destruct (String.eqb k1 k); [injection H as H; exact H|exact H].
Qed.

(* ---- what is stored for each header name, in order ---- *)

Lemma values_fun k hdrs a b : values k hdrs a -> values k hdrs b -> a = b.
Proof.
  intros H. revert b. induction H as [|f t v vs Hf _ IH|f t k' v vs Hf Hne _ IH]; intros b Hb; inversion Hb; subst; auto.
  - destruct (header_frame_fun _ _ _ _ _ Hf H1) as (_ & <-). f_equal. auto.
  - destruct (header_frame_fun _ _ _ _ _ Hf H1) as (<- & _). contradiction.
  - destruct (header_frame_fun _ _ _ _ _ Hf H1) as (-> & _). contradiction.
Qed.
Lemma values_ex k hdrs : exists vs, values k hdrs vs.
Proof.
  induction hdrs as [|f t (vs & IH)]; [exists []; constructor|]. destruct (split_header f) as (k', v) eqn:E.
  apply split_header_spec in E. destruct (String.eqb_spec k' k) as [->|Hne].
  - exists (v :: vs). constructor; assumption.
  - exists vs. eapply va_other; eauto.
Qed.

Lemma store_ordered hdrs : forall h md, ordered h -> ordered (fst (store hdrs h md)).
Proof.
  induction hdrs as [|f t IH]; intros h md Ho; simpl; [exact Ho|]. destruct (split_header f) as (k, v).
  destruct (is_meta k); apply IH; [exact Ho|]. apply emplace_ordered. exact Ho.
Qed.
Lemma store_range k hdrs : (forall m, ~ meta_name k m) -> forall h md vs, ordered h -> values k hdrs vs ->
  mm_equal_range k (fst (store hdrs h md)) = mm_equal_range k h ++ vs.
Proof.
  intros Hm. induction hdrs as [|f t IH]; intros h md vs Ho Hv; simpl.
  - inversion Hv; subst. rewrite app_nil_r. reflexivity.
  - destruct (split_header f) as (k', v) eqn:E. apply split_header_spec in E. destruct (is_meta k') eqn:Em.
    + apply IH; [exact Ho|]. inversion Hv as [|? ? v1 vs1 Hf Ht|? ? k1 v1 vs1 Hf Hne Ht]; subst; [|exact Ht].
      destruct (header_frame_fun _ _ _ _ _ E Hf) as (-> & _). apply is_meta_false in Hm. congruence.
    + inversion Hv as [|? ? v1 vs1 Hf Ht|? ? k1 v1 vs1 Hf Hne Ht]; subst;
        destruct (header_frame_fun _ _ _ _ _ E Hf) as (-> & ->); rewrite (IH _ _ _ (emplace_ordered _ _ _ Ho) Ht), (range_emplace _ _ _ _ Ho).
      * rewrite String.eqb_refl, <- app_assoc. reflexivity.
      * destruct (String.eqb_spec k1 k); [contradiction|]. rewrite app_nil_r. reflexivity.
Qed.

Lemma init_ordered frames : forall h, ordered h -> ordered (fst (parse_init_headers frames h)).
Proof.
  induction frames as [|f t IH]; intros h Ho; simpl; [exact Ho|]. destruct (String.eqb f ""); [exact Ho|].
  destruct (split_header f) as (k, v). apply IH. apply emplace_ordered. exact Ho.
Qed.
Lemma init_range k frames : ~ In "" frames -> forall h vs, ordered h -> values k frames vs ->
  mm_equal_range k (fst (parse_init_headers frames h)) = mm_equal_range k h ++ vs.
Proof.
  induction frames as [|f t IH]; intros Hn h vs Ho Hv.
  - inversion Hv; subst. simpl. rewrite app_nil_r. reflexivity.
  - assert (Hf0 : String.eqb f "" = false) by (apply String.eqb_neq; intros ->; apply Hn; simpl; auto).
    simpl. rewrite Hf0. destruct (split_header f) as (k', v) eqn:E. apply split_header_spec in E.
    inversion Hv as [|? ? v1 vs1 Hf Ht|? ? k1 v1 vs1 Hf Hne Ht]; subst;
      destruct (header_frame_fun _ _ _ _ _ E Hf) as (-> & ->);
      rewrite (IH ltac:(simpl in Hn; tauto) _ _ (emplace_ordered _ _ _ Ho) Ht), (range_emplace _ _ _ _ Ho).
    + rewrite String.eqb_refl, <- app_assoc. reflexivity.
    + destruct (String.eqb_spec k1 k); [contradiction|]. rewrite app_nil_r. reflexivity.
Qed.

Lemma ordered_nil {A} : ordered (@nil (string * A)).
Proof. constructor. Qed.

(* equality of stored registration headers, on the frames *)
Lemma init_eq_iff f1 f2 : ~ In "" f1 -> ~ In "" f2 ->
  (fst (parse_init_headers f1 []) = fst (parse_init_headers f2 []) <->
   forall k vs, values k f1 vs <-> values k f2 vs).
Proof.
  intros N1 N2. split.
  - intros E k vs. destruct (values_ex k f1) as (a & Ha). destruct (values_ex k f2) as (b & Hb).
    pose proof (init_range k f1 N1 [] a ordered_nil Ha) as R1. pose proof (init_range k f2 N2 [] b ordered_nil Hb) as R2.
    rewrite E, R2 in R1. simpl in R1. subst b.
    split; intros Hv; [rewrite (values_fun _ _ _ _ Hv Ha)|rewrite (values_fun _ _ _ _ Hv Hb)]; assumption.
  - intros H. apply ordered_ext; [apply init_ordered, ordered_nil|apply init_ordered, ordered_nil|]. intros k.
    destruct (values_ex k f1) as (a & Ha).
    rewrite (init_range k f1 N1 [] a ordered_nil Ha), (init_range k f2 N2 [] a ordered_nil (proj1 (H k a) Ha)). reflexivity.
Qed.

Lemma headers_eqb_eq a : forall b, headers_eqb a b = true <-> a = b.
Proof.
  induction a as [|(k1, v1) a IH]; intros [|(k2, v2) b]; simpl; try (split; congruence).
  rewrite !andb_true_iff, IH, !String.eqb_eq. split; [intros ((-> & ->) & ->); reflexivity|intros [= -> -> ->]; auto].
Qed.

(* ---- statements used by the property files ---- *)

Lemma eval_headers_stored frames hdrs rest : header_block frames hdrs rest ->
  exists h md, parse_eval_headers frames [] [] = Val (Some (h, md, rest)) /\
    (forall k vs, (forall m, ~ meta_name k m) -> values k hdrs vs -> mm_equal_range k h = vs) /\
    (forall m v, ~ In (("meta." ++ m)%string, v) h) /\
    (forall m v, sm_find m md = Some v <-> first_meta m hdrs v).
Proof.
  intros H. rewrite (parse_eval_block _ _ _ [] [] H). destruct (store hdrs [] []) as (h, md) eqn:E.
  exists h, md. split; [reflexivity|].
  pose proof (store_range) as SR. pose proof (store_headers_in hdrs [] []) as SH. pose proof (store_meta hdrs [] []) as SM.
  rewrite E in SH, SM. simpl in SH, SM. split; [|split].
  - intros k vs Hm Hv. pose proof (SR k hdrs Hm [] [] vs ordered_nil Hv) as R. rewrite E in R. exact R.
  - intros m v Hin. apply SH in Hin. destruct Hin as [[]|(f & _ & _ & Hm)]. apply (Hm m). reflexivity.
  - intros m v. rewrite SM. split; [intros [?|(_ & ?)]; [discriminate|assumption]|auto].
Qed.

Lemma init_headers_stored frames hdrs : init_block frames hdrs ->
  exists h rest, parse_init_headers frames [] = (h, rest) /\
    forall k vs, values k hdrs vs -> mm_equal_range k h = vs.
Proof.
  intros [(rest & H)|(-> & H)].
  - rewrite (parse_init_block _ _ _ [] H). eexists _, _. split; [reflexivity|]. intros k vs Hv.
    exact (init_range k hdrs (proj2 H) [] vs ordered_nil Hv).
  - destruct (parse_init_headers hdrs []) as (h, rest) eqn:E. exists h, rest. split; [reflexivity|].
    intros k vs Hv. pose proof (init_range k hdrs H [] vs ordered_nil Hv) as R. rewrite E in R. exact R.
Qed.

Lemma threads_match wid addr ident hw hs w v : make_worker wid addr ident hw hs = Val w ->
  (check_header w "threads" v = Val true <->
   exists d n m, In ("threads", d) hs /\ denotes d n /\ denotes v m /\ (m <= n)%N).
Proof.
  intros H. apply make_worker_made in H.
  unfold check_header.
  assert (HT : forall m, In m (mm_equal_range "threads" (w_headers w)) <->
             exists d n, In ("threads", d) hs /\ stoul d = Val n /\ m = MCount n).
  { intros m. rewrite equal_range_in. apply (threads_matchers _ _ _ _ H). }
  destruct (stoul v) as [r|e] eqn:Ev.
  - destruct (check_any_total (mm_equal_range "threads" (w_headers w)) v) as (b & Eb & Hb).
    { intros m Hin. apply HT in Hin. destruct Hin as (d & n & _ & _ & ->). simpl. rewrite Ev. simpl. eauto. }
    rewrite Eb. transitivity (b = true); [split; congruence|]. rewrite Hb. split.
    + intros (m & Hin & Hv). apply HT in Hin. destruct Hin as (d & n & H1 & H2 & ->). simpl in Hv. rewrite Ev in Hv.
      simpl in Hv. injection Hv as Hv. apply N.leb_le in Hv. exists d, n, r. rewrite <- !stoul_spec. auto.
    + intros (d & n & r' & H1 & H2 & H3 & H4). apply stoul_spec in H2. apply stoul_spec in H3. exists (MCount n).
      split; [apply HT; eauto|]. simpl. rewrite H3. simpl. f_equal. apply N.leb_le. exact H4.
  - split.
    + destruct (mm_equal_range "threads" (w_headers w)) as [|m t] eqn:El; [discriminate|].
      rewrite (check_any_throw (m :: t) v e); [discriminate|discriminate|].
      intros m' Hin. apply HT in Hin. destruct Hin as (d & n & _ & _ & ->). simpl. rewrite Ev. reflexivity.
    + intros (d & n & r & _ & _ & H3 & _). apply stoul_spec in H3. congruence.
Qed.

Lemma threads_throws wid addr ident hw hs w k v : make_worker wid addr ident hw hs = Val w ->
  ((exists e, check_header w k v = Fail e) <->
   k = "threads" /\ (forall m, ~ denotes v m) /\ exists d, In ("threads", d) hs).
Proof.
  intros H. apply make_worker_made in H. split.
  - intros (e & E). apply (check_header_fail _ _ _ _ _ _ H) in E. destruct E as (-> & E & Hd).
    split; [reflexivity|]. split; [|exact Hd]. intros m Hm. apply stoul_spec in Hm. congruence.
  - intros (-> & Hn & Hd). destruct (stoul v) as [m|e] eqn:E; [destruct (Hn m); apply stoul_spec; exact E|].
    exists e. apply (check_header_fail _ _ _ _ _ _ H). auto.
Qed.

Lemma make_worker_throws wid addr ident hw hs :
  (exists e, make_worker wid addr ident hw hs = Fail e) <->
  exists d, In ("threads", d) hs /\ forall n, ~ denotes d n.
Proof.
  unfold make_worker. split.
  - intros (e & E). destruct (make_matchers _ _) as [ms|e'] eqn:Em; simpl in E; [discriminate|].
    destruct (make_matchers_fail _ _ _ Em) as (d & Hd & Hs). exists d. split; [exact Hd|].
    intros n Hn. apply stoul_spec in Hn. congruence.
  - intros (d & Hd & Hn). destruct (make_matchers hs (mm_emplace "hwgroup" (MMulti hw) [])) as [ms|e'] eqn:Em; simpl; [|eauto].
    exfalso. assert (HI : exists m, make_matcher "threads" d = Val m).
    { clear Hn. revert Em. generalize (mm_emplace "hwgroup" (MMulti hw) []) as acc. induction hs as [|(k', v') t IH]; intros acc Em; [destruct Hd|].
      cbn [make_matchers] in Em. destruct (make_matcher k' v') as [m'|e2] eqn:E2; cbn [rbind] in Em; [|discriminate].
      destruct Hd as [[= -> ->]|Hd]; [eauto|exact (IH Hd _ Em)]. }
    destruct HI as (m & Hm). unfold make_matcher in Hm. rewrite String.eqb_refl in Hm.
    destruct (stoul d) as [n|] eqn:E; [|discriminate]. apply (Hn n). apply stoul_spec. exact E.
Qed.
