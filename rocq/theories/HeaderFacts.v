(* Header parsing and worker capability against the textual specification. *)
From Coq Require Import Lia Permutation.
From Verif Require Import Base Bytes Containers Worker Multi Single Queue Handler SpecText TextFacts.
Local Open Scope string_scope.
Local Open Scope list_scope.

Lemma mm_emplace_perm {A} k (v : A) m : Permutation (mm_emplace k v m) ((k, v) :: m).
Proof.
  induction m as [|(k', v') t IH]; simpl; [reflexivity|]. destruct (String.ltb k k'); [reflexivity|].
  rewrite IH. apply perm_swap.
Qed.
Lemma mm_emplace_in {A} k (v : A) m x : In x (mm_emplace k v m) <-> x = (k, v) \/ In x m.
Proof.
  split; intros H.
  - eapply Permutation_in in H; [|apply mm_emplace_perm]. destruct H; auto.
  - eapply Permutation_in; [symmetry; apply mm_emplace_perm|]. destruct H as [->|H]; simpl; auto.
Qed.

(* ---- the metadata prefix ---- *)

Lemma take_prefix p k : String.eqb (str_take (String.length p) k) p = true <-> exists m, k = (p ++ m)%string.
Proof.
  split.
  - revert k. induction p as [|a p IH]; intros k H; [exists k; reflexivity|].
    apply String.eqb_eq in H. destruct k as [|b k]; [discriminate|]. unfold str_take in *. simpl in H.
    injection H as -> H. destruct (IH k) as (m & ->); [apply String.eqb_eq; exact H|]. exists m. reflexivity.
  - intros (m & ->). rewrite str_take_app. apply String.eqb_refl.
Qed.

Lemma sm_find_insert {A} k k' (v : A) m : sm_mem k' m = false ->
  sm_find k (sm_insert k' v m) = if String.eqb k' k then Some v else sm_find k m.
Proof.
  induction m as [|(k2, v2) t IH]; simpl; intros Hm.
  - reflexivity.
  - apply orb_false_iff in Hm. destruct Hm as (Hne & Hm). destruct (String.ltb k' k2); simpl.
    + reflexivity.
    + rewrite IH by exact Hm. destruct (String.eqb_spec k2 k) as [->|]; [|reflexivity].
      destruct (String.eqb_spec k' k) as [->|]; [|reflexivity]. rewrite String.eqb_refl in Hne. discriminate.
Qed.
Lemma sm_mem_find {A} k (m : smap A) : sm_mem k m = match sm_find k m with Some _ => true | None => false end.
Proof.
  induction m as [|(k2, v2) t IH]; simpl; [reflexivity|]. destruct (String.eqb k2 k); [reflexivity|exact IH].
Qed.
Lemma sm_find_emplace {A} k k' (v : A) m :
  sm_find k (sm_emplace k' v m) = match sm_find k m with
                                  | Some x => Some x
                                  | None => if String.eqb k' k then Some v else None end.
Proof.
  unfold sm_emplace. destruct (sm_mem k' m) eqn:E.
  - destruct (sm_find k m) eqn:F; [reflexivity|]. destruct (String.eqb_spec k' k) as [->|]; [|reflexivity].
    rewrite sm_mem_find, F in E. discriminate.
  - rewrite sm_find_insert by exact E. destruct (String.eqb_spec k' k) as [->|].
    + rewrite sm_mem_find in E. destruct (sm_find k m); [discriminate|reflexivity].
    + destruct (sm_find k m); reflexivity.
Qed.

(* ---- eval headers ---- *)

Definition is_meta (k : string) : bool := String.eqb (str_take 5 k) "meta.".
Lemma is_meta_spec k : is_meta k = true <-> exists m, meta_name k m.
Proof. apply (take_prefix "meta."). Qed.
Lemma is_meta_false k : is_meta k = false <-> forall m, ~ meta_name k m.
Proof.
  split.
  - intros H m Hm. assert (is_meta k = true) by (apply is_meta_spec; eauto). congruence.
  - intros H. destruct (is_meta k) eqn:E; [|reflexivity]. apply is_meta_spec in E. destruct E as (m & E). destruct (H m E).
Qed.

(* the headers and metadata stored for a list of header frames *)
Fixpoint store (hdrs : list string) (h : mmap string) (md : smap string) : mmap string * smap string :=
  match hdrs with
  | [] => (h, md)
  | f :: t => let '(k, v) := split_header f in
              if is_meta k then store t h (sm_emplace (str_drop 5 k) v md)
              else store t (mm_emplace k v h) md
  end.

Lemma parse_eval_block frames hdrs rest h md : header_block frames hdrs rest ->
  parse_eval_headers frames h md = let '(h', md') := store hdrs h md in Val (Some (h', md', rest)).
Proof.
  intros (-> & Hn). revert h md. induction hdrs as [|f t IH]; intros h md; [reflexivity|].
  assert (Hf : String.eqb f "" = false) by (apply String.eqb_neq; intros ->; apply Hn; simpl; auto).
  simpl. rewrite Hf. destruct (t ++ "" :: rest) eqn:E; [destruct t; discriminate|]. rewrite <- E in *.
  destruct (split_header f) as (k, v). change (String.eqb (str_take 5 k) metadata_key_prefix) with (is_meta k).
  assert (Ht : ~ In "" t) by (simpl in Hn; tauto).
  destruct (is_meta k); apply (IH Ht).
Qed.
Lemma parse_eval_no_block frames h md : frames <> [] -> ~ In "" frames -> parse_eval_headers frames h md = Val None.
Proof.
  revert h md. induction frames as [|f t IH]; intros h md Hne Hn; [contradiction|].
  assert (Hf : String.eqb f "" = false) by (apply String.eqb_neq; intros ->; apply Hn; simpl; auto).
  simpl. rewrite Hf. destruct t as [|g t]; [reflexivity|]. destruct (split_header f) as (k, v).
  change (String.eqb (str_take 5 k) metadata_key_prefix) with (is_meta k).
  destruct (is_meta k); apply IH; (discriminate || (simpl in *; tauto)).
Qed.
Lemma block_dec frames : (exists hdrs rest, header_block frames hdrs rest) \/ ~ In "" frames.
Proof.
  induction frames as [|f t IH]; [right; intros []|]. destruct (String.eqb_spec f "") as [->|Hne].
  - left. exists [], t. split; [reflexivity|intros []].
  - destruct IH as [(hdrs & rest & -> & Hn)|Hn].
    + left. exists (f :: hdrs), rest. split; [reflexivity|]. intros [?|?]; [congruence|contradiction].
    + right. intros [?|?]; [congruence|contradiction].
Qed.
Lemma header_block_fun frames h1 r1 h2 r2 : header_block frames h1 r1 -> header_block frames h2 r2 -> h1 = h2 /\ r1 = r2.
Proof.
  intros (-> & N1) (E & N2). revert h2 N2 E. induction h1 as [|f t IH]; intros [|g u] N2 E; simpl in *.
  - injection E as ->. auto.
  - injection E as <- _. tauto.
  - injection E as -> _. tauto.
  - injection E as -> E. destruct (IH ltac:(tauto) u ltac:(tauto) E) as (-> & ->). auto.
Qed.

Lemma store_headers_in hdrs : forall h md k v, In (k, v) (fst (store hdrs h md)) <-> In (k, v) h \/ requires hdrs k v.
Proof.
  induction hdrs as [|f t IH]; intros h md k v; simpl.
  - split; [auto|]. intros [?|(f & [] & _)]; auto.
  - destruct (split_header f) as (k', v') eqn:E. apply split_header_spec in E.
    destruct (is_meta k') eqn:Em.
    + rewrite IH. split.
      * intros [?|(g & Hg & H)]; [auto|]. right. exists g. simpl. auto.
      * intros [?|(g & [<-|Hg] & Hh & Hm)]; [auto| |right; exists g; auto].
        destruct (header_frame_fun _ _ _ _ _ E Hh) as (-> & ->). apply is_meta_false in Hm. congruence.
    + rewrite IH, mm_emplace_in. split.
      * intros [[[= -> ->]|?]|(g & Hg & H)]; [|auto|right; exists g; simpl; auto].
        right. exists f. simpl. split; [auto|]. split; [exact E|]. apply is_meta_false. exact Em.
      * intros [?|(g & [<-|Hg] & Hh & Hm)]; [auto| |right; exists g; auto].
        destruct (header_frame_fun _ _ _ _ _ E Hh) as (-> & ->). auto.
Qed.

Lemma store_meta hdrs : forall h md m x,
  sm_find m (snd (store hdrs h md)) = Some x <->
  sm_find m md = Some x \/ (sm_find m md = None /\ first_meta m hdrs x).
Proof.
  induction hdrs as [|f t IH]; intros h md m x; simpl.
  - split; [auto|]. intros [?|(_ & H)]; [auto|inversion H].
  - destruct (split_header f) as (k, v) eqn:E. apply split_header_spec in E.
    destruct (is_meta k) eqn:Em.
    + apply is_meta_spec in Em. destruct Em as (m0 & Em).
      assert (Hd : str_drop 5 k = m0) by (rewrite Em; apply (str_drop_app "meta.")).
      rewrite IH, sm_find_emplace, Hd. destruct (sm_find m md) as [y|] eqn:Ef.
      * split; [intros [?|(? & _)]; [auto|discriminate]|intros [?|(? & _)]; [auto|discriminate]].
      * destruct (String.eqb_spec m0 m) as [->|Hne].
        -- split.
           ++ intros [[= ->]|(? & _)]; [|discriminate]. right. split; [reflexivity|]. eapply fm_here; eauto.
           ++ intros [?|(_ & H)]; [discriminate|]. left. inversion H as [? ? k1 v1 Hf Hm|? ? k1 v1 x1 Hf Hm Ht]; subst.
              ** destruct (header_frame_fun _ _ _ _ _ E Hf) as (_ & ->). reflexivity.
              ** destruct (header_frame_fun _ _ _ _ _ E Hf) as (<- & _). contradiction.
        -- split.
           ++ intros [?|(_ & H)]; [discriminate|]. right. split; [reflexivity|]. eapply fm_later; [exact E| |exact H].
              intros Hm. unfold meta_name in *. rewrite Em in Hm. apply (append_inj_l "meta.") in Hm. contradiction.
           ++ intros [?|(_ & H)]; [discriminate|]. right. split; [reflexivity|].
              inversion H as [? ? k1 v1 Hf Hm|? ? k1 v1 x1 Hf Hm Ht]; subst; [|exact Ht].
              destruct (header_frame_fun _ _ _ _ _ E Hf) as (<- & _). exfalso. apply Hne.
              rewrite Hm. apply (str_drop_app "meta.").
    + rewrite IH. split; (intros [?|(Hn & H)]; [auto|]); right; (split; [exact Hn|]).
      * eapply fm_later; [exact E| |exact H]. apply is_meta_false. exact Em.
      * inversion H as [? ? k1 v1 Hf Hm|? ? k1 v1 x1 Hf Hm Ht]; subst; [|exact Ht].
        destruct (header_frame_fun _ _ _ _ _ E Hf) as (<- & _). exfalso. eapply is_meta_false; eauto.
Qed.

(* ---- init headers ---- *)

(* the header frames of an init message: up to the first empty frame or the end *)
Lemma parse_init_block frames hdrs rest h : header_block frames hdrs rest ->
  parse_init_headers frames h = (fst (parse_init_headers hdrs h), "" :: rest).
Proof.
  intros (-> & Hn). revert h. induction hdrs as [|f t IH]; intros h; [reflexivity|].
  assert (Hf : String.eqb f "" = false) by (apply String.eqb_neq; intros ->; apply Hn; simpl; auto).
  simpl. rewrite Hf. destruct (split_header f). apply IH. simpl in Hn. tauto.
Qed.
Lemma parse_init_no_block frames h : ~ In "" frames -> snd (parse_init_headers frames h) = [].
Proof.
  revert h. induction frames as [|f t IH]; intros h Hn; [reflexivity|].
  assert (Hf : String.eqb f "" = false) by (apply String.eqb_neq; intros ->; apply Hn; simpl; auto).
  simpl. rewrite Hf. destruct (split_header f). apply IH. simpl in Hn. tauto.
Qed.
Lemma parse_init_in frames : forall h k v, ~ In "" frames ->
  (In (k, v) (fst (parse_init_headers frames h)) <-> In (k, v) h \/ exists f, In f frames /\ header_frame f k v).
Proof.
  induction frames as [|f t IH]; intros h k v Hn.
  - simpl. split; [auto|]. intros [?|(f & [] & _)]; auto.
  - assert (Hf : String.eqb f "" = false) by (apply String.eqb_neq; intros ->; apply Hn; simpl; auto).
    simpl. rewrite Hf. destruct (split_header f) as (k', v') eqn:E. apply split_header_spec in E.
    rewrite IH by (simpl in Hn; tauto). rewrite mm_emplace_in. split.
    + intros [[[= -> ->]|?]|(g & Hg & Hh)]; [right; exists f; simpl; auto|auto|right; exists g; simpl; auto].
    + intros [?|(g & [<-|Hg] & Hh)]; [auto| |right; exists g; auto].
      destruct (header_frame_fun _ _ _ _ _ E Hh) as (-> & ->). auto.
Qed.

(* ---- matchers ---- *)

Lemma make_matchers_in hs : forall acc ms, make_matchers hs acc = Val ms -> forall k m,
  In (k, m) ms <-> In (k, m) acc \/ exists v, In (k, v) hs /\ make_matcher k v = Val m.
Proof.
  induction hs as [|(k', v') t IH]; intros acc ms; simpl.
  - intros [= <-] k m. split; [auto|]. intros [?|(v & [] & _)]; auto.
  - destruct (make_matcher k' v') as [m'|e] eqn:E; simpl; [|discriminate]. intros H k m.
    rewrite (IH _ _ H), mm_emplace_in. split.
    + intros [[[= -> ->]|?]|(v & Hv & Hm)]; [right; eauto|auto|right; eauto].
    + intros [?|(v & [[= -> ->]|Hv] & Hm)]; [auto| |right; eauto]. left. left. congruence.
Qed.
Lemma make_matchers_fail hs : forall acc e, make_matchers hs acc = Fail e ->
  exists v, In ("threads", v) hs /\ stoul v = Fail e.
Proof.
  induction hs as [|(k', v') t IH]; intros acc e; cbn [make_matchers]; [discriminate|].
  destruct (make_matcher k' v') as [m'|e'] eqn:E; cbn [rbind].
  - intros H. destruct (IH _ _ H) as (v & Hv & Hs). exists v. split; [right; exact Hv|exact Hs].
  - intros [= ->]. unfold make_matcher in E. destruct (String.eqb_spec k' "threads") as [->|]; [|discriminate].
    destruct (stoul v') as [n|e'] eqn:Es; cbn [rbind] in E; [discriminate|]. injection E as ->.
    exists v'. split; [left; reflexivity|exact Es].
Qed.
Lemma make_matchers_ok hs acc : (forall v, In ("threads", v) hs -> exists n, stoul v = Val n) ->
  exists ms, make_matchers hs acc = Val ms.
Proof.
  intros H. destruct (make_matchers hs acc) as [ms|e] eqn:E; [eauto|].
  destruct (make_matchers_fail _ _ _ E) as (v & Hv & Hs). destruct (H v Hv) as (n & Hn). congruence.
Qed.

(* a worker made for hardware group hw from headers hs *)
Definition made (w : worker) (hw : string) (hs : mmap string) : Prop :=
  w_hwgroup w = hw /\ w_headers_copy w = hs /\
  make_matchers hs (mm_emplace "hwgroup" (MMulti hw) []) = Val (w_headers w).

Lemma make_worker_made wid addr ident hw hs w : make_worker wid addr ident hw hs = Val w -> made w hw hs.
Proof.
  unfold make_worker. destruct (make_matchers _ _) as [ms|e] eqn:E; simpl; [|discriminate].
  intros [= <-]. split; [reflexivity|]. split; [reflexivity|exact E].
Qed.

Lemma made_in w hw hs : made w hw hs -> forall k m,
  In (k, m) (w_headers w) <-> (k = "hwgroup" /\ m = MMulti hw) \/
  exists v, In (k, v) hs /\ make_matcher k v = Val m.
Proof.
  intros (_ & _ & H) k m. rewrite (make_matchers_in _ _ _ H). cbn [mm_emplace]. split.
  - intros [[[= <- <-]|[]]|?]; auto.
  - intros [(-> & ->)|?]; [left; left; reflexivity|auto].
Qed.

Lemma equal_range_in {A} k (m : mmap A) x : In x (mm_equal_range k m) <-> In (k, x) m.
Proof.
  unfold mm_equal_range. rewrite in_map_iff. split.
  - intros ((k', y) & <- & H). apply filter_In in H. destruct H as (H & E). simpl in *.
    apply String.eqb_eq in E. subst. exact H.
  - intros H. exists (k, x). split; [reflexivity|]. apply filter_In. split; [exact H|]. apply String.eqb_refl.
Qed.

(* no matcher of key k throws on v *)
Lemma check_any_total ms v : (forall m, In m ms -> exists b, match_value m v = Val b) ->
  exists b, check_any ms v = Val b /\ (b = true <-> exists m, In m ms /\ match_value m v = Val true).
Proof.
  induction ms as [|m t IH]; simpl; intros H.
  - exists false. split; [reflexivity|]. split; [discriminate|]. intros (m & [] & _).
  - destruct (H m (or_introl eq_refl)) as (b & E). rewrite E. simpl. destruct b.
    + exists true. split; [reflexivity|]. split; [eauto|auto].
    + destruct IH as (b & Eb & Hb); [auto|]. exists b. split; [exact Eb|]. rewrite Hb. split.
      * intros (m' & Hm & Hv). eauto.
      * intros (m' & [<-|Hm] & Hv); [congruence|eauto].
Qed.
Lemma check_any_throw ms v e : ms <> [] -> (forall m, In m ms -> match_value m v = Fail e) -> check_any ms v = Fail e.
Proof.
  intros Hn H. destruct ms as [|m t]; [contradiction|]. simpl. rewrite (H m (or_introl eq_refl)). reflexivity.
Qed.

Lemma match_multi my v : exists b, match_value (MMulti my) v = Val b /\ (b = true <-> In my (alternatives v)).
Proof.
  simpl. destruct (multi_match_spec my v) as (b & E & H). rewrite E. exists b. split; [reflexivity|exact H].
Qed.

Lemma threads_matchers w hw hs m : made w hw hs -> In ("threads", m) (w_headers w) <->
  exists d n, In ("threads", d) hs /\ stoul d = Val n /\ m = MCount n.
Proof.
  intros H. rewrite (made_in _ _ _ H). split.
  - intros [(E & _)|(v & Hv & Hm)]; [discriminate|]. unfold make_matcher in Hm.
    rewrite String.eqb_refl in Hm. destruct (stoul v) as [n|] eqn:E; cbn [rbind] in Hm; [|discriminate].
    injection Hm as <-. eauto.
  - intros (d & n & Hd & Hs & ->). right. exists d. split; [exact Hd|]. unfold make_matcher.
    rewrite String.eqb_refl, Hs. reflexivity.
Qed.
Lemma other_matchers w hw hs k m : made w hw hs -> k <> "threads" -> In (k, m) (w_headers w) <->
  (k = "hwgroup" /\ m = MMulti hw) \/ exists d, In (k, d) hs /\ m = MExact d.
Proof.
  intros H Hk. rewrite (made_in _ _ _ H).
  assert (E : String.eqb k "threads" = false) by (apply String.eqb_neq; exact Hk). unfold make_matcher. rewrite E. split.
  - intros [?|(v & Hv & [= <-])]; [auto|]. right. eauto.
  - intros [?|(d & Hd & ->)]; [auto|]. right. eauto.
Qed.

(* a worker made from header frames hdrs *)
Definition declares (hs : mmap string) (hdrs : list string) : Prop :=
  forall k v, In (k, v) hs <-> exists f, In f hdrs /\ header_frame f k v.

Lemma check_header_true w hw hs hdrs k v : made w hw hs -> declares hs hdrs ->
  (check_header w k v = Val true <-> offers hw hdrs k v).
Proof.
  intros Hm Hd. unfold check_header. destruct (String.eqb_spec k "threads") as [->|Hk].
  - assert (HT : forall m, In m (mm_equal_range "threads" (w_headers w)) <->
               exists d n, In ("threads", d) hs /\ stoul d = Val n /\ m = MCount n).
    { intros m. rewrite equal_range_in. apply (threads_matchers _ _ _ _ Hm). }
    assert (HO : offers hw hdrs "threads" v <-> exists d n r, In ("threads", d) hs /\ stoul d = Val n /\ stoul v = Val r /\ (r <= n)%N).
    { split.
      - intros H. remember "threads" as k eqn:Ek. destruct H as [v H|f d v n m Hf Hh Hn Hr Hl|f k v Hf Hh Hne].
        + discriminate.
        + exists d, n, m. split; [apply Hd; exists f; subst; auto|]. split; [apply stoul_spec; exact Hn|].
          split; [apply stoul_spec; exact Hr|exact Hl].
        + contradiction.
      - intros (d & n & r & H1 & H2 & H3 & H4). apply Hd in H1. destruct H1 as (f & Hf & Hh).
        eapply of_threads; [exact Hf|exact Hh|apply stoul_spec; exact H2|apply stoul_spec; exact H3|exact H4]. }
    destruct (stoul v) as [r|e] eqn:Ev.
    + destruct (check_any_total (mm_equal_range "threads" (w_headers w)) v) as (b & Eb & Hb).
      { intros m Hin. apply HT in Hin. destruct Hin as (d & n & _ & _ & ->). simpl. rewrite Ev. simpl. eauto. }
      rewrite Eb. transitivity (b = true); [split; congruence|]. rewrite Hb, HO. split.
      * intros (m & Hin & Hv). apply HT in Hin. destruct Hin as (d & n & H1 & H2 & ->). simpl in Hv. rewrite Ev in Hv.
        simpl in Hv. injection Hv as Hv. apply N.leb_le in Hv. exists d, n, r. auto.
      * intros (d & n & r' & H1 & H2 & [= <-] & H4). exists (MCount n). split; [apply HT; eauto|].
        simpl. rewrite Ev. simpl. f_equal. apply N.leb_le. exact H4.
    + split.
      * destruct (mm_equal_range "threads" (w_headers w)) as [|m t] eqn:El; [discriminate|].
        rewrite (check_any_throw (m :: t) v e); [discriminate|discriminate|].
        intros m' Hin. apply HT in Hin. destruct Hin as (d & n & _ & _ & ->). simpl. rewrite Ev. reflexivity.
      * intros H. apply HO in H. destruct H as (d & n & r & _ & _ & H & _). discriminate.
  - assert (HT : forall m, In m (mm_equal_range k (w_headers w)) <->
               (k = "hwgroup" /\ m = MMulti hw) \/ exists d, In (k, d) hs /\ m = MExact d).
    { intros m. rewrite equal_range_in. apply (other_matchers _ _ _ _ _ Hm Hk). }
    destruct (check_any_total (mm_equal_range k (w_headers w)) v) as (b & Eb & Hb).
    { intros m Hin. apply HT in Hin. destruct Hin as [(_ & ->)|(d & _ & ->)].
      - destruct (match_multi hw v) as (b & E & _). eauto.
      - simpl. eauto. }
    rewrite Eb. transitivity (b = true); [split; congruence|]. rewrite Hb. split.
    + intros (m & Hin & Hv). apply HT in Hin. destruct Hin as [(-> & ->)|(d & H & ->)].
      * destruct (match_multi hw v) as (b' & E & Hb'). rewrite E in Hv. injection Hv as ->.
        apply of_hwgroup. apply Hb'. reflexivity.
      * simpl in Hv. injection Hv as Hv. apply String.eqb_eq in Hv. subst. apply Hd in H. destruct H as (f & Hf & Hh).
        eapply of_other; eauto.
    + intros H. destruct H as [v H|f d v n m Hf Hh Hn Hr Hl|f k v Hf Hh Hne].
      * exists (MMulti hw). split; [apply HT; auto|]. destruct (match_multi hw v) as (b' & E & Hb').
        rewrite E. f_equal. apply Hb'. exact H.
      * contradiction.
      * exists (MExact v). split; [apply HT; right; exists v; split; [apply Hd; eauto|reflexivity]|].
        simpl. rewrite String.eqb_refl. reflexivity.
Qed.

(* the only way check_header throws *)
Lemma check_header_fail w hw hs k v e : made w hw hs ->
  (check_header w k v = Fail e <-> k = "threads" /\ stoul v = Fail e /\ exists d, In ("threads", d) hs).
Proof.
  intros Hm. unfold check_header. destruct (String.eqb_spec k "threads") as [->|Hk].
  - assert (HT : forall m, In m (mm_equal_range "threads" (w_headers w)) <->
               exists d n, In ("threads", d) hs /\ stoul d = Val n /\ m = MCount n).
    { intros m. rewrite equal_range_in. apply (threads_matchers _ _ _ _ Hm). }
    assert (HP : forall d, In ("threads", d) hs -> exists n, stoul d = Val n).
    { intros d Hd. destruct (stoul d) as [n|e'] eqn:E; [eauto|]. exfalso.
      destruct Hm as (_ & _ & Hmk). revert Hmk. generalize (mm_emplace "hwgroup" (MMulti hw) []) as acc.
      clear HT. induction hs as [|(k', v') t IH]; intros acc H; [destruct Hd|]. cbn [make_matchers] in H.
      destruct (make_matcher k' v') as [m'|e2] eqn:E2; cbn [rbind] in H; [|discriminate].
      destruct Hd as [[= -> ->]|Hd]; [|exact (IH Hd _ H)].
      unfold make_matcher in E2. rewrite String.eqb_refl, E in E2. discriminate. }
    destruct (stoul v) as [r|e'] eqn:Ev.
    + destruct (check_any_total (mm_equal_range "threads" (w_headers w)) v) as (b & Eb & _).
      { intros m Hin. apply HT in Hin. destruct Hin as (d & n & _ & _ & ->). simpl. rewrite Ev. simpl. eauto. }
      rewrite Eb. split; [discriminate|]. intros (_ & ? & _). discriminate.
    + split.
      * destruct (mm_equal_range "threads" (w_headers w)) as [|m t] eqn:El; [discriminate|]. intros H.
        destruct (proj1 (HT m) (or_introl eq_refl)) as (d & n & Hd & _ & _).
        rewrite (check_any_throw (m :: t) v e') in H; [|discriminate|].
        -- split; [reflexivity|]. split; [congruence|eauto].
        -- intros m' Hin. apply HT in Hin. destruct Hin as (d' & n' & _ & _ & ->). simpl. rewrite Ev. reflexivity.
      * intros (_ & [= <-] & d & Hd). apply check_any_throw.
        -- destruct (HP d Hd) as (n & Hn). assert (HI : In (MCount n) (mm_equal_range "threads" (w_headers w))) by (apply HT; eauto).
           intros E. rewrite E in HI. destruct HI.
        -- intros m' Hin. apply HT in Hin. destruct Hin as (d' & n' & _ & _ & ->). simpl. rewrite Ev. reflexivity.
  - split.
    + assert (HT : forall m, In m (mm_equal_range k (w_headers w)) <->
               (k = "hwgroup" /\ m = MMulti hw) \/ exists d, In (k, d) hs /\ m = MExact d).
      { intros m. rewrite equal_range_in. apply (other_matchers _ _ _ _ _ Hm Hk). }
      destruct (check_any_total (mm_equal_range k (w_headers w)) v) as (b & Eb & _).
      { intros m Hin. apply HT in Hin. destruct Hin as [(_ & ->)|(d & _ & ->)].
        - destruct (match_multi hw v) as (b & E & _). eauto.
        - simpl. eauto. }
      rewrite Eb. discriminate.
    + intros (? & _). contradiction.
Qed.

Lemma check_headers_true w hs : check_headers w hs = Val true <-> forall k v, In (k, v) hs -> check_header w k v = Val true.
Proof.
  induction hs as [|(k, v) t IH]; simpl.
  - split; [intros _ k v []|reflexivity].
  - destruct (check_header w k v) as [[]|e] eqn:E; simpl.
    + rewrite IH. split.
      * intros H k' v' [[= <- <-]|Hin]; auto.
      * intros H k' v' Hin. auto.
    + split; [discriminate|]. intros H. specialize (H k v (or_introl eq_refl)). congruence.
    + split; [discriminate|]. intros H. specialize (H k v (or_introl eq_refl)). congruence.
Qed.

Theorem check_headers_offers w hw hs hdrs reqs need :
  made w hw hs -> declares hs hdrs -> (forall k v, In (k, v) reqs <-> requires need k v) ->
  (check_headers w reqs = Val true <-> forall k v, requires need k v -> offers hw hdrs k v).
Proof.
  intros Hm Hd Hr. rewrite check_headers_true. split; intros H k v Hin.
  - apply (check_header_true _ _ _ _ _ _ Hm Hd). apply H. apply Hr. exact Hin.
  - apply (check_header_true _ _ _ _ _ _ Hm Hd). apply H. apply Hr. exact Hin.
Qed.
