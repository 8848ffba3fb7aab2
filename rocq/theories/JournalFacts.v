(* Consequences of the record of a message. *)
From Coq Require Import Lia Permutation DecimalString.
From Verif Require Import Base Bytes Containers Worker Multi Single Queue Handler Logger LogHandler SpecText Spec SpecRun SpecMsg SpecQueue SpecPings
  SpecOutcome SpecJoin SpecTick SpecJournal
  Facts TextFacts QueueInv Atoms Conserve Members HandlerSim Provenance HeaderFacts HexFacts OrderFacts Messages QueueContract OwnQueue QueueOrder WorkConserving Keeps Pings Outcome
  Joining TickOutcome Again Lost Journal.
Local Open Scope string_scope.
Local Open Scope list_scope.

Lemma sender_in i s w : sender i s = Some w -> In w (s_reg s).
Proof. intros H. rewrite sender_find in H. exact (proj1 (find_by_identity_in _ _ _ H)). Qed.

(* ---- handovers and their lines ---- *)

Lemma paired_app a b : paired a -> paired b -> paired (a ++ b).
Proof.
  induction 1 as [|w r l _ IH|x l Hx _ IH]; intros Hb; [exact Hb| |].
  - rewrite <- app_assoc. apply pa_sent. auto.
  - cbn [app]. apply pa_other; auto.
Qed.
Lemma paired_none l : Forall (fun x => ~ about_sending x) l -> paired l.
Proof. induction 1; [constructor|apply pa_other; assumption]. Qed.
Lemma paired_sent w r : paired (sent w r).
Proof. rewrite <- (app_nil_r (sent w r)). apply pa_sent. constructor. Qed.
Lemma paired_given w x : paired (flat_map (sent w) (olist x)).
Proof. destruct x as [r|]; simpl; [apply (pa_sent w r []); constructor|constructor]. Qed.
Lemma paired_free s w : paired (free s w).
Proof. unfold free. destruct (current_of _ _); [constructor|]. apply pa_other; [discriminate|constructor]. Qed.

Ltac other := apply pa_other; [simpl; first [discriminate|intros (? & ?); discriminate|intros (? & ? & ?); tauto]|].

Lemma rescued_paired cfg ws att m rs outs un m' : rescued cfg ws att m rs outs un m' -> paired outs.
Proof.
  induction 1; [constructor|repeat other; assumption|repeat other; assumption|repeat other; assumption| |repeat other; assumption].
  other. apply pa_sent. other. assumption.
Qed.
Lemma expired_paired cfg rm ws att m l m' : expired cfg rm ws att m l m' -> paired l.
Proof.
  induction 1 as [|w rm ws ws1 att m rs m1 att1 outs un m2 outs' m' _ _ _ HR _ _ IH]; [constructor|].
  other. apply paired_app; [exact (rescued_paired _ _ _ _ _ _ _ _ HR)|]. apply paired_app; [|exact IH].
  apply paired_none. apply Forall_forall. intros x Hx. apply in_map_iff in Hx. destruct Hx as (r & <- & _). simpl. intros (? & _). discriminate.
Qed.

Theorem journal_paired cfg s s' m l : journal cfg s s' m l -> paired l.
Proof.
  destruct 1; try (repeat other; apply pa_nil).
  - do 3 other. apply paired_app; [apply paired_sent|]. other. constructor.
  - do 4 other. apply paired_app; [|repeat other; constructor]. apply paired_none. apply Forall_forall. intros x Hx. apply in_map_iff in Hx. destruct Hx as (p & <- & _). discriminate.
  - destruct (sender i s); other; constructor.
  - other. apply paired_app; [destruct (sender i s); simpl; [other|]; constructor|]. apply paired_app; [apply paired_given|]. other. constructor.
  - do 2 other. apply paired_app; [apply paired_given|apply paired_free].
  - do 2 other. apply paired_free.
  - do 3 other. apply paired_app; [apply paired_given|apply paired_free].
  - do 2 other. apply paired_app; [destruct x; [apply paired_sent|other; constructor]|apply paired_free].
  - do 2 other. apply paired_app; [apply paired_given|apply paired_free].
  - exact (expired_paired _ _ _ _ _ _ _ H1).
Qed.

(* ---- the lines and their arguments ---- *)

Definition level_eqb (a b : level) : bool := Z.eqb (enum a) (enum b).
Definition known (l : level) (f : string) (n : nat) : bool :=
  existsb (fun p => level_eqb (fst (fst p)) l && String.eqb (snd (fst p)) f && Nat.eqb (snd p) n) formats.
Lemma known_in l f n : known l f n = true -> In (l, f, n) formats.
Proof.
  unfold known. intros H. apply existsb_exists in H. destruct H as (((l', f'), n') & Hi & H). cbn [fst snd] in H.
  apply andb_prop in H. destruct H as (H & Hn). apply andb_prop in H. destruct H as (Hl & Hf).
  apply Nat.eqb_eq in Hn. apply String.eqb_eq in Hf. subst. unfold level_eqb in Hl. apply Z.eqb_eq in Hl.
  destruct l, l'; try discriminate; exact Hi.
Qed.

Section Args.
Context (P : string -> Prop).
Definition line_ok (x : out) : Prop := match x with Say _ => True | Line l f a => In (l, f, length a) formats /\ Forall P a end.
Definition good (m : manager) : Prop := (forall r, In r (queued m) -> P (r_job r)) /\ forall w r, current_of m w = Some r -> P (r_job r).
Context (HN : forall n, P (to_string_N n)) (HF : P "The broker is frozen.").

Lemma good_now m m' w x : good m -> now_has m m' w x -> (forall r, x = Some r -> P (r_job r)) -> (forall r, In r (queued m') -> P (r_job r)) -> good m'.
Proof.
  intros (_ & Hc) (H1 & H2) Hx Hq. split; [exact Hq|]. intros w' r E. destruct (Nat.eq_dec (w_id w') (w_id w)) as [Ei|Ei].
  - rewrite (current_of_id m' w' w Ei), H1 in E. apply Hx. exact E.
  - rewrite (H2 w' Ei) in E. exact (Hc _ _ E).
Qed.

Ltac line := constructor; [first [exact I|split; [apply known_in; vm_compute; reflexivity|repeat (constructor; [try assumption; auto|]); try constructor]]|].

Lemma rescued_args cfg ws att m rs outs un m' : rescued cfg ws att m rs outs un m' ->
  (forall w, In w ws -> P (shown w)) -> (forall r, In r rs -> P (r_job r)) -> good m -> Forall line_ok outs /\ good m'.
Proof.
  intros H HW. induction H as [m|m r rs outs un m' Hc H IH|m r rs outs un m' Hc Hl H IH|m r rs outs un m' Hc Hl Hno H IH
    |m r rs outs un m' w m1 Hc Hl Hw Hf Hi HN1 HS H IH|m r rs outs un m' w m1 Hc Hl Hw Hf Hu HL H IH]; intros HR HG.
  - split; [constructor|exact HG].
  - destruct IH as (I1 & I2); [intros; apply HR; right; assumption|exact HG|]. split; [|exact I2]. do 2 line. exact I1.
  - destruct IH as (I1 & I2); [intros; apply HR; right; assumption|exact HG|]. split; [|exact I2]. do 2 line. exact I1.
  - destruct IH as (I1 & I2); [intros; apply HR; right; assumption|exact HG|]. assert (Hr : P (r_job r)) by (apply HR; left; reflexivity). split; [|exact I2].
    unfold tried_again. do 3 line. exact I1.
  - assert (Hr : P (r_job r)) by (apply HR; left; reflexivity). destruct IH as (I1 & I2); [intros; apply HR; right; assumption| |].
    { apply (good_now _ _ _ _ HG HN1); [intros r' [= <-]; exact Hr|]. rewrite (proj1 HS). exact (proj1 HG). }
    split; [|exact I2]. unfold tried_again, sent. cbn [app]. do 4 line. exact I1.
  - assert (Hr : P (r_job r)) by (apply HR; left; reflexivity). destruct IH as (I1 & I2); [intros; apply HR; right; assumption| |].
    { split; [|intros w' r' E; rewrite Hu in E; exact (proj2 HG _ _ E)]. intros r' Hr'. apply (Permutation_in _ (proj1 HL)) in Hr'. destruct Hr' as [<-|Hr']; [exact Hr|exact (proj1 HG _ Hr')]. }
    split; [|exact I2]. unfold tried_again, waits. do 3 line. exact I1.
Qed.

Lemma expired_args cfg rm ws att m l m' : expired cfg rm ws att m l m' -> incl rm ws -> NoDup (ids rm) ->
  (forall w, In w ws -> P (shown w)) -> good m -> Forall line_ok l.
Proof.
  induction 1 as [|w rm ws ws1 att m rs m1 att1 outs un m2 outs' m' HL Hws _ HR _ _ IH]; intros Hi Hn HW HG; [constructor|].
  destruct HL as (gone & -> & HN1 & (HQ & _) & _).
  assert (Hw : P (shown w)) by (apply HW, Hi; left; reflexivity).
  assert (HG1 : good m1).
  { apply (good_now _ _ _ _ HG HN1); [discriminate|]. intros r Hr. apply (proj1 HG). eapply Permutation_in; [symmetry; exact HQ|]. apply in_or_app. right. exact Hr. }
  destruct (rescued_args _ _ _ _ _ _ _ _ HR) as (I1 & I2).
  - intros w' Hw'. apply HW. apply Hws in Hw'. tauto.
  - intros r Hr. apply in_app_or in Hr. destruct Hr as [Hr|Hr].
    + destruct (current_of m w) as [c|] eqn:Ec; [|destruct Hr]. destruct Hr as [->|[]]. exact (proj2 HG _ _ Ec).
    + apply (proj1 HG). eapply Permutation_in; [symmetry; exact HQ|]. apply in_or_app. left. exact Hr.
  - exact HG1.
  - inversion Hn as [|? ? Hni Hn']; subst. line. apply Forall_app. split; [exact I1|]. apply Forall_app. split.
    + apply Forall_forall. intros x Hx. apply in_map_iff in Hx. destruct Hx as (r & <- & _). exact I.
    + apply IH; [|exact Hn'|intros w' Hw'; apply Hws in Hw'; apply HW; tauto|exact I2].
      intros w' Hw'. apply Hws. split; [apply Hi; right; exact Hw'|]. intros ->. apply Hni. apply in_ids. exact Hw'.
Qed.

Lemma given_args m w x : P (shown w) -> good m -> current_of m w = x -> Forall line_ok (flat_map (sent w) (olist x)).
Proof. intros Hw HG E. destruct x as [r|]; simpl; [|constructor]. pose proof (proj2 HG _ _ E). do 2 line. constructor. Qed.
Lemma free_args s w : P (shown w) -> Forall line_ok (free s w).
Proof. intros Hw. unfold free. destruct (current_of _ _); [constructor|]. line. constructor. Qed.

Theorem journal_args cfg s s' m l : journal cfg s s' m l -> NoDup (ids (s_reg s)) ->
  (forall w, In w (s_reg s) \/ In w (s_reg s') -> P (shown w)) -> good (s_queue s) -> good (s_queue s') ->
  Forall P (m_data m) -> (forall f h v, In f (m_data m) -> header_frame f h v -> P h /\ P v) ->
  P (String.concat "" (map (fun f => f ++ " ")%string (skipn 1 (m_data m)))) -> Forall line_ok l.
Proof.
  intros HJ Hn HW HG HG' HM HH HC. rewrite Forall_forall in HM. unfold received in *.
  destruct HJ; unfold received in *; cbn [m_data m_key m_ident skipn] in *;
    try (match goal with HS : sender _ s = Some ?w |- _ => assert (Hsw : P (shown w)) by (apply HW; left; exact (sender_in _ _ _ HS)) end);
    try (match goal with Hc : current_of (s_queue s) _ = Some ?r |- _ => assert (Hjr : P (r_job r)) by exact (proj2 HG _ _ Hc) end);
    try (match goal with HR0 : request_for _ ?j _ _ ?r |- _ =>
      assert (Ej : r_job r = j) by (destruct HR0 as (_ & _ & _ & E & _); exact E); assert (Hj : P j) by (apply HM; simpl; auto) end);
    try (repeat line; constructor).
  - assert (Hj : P job) by (apply HM; simpl; auto). repeat line; constructor.
  - do 3 line. assert (P (shown w)) by (apply HW; auto). unfold sent. cbn [app]. rewrite Ej. repeat line. constructor.
  - do 4 line. apply Forall_app. split; [|repeat line; constructor]. apply Forall_forall. intros x Hx. apply in_map_iff in Hx. destruct Hx as ((h, v) & <- & Hi).
    destruct H1 as (_ & _ & _ & _ & _ & Hh & _). apply Hh in Hi. destruct Hi as (f & Hf & Hfr & _).
    destruct (HH f h v) as (P1 & P2); [right; right; destruct H as (-> & _); apply in_or_app; left; exact Hf|exact Hfr|].
    split; [apply known_in; reflexivity|]. cbn [fst snd]. auto.
  - assert (Hw : P (shown w)) by (apply HW; right; rewrite H0; apply in_or_app; right; left; reflexivity).
    line. apply Forall_app. split; [destruct (sender i s); simpl; [line|]; constructor|]. apply Forall_app. split.
    + destruct x as [r|]; [|constructor]. exact (given_args (s_queue s') w (Some r) Hw HG' H1).
    + line. constructor.
  - assert (Hj : P j) by (apply HM; simpl; auto). repeat line. constructor.
  - do 2 line. apply Forall_app. split; [exact (given_args _ _ _ Hsw HG' H1)|apply free_args; exact Hsw].
  - do 2 line. apply free_args. exact Hsw.
  - do 3 line. apply Forall_app. split; [exact (given_args _ _ _ Hsw HG' H3)|apply free_args; exact Hsw].
  - unfold tried_again. do 2 line. apply Forall_app. split; [|apply free_args; exact Hsw]. destruct x as [w'|].
    + assert (Hw' : P (shown w')) by (apply HW; left; exact (proj1 H3)). unfold sent. repeat line. constructor.
    + unfold waits. line. constructor.
  - do 2 line. apply Forall_app. split; [exact (given_args _ _ _ Hsw HG' H1)|apply free_args; exact Hsw].
  - assert (Hst : P st) by (apply HM; simpl; auto). repeat line. constructor.
  - destruct (subseq_ids _ _ H Hn) as (Hn' & Hi). exact (expired_args _ _ _ _ _ _ _ H1 Hi Hn' (fun w Hw => HW w (or_introl Hw)) HG).
Qed.
End Args.

Lemma formats_render : forallb (fun p => match render (snd (fst p)) (map (fun _ => "") (seq 0 (snd p))) with Some _ => true | None => false end) formats = true.
Proof. vm_compute. reflexivity. Qed.

(* two templates with the same number of arguments fare alike *)
Lemma render_length f : forall a b, length a = length b -> (render f a = None <-> render f b = None).
Proof.
  assert (HX : forall n f, String.length f <= n -> forall a b, length a = length b -> (render f a = None <-> render f b = None)).
  { induction n as [|n IH]; intros g Hl a b E; destruct g as [|c [|d t]]; try (simpl in Hl; lia); try (simpl; split; discriminate).
    change (render (String c (String d t)) a) with (if Ascii.eqb c "{" && Ascii.eqb d "}" then match a with [] => None | x :: a => option_map (fun y => (x ++ y)%string) (render t a) end else option_map (String c) (render (String d t) a)).
    change (render (String c (String d t)) b) with (if Ascii.eqb c "{" && Ascii.eqb d "}" then match b with [] => None | x :: b => option_map (fun y => (x ++ y)%string) (render t b) end else option_map (String c) (render (String d t) b)).
    destruct (Ascii.eqb c "{" && Ascii.eqb d "}").
    - destruct a as [|x a], b as [|y b]; try discriminate; [tauto|]. injection E as E. specialize (IH t). simpl in Hl. destruct (IH ltac:(lia) a b E) as (I1 & I2).
      destruct (render t a), (render t b); simpl; split; intros HE; try discriminate; try reflexivity; [discriminate (I2 eq_refl)|discriminate (I1 eq_refl)].
    - simpl in Hl. destruct (IH (String d t) ltac:(simpl; lia) a b E) as (I1 & I2).
      destruct (render (String d t) a), (render (String d t) b); cbn [option_map]; split; intros HE; try discriminate; try reflexivity; [discriminate (I2 eq_refl)|discriminate (I1 eq_refl)]. }
  exact (HX (String.length f) f (le_n _)).
Qed.
Lemma format_renders l f a : In (l, f, length a) formats -> exists text, render f a = Some text.
Proof.
  intros H. pose proof formats_render as HF. rewrite forallb_forall in HF. specialize (HF _ H). cbn [fst snd] in HF.
  destruct (render f a) as [t|] eqn:E; [eauto|]. exfalso. apply (render_length f a (map (fun _ => "") (seq 0 (length a)))) in E; [|rewrite map_length, seq_length; reflexivity].
  rewrite E in HF. discriminate.
Qed.
Lemma render_line f : forall a text, one_line f -> Forall one_line a -> render f a = Some text -> one_line text.
Proof.
  assert (HX : forall n f, String.length f <= n -> forall a text, one_line f -> Forall one_line a -> render f a = Some text -> one_line text).
  { unfold one_line. induction n as [|n IH]; intros g Hl a text Hf Ha; destruct g as [|c [|d t]]; try (simpl in Hl; lia); try (simpl; intros [= <-]; assumption).
    change (render (String c (String d t)) a) with (if Ascii.eqb c "{" && Ascii.eqb d "}" then match a with [] => None | x :: a => option_map (fun y => (x ++ y)%string) (render t a) end else option_map (String c) (render (String d t) a)).
    apply no_char_cons in Hf. destruct Hf as (Hc & Hf). destruct (Ascii.eqb c "{" && Ascii.eqb d "}").
    - destruct a as [|x a]; [discriminate|]. inversion Ha as [|? ? Hx Ha']; subst. destruct (render t a) as [y|] eqn:E; [|discriminate]. intros [= <-].
      apply no_char_app. split; [exact Hx|]. apply no_char_cons in Hf. apply (IH t ltac:(simpl in Hl; lia) a y (proj2 Hf) Ha' E).
    - destruct (render (String d t) a) as [y|] eqn:E; [|discriminate]. cbn [option_map]. intros [= <-]. apply no_char_cons. split; [exact Hc|].
      apply (IH (String d t) ltac:(simpl in *; lia) a y Hf Ha E). }
  exact (HX (String.length f) f (le_n _)).
Qed.

Definition clean_b (f : string) : bool := match find_char newline f with Some _ => false | None => true end.
Lemma clean_b_line f : clean_b f = true -> one_line f.
Proof. unfold clean_b, one_line. destruct (find_char newline f) eqn:E; [discriminate|]. intros _. apply find_char_none in E. exact E. Qed.
Lemma formats_line : forallb (fun p => clean_b (snd (fst p))) formats = true.
Proof. vm_compute. reflexivity. Qed.
Lemma format_line l f n : In (l, f, n) formats -> one_line f.
Proof. intros H. pose proof formats_line as HF. rewrite forallb_forall in HF. exact (clean_b_line _ (HF _ H)). Qed.

(* ---- text without newlines ---- *)

Lemma line_number n : one_line (to_string_N n).
Proof.
  unfold one_line, to_string_N. rewrite (string_of_uint_ne _ (to_uint_ne n)). generalize (N.to_uint n). intros u.
  induction u as [|u IH|u IH|u IH|u IH|u IH|u IH|u IH|u IH|u IH|u IH]; cbn [NilEmpty.string_of_uint]; [apply no_char_nil|..];
    (apply no_char_cons; split; [discriminate|exact IH]).
Qed.
Lemma line_hex t : one_line (string_to_hex t).
Proof.
  unfold one_line. induction t as [|a t IH]; [apply no_char_nil|]. cbn [string_to_hex]. apply no_char_app. split; [|exact IH].
  assert (HB : forall a, clean_b (char_to_hex a) = true) by (intros [[] [] [] [] [] [] [] []]; reflexivity).
  exact (clean_b_line _ (HB a)).
Qed.
Lemma line_shown w : one_line (w_description w) -> one_line (shown w).
Proof.
  intros H. unfold shown, one_line. apply no_char_app. split; [apply line_hex|]. destruct (String.eqb _ _); [apply no_char_nil|].
  apply no_char_cons. split; [discriminate|]. apply no_char_cons. split; [discriminate|]. apply no_char_app. split; [exact H|].
  apply no_char_cons. split; [discriminate|apply no_char_nil].
Qed.
Lemma line_header f h v : one_line f -> header_frame f h v -> one_line h /\ one_line v.
Proof.
  unfold one_line. intros Hf H. destruct H as [h v _|f _]; [|auto]. apply no_char_app in Hf. destruct Hf as (H1 & H2). apply no_char_cons in H2. tauto.
Qed.
Lemma line_spaced l : Forall one_line l -> one_line (String.concat "" (map (fun f => f ++ " ")%string l)).
Proof.
  intros H. rewrite <- spaced_concat. unfold one_line in *. induction H as [|f l Hf _ IH]; [apply no_char_nil|]. cbn [spaced].
  apply no_char_app. split; [exact Hf|]. apply no_char_cons. split; [discriminate|exact IH].
Qed.

Section Lines.
Context (o : oracle) (cfg : config).

Definition tidy (s : state) : Prop :=
  (forall w, In w (s_reg s) -> one_line (w_description w)) /\ forall r, In r (held (s_queue s)) -> one_line (r_job r).

Lemma extra_lines frames : forall d c n d' c' n', parse_init_extra frames d c n = (d', c', n') -> Forall one_line frames -> one_line d ->
  (forall r, c = Some r -> one_line (r_job r)) -> one_line d' /\ forall r, c' = Some r -> one_line (r_job r).
Proof.
  induction frames as [|f frames IH]; intros d c n d' c' n' H HF Hd Hc; cbn [parse_init_extra] in H; [injection H as <- <- <-; auto|].
  inversion HF as [|? ? Hf HF']; subst. destruct (split_header f) as (h, v) eqn:E. apply split_header_spec in E. destruct (line_header _ _ _ Hf E) as (_ & Hv).
  destruct (String.eqb h "description"); [exact (IH _ _ _ _ _ _ H HF' Hv Hc)|]. destruct (String.eqb h "current_job"); [|exact (IH _ _ _ _ _ _ H HF' Hd Hc)].
  refine (IH _ _ _ _ _ _ H HF' Hd _). intros r [= <-]. exact Hv.
Qed.
Lemma after_empty_incl frames : incl (after_empty frames) frames.
Proof.
  induction frames as [|f frames IH]; simpl; [apply incl_refl|]. destruct (String.eqb f ""); [apply incl_tl, incl_refl|apply incl_tl; exact IH].
Qed.

Lemma tidy_step m s outs s' : inv s [] -> tidy s -> Forall one_line (m_data m) -> on_request o cfg m s = (outs, inr (tt, s')) -> tidy s'.
Proof.
  intros HI (TW & TR) HM H. destruct (on_request_sim _ _ _ _ _ _ HI H) as (ls & A & O & S).
  assert (HL : (forall w cur x, In (LRegister w cur x) ls -> one_line (w_description w)) /\ forall r, In r (created ls) -> one_line (r_job r)).
  { destruct S as [ls Hq Hne|ls Hk Ht|ls rest Hk Hd He|pre w' cur' x' next rest Hk Hd Hq Hr _|ls rest Hk Hd Hds].
    - split; [intros w cur x Hin; destruct (quiet_register _ _ _ _ Hq Hin)|]. rewrite (quiet_created _ Hq). intros r [].
    - split; [intros w cur x Hin; destruct (timer_register _ _ _ _ Ht Hin)|]. rewrite (timer_created _ Ht). intros r [].
    - assert (HS : forall r, submits (m_data m) s r -> one_line (r_job r)).
      { intros r [job headers md add H1 _ ->]. rewrite Forall_forall in HM. apply HM. exact (nth_error_In _ _ H1). }
      destruct He as [Hp|r' Hs Hf|r' x Hs Hf|r' Hs Hf Hno]; (split; [intros w cur y Hin; simpl in Hin; intuition discriminate|]); intros r Hin; simpl in Hin; try tauto;
        destruct Hin as [->|[]]; apply HS; assumption.
    - destruct Hr as [hw hs rest' w0 desc H1 H2 H3 H4 -> _].
      assert (HF : Forall one_line rest').
      { assert (HA : Forall one_line (after_empty (skipn 2 (m_data m)))).
        { apply Forall_forall. intros f Hf. rewrite Forall_forall in HM. apply HM. apply after_empty_incl in Hf. revert Hf. clear. generalize 2. intros n. revert n. induction (m_data m) as [|a l IH]; intros [|n] Hf; simpl in *; auto. right. exact (IH _ Hf). }
        destruct (parse_init_headers_rest _ _ _ _ H2) as [(-> & _)| ->]; [constructor|]. constructor; [apply no_char_nil|exact HA]. }
      destruct (extra_lines _ _ _ _ _ _ _ H4 HF (no_char_nil _)) as (L1 & L2); [discriminate|]. split.
      + intros w cur x Hin. apply in_app_or in Hin. destruct Hin as [Hin|[E|[]]]; [destruct (quiet_register _ _ _ _ Hq Hin)|]. injection E as <- _ _. exact L1.
      + intros r Hin. unfold created in Hin. rewrite flat_map_app in Hin. fold (created pre) in Hin. rewrite (quiet_created _ Hq) in Hin. simpl in Hin. rewrite app_nil_r in Hin.
        destruct cur' as [c|]; [|destruct Hin]. destruct Hin as [->|[]]. exact (L2 r eq_refl).
    - split; [|change (created (LTau :: ls)) with (created ls)].
      + intros w cur x [?|Hin]; [discriminate|]. exfalso. destruct Hds as [?|? ? ? ? ? ? ? ? ? ?|w' r ls H1 H2 H3 H4 H5 He]; simpl in Hin; [tauto|intuition discriminate|].
        destruct Hin as [?|Hin]; [discriminate|]. destruct He; simpl in Hin; intuition discriminate.
      + intros r Hin. exfalso. destruct Hds as [?|? ? ? ? ? ? ? ? ? ?|w' r' ls H1 H2 H3 H4 H5 He]; simpl in Hin; [tauto|tauto|]. destruct He; simpl in Hin; tauto. }
  destruct HL as (L1 & L2).
  destruct (atoms_carry o cfg (fun w => one_line (w_description w)) (fun r => one_line (r_job r)) _ _ _ _ _ A HI TW) as (C1 & C2 & _).
  - intros r Hr. rewrite app_nil_r in Hr. exact (TR r Hr).
  - exact L1.
  - exact L2.
  - split; [exact C1|]. intros r Hr. apply C2. rewrite app_nil_r. exact Hr.
Qed.

Lemma tidy_run k tr s : run o cfg k tr s -> (forall e, In e tr -> Forall one_line (m_data (ev_in e))) -> tidy s.
Proof.
  induction 1 as [|tr s m outs s' HR IH Hstep]; intros HM.
  - split; [intros w []|]. destruct k; intros r [].
  - refine (tidy_step m s outs s' (run_inv _ _ _ _ _ HR) (IH _) _ Hstep).
    + intros e He. apply HM. apply in_or_app. left. exact He.
    + apply (HM (mkEvent s m outs s')). apply in_or_app. right. left. reflexivity.
Qed.
Lemma tidy_good s : tidy s -> good one_line (s_queue s).
Proof.
  intros (_ & H). split; [intros r Hr; apply H; apply queued_held; exact Hr|]. intros w r Hc. apply H. exact (current_held _ _ _ Hc).
Qed.

Theorem lines_apart k tr1 e tr2 s : run o cfg k (tr1 ++ e :: tr2) s ->
  (forall e', In e' (tr1 ++ [e]) -> Forall one_line (m_data (ev_in e'))) ->
  forall l f a, In (Line l f a) (record o cfg e) -> exists text, render f a = Some text /\ one_line text.
Proof.
  intros HR HM l f a Hin. pose proof (event_journal _ _ _ _ _ _ _ HR) as HJ. pose proof (run_split _ _ _ _ _ _ _ HR) as (HR1 & HE).
  assert (T1 : tidy (ev_pre e)) by (apply (tidy_run _ _ _ HR1); intros e' He; apply HM; apply in_or_app; left; exact He).
  assert (HMe : Forall one_line (m_data (ev_in e))) by (apply HM; apply in_or_app; right; left; reflexivity).
  pose proof (tidy_step _ _ _ _ (run_inv _ _ _ _ _ HR1) T1 HMe HE) as T2.
  assert (HL : Forall (line_ok one_line) (record o cfg e)).
  { apply (journal_args one_line line_number (clean_b_line "The broker is frozen." eq_refl) _ _ _ _ _ HJ).
    - exact (qi_nodup _ _ (inv_q _ _ (run_inv _ _ _ _ _ HR1))).
    - intros w [Hw|Hw]; apply line_shown; [exact (proj1 T1 w Hw)|exact (proj1 T2 w Hw)].
    - apply tidy_good. exact T1.
    - apply tidy_good. exact T2.
    - exact HMe.
    - intros g h v Hg. apply line_header. rewrite Forall_forall in HMe. exact (HMe g Hg).
    - apply line_spaced. destruct (m_data (ev_in e)) as [|c d]; [constructor|]. inversion HMe; assumption. }
  rewrite Forall_forall in HL. destruct (HL _ Hin) as (H1 & H2). destruct (format_renders _ _ _ H1) as (t & Et). exists t. split; [exact Et|].
  exact (render_line f a t (format_line _ _ _ H1) H2 Et).
Qed.

Theorem lines_known k tr1 e tr2 s : run o cfg k (tr1 ++ e :: tr2) s ->
  forall l f a, In (Line l f a) (record o cfg e) -> In (l, f, length a) formats /\ exists text, render f a = Some text.
Proof.
  intros HR l f a Hin. pose proof (event_journal _ _ _ _ _ _ _ HR) as HJ. pose proof (run_split _ _ _ _ _ _ _ HR) as (HR1 & HE).
  assert (HL : Forall (line_ok (fun _ => True)) (record o cfg e)).
  { assert (HG : forall m, good (fun _ => True) m) by (intros m; split; auto).
    apply (journal_args (fun _ => True) (fun _ => I) I _ _ _ _ _ HJ); auto.
    - exact (qi_nodup _ _ (inv_q _ _ (run_inv _ _ _ _ _ HR1))).
    - apply Forall_forall. auto. }
  rewrite Forall_forall in HL. destruct (HL _ Hin) as (H1 & _). split; [exact H1|]. exact (format_renders _ _ _ H1).
Qed.

(* ---- what the lines tell ---- *)

Theorem refusal_told k tr1 e tr2 s i job frames : run o cfg k (tr1 ++ e :: tr2) s -> ev_in e = Msg "clients" i ("eval" :: job :: frames) ->
  (exists text, In (Msg "clients" i ["reject"; text]) (ev_out e)) <->
  exists f a, In f refusals /\ In (Line LErr f (job :: a)) (record o cfg e).
Proof.
  intros HR E. destruct (event_record _ _ _ _ _ _ _ HR) as (_ & <-). pose proof (event_journal _ _ _ _ _ _ _ HR) as HJ. rewrite E in HJ.
  inversion HJ as [i0 j0 fr HB EM EL|i0 j0 fr HB HZ EM EL|i0 j0 fr need pl w r HB HZ HF Hw Hf Hi EM EL|i0 j0 fr need pl w r HB HZ HF Hw Hf Hi EM EL
    |i0 j0 fr need pl r HB HZ HF Hno EM EL| | | | | | | | | | | | | | | | | | | | | | |]; subst.
  - split; [intros (t & [?|[]]); discriminate|]. intros (f & a & _ & [?|[?|[?|[]]]]); discriminate.
  - split; [|intros _; exists "The broker is frozen."; right; left; reflexivity]. intros _. exists "Request '{}' rejected. {}", ["The broker is frozen."].
    split; [left; reflexivity|]. do 3 right. left. reflexivity.
  - split; [intros (t & [?|[?|[?|[]]]]); discriminate|]. intros (f & a & Hr & Hin).
    simpl in Hin. destruct Hin as [?|[?|[?|[?|[?|[?|[]]]]]]]; discriminate.
  - split; [intros (t & [?|[?|[]]]); discriminate|]. intros (f & a & Hr & Hin). simpl in Hin. destruct Hin as [?|[?|[?|[?|[?|[]]]]]]; discriminate.
  - split.
    + intros _. exists "Request '{}' rejected. No worker available for headers:", []. split; [right; left; reflexivity|]. do 3 right. left. reflexivity.
    + intros _. eexists. apply in_flat_map. eexists. split; [do 4 right; apply in_or_app; right; left; reflexivity|]. left. reflexivity.
  - exfalso. match goal with HH : ~ In _ _ |- _ => apply HH end; simpl; tauto.
  - exfalso. match goal with HH : ~ In _ _ |- _ => apply HH end; simpl; tauto.
Qed.

Theorem done_told k tr1 e tr2 s i rest : run o cfg k (tr1 ++ e :: tr2) s -> ev_in e = Msg "workers" i ("done" :: rest) ->
  accepted (ev_pre e) i rest <-> ~ exists x, In x (record o cfg e) /\ complaint x.
Proof.
  intros HR E. pose proof (event_journal _ _ _ _ _ _ _ HR) as HJ. rewrite E in HJ.
  assert (HC : forall w y, ~ exists x, In x (flat_map (sent w) (olist y)) /\ complaint x).
  { intros w [r|] (x & Hx & l & f & a & -> & Hl); simpl in Hx; [|destruct Hx]. destruct Hx as [?|[Hx|[]]]; [discriminate|]. injection Hx as <- _ _. destruct Hl; discriminate. }
  assert (HF : forall s w, ~ exists x, In x (free s w) /\ complaint x).
  { intros s0 w (x & Hx & l & f & a & -> & Hl). unfold free in Hx. destruct (current_of _ _); [destruct Hx|]. destruct Hx as [Hx|[]]. injection Hx as <- _ _. destruct Hl; discriminate. }
  assert (HD : forall l1 l2, (~ exists x, In x l1 /\ complaint x) -> (~ exists x, In x l2 /\ complaint x) -> ~ exists x, In x (l1 ++ l2) /\ complaint x).
  { intros l1 l2 H1 H2 (x & Hx & Hc). apply in_app_or in Hx. destruct Hx; eauto. }
  assert (HK : forall y l, ~ complaint y -> (~ exists x, In x l /\ complaint x) -> ~ exists x, In x (y :: l) /\ complaint x).
  { intros y l H1 H2 (x & [->|Hx] & Hc); eauto. }
  assert (HS : forall m, ~ complaint (Say m)) by (intros m (l & f & a & ? & _); discriminate).
  assert (HI : forall lv f a, lv <> LWarn -> lv <> LErr -> ~ complaint (Line lv f a)) by (intros lv f a H1 H2 (l & f' & a' & [= <- _ _] & [?|?]); contradiction).
  assert (HX : forall l f a p, (l = LWarn \/ l = LErr) -> exists x, In x [p; Line l f a] /\ complaint x) by (intros l f a p Hl; exists (Line l f a); split; [right; left; reflexivity|exists l, f, a; auto]).
  assert (HN : ~ exists x, In x [] /\ complaint x) by (intros (x & [] & _)).
  assert (HB : forall (A : Prop) l f a p, (l = LWarn \/ l = LErr) -> ~ A -> (A <-> ~ exists x, In x [p; Line l f a] /\ complaint x)).
  { intros A l f a p Hl HA. split; [contradiction|]. intros Hno. destruct Hno. apply HX. exact Hl. }
  assert (HG : forall (A B : Prop), A -> ~ B -> (A <-> ~ B)) by tauto.
  inversion HJ; subst; unfold received, tried_again, waits in *.
  - apply HB; [auto|]. intros (w0 & r0 & E1 & _). congruence.
  - apply HB; [auto|]. intros (w0 & r0 & E1 & E2 & [(more & ->)|(st & text & _ & ->)]); simpl in *; lia.
  - apply HB; [auto|]. intros (w0 & r0 & E1 & E2 & [(more & [= -> -> ->])|(st0 & text & _ & [= -> -> ->])]); congruence.
  - apply HG; [exists w, r; eauto 8|]. apply HK; [apply HI; discriminate|]. apply HK; [apply HS|]. apply HD; [apply HC|apply HF].
  - apply HB; [auto|]. intros (w0 & r0 & E1 & E2 & [(more & [= E3 E4])|(st0 & text & _ & [= E3 _ ->])]). simpl in *. congruence.
  - apply HG; [exists w, r; split; [assumption|]; split; [assumption|]; right; eauto 8|]. apply HK; [apply HI; discriminate|]. apply HK; [apply HS|]. apply HF.
  - apply HG; [exists w, r; split; [assumption|]; split; [assumption|]; right; eauto 8|]. apply HK; [apply HI; discriminate|]. do 2 (apply HK; [apply HS|]). apply HD; [apply HC|apply HF].
  - apply HG; [exists w, r; split; [assumption|]; split; [assumption|]; right; eauto 8|]. apply HK; [apply HI; discriminate|]. apply HK; [apply HI; discriminate|].
    apply HD; [|apply HF]. destruct x as [w'|]; [|apply HK; [apply HI; discriminate|exact HN]]. pose proof (HC w' (Some r)) as HC'. cbn [olist flat_map] in HC'. rewrite app_nil_r in HC'. exact HC'.
  - apply HB; [auto|]. intros (w0 & r0 & E1 & E2 & [(more & [= E3 E4])|(st0 & text & _ & [= E3 _ ->])]). simpl in *. congruence.
  - apply HG; [exists w, r; split; [assumption|]; split; [assumption|]; right; eauto 8|]. apply HK; [apply HI; discriminate|]. apply HK; [apply HS|]. apply HD; [apply HC|apply HF].
  - apply HB; [auto|]. intros (w0 & r0 & E1 & E2 & [(more & [= _ -> _])|(st0 & text & Hst & [= _ -> _])]); match goal with HH : ~ In _ _ |- _ => apply HH end; simpl; [tauto|destruct Hst as [->| ->]; tauto].
  - exfalso. match goal with HH : ~ In _ _ |- _ => apply HH end; simpl; tauto.
  - exfalso. match goal with HH : ~ In _ _ |- _ => apply HH end; simpl; tauto.
Qed.

Theorem free_told k tr1 e tr2 s i rest w : run o cfg k (tr1 ++ e :: tr2) s -> ev_in e = Msg "workers" i ("done" :: rest) ->
  accepted (ev_pre e) i rest -> sender i (ev_pre e) = Some w ->
  In (Line LDebug " - worker {} is now free" [shown w]) (record o cfg e) <-> current_of (s_queue (ev_post e)) w = None.
Proof.
  intros HR E HA Hs. pose proof (event_journal _ _ _ _ _ _ _ HR) as HJ. rewrite E in HJ. destruct HA as (w0 & r0 & A1 & A2 & A3). rewrite Hs in A1. injection A1 as <-.
  assert (HF : forall s' l, ~ In (Line LDebug " - worker {} is now free" [shown w]) l ->
    (In (Line LDebug " - worker {} is now free" [shown w]) (l ++ free s' w) <-> current_of (s_queue s') w = None)).
  { intros s' l Hl. rewrite in_app_iff. unfold free. destruct (current_of (s_queue s') w); simpl; [split; [intros [?|[]]; contradiction|discriminate]|split; auto]. }
  assert (HC : forall w' y, ~ In (Line LDebug " - worker {} is now free" [shown w]) (flat_map (sent w') (olist y))).
  { intros w' [r|]; simpl; [|tauto]. intros [?|[?|[]]]; discriminate. }
  inversion HJ; subst; unfold received, tried_again, waits in *;
    try (match goal with HH : sender i (ev_pre e) = Some ?w' |- _ => rewrite HH in Hs; injection Hs as -> end); try congruence.
  - exfalso. destruct A3 as [(more & ->)|(st & text & _ & ->)]; simpl in *; lia.
  - exfalso. destruct A3 as [(more & [= -> -> ->])|(st0 & text & _ & [= -> -> ->])]; congruence.
  - apply (HF _ (_ :: _ :: _)). intros [?|[?|?]]; [discriminate|discriminate|exact (HC _ _ H)].
  - exfalso. destruct A3 as [(more & [= E3 E4])|(st0 & text & _ & [= E3 _ ->])]. simpl in *. congruence.
  - apply (HF _ [_; _]). intros [?|[?|[]]]; discriminate.
  - apply (HF _ (_ :: _ :: _ :: _)). intros [?|[?|[?|?]]]; [discriminate|discriminate|discriminate|exact (HC _ _ H)].
  - apply (HF _ (_ :: _ :: _)). intros [?|[?|?]]; [discriminate|discriminate|]. destruct x; simpl in H; destruct H as [?|H]; try discriminate; [destruct H as [?|[]]; discriminate|destruct H].
  - exfalso. destruct A3 as [(more & [= E3 E4])|(st0 & text & _ & [= E3 _ ->])]. simpl in *. congruence.
  - apply (HF _ (_ :: _ :: _)). intros [?|[?|?]]; [discriminate|discriminate|exact (HC _ _ H)].
  - exfalso. destruct A3 as [(more & [= _ -> _])|(st0 & text & Hst & [= _ -> _])]; match goal with HH : ~ In _ _ |- _ => apply HH end; simpl; [tauto|destruct Hst as [->| ->]; tauto].
  - exfalso. match goal with HH : ~ In _ _ |- _ => apply HH end; simpl; tauto.
  - exfalso. match goal with HH : ~ In _ _ |- _ => apply HH end; simpl; tauto.
Qed.

Lemma rescued_expiry ws att m rs outs un m' : rescued cfg ws att m rs outs un m' -> filter is_expiry outs = [].
Proof. induction 1; simpl; auto. Qed.
Lemma expired_expiry rm ws att m l m' : expired cfg rm ws att m l m' -> filter is_expiry l = map (fun w => Line LInfo "Worker {} expired" [shown w]) rm.
Proof.
  induction 1 as [|w rm ws ws1 att m rs m1 att1 outs un m2 outs' m' _ _ _ HR _ _ IH]; [reflexivity|].
  cbn [filter map]. change (is_expiry (Line LInfo "Worker {} expired" [shown w])) with true. cbv iota. f_equal.
  rewrite !filter_app, (rescued_expiry _ _ _ _ _ _ _ HR), IH. replace (filter is_expiry (map (fun r => Say (died_report w r)) un)) with (@nil out); [reflexivity|].
  clear. induction un; simpl; auto.
Qed.

Lemma given_expiry w x : filter is_expiry (flat_map (sent w) (olist x)) = [].
Proof. destruct x; reflexivity. Qed.
Lemma free_expiry s w : filter is_expiry (free s w) = [].
Proof. unfold free. destruct (current_of _ _); reflexivity. Qed.

Theorem expiry_told k tr1 e tr2 s : run o cfg k (tr1 ++ e :: tr2) s ->
  if String.eqb (m_key (ev_in e)) "timer" then
    exists rm, subseq rm (s_reg (ev_pre e)) /\ filter is_expiry (record o cfg e) = map (fun w => Line LInfo "Worker {} expired" [shown w]) rm /\
      forall w, In w rm <-> In w (s_reg (ev_pre e)) /\ ~ In w (s_reg (ev_post e))
  else filter is_expiry (record o cfg e) = [].
Proof.
  intros HR. pose proof (event_journal _ _ _ _ _ _ _ HR) as HJ. pose proof (run_split _ _ _ _ _ _ _ HR) as (HR1 & HE).
  assert (Hn : NoDup (ids (s_reg (ev_pre e)))) by exact (qi_nodup _ _ (inv_q _ _ (run_inv _ _ _ _ _ HR1))). clear HR HR1 HE.
  destruct HJ; cbn [m_key]; try reflexivity.
  - cbn. rewrite filter_app. replace (filter is_expiry _) with (@nil out); [reflexivity|]. clear. induction (r_headers r); simpl; auto.
  - cbn. rewrite !filter_app, given_expiry. destruct (sender i (ev_pre e)); reflexivity.
  - cbn. rewrite filter_app, given_expiry. apply free_expiry.
  - cbn. apply free_expiry.
  - cbn. rewrite filter_app, given_expiry. apply free_expiry.
  - cbn. rewrite filter_app, free_expiry. destruct x; reflexivity.
  - cbn. rewrite filter_app, given_expiry. apply free_expiry.
  - change (String.eqb "timer" "timer") with true. cbv iota. exists rm. split; [exact H|]. split; [exact (expired_expiry _ _ _ _ _ _ H1)|]. intros w. destruct (subseq_ids _ _ H Hn) as (_ & Hi).
    rewrite H0. split; [intros Hw; split; [exact (Hi w Hw)|tauto]|]. intros (Hw & Hno). destruct (in_dec worker_eq_dec w rm) as [?|Hr]; [assumption|]. destruct Hno. auto.
  - destruct (String.eqb_spec k0 "timer") as [->|_]; [destruct H; simpl; auto|reflexivity].
Qed.

(* ---- how much is written ---- *)

Definition noise (l : list out) : nat := length (filter loud l).
Lemma noise_app a b : noise (a ++ b) = noise a + noise b.
Proof. unfold noise. rewrite filter_app, app_length. reflexivity. Qed.
Lemma given_noise w x : noise (flat_map (sent w) (olist x)) = 0.
Proof. destruct x; reflexivity. Qed.
Lemma free_noise s w : noise (free s w) = 0.
Proof. unfold free. destruct (current_of _ _); reflexivity. Qed.
Lemma rescued_noise ws att m rs outs un m' : rescued cfg ws att m rs outs un m' -> noise outs = 0.
Proof. unfold noise. induction 1; simpl; auto. Qed.
Lemma expired_noise rm ws att m l m' : expired cfg rm ws att m l m' -> noise l = length rm.
Proof.
  induction 1 as [|w rm ws ws1 att m rs m1 att1 outs un m2 outs' m' _ _ _ HR _ _ IH]; [reflexivity|].
  change (noise (Line LInfo "Worker {} expired" [shown w] :: outs ++ map (fun r => Say (died_report w r)) un ++ outs')) with (S (noise (outs ++ map (fun r => Say (died_report w r)) un ++ outs'))).
  rewrite !noise_app, (rescued_noise _ _ _ _ _ _ _ HR), IH. replace (noise (map _ un)) with 0; [reflexivity|]. clear. unfold noise. induction un; simpl; auto.
Qed.
Lemma subseq_length {A} (a b : list A) : subseq a b -> length a <= length b.
Proof. induction 1; simpl; lia. Qed.

Theorem volume k tr1 e tr2 s : run o cfg k (tr1 ++ e :: tr2) s ->
  length (filter loud (record o cfg e)) <= if String.eqb (m_key (ev_in e)) "timer" then length (s_reg (ev_pre e)) else S (length (m_data (ev_in e))).
Proof.
  intros HR. pose proof (event_journal _ _ _ _ _ _ _ HR) as HJ. clear HR. fold (noise (record o cfg e)).
  assert (NC : forall x l, noise (x :: l) = (if loud x then 1 else 0) + noise l) by (intros x l; unfold noise; simpl; destruct (loud x); reflexivity).
  destruct HJ; cbn [m_key m_data]; try (cbn; lia); rewrite ?NC, ?noise_app, ?given_noise, ?free_noise, ?NC.
  - assert (HE : noise (map (fun p : string * string => Line LErr " - {}: {}" [fst p; snd p]) (r_headers r)) = length (r_headers r)) by (clear; unfold noise; induction (r_headers r); simpl; auto).
    rewrite HE. destruct H3 as (_ & Hl & _). destruct H as (-> & _). cbn. rewrite app_length. simpl. lia.
  - destruct (sender i (ev_pre e)); cbn; lia.
  - cbn; lia.
  - cbn; lia.
  - cbn; lia.
  - destruct x; cbn; lia.
  - cbn; lia.
  - change (String.eqb "timer" "timer") with true. cbv iota. rewrite (expired_noise _ _ _ _ _ _ H1). exact (subseq_length _ _ H).
Qed.

(* nothing is written about pings, progress, unknown words and quiet ticks *)
Theorem silence k tr1 e tr2 s : run o cfg k (tr1 ++ e :: tr2) s ->
  (m_key (ev_in e) = "workers" -> forall c rest, m_data (ev_in e) = c :: rest -> ~ In c ["init"; "done"]) ->
  (m_key (ev_in e) = "clients" -> forall c rest, m_data (ev_in e) = c :: rest -> ~ In c client_words) ->
  (m_key (ev_in e) = "timer" -> forall w, In w (s_reg (ev_pre e)) -> In w (s_reg (ev_post e))) ->
  logged (record o cfg e) = [].
Proof.
  intros HR H1 H2 H3. pose proof (event_journal _ _ _ _ _ _ _ HR) as HJ. pose proof (run_split _ _ _ _ _ _ _ HR) as (HR1 & HE).
  assert (Hn : NoDup (ids (s_reg (ev_pre e)))) by exact (qi_nodup _ _ (inv_q _ _ (run_inv _ _ _ _ _ HR1))). clear HR HR1 HE.
  destruct HJ; cbn [m_key m_data] in *; try reflexivity; try (exfalso; eapply H1; [reflexivity|reflexivity|simpl; tauto]);
    try (exfalso; eapply H2; [reflexivity|reflexivity|simpl; tauto]).
  specialize (H3 eq_refl). destruct (subseq_ids _ _ H Hn) as (_ & Hi). destruct rm as [|w rm]; [inversion H4; reflexivity|]. exfalso.
  assert (Hw : In w (s_reg (ev_pre e))) by (apply Hi; left; reflexivity). specialize (H3 w Hw). apply H0 in H3. destruct H3 as (_ & H3). apply H3. left. reflexivity.
Qed.
End Lines.

Theorem record_journal o cfg k tr1 e tr2 s : run o cfg k (tr1 ++ e :: tr2) s ->
  journal cfg (ev_pre e) (ev_post e) (ev_in e) (record o cfg e) /\ said (record o cfg e) = ev_out e.
Proof. intros HR. split; [exact (event_journal _ _ _ _ _ _ _ HR)|exact (proj2 (event_record _ _ _ _ _ _ _ HR))]. Qed.
Theorem record_paired o cfg k tr1 e tr2 s : run o cfg k (tr1 ++ e :: tr2) s -> paired (record o cfg e).
Proof. intros HR. exact (journal_paired _ _ _ _ _ (event_journal _ _ _ _ _ _ _ HR)). Qed.
