(* General lemmas about lists, counting and the pointer-keyed maps. *)
From Coq Require Export Permutation Lia.
From Verif Require Import Base Bytes Containers Worker Multi Single Queue Handler Spec.

Definition ids (ws : list worker) : list nat := map w_id ws.
Definition keys {A} (m : pmap A) : list worker := map fst m.

(* ---- lists ---- *)

Lemma total_app {A} (f : A -> nat) l1 l2 : total f (l1 ++ l2) = total f l1 + total f l2.
Proof. induction l1 as [|a l IH]; simpl; [reflexivity | rewrite IH; lia]. Qed.

Lemma list_count_app {A} (p : A -> bool) l1 l2 : list_count p (l1 ++ l2) = list_count p l1 + list_count p l2.
Proof. unfold list_count. rewrite filter_app, app_length. reflexivity. Qed.

Lemma list_count_cons {A} (p : A -> bool) a l : list_count p (a :: l) = (if p a then 1 else 0) + list_count p l.
Proof. unfold list_count. simpl. destruct (p a); reflexivity. Qed.

Lemma list_count_nil {A} (p : A -> bool) : list_count p [] = 0.
Proof. reflexivity. Qed.

Lemma list_count_perm {A} (p : A -> bool) l1 l2 : Permutation l1 l2 -> list_count p l1 = list_count p l2.
Proof.
  induction 1 as [|a l l' H IH|a b l|l l' l'' H1 IH1 H2 IH2]; rewrite ?list_count_cons; try lia; try reflexivity.
Qed.

Lemma list_count_total {A} (p : A -> bool) l : list_count p l = total (fun a => if p a then 1 else 0) l.
Proof. induction l as [|a l IH]; simpl; rewrite ?list_count_cons, ?IH; reflexivity. Qed.

Lemma total_perm {A} (f : A -> nat) l1 l2 : Permutation l1 l2 -> total f l1 = total f l2.
Proof. induction 1; simpl; lia. Qed.

Lemma total_ext {A} (f g : A -> nat) l : (forall a, In a l -> f a = g a) -> total f l = total g l.
Proof.
  induction l as [|a l IH]; simpl; intros H; [reflexivity|].
  rewrite (H a) by auto. rewrite IH; auto.
Qed.

Lemma list_count_ext {A} (p q : A -> bool) l : (forall a, In a l -> p a = q a) -> list_count p l = list_count q l.
Proof.
  intros H. rewrite !list_count_total. apply total_ext. intros a Ha. rewrite H; auto.
Qed.

Lemma list_count_zero {A} (p : A -> bool) l : (forall a, In a l -> p a = false) -> list_count p l = 0.
Proof.
  induction l as [|a l IH]; intros H; [reflexivity|].
  rewrite list_count_cons, H by (simpl; auto). rewrite IH; [reflexivity|]. intros; apply H; simpl; auto.
Qed.

Lemma list_count_pos {A} (p : A -> bool) l : 0 < list_count p l <-> exists a, In a l /\ p a = true.
Proof.
  induction l as [|a l IH].
  - rewrite list_count_nil. split; [lia | intros (a & [] & _)].
  - rewrite list_count_cons. split.
    + destruct (p a) eqn:E; [intros _; exists a; simpl; auto|].
      simpl. intros H. apply IH in H. destruct H as (b & Hb & Hp). exists b. simpl. auto.
    + intros (b & [-> | Hb] & Hp); [rewrite Hp; lia|].
      destruct (p a); [lia|]. simpl. apply IH. eauto.
Qed.

Lemma flat_map_perm {A B} (f : A -> list B) l1 l2 :
  Permutation l1 l2 -> Permutation (flat_map f l1) (flat_map f l2).
Proof. intros H. apply Permutation_flat_map. exact H. Qed.

Lemma NoDup_app_r {A} (l1 l2 : list A) : NoDup (l1 ++ l2) -> NoDup l2.
Proof. induction l1 as [|a l IH]; simpl; [auto|]. intros H. inversion H; auto. Qed.

Lemma NoDup_app_l {A} (l1 l2 : list A) : NoDup (l1 ++ l2) -> NoDup l1.
Proof.
  induction l1 as [|a l IH]; simpl; intros H; [constructor|]. inversion H; subst.
  constructor; [|auto]. intros Hin. apply H2. apply in_or_app. auto.
Qed.

(* solving permutations of concatenations *)
Lemma perm_step {A} (a l R R' : list A) :
  Permutation R (a ++ R') -> Permutation l R' -> Permutation (a ++ l) R.
Proof. intros -> ->. reflexivity. Qed.
Lemma bring_skip {A} (a x t t' : list A) : Permutation t (a ++ t') -> Permutation (x ++ t) (a ++ x ++ t').
Proof. intros ->. rewrite !app_assoc. apply Permutation_app_tail. apply Permutation_app_comm. Qed.
Lemma cons_as_app {A} (x : A) l : x :: l = [x] ++ l.
Proof. reflexivity. Qed.
Ltac perm_norm :=
  repeat match goal with
  | |- context [?x :: ?l] => lazymatch l with nil => fail | _ => rewrite (cons_as_app x l) end
  end;
  rewrite ?app_nil_r; rewrite <- ?app_assoc; rewrite ?app_nil_r.
Ltac perm_bring := first [ apply Permutation_refl | apply bring_skip; perm_bring ].
Ltac perm_solve :=
  match goal with |- Permutation ?a ?b => rewrite <- (app_nil_r a), <- (app_nil_r b) end;
  perm_norm;
  match goal with |- Permutation ?a ?b =>
    let a' := fresh in let b' := fresh in idtac end;
  rewrite <- ?app_assoc;
  match goal with
  | |- Permutation ?a ?b => 
      let H := fresh in
      assert (H : Permutation (a ++ []) (b ++ []));
      [ rewrite <- ?app_assoc;
        repeat (eapply perm_step; [ perm_bring | ]); apply Permutation_refl
      | rewrite !app_nil_r in H; rewrite <- ?app_assoc in H; exact H ]
  end.

Lemma eq_perm {A} (l1 l2 : list A) : l1 = l2 -> Permutation l1 l2.
Proof. intros ->. reflexivity. Qed.

Lemma flat_map_ext_in {A B} (f g : A -> list B) l :
  (forall a, In a l -> f a = g a) -> flat_map f l = flat_map g l.
Proof.
  induction l as [|a l IH]; simpl; intros H; [reflexivity|].
  rewrite (H a) by auto. rewrite IH; auto.
Qed.

(* ---- workers as keys ---- *)

Lemma same_worker_id a b : same_worker a b = true <-> w_id a = w_id b.
Proof. unfold same_worker. apply Nat.eqb_eq. Qed.

Lemma same_worker_neq a b : same_worker a b = false <-> w_id a <> w_id b.
Proof. unfold same_worker. apply Nat.eqb_neq. Qed.

Lemma same_worker_refl a : same_worker a a = true.
Proof. apply same_worker_id. reflexivity. Qed.

Lemma ids_inj ws w w' : NoDup (ids ws) -> In w ws -> In w' ws -> w_id w = w_id w' -> w = w'.
Proof.
  unfold ids. induction ws as [|x ws IH]; simpl; [tauto|].
  intros Hnd Hw Hw' E. inversion Hnd as [|? ? Hni Hnd']; subst.
  destruct Hw as [->|Hw], Hw' as [->|Hw']; auto.
  - exfalso. apply Hni. rewrite E. apply in_map. exact Hw'.
  - exfalso. apply Hni. rewrite <- E. apply in_map. exact Hw.
Qed.

Lemma in_ids w ws : In w ws -> In (w_id w) (ids ws).
Proof. apply in_map. Qed.

Lemma in_ids_inv i ws : In i (ids ws) -> exists w, In w ws /\ w_id w = i.
Proof. unfold ids. intros H. apply in_map_iff in H. destruct H as (w & E & H). eauto. Qed.

Lemma ids_app a b : ids (a ++ b) = ids a ++ ids b.
Proof. apply map_app. Qed.

Lemma ids_perm a b : Permutation a b -> Permutation (ids a) (ids b).
Proof. apply Permutation_map. Qed.

Lemma keys_app {A} (a b : pmap A) : keys (a ++ b) = keys a ++ keys b.
Proof. apply map_app. Qed.

Lemma NoDup_ids_NoDup ws : NoDup (ids ws) -> NoDup ws.
Proof. apply NoDup_map_inv. Qed.

(* removing a worker from lists *)

Lemma list_remove_notin w ws : ~ In (w_id w) (ids ws) -> list_remove w ws = ws.
Proof.
  unfold list_remove, ids. induction ws as [|x ws IH]; simpl; intros H; [reflexivity|].
  destruct (same_worker x w) eqn:E.
  - apply same_worker_id in E. exfalso. apply H. auto.
  - simpl. rewrite IH; auto.
Qed.

Lemma reg_remove_notin w ws : ~ In (w_id w) (ids ws) -> reg_remove w ws = ws.
Proof.
  unfold ids. induction ws as [|x ws IH]; simpl; intros H; [reflexivity|].
  destruct (same_worker x w) eqn:E.
  - apply same_worker_id in E. exfalso. apply H. auto.
  - rewrite IH; auto.
Qed.

Lemma reg_remove_eq w ws : NoDup (ids ws) -> list_remove w ws = reg_remove w ws.
Proof.
  unfold ids. induction ws as [|x ws IH]; simpl; intros H; [reflexivity|].
  inversion H as [|? ? Hni Hnd]; subst. destruct (same_worker x w) eqn:E; simpl.
  - apply same_worker_id in E. apply list_remove_notin. unfold ids. rewrite <- E. exact Hni.
  - f_equal. auto.
Qed.

Lemma reg_remove_perm w ws : In w ws -> NoDup (ids ws) -> Permutation ws (w :: reg_remove w ws).
Proof.
  intros Hin Hnd. pose proof Hnd as Hnd0. revert Hin Hnd.
  induction ws as [|x ws IH]; simpl; [tauto|]. intros Hin Hnd.
  destruct (same_worker x w) eqn:E.
  - apply same_worker_id in E.
    assert (x = w) as -> by (eapply ids_inj; [exact Hnd0| simpl; auto | simpl; tauto | exact E]). reflexivity.
  - destruct Hin as [->|Hin]; [rewrite same_worker_refl in E; discriminate|].
    inversion Hnd; subst. rewrite perm_swap. constructor. auto.
Qed.

Lemma reg_remove_in w w' ws : NoDup (ids ws) -> In w ws ->
  (In w' (reg_remove w ws) <-> In w' ws /\ w' <> w).
Proof.
  intros Hnd Hin. pose proof (reg_remove_perm w ws Hin Hnd) as HP.
  assert (NoDup (w :: reg_remove w ws)) as HN.
  { eapply Permutation_NoDup; [exact HP|]. apply NoDup_ids_NoDup. exact Hnd. }
  inversion HN as [|? ? Hni HN']; subst. split.
  - intros H. split.
    + eapply Permutation_in; [symmetry; exact HP|]. simpl. auto.
    + intros ->. contradiction.
  - intros (H & Hne). eapply Permutation_in in H; [|exact HP]. destruct H as [->|H]; [congruence|exact H].
Qed.

Lemma reg_remove_nodup w ws : NoDup (ids ws) -> NoDup (ids (reg_remove w ws)).
Proof.
  intros Hnd. rewrite <- reg_remove_eq by exact Hnd.
  unfold ids, list_remove in *. induction ws as [|x ws IH]; simpl; [constructor|].
  inversion Hnd as [|? ? Hni Hnd']; subst. destruct (same_worker x w); simpl; [auto|].
  constructor; [|auto]. intros H. apply Hni. apply in_map_iff in H. destruct H as (y & E & Hy).
  rewrite <- E. apply in_map. apply filter_In in Hy. tauto.
Qed.

Lemma reg_remove_subset w w' ws : In w' (reg_remove w ws) -> In w' ws.
Proof.
  induction ws as [|x ws IH]; simpl; [tauto|]. destruct (same_worker x w); simpl; [auto|].
  intros [->|H]; auto.
Qed.

(* ---- pmap ---- *)

Lemma pm_insert_split {A} (w : worker) (a : A) m :
  exists l1 l2, m = l1 ++ l2 /\ pm_insert w a m = l1 ++ (w, a) :: l2.
Proof.
  induction m as [|(w', a') t IH]; simpl.
  - exists [], []. auto.
  - destruct (addr_lt w w').
    + exists [], ((w', a') :: t). auto.
    + destruct IH as (l1 & l2 & -> & ->). exists ((w', a') :: l1), l2. auto.
Qed.

Lemma pm_insert_perm {A} (w : worker) (a : A) m : Permutation (pm_insert w a m) ((w, a) :: m).
Proof.
  destruct (pm_insert_split w a m) as (l1 & l2 & -> & ->). symmetry. apply Permutation_middle.
Qed.

Lemma pm_find_none {A} w (m : pmap A) : ~ In (w_id w) (ids (keys m)) -> pm_find w m = None.
Proof.
  unfold ids, keys. induction m as [|(w', a) t IH]; simpl; intros H; [reflexivity|].
  destruct (same_worker w' w) eqn:E.
  - apply same_worker_id in E. exfalso. apply H. auto.
  - apply IH. tauto.
Qed.

Lemma pm_mem_false {A} w (m : pmap A) : ~ In (w_id w) (ids (keys m)) -> pm_mem w m = false.
Proof.
  unfold ids, keys, pm_mem. induction m as [|(w', a) t IH]; simpl; intros H; [reflexivity|].
  destruct (same_worker w' w) eqn:E.
  - apply same_worker_id in E. exfalso. apply H. auto.
  - simpl. apply IH. tauto.
Qed.

Lemma pm_mem_true {A} w (m : pmap A) : In (w_id w) (ids (keys m)) -> pm_mem w m = true.
Proof.
  unfold ids, keys, pm_mem. induction m as [|(w', a) t IH]; simpl; intros H; [tauto|].
  destruct (same_worker w' w) eqn:E; [reflexivity|].
  simpl. apply IH. destruct H as [H|H]; [|exact H].
  apply same_worker_neq in E. congruence.
Qed.

Lemma pm_map_notin {A} w (b : A) (m : pmap A) : ~ In (w_id w) (ids (keys m)) ->
  map (fun p => if same_worker (fst p) w then (fst p, b) else p) m = m.
Proof.
  unfold ids, keys. induction m as [|(w', a) t IH]; simpl; intros H; [reflexivity|].
  destruct (same_worker w' w) eqn:E.
  - apply same_worker_id in E. exfalso. apply H. auto.
  - rewrite IH; tauto.
Qed.

Lemma pm_erase_notin {A} w (m : pmap A) : ~ In (w_id w) (ids (keys m)) -> pm_erase w m = m.
Proof.
  unfold ids, keys, pm_erase. induction m as [|(w', a) t IH]; simpl; intros H; [reflexivity|].
  destruct (same_worker w' w) eqn:E.
  - apply same_worker_id in E. exfalso. apply H. auto.
  - simpl. rewrite IH; tauto.
Qed.

Lemma pm_find_app {A} w (l1 l2 : pmap A) : ~ In (w_id w) (ids (keys l1)) ->
  pm_find w (l1 ++ l2) = pm_find w l2.
Proof.
  unfold ids, keys. induction l1 as [|(w', a) t IH]; simpl; intros H; [reflexivity|].
  destruct (same_worker w' w) eqn:E.
  - apply same_worker_id in E. exfalso. apply H. auto.
  - apply IH. tauto.
Qed.

Lemma pm_find_mid {A} w w' (a : A) l1 l2 :
  ~ In (w_id w) (ids (keys l1)) -> w_id w' = w_id w -> pm_find w (l1 ++ (w', a) :: l2) = Some a.
Proof.
  intros H E. rewrite pm_find_app by exact H. simpl.
  replace (same_worker w' w) with true; [reflexivity|]. symmetry. apply same_worker_id. exact E.
Qed.

Lemma pm_find_skip {A} w w' (a : A) l1 l2 :
  w_id w' <> w_id w -> pm_find w (l1 ++ (w', a) :: l2) = pm_find w (l1 ++ l2).
Proof.
  intros H. induction l1 as [|(x, b) t IH]; simpl.
  - replace (same_worker w' w) with false; [reflexivity|]. symmetry. apply same_worker_neq. exact H.
  - rewrite IH. reflexivity.
Qed.

(* the map around an existing key *)
Record around {A} (w : worker) (m : pmap A) (l1 : pmap A) (a : A) (l2 : pmap A) : Prop := mkAround {
  ar_eq : m = l1 ++ (w, a) :: l2;
  ar_n1 : ~ In (w_id w) (ids (keys l1));
  ar_n2 : ~ In (w_id w) (ids (keys l2));
  ar_find : pm_find w m = Some a;
  ar_set : forall b, pm_set w b m = l1 ++ (w, b) :: l2;
  ar_erase : pm_erase w m = l1 ++ l2;
  ar_index : forall d, pm_index d w m = (a, m);
  ar_emplace : forall b, pm_emplace w b m = m }.

Lemma pm_around {A} (w : worker) (m : pmap A) :
  NoDup (ids (keys m)) -> In w (keys m) -> exists l1 a l2, around w m l1 a l2.
Proof.
  intros Hnd Hin. unfold keys in Hin. apply in_map_iff in Hin. destruct Hin as ((w', a) & E & Hin).
  simpl in E. subst w'. apply in_split in Hin. destruct Hin as (l1 & l2 & ->).
  exists l1, a, l2. unfold keys, ids in Hnd. rewrite !map_app in Hnd. simpl in Hnd.
  pose proof (NoDup_remove_2 _ _ _ Hnd) as Hni. rewrite in_app_iff in Hni.
  assert (Hn1 : ~ In (w_id w) (ids (keys l1))) by (unfold ids, keys; tauto).
  assert (Hn2 : ~ In (w_id w) (ids (keys l2))) by (unfold ids, keys; tauto).
  assert (Hmem : pm_mem w (l1 ++ (w, a) :: l2) = true).
  { apply pm_mem_true. rewrite keys_app, ids_app, in_app_iff. right. simpl. auto. }
  assert (Hfind : pm_find w (l1 ++ (w, a) :: l2) = Some a) by (apply pm_find_mid; auto).
  constructor; auto.
  - intros b. unfold pm_set. rewrite Hmem. rewrite map_app. simpl. rewrite same_worker_refl.
    rewrite !pm_map_notin by assumption. reflexivity.
  - unfold pm_erase. rewrite filter_app. simpl. rewrite same_worker_refl. simpl.
    fold (pm_erase w l1). fold (pm_erase w l2). rewrite !pm_erase_notin by assumption. reflexivity.
  - intros d. unfold pm_index. rewrite Hfind. reflexivity.
  - intros b. unfold pm_emplace. rewrite Hmem. reflexivity.
Qed.

Lemma pm_set_new {A} (w : worker) (a : A) m : ~ In (w_id w) (ids (keys m)) -> pm_set w a m = pm_insert w a m.
Proof. intros H. unfold pm_set. rewrite pm_mem_false by exact H. reflexivity. Qed.

Lemma pm_emplace_new {A} (w : worker) (a : A) m : ~ In (w_id w) (ids (keys m)) -> pm_emplace w a m = pm_insert w a m.
Proof. intros H. unfold pm_emplace. rewrite pm_mem_false by exact H. reflexivity. Qed.

Lemma pm_find_insert {A} (w w' : worker) (a : A) m :
  ~ In (w_id w) (ids (keys m)) ->
  pm_find w' (pm_insert w a m) = if Nat.eqb (w_id w) (w_id w') then Some a else pm_find w' m.
Proof.
  intros H. destruct (pm_insert_split w a m) as (l1 & l2 & -> & ->).
  rewrite keys_app, ids_app, in_app_iff in H.
  destruct (Nat.eqb_spec (w_id w) (w_id w')) as [E|E].
  - apply pm_find_mid; [rewrite <- E; tauto | exact E].
  - apply pm_find_skip. exact E.
Qed.

Lemma keys_insert_perm {A} (w : worker) (a : A) m : Permutation (keys (pm_insert w a m)) (w :: keys m).
Proof. unfold keys. rewrite (Permutation_map fst (pm_insert_perm w a m)). reflexivity. Qed.

Lemma pm_find_in {A} w (a : A) m : NoDup (ids (keys m)) -> In (w, a) m -> pm_find w m = Some a.
Proof.
  intros Hnd Hin. apply in_split in Hin. destruct Hin as (l1 & l2 & ->).
  apply pm_find_mid; [|reflexivity].
  unfold ids, keys in *. rewrite !map_app in Hnd. simpl in Hnd.
  pose proof (NoDup_remove_2 _ _ _ Hnd) as Hni. rewrite in_app_iff in Hni. tauto.
Qed.

Lemma pm_find_some_in {A} w (a : A) m : pm_find w m = Some a -> exists w', In (w', a) m /\ w_id w' = w_id w.
Proof.
  induction m as [|(w', b) t IH]; simpl; [discriminate|].
  destruct (same_worker w' w) eqn:E.
  - intros [= ->]. apply same_worker_id in E. eauto.
  - intros H. destruct (IH H) as (x & Hx & Ex). eauto.
Qed.
