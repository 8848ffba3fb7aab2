(* Facts about the reactor. *)
From Coq Require Import Lia Sorted.
From Verif Require Import Base Bytes Containers Worker Multi Single Queue Handler SpecText TextFacts HeaderFacts OrderFacts
  Spec SpecRun Facts Reactor SpecReactor.
Local Open Scope string_scope.
Local Open Scope list_scope.

(* ---- tables ---- *)

Lemma add_handler_range origins (w : wrapper) : forall hs k, ordered hs ->
  ordered (fold_left (fun hs o => mm_emplace o w hs) origins hs) /\
  mm_equal_range k (fold_left (fun hs o => mm_emplace o w hs) origins hs) =
    mm_equal_range k hs ++ map (fun _ => w) (filter (String.eqb k) origins).
Proof.
  induction origins as [|x origins IH]; intros hs k H; simpl; [rewrite app_nil_r; auto|].
  destruct (IH (mm_emplace x w hs) k (emplace_ordered _ _ _ H)) as (H1 & H2). split; [exact H1|].
  rewrite H2, range_emplace by exact H. rewrite (String.eqb_sym k x). destruct (String.eqb x k); rewrite <- app_assoc; reflexivity.
Qed.

Lemma build_spec xs : forall t k, ordered (t_handlers t) ->
  sm_find k (t_sockets (fold_left do_setup xs t)) =
    match sm_find k (t_sockets t) with Some s => Some s | None => socket_named k xs end /\
  mm_equal_range k (t_handlers (fold_left do_setup xs t)) = mm_equal_range k (t_handlers t) ++ subscribers k xs.
Proof.
  induction xs as [|x xs IH]; intros t k H; simpl.
  - rewrite app_nil_r. split; [destruct (sm_find k (t_sockets t)); reflexivity|reflexivity].
  - destruct x as [name s|origins w]; simpl.
    + destruct (IH (add_socket name s t) k H) as (H1 & H2). rewrite H1, H2. split; [|reflexivity]. simpl.
      rewrite sm_find_emplace. destruct (sm_find k (t_sockets t)), (String.eqb name k); reflexivity.
    + destruct (add_handler_range origins w (t_handlers t) k H) as (A & B).
      destruct (IH (add_handler origins w t) k A) as (H1 & H2). rewrite H1, H2. split; [reflexivity|]. simpl. rewrite B, app_assoc. reflexivity.
Qed.

Theorem tables_spec xs k :
  sm_find k (t_sockets (build xs)) = socket_named k xs /\ mm_equal_range k (t_handlers (build xs)) = subscribers k xs.
Proof. apply (build_spec xs (mkTables [] []) k). apply ordered_nil. Qed.

(* ---- one message ---- *)

Section OneMessage.
Context {St : Type} (xs : list setup) (handler : nat -> msg -> St -> list msg * (fault + St)).
Local Notation t := (build xs).
Local Notation send := (send_message St t handler).

Definition proper (a : action) : Prop :=
  match a with
  | ASend s m => socket_named (m_key m) xs = Some s
  | APass i m => In (Async i) (subscribers (m_key m) xs)
  | ACall h m => In (Sync h) (subscribers (m_key m) xs)
  end.

Lemma andthen_all (P : action -> Prop) (x : outcome St) k :
  Forall P (fst x) -> (forall ss, Forall P (fst (k ss))) -> Forall P (fst (andthen St x k)).
Proof.
  intros H1 H2. destruct x as (a, [e|ss]); [exact H1|]. simpl. specialize (H2 ss). destruct (k ss) as (b, r). simpl in *.
  apply Forall_app. auto.
Qed.

Lemma process_proper snd : (forall act m ss, Forall proper (fst (snd act m ss))) ->
  forall act m ss, Forall proper (fst (process_message St t handler snd act m ss)).
Proof.
  intros Hs act m ss. unfold process_message. destruct (tables_spec xs (m_key m)) as (_ & ->).
  assert (G : incl (subscribers (m_key m) xs) (subscribers (m_key m) xs)) by apply incl_refl. revert G ss.
  generalize (subscribers (m_key m) xs) at 1 3. intros ws. induction ws as [|w ws IH]; intros Hi ss; [constructor|]. simpl.
  apply andthen_all.
  - destruct w as [h|a]; cbn [call].
    + destruct (existsb (Nat.eqb h) act); [constructor|]. destruct (handler h m (ss h)) as (outs, r).
      apply (andthen_all proper ([ACall h m], inr ss)); [constructor; [apply Hi; left; reflexivity|constructor]|]. intros s1. apply andthen_all.
      * revert s1. induction outs as [|x outs IHo]; intros s1; [constructor|]. simpl. apply andthen_all; [apply Hs|exact IHo].
      * intros s2. destruct r; constructor.
    + constructor; [apply Hi; left; reflexivity|constructor].
  - apply IH. eapply incl_cons_inv. exact Hi.
Qed.

Lemma send_proper fuel : forall act m ss, Forall proper (fst (send fuel act m ss)).
Proof.
  induction fuel as [|fuel IH]; intros act m ss; [constructor|]. simpl. destruct (tables_spec xs (m_key m)) as (-> & _).
  destruct (socket_named (m_key m) xs) eqn:E; [repeat constructor; exact E|]. apply process_proper. exact IH.
Qed.

Theorem send_socket fuel act m ss s : socket_named (m_key m) xs = Some s -> send (S fuel) act m ss = ([ASend s m], inr ss).
Proof. intros H. simpl. destruct (tables_spec xs (m_key m)) as (-> & _). rewrite H. reflexivity. Qed.

Theorem send_handlers fuel act m ss : socket_named (m_key m) xs = None ->
  send (S fuel) act m ss = process_message St t handler (send fuel) act m ss.
Proof. intros H. simpl. destruct (tables_spec xs (m_key m)) as (-> & _). rewrite H. reflexivity. Qed.

Lemma send_leaf fuel act m ss : leaf xs m -> send (S fuel) act m ss = (route xs m, inr ss).
Proof.
  intros [H|H]; unfold route; destruct (socket_named (m_key m) xs) eqn:E; try contradiction.
  - apply send_socket. exact E.
  - apply send_socket. exact E.
  - rewrite send_handlers by exact E. unfold process_message. destruct (tables_spec xs (m_key m)) as (_ & ->).
    induction (subscribers (m_key m) xs) as [|w ws IH]; [reflexivity|]. simpl.
    destruct (H w (or_introl eq_refl)) as (a & ->). simpl. rewrite IH; [reflexivity|]. intros w' Hw. apply H. right. exact Hw.
Qed.

Lemma respond_leaf fuel act outs : forall ss, Forall (leaf xs) outs ->
  respond_all St (send (S fuel)) act outs ss = (flat_map (route xs) outs, inr ss).
Proof.
  induction outs as [|m outs IH]; intros ss H; [reflexivity|]. inversion H; subst. cbn [respond_all].
  rewrite send_leaf by assumption. unfold andthen. rewrite IH by assumption. reflexivity.
Qed.

Theorem process_leaf fuel m ss :
  (forall h s, In (Sync h) (subscribers (m_key m) xs) -> Forall (leaf xs) (fst (handler h m s))) ->
  exists acts r, process_message St t handler (send (S fuel)) [] m ss = (acts, r) /\
    handled handler xs m (subscribers (m_key m) xs) ss acts r.
Proof.
  intros H. unfold process_message. destruct (tables_spec xs (m_key m)) as (_ & ->).
  revert H. generalize (subscribers (m_key m) xs). intros ws H. revert ss. induction ws as [|w ws IH]; intros ss.
  - eexists _, _. split; [reflexivity|]. apply h_done.
  - assert (H' : forall h s, In (Sync h) ws -> Forall (leaf xs) (fst (handler h m s))) by (intros; apply H; right; assumption).
    cbn [call_all]. destruct w as [h|a].
    + cbn [call existsb]. destruct (handler h m (ss h)) as (outs, r) eqn:E.
      assert (Hl : Forall (leaf xs) outs) by (specialize (H h (ss h) (or_introl eq_refl)); rewrite E in H; exact H).
      cbn [andthen]. rewrite respond_leaf by exact Hl. destruct r as [f|s]; cbn [andthen].
      * eexists _, _. split; [reflexivity|]. rewrite app_nil_r. apply h_throw. exact E.
      * destruct (IH H' (set_state St h s ss)) as (acts & r & EQ & HD). rewrite EQ. eexists _, _. split; [reflexivity|].
        simpl. rewrite app_nil_r. apply h_sync with (s := s); [exact E|exact HD].
    + destruct (IH H' ss) as (acts & r & EQ & HD). cbn [call andthen]. rewrite EQ. eexists _, _. split; [reflexivity|]. apply h_async. exact HD.
Qed.
End OneMessage.

(* ---- one round ---- *)

Lemma emplace_keys {A} k (v : A) m : Permutation.Permutation (map fst (sm_emplace k v m)) (if sm_mem k m then map fst m else k :: map fst m).
Proof.
  unfold sm_emplace. destruct (sm_mem k m); [reflexivity|]. induction m as [|(k', v') m IH]; simpl; [reflexivity|].
  destruct (String.ltb k k'); simpl; [reflexivity|]. rewrite IH. apply Permutation.perm_swap.
Qed.

Lemma emplace_nodup {A} k (v : A) m : NoDup (map fst m) -> NoDup (map fst (sm_emplace k v m)).
Proof.
  intros H. rewrite emplace_keys. destruct (sm_mem k m) eqn:E; [exact H|]. constructor; [|exact H].
  intros Hi. apply in_map_iff in Hi. destruct Hi as ((k', v') & <- & Hi). unfold sm_mem in E.
  assert (existsb (fun p => String.eqb (fst p) (fst (k', v'))) m = true).
  { apply existsb_exists. eexists. split; [exact Hi|]. apply String.eqb_refl. }
  simpl in *. congruence.
Qed.

Lemma build_nodup xs : NoDup (map fst (t_sockets (build xs))).
Proof.
  unfold build. assert (G : NoDup (map fst (t_sockets (mkTables [] [])))) by constructor. revert G. generalize (mkTables [] []).
  induction xs as [|x xs IH]; intros t H; simpl; [exact H|]. apply IH. destruct x; [apply emplace_nodup; exact H|exact H].
Qed.

Lemma sockets_increasing xs : StronglySorted (fun a b => String.ltb a b = true) (map fst (t_sockets (build xs))).
Proof.
  unfold build. assert (G : StronglySorted (fun a b => String.ltb a b = true) (map fst (t_sockets (mkTables [] [])))) by constructor.
  revert G. generalize (mkTables [] []). induction xs as [|x xs IH]; intros t H; simpl; [exact H|]. apply IH.
  destruct x as [name s|]; [|exact H]. simpl. unfold sm_emplace. destruct (sm_mem name (t_sockets t)) eqn:E; [exact H|].
  revert H E. induction (t_sockets t) as [|(k, v) m IHm]; simpl; intros H E; [repeat constructor|].
  apply orb_false_iff in E. destruct E as (E1 & E2). apply String.eqb_neq in E1. inversion H as [|? ? H1 H2]; subst.
  destruct (String.ltb name k) eqn:L; simpl.
  - constructor; [exact H|]. constructor; [exact L|]. eapply Forall_impl; [|exact H2]. intros a Ha. eapply ltb_trans; eassumption.
  - constructor; [apply IHm; assumption|]. rewrite Forall_forall in *. intros a Ha. apply in_map_iff in Ha. destruct Ha as ((k', v') & <- & Ha).
    assert (In' : forall m', In (k', v') (sm_insert name s m') -> k' = name \/ In k' (map fst m')).
    { clear. induction m' as [|(k2, v2) m' IH]; simpl; [intros [[= <- <-]|[]]; auto|]. destruct (String.ltb name k2); simpl.
      - intros [[= <- <-]|[[= <- <-]|H]]; auto. right. right. apply in_map_iff. exists (k', v'). auto.
      - intros [[= <- <-]|H]; auto. destruct (IH H); auto. }
    destruct (In' _ Ha) as [->|Hin]; simpl.
    + apply ltb_false in L. destruct L as [->|L]; [contradiction|exact L].
    + apply H2. exact Hin.
Qed.

Section Rounds.
Context {St : Type} (t : tables) (handler : nat -> msg -> St -> list msg * (fault + St)) (fuel : nat).
Local Notation process := (process_message St t handler (send_message St t handler fuel) []).
Local Notation forward := (send_message St t handler fuel []).

Lemma perform_app js1 js2 : forall ss, perform process forward (js1 ++ js2) ss = andthen St (perform process forward js1 ss) (perform process forward js2).
Proof.
  induction js1 as [|j js1 IH]; intros ss; cbn [perform app].
  - unfold andthen. destruct (perform process forward js2 ss). reflexivity.
  - assert (G : forall x : outcome St,
      match x with (a, inl e) => (a, inl e) | (a, inr ss1) => let '(b, r) := perform process forward (js1 ++ js2) ss1 in (a ++ b, r) end =
      andthen St (match x with (a, inl e) => (a, inl e) | (a, inr ss1) => let '(b, r) := perform process forward js1 ss1 in (a ++ b, r) end)
        (perform process forward js2)).
    { intros (a, [e|s1]); [reflexivity|]. rewrite IH. unfold andthen. destruct (perform process forward js1 s1) as (b, [e|s2]); [reflexivity|].
      destruct (perform process forward js2 s2). rewrite app_assoc. reflexivity. }
    destruct j; apply G.
Qed.

Definition head_jobs (names : list string) (q : string -> list (string * list string)) : list job :=
  flat_map (fun n => match q n with (i, d) :: _ => [Process (Msg n i d)] | [] => [] end) names.

Lemma head_jobs_ext names q q' : (forall n, In n names -> q n = q' n) -> head_jobs names q = head_jobs names q'.
Proof.
  induction names as [|n names IH]; intros H; [reflexivity|]. simpl. rewrite (H n) by (left; reflexivity). f_equal. apply IH. intros. apply H. right. assumption.
Qed.

Lemma serve_sockets_spec names : NoDup names -> forall l,
  match perform process forward (head_jobs names (l_queues l)) (l_states l) with
  | (a, inl e) => serve_sockets St t handler fuel (map (fun n => (n, nonempty (l_queues l n))) names) l = (a, inl e)
  | (a, inr ss) => exists l', serve_sockets St t handler fuel (map (fun n => (n, nonempty (l_queues l n))) names) l = (a, inr l') /\
      l_states l' = ss /\ (forall k, l_queues l' k = if existsb (String.eqb k) names then tl (l_queues l k) else l_queues l k) /\
      l_async l' = l_async l
  end.
Proof.
  induction 1 as [|n names Hn Hnd IH]; intros l.
  - simpl. exists l. auto.
  - cbn [map serve_sockets]. unfold head_jobs. cbn [flat_map]. fold (head_jobs names (l_queues l)).
    assert (Hex : forall k, existsb (String.eqb k) names = true -> k <> n).
    { intros k Hk ->. apply existsb_exists in Hk. destruct Hk as (x & Hx & Hk). apply String.eqb_eq in Hk. subst. contradiction. }
    destruct (l_queues l n) as [|(i, d) q] eqn:Eq; cbn [nonempty app].
    + specialize (IH l). destruct (perform process forward (head_jobs names (l_queues l)) (l_states l)) as (a, [e|ss]); [exact IH|].
      destruct IH as (l' & -> & H1 & H2 & H3). exists l'. split; [reflexivity|]. split; [exact H1|]. split; [|exact H3].
      intros k. rewrite H2. simpl. destruct (String.eqb_spec k n) as [->|]; [|reflexivity]. rewrite Eq. simpl. destruct (existsb _ names); reflexivity.
    + cbn [perform]. destruct (process (Msg n i d) (l_states l)) as (a, [e|ss]); [reflexivity|].
      set (l1 := mkLoop ss (fun k => if String.eqb k n then q else l_queues l k) (l_async l)). specialize (IH l1).
      assert (Hq : forall x, In x names -> l_queues l1 x = l_queues l x).
      { intros x Hx. simpl. destruct (String.eqb_spec x n) as [->|]; [contradiction|reflexivity]. }
      rewrite (head_jobs_ext names (l_queues l1) (l_queues l) Hq) in IH.
      rewrite (map_ext_in _ (fun x => (x, nonempty (l_queues l x)))) in IH by (intros x Hx; rewrite (Hq x Hx); reflexivity).
      change (l_states l1) with ss in IH.
      destruct (perform process forward (head_jobs names (l_queues l)) ss) as (b, [e|ss2]).
      * rewrite IH. reflexivity.
      * destruct IH as (l' & -> & H1 & H2 & H3). exists l'. split; [reflexivity|]. split; [exact H1|]. split; [|exact H3].
        intros k. rewrite H2. simpl. destruct (String.eqb_spec k n) as [->|Hne]; [|reflexivity]. simpl. rewrite Eq. simpl.
        destruct (existsb (String.eqb n) names) eqn:Ex; [destruct (Hex n Ex eq_refl)|reflexivity].
Qed.

Lemma arrive_spec xs : forall q k, fold_left arrive xs q k = q k ++ map snd (filter (fun x => String.eqb (fst x) k) xs).
Proof.
  induction xs as [|x xs IH]; intros q k; simpl; [rewrite app_nil_r; reflexivity|]. rewrite IH. unfold arrive.
  rewrite (String.eqb_sym k). destruct (String.eqb (fst x) k); simpl; [rewrite <- app_assoc; reflexivity|reflexivity].
Qed.

Lemma arrived_on_cons k w ws : arrived_on k (w :: ws) = arrived_on k [w] ++ arrived_on k ws.
Proof. unfold arrived_on. simpl. rewrite app_nil_r. reflexivity. Qed.

Theorem iteration_spec : NoDup (map fst (t_sockets t)) -> forall w l q,
  (forall k, q k = l_queues l k ++ arrived_on k [w]) ->
  match perform process forward (jobs_of (map fst (t_sockets t)) q (l_async l ++ w_async w) (elapsed_ms w)) (l_states l) with
  | (a, inl e) => iteration St t handler fuel w l = (a, inl e)
  | (a, inr ss) => exists l', iteration St t handler fuel w l = (a, inr l') /\ l_states l' = ss /\
      (forall k, l_queues l' k = if existsb (String.eqb k) (map fst (t_sockets t)) then tl (q k) else q k) /\
      l_async l' = tl (l_async l ++ w_async w)
  end.
Proof.
  intros Hnd w l q Hq. unfold iteration. set (l0 := mkLoop (l_states l) (fold_left arrive (w_arrived w) (l_queues l)) (l_async l ++ w_async w)).
  assert (Hq0 : forall k, l_queues l0 k = q k).
  { intros k. rewrite Hq. simpl. rewrite arrive_spec. unfold arrived_on. simpl. rewrite app_nil_r. reflexivity. }
  change (l_states l) with (l_states l0). change (l_async l ++ w_async w) with (l_async l0).
  unfold jobs_of. fold (head_jobs (map fst (t_sockets t)) q). rewrite perform_app.
  rewrite (head_jobs_ext _ q (l_queues l0)) by (intros; symmetry; apply Hq0).
  replace (map (fun s => (fst s, nonempty (l_queues l0 (fst s)))) (t_sockets t))
    with (map (fun n => (n, nonempty (l_queues l0 n))) (map fst (t_sockets t))) by (rewrite map_map; reflexivity).
  pose proof (serve_sockets_spec _ Hnd l0) as HS. clearbody l0.
  destruct (perform process forward (head_jobs (map fst (t_sockets t)) (l_queues l0)) (l_states l0)) as (a, [e|ss]).
  { rewrite HS. reflexivity. }
  destruct HS as (l1 & -> & <- & H2 & H3). unfold andthen. unfold serve_async. rewrite H3.
  destruct (l_async l0) as [|m rest]; cbn [nonempty].
  - cbn [app perform]. unfold serve_timer.
    change (Msg "timer" "" [to_string_Z (elapsed_ms w)]) with (Msg KEY_TIMER "" [to_string_Z (elapsed_ms w)]).
    destruct (process (Msg KEY_TIMER "" [to_string_Z (elapsed_ms w)]) (l_states l1)) as (c, [e|s2]); [reflexivity|].
    eexists. split; [rewrite app_nil_r; reflexivity|]. split; [reflexivity|]. split; [|exact H3]. intros k. simpl. rewrite H2, Hq0. reflexivity.
  - cbn [app perform]. destruct (forward m (l_states l1)) as (b, [e|s2]); [reflexivity|]. unfold serve_timer. cbn [l_states].
    change (Msg "timer" "" [to_string_Z (elapsed_ms w)]) with (Msg KEY_TIMER "" [to_string_Z (elapsed_ms w)]).
    destruct (process (Msg KEY_TIMER "" [to_string_Z (elapsed_ms w)]) s2) as (c, [e|s3]); [reflexivity|].
    eexists. split; [rewrite app_nil_r; reflexivity|]. split; [reflexivity|]. split; [|reflexivity]. intros k. simpl. rewrite H2, Hq0. reflexivity.
Qed.

(* the queue of a socket loses one message per round *)
Theorem queue_after : NoDup (map fst (t_sockets t)) -> forall k, In k (map fst (t_sockets t)) -> forall ws l acts l',
  loop St t handler fuel ws l = (acts, inr l') -> length ws <= length (l_queues l k) ->
  l_queues l' k = skipn (length ws) (l_queues l k ++ arrived_on k ws).
Proof.
  intros Hnd k Hk ws. induction ws as [|w ws IH]; intros l acts l' H Hl.
  - simpl in *. injection H as _ <-. rewrite app_nil_r. reflexivity.
  - cbn [loop] in H. pose proof (iteration_spec Hnd w l _ (fun _ => eq_refl)) as HI.
    destruct (perform process forward _ (l_states l)) as (a, [e|ss]); [rewrite HI in H; discriminate|].
    destruct HI as (l1 & E & _ & Hq & _). rewrite E in H. destruct (loop St t handler fuel ws l1) as (b, r) eqn:EL. injection H as _ ->.
    specialize (Hq k). assert (Hex : existsb (String.eqb k) (map fst (t_sockets t)) = true).
    { apply existsb_exists. exists k. split; [exact Hk|apply String.eqb_refl]. }
    rewrite Hex in Hq. rewrite arrived_on_cons. destruct (l_queues l k) as [|x q]; [simpl in Hl; lia|]. simpl in Hl.
    cbn [app tl] in Hq. cbn [length app skipn]. rewrite (IH l1 b l' EL).
    + rewrite Hq, <- app_assoc. reflexivity.
    + rewrite Hq, app_length. lia.
Qed.
End Rounds.

Theorem turn_comes {St} xs (handler : nat -> msg -> St -> list msg * (fault + St)) fuel k s x n ws l acts l' :
  socket_named k xs = Some s -> nth_error (l_queues l k) n = Some x -> length ws = n ->
  loop St (build xs) handler fuel ws l = (acts, inr l') -> exists rest, l_queues l' k = x :: rest.
Proof.
  intros Hk Hx Hn HL. assert (Hl : n < length (l_queues l k)) by (apply nth_error_Some; congruence).
  assert (Hin : In k (map fst (t_sockets (build xs)))).
  { destruct (tables_spec xs k) as (E & _). rewrite Hk in E. clear -E. induction (t_sockets (build xs)) as [|(k', v) m IH]; simpl in *; [discriminate|].
    destruct (String.eqb_spec k' k) as [->|]; [left; reflexivity|right; apply IH; exact E]. }
  rewrite (queue_after _ handler fuel (build_nodup xs) k Hin ws l acts l' HL) by lia.
  apply nth_error_split in Hx. destruct Hx as (q1 & q2 & E & Hq). rewrite E, Hn, <- Hq, <- app_assoc, skipn_app, skipn_all, Nat.sub_diag.
  simpl. eexists. reflexivity.
Qed.
