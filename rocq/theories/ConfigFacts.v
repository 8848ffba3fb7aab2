(* Facts about loading the configuration. *)
From Coq Require Import Lia.
From Verif Require Import Base Bytes Containers Queue Handler Notifier Spec Config SpecConfig.
Local Open Scope string_scope.
Local Open Scope list_scope.

(* ---- paths ---- *)

Fixpoint at_path (path : list string) (y : yaml) : option yaml :=
  match path with
  | [] => Some y
  | key :: rest => match index key y with Some z => at_path rest z | None => None end
  end.
Definition scalar_at (path : list string) (y : yaml) : option string :=
  match at_path path y with Some (Scalar t) => Some t | _ => None end.

Lemma index_first key before y after : (forall v, ~ In (Scalar key, v) before) -> index key (Map (before ++ (Scalar key, y) :: after)) = Some y.
Proof.
  intros H. simpl. induction before as [|(k, v) before IH]; simpl; [rewrite String.eqb_refl; reflexivity|].
  destruct k; simpl; try (apply IH; intros w Hw; apply (H w); right; exact Hw).
  destruct (String.eqb_spec text key) as [->|]; [destruct (H v (or_introl eq_refl))|]. apply IH. intros w Hw. apply (H w). right. exact Hw.
Qed.

Lemma index_split key y z : index key y = Some z -> exists before after, y = Map (before ++ (Scalar key, z) :: after) /\ forall v, ~ In (Scalar key, v) before.
Proof.
  destruct y as [|t|items|entries]; try discriminate. simpl. induction entries as [|(k, v) entries IH]; simpl; [discriminate|]. intros H.
  destruct (is_scalar key k) eqn:E.
  - destruct k; try discriminate. simpl in E. apply String.eqb_eq in E. subst. injection H as ->. exists [], entries. split; [reflexivity|]. intros v [].
  - destruct (IH H) as (b & a & Ey & Hb). injection Ey as ->. exists ((k, v) :: b), a. split; [reflexivity|].
    intros w [Hw|Hw]; [|exact (Hb w Hw)]. injection Hw as -> ->. simpl in E. rewrite String.eqb_refl in E. discriminate.
Qed.

Lemma at_path_iff path : forall y z, at_path path y = Some z <-> node_at path y z.
Proof.
  induction path as [|key path IH]; intros y z; split; intros H.
  - injection H as ->. constructor.
  - inversion H; subst. reflexivity.
  - simpl in H. destruct (index key y) as [x|] eqn:E; [|discriminate]. apply index_split in E. destruct E as (b & a & -> & Hb).
    constructor; [exact Hb|]. apply IH. exact H.
  - inversion H as [|? ? b x a ? Hb Hn]; subst. cbn [at_path]. rewrite index_first by exact Hb. apply IH. exact Hn.
Qed.

Lemma scalar_at_iff path y t : scalar_at path y = Some t <-> written path y t.
Proof.
  unfold scalar_at, written. rewrite <- at_path_iff. destruct (at_path path y) as [[|s|i|e]|]; split; intros H; try discriminate; congruence.
Qed.

Lemma scalar_at_none path y : scalar_at path y = None <-> forall t, ~ written path y t.
Proof.
  split.
  - intros H t Hw. apply scalar_at_iff in Hw. congruence.
  - intros H. destruct (scalar_at path y) as [t|] eqn:E; [|reflexivity]. apply scalar_at_iff in E. destruct (H t E).
Qed.

(* ---- the constructor as a list of entries ---- *)

Inductive entry : Type :=
| Text (path : list string) (set : string -> settings -> settings)
| Number (path : list string) (conv : string -> option N) (set : N -> settings -> settings).
Definition value {A} (y : yaml) (path : list string) (conv : string -> option A) : option A :=
  match scalar_at path y with Some t => conv t | None => None end.
Definition opt {A} (x : option A) (set : A -> settings -> settings) (g : settings) : settings :=
  match x with Some a => set a g | None => g end.
Definition do_entry (y : yaml) (e : entry) (g : settings) : settings :=
  match e with
  | Text path set => opt (scalar_at path y) set g
  | Number path conv set => opt (value y path conv) set g
  end.
Definition wrong (y : yaml) (e : entry) : Prop :=
  match e with Text _ _ => False | Number path conv _ => exists t, scalar_at path y = Some t /\ conv t = None end.
Definition stage_of (y : yaml) (e : entry) : stage := fun g =>
  match e with
  | Text path set => inr (opt (scalar_at path y) set g)
  | Number path conv set =>
      match scalar_at path y with
      | Some t => match conv t with Some n => inr (set n g) | None => inl (BadConversion t) end
      | None => inr g
      end
  end.

Lemma stages_of y es : forall g,
  (exists e, stages (map (stage_of y) es) g = inl e) /\ Exists (wrong y) es \/
  stages (map (stage_of y) es) g = inr (fold_left (fun g e => do_entry y e g) es g) /\ ~ Exists (wrong y) es.
Proof.
  induction es as [|e es IH]; intros g; cbn [map stages fold_left].
  - right. split; [reflexivity|]. intros H. inversion H.
  - destruct e as [path set|path conv set]; cbn [stage_of do_entry].
    + destruct (IH (opt (scalar_at path y) set g)) as [(H1 & H2)|(H1 & H2)]; [left; auto|right]. split; [exact H1|].
      intros H. inversion H; subst; [contradiction|auto].
    + unfold value. destruct (scalar_at path y) as [t|] eqn:E; [destruct (conv t) as [n|] eqn:En|].
      * destruct (IH (set n g)) as [(H1 & H2)|(H1 & H2)]; [left; auto|right]. split; [exact H1|].
        intros H. apply Exists_cons in H. destruct H as [(t' & E1 & E2)|H]; [congruence|auto].
      * left. split; [eauto|]. left. exists t. auto.
      * destruct (IH g) as [(H1 & H2)|(H1 & H2)]; [left; auto|right]. split; [exact H1|].
        intros H. apply Exists_cons in H. destruct H as [(t' & E1 & E2)|H]; [congruence|auto].
Qed.

Lemma milliseconds_wrapped n : wrapped n (milliseconds n).
Proof.
  unfold wrapped, milliseconds. pose proof (Z.mod_pos_bound (Z.of_N n + 2 ^ 63) (2 ^ 64) eq_refl) as B.
  pose proof (Z.div_mod (Z.of_N n + 2 ^ 63) (2 ^ 64)) as D. split; [lia|]. exists ((Z.of_N n + 2 ^ 63) / 2 ^ 64)%Z. lia.
Qed.
Lemma wrapped_sign n z : wrapped n z -> (n < 2 ^ 64)%N -> (0 <= z <-> (n < 2 ^ 63)%N)%Z.
Proof. intros ((L & U) & q & E) H. split; intros; nia. Qed.

Section Load.
Context (cv : conversions).

Definition entries : list entry :=
  [Text ["queue_manager"] set_queue_manager;
   Text ["clients"; "address"] set_client_address;
   Number ["clients"; "port"] (as_u16 cv) set_client_port;
   Text ["workers"; "address"] set_worker_address;
   Number ["workers"; "port"] (as_u16 cv) set_worker_port;
   Number ["workers"; "max_liveness"] (as_size cv) set_max_liveness;
   Number ["workers"; "max_request_failures"] (as_size cv) set_max_failures;
   Number ["workers"; "ping_interval"] (as_size cv) (fun n => set_ping_interval (milliseconds n));
   Text ["monitor"; "address"] set_monitor_address;
   Number ["monitor"; "port"] (as_u16 cv) set_monitor_port;
   Text ["notifier"; "address"] (fun v g => set_notifier v (g_notifier_port g) (g_notifier_username g) (g_notifier_password g) g);
   Number ["notifier"; "port"] (as_u16 cv) (fun v g => set_notifier (g_notifier_address g) (Some v) (g_notifier_username g) (g_notifier_password g) g);
   Text ["notifier"; "username"] (fun v g => set_notifier (g_notifier_address g) (g_notifier_port g) v (g_notifier_password g) g);
   Text ["notifier"; "password"] (fun v g => set_notifier (g_notifier_address g) (g_notifier_port g) (g_notifier_username g) v g);
   Text ["logger"; "file"] (fun v g => set_log (path_parent cv v) (path_filename cv v) (g_log_level g) (g_log_size g) (g_log_count g) g);
   Text ["logger"; "level"] (fun v g => set_log (g_log_path g) (g_log_basename g) v (g_log_size g) (g_log_count g) g);
   Number ["logger"; "max-size"] (as_size cv) (fun v g => set_log (g_log_path g) (g_log_basename g) (g_log_level g) v (g_log_count g) g);
   Number ["logger"; "rotations"] (as_size cv) (fun v g => set_log (g_log_path g) (g_log_basename g) (g_log_level g) (g_log_size g) v g)].

(* an entry of a section, before its key is looked up *)
Definition in_section (e : entry) : yaml -> stage := fun c =>
  match e with
  | Text (k :: _) set => text_entry c k set
  | Number (k :: _) conv set => number_entry c k conv set
  | _ => fun g => inr g
  end.
Definition under (s : string) (e : entry) : entry :=
  match e with Text p set => Text (s :: p) set | Number p conv set => Number (s :: p) conv set end.
Definition short (e : entry) : Prop := match e with Text p _ | Number p _ _ => exists k, p = [k] end.

Lemma section_flat y s es : Forall short es -> forall g,
  section_entry y s (fun c => map (fun e => in_section e c) es) g = stages (map (stage_of y) (map (under s) es)) g.
Proof.
  intros Hs g. unfold section_entry. destruct (index s y) as [[|t|items|m]|] eqn:E.
  4: { revert g. induction Hs as [|e es He _ IH]; intros g; [reflexivity|]. cbn [map stages].
       assert (Ee : in_section e (Map m) g = stage_of y (under s e) g).
       { destruct e as [p set|p conv set]; destruct He as (k & ->); cbn [in_section under stage_of].
         - unfold text_entry, scalar_at, at_path. rewrite E. destruct (index k (Map m)) as [[| | |]|]; reflexivity.
         - unfold number_entry, scalar_at, at_path. rewrite E. destruct (index k (Map m)) as [[| | |]|]; reflexivity. }
       rewrite Ee. destruct (stage_of y (under s e) g); [reflexivity|]. apply IH. }
  all: revert g; induction Hs as [|e es He _ IH]; intros g; [reflexivity|]; cbn [map stages];
       assert (Ee : stage_of y (under s e) g = inr g) by
         (destruct e as [p set|p conv set]; destruct He as (k & ->); cbn [under stage_of]; unfold scalar_at, at_path; rewrite E; reflexivity);
       rewrite Ee; apply IH.
Qed.

Lemma stages_app a b : forall g, stages (a ++ b) g = match stages a g with inl e => inl e | inr g => stages b g end.
Proof. induction a as [|f a IH]; intros g; [reflexivity|]. cbn [app stages]. destruct (f g); [reflexivity|apply IH]. Qed.

Lemma stages_section y s es rest g : Forall short es ->
  stages (section_entry y s (fun c => map (fun e => in_section e c) es) :: rest) g =
  match stages (map (stage_of y) (map (under s) es)) g with inl e => inl e | inr g => stages rest g end.
Proof. intros Hs. cbn [stages]. rewrite section_flat by exact Hs. reflexivity. Qed.

Definition pick (n m : nat) : list entry :=
  map (fun e => match e with Text (_ :: p) set => Text p set | Number (_ :: p) conv set => Number p conv set | _ => e end) (firstn m (skipn n entries)).

Lemma load_entries es : load cv (Map es) = stages (map (stage_of (Map es)) entries) default_settings.
Proof.
  set (y := Map es).
  change (load cv y) with (stages
    [text_entry y "queue_manager" set_queue_manager;
     section_entry y "clients" (fun c => map (fun e => in_section e c) (pick 1 2));
     section_entry y "workers" (fun c => map (fun e => in_section e c) (pick 3 5));
     section_entry y "monitor" (fun c => map (fun e => in_section e c) (pick 8 2));
     section_entry y "notifier" (fun c => map (fun e => in_section e c) (pick 10 4));
     section_entry y "logger" (fun c => map (fun e => in_section e c) (pick 14 4))] default_settings).
  change (map (stage_of y) entries) with (stage_of y (Text ["queue_manager"] set_queue_manager) ::
    map (stage_of y) (map (under "clients") (pick 1 2)) ++ map (stage_of y) (map (under "workers") (pick 3 5)) ++
    map (stage_of y) (map (under "monitor") (pick 8 2)) ++ map (stage_of y) (map (under "notifier") (pick 10 4)) ++
    map (stage_of y) (map (under "logger") (pick 14 4)) ++ []).
  assert (E0 : forall g, text_entry y "queue_manager" set_queue_manager g = stage_of y (Text ["queue_manager"] set_queue_manager) g).
  { intros g. unfold text_entry, stage_of, scalar_at, at_path. destruct (index "queue_manager" y) as [[| | |]|]; reflexivity. }
  cbn [stages]. rewrite E0. destruct (stage_of y (Text ["queue_manager"] set_queue_manager) default_settings) as [|g]; [reflexivity|].
  assert (Hs : forall n m, n > 0 -> Forall short (pick n m)).
  { intros n m Hn. apply Forall_forall. intros e He. unfold pick in He. apply in_map_iff in He. destruct He as (x & <- & Hx).
    assert (Hin : In x (skipn 1 entries)).
    { destruct n as [|n]; [lia|]. clear -Hx. change (skipn (S n) entries) with (skipn n (skipn 1 entries)) in Hx.
      revert Hx. generalize (skipn 1 entries). intros l Hx. rewrite <- (firstn_skipn n l). apply in_app_iff. right.
      rewrite <- (firstn_skipn m (skipn n l)). apply in_app_iff. left. exact Hx. }
    cbn in Hin. repeat (destruct Hin as [<-|Hin]; [cbn; eexists; reflexivity|]). destruct Hin. }
  rewrite section_flat by (apply Hs; lia). rewrite stages_app.
  destruct (stages (map (stage_of y) (map (under "clients") (pick 1 2))) g) as [|g1]; [reflexivity|].
  rewrite section_flat by (apply Hs; lia). rewrite stages_app.
  destruct (stages (map (stage_of y) (map (under "workers") (pick 3 5))) g1) as [|g2]; [reflexivity|].
  rewrite section_flat by (apply Hs; lia). rewrite stages_app.
  destruct (stages (map (stage_of y) (map (under "monitor") (pick 8 2))) g2) as [|g3]; [reflexivity|].
  rewrite section_flat by (apply Hs; lia). rewrite stages_app.
  destruct (stages (map (stage_of y) (map (under "notifier") (pick 10 4))) g3) as [|g4]; [reflexivity|].
  rewrite section_flat by (apply Hs; lia). rewrite stages_app.
  destruct (stages (map (stage_of y) (map (under "logger") (pick 14 4))) g4) as [|g5]; reflexivity.
Qed.

Lemma loaded doc g : load cv doc = inr g -> g = fold_left (fun g e => do_entry doc e g) entries default_settings /\ ~ Exists (wrong doc) entries.
Proof.
  intros H. destruct doc as [| | |es]; try discriminate. rewrite load_entries in H.
  destruct (stages_of (Map es) entries default_settings) as [((e & E) & _)|(E & W)]; [congruence|]. split; [congruence|exact W].
Qed.

Lemma opt_other {A B} (get : settings -> B) (x : option A) set g : (forall a g, get (set a g) = get g) -> get (opt x set g) = get g.
Proof. intros H. destruct x; [apply H|reflexivity]. Qed.
Lemma opt_this {A B} (get : settings -> B) (f : A -> B) (x : option A) set g : (forall a g, get (set a g) = f a) ->
  get (opt x set g) = match x with Some a => f a | None => get g end.
Proof. intros H. destruct x; [apply H|reflexivity]. Qed.

Ltac peel get f :=
  repeat (eapply eq_trans; [apply (opt_other get); intros; reflexivity|]);
  eapply eq_trans; [apply (opt_this get f); intros; reflexivity|];
  match goal with |- match ?x with _ => _ end = _ => destruct x; [reflexivity|] end;
  repeat (eapply eq_trans; [apply (opt_other get); intros; reflexivity|]); reflexivity.

Theorem texts doc g path f get def : load cv doc = inr g -> In (path, f, get, def) (text_settings cv) ->
  (forall t, written path doc t -> get g = f t) /\ ((forall t, ~ written path doc t) -> get g = def).
Proof.
  intros HL Hin. destruct (loaded doc g HL) as (-> & _).
  assert (G : get (fold_left (fun g e => do_entry doc e g) entries default_settings) = match scalar_at path doc with Some t => f t | None => def end).
  { cbn [entries fold_left do_entry]. cbn [text_settings In] in Hin.
    repeat (destruct Hin as [Hin|Hin];
      [match type of Hin with (_, ?f0, ?get0, _) = _ => injection Hin as <- <- <- <-; peel get0 f0 end|]). destruct Hin. }
  rewrite G. split; [intros t Hw; apply scalar_at_iff in Hw; rewrite Hw; reflexivity|intros Hn; apply scalar_at_none in Hn; rewrite Hn; reflexivity].
Qed.

Theorem numbers doc g path conv val get def : load cv doc = inr g -> In (path, conv, val, get, def) (number_settings cv) ->
  (forall t, written path doc t -> exists n z, conv t = Some n /\ val n z /\ get g = Some z) /\ ((forall t, ~ written path doc t) -> get g = def).
Proof.
  intros HL Hin. destruct (loaded doc g HL) as (-> & HW).
  assert (G : (exists v : N -> Z, (forall n, val n (v n)) /\
                get (fold_left (fun g e => do_entry doc e g) entries default_settings) = match value doc path conv with Some n => Some (v n) | None => def end)
              /\ exists set, In (Number path conv set) entries).
  { split.
    - cbn [entries fold_left do_entry]. cbn [number_settings In] in Hin.
      repeat (destruct Hin as [Hin|Hin];
        [lazymatch type of Hin with
         | (_, _, same, ?get0, _) = _ => injection Hin as <- <- <- <- <-; exists Z.of_N; split; [reflexivity|]; peel get0 (fun n : N => Some (Z.of_N n))
         | (_, _, wrapped, ?get0, _) = _ => injection Hin as <- <- <- <- <-; exists milliseconds; split; [exact milliseconds_wrapped|]; peel get0 (fun n : N => Some (milliseconds n))
         end|]). destruct Hin.
    - cbn [number_settings In] in Hin. repeat (destruct Hin as [Hin|Hin]; [injection Hin as <- <- <- <- <-; eexists; cbn; eauto 30|]). destruct Hin. }
  destruct G as ((v & Hv & ->) & set & He). unfold value. split.
  - intros t Hw. apply scalar_at_iff in Hw. rewrite Hw. destruct (conv t) as [n|] eqn:E; [eauto|]. exfalso. apply HW.
    apply Exists_exists. eexists. split; [exact He|]. exists t. auto.
  - intros Hn. apply scalar_at_none in Hn. rewrite Hn. reflexivity.
Qed.

Theorem fails doc : (exists e, load cv doc = inl e) <->
  (forall es, doc <> Map es) \/ exists path conv val get def t, In (path, conv, val, get, def) (number_settings cv) /\ written path doc t /\ conv t = None.
Proof.
  destruct doc as [|t|items|es]; try (split; [left; discriminate|intros _; exists NotAMap; reflexivity]).
  rewrite load_entries. destruct (stages_of (Map es) entries default_settings) as [((e & E) & W)|(E & W)]; rewrite E.
  - split; [|eauto]. intros _. right. apply Exists_exists in W. destruct W as (x & Hx & Hw). destruct x as [p s|path conv set]; [destruct Hw|].
    destruct Hw as (t & Ht & Hc). apply scalar_at_iff in Ht. cbn [entries In] in Hx.
    repeat (destruct Hx as [Hx|Hx]; [first [discriminate Hx|injection Hx as <- <- <-; do 6 eexists; split; [|split; [exact Ht|exact Hc]]; cbn; eauto 30]|]).
    destruct Hx.
  - split; [intros (e & [=])|]. intros [H|(path & conv & val & get & def & t & Hin & Hw & Hc)]; [destruct (H es eq_refl)|]. exfalso. apply W.
    apply Exists_exists. apply scalar_at_iff in Hw. assert (Hs : exists set, In (Number path conv set) entries).
    { cbn [number_settings In] in Hin. repeat (destruct Hin as [Hin|Hin]; [injection Hin as <- <- <- <- <-; eexists; cbn; eauto 30|]). destruct Hin. }
    destruct Hs as (set & Hs). exists (Number path conv set). split; [exact Hs|]. exists t. auto.
Qed.

Theorem suffix doc g : load cv doc = inr g -> g_log_suffix g = "log".
Proof.
  intros HL. destruct (loaded doc g HL) as (-> & _). cbn [entries fold_left do_entry]. repeat rewrite opt_other by reflexivity. reflexivity.
Qed.

Theorem manager doc g : load cv doc = inr g ->
  (choose_manager g = Some KMulti <-> written ["queue_manager"] doc "multi") /\
  (choose_manager g = Some KSingle <-> written ["queue_manager"] doc "single" \/ forall t, ~ written ["queue_manager"] doc t).
Proof.
  intros HL. destruct (texts doc g ["queue_manager"] (fun t => t) g_queue_manager "single" HL (or_introl eq_refl)) as (H1 & H2).
  unfold choose_manager. destruct (scalar_at ["queue_manager"] doc) as [t|] eqn:E.
  - apply scalar_at_iff in E. rewrite (H1 t E). assert (U : forall t', written ["queue_manager"] doc t' -> t' = t).
    { intros t' Ht. apply scalar_at_iff in Ht, E. congruence. }
    split; split.
    + destruct (String.eqb_spec t "multi") as [->|]; [auto|]. destruct (String.eqb t "single"); discriminate.
    + intros Hw. rewrite <- (U _ Hw). reflexivity.
    + destruct (String.eqb_spec t "multi") as [->|]; [discriminate|]. destruct (String.eqb_spec t "single") as [->|]; [auto|discriminate].
    + intros [Hw|Hn]; [rewrite <- (U _ Hw); reflexivity|destruct (Hn t E)].
  - rewrite scalar_at_none in E. rewrite (H2 E). cbn. split; split; try discriminate; auto. intros Hw. destruct (E _ Hw).
Qed.

(* the assumption of the theorems about time *)
Theorem interval doc g : load cv doc = inr g -> (forall t n, as_size cv t = Some n -> (n < 2 ^ 64)%N) ->
  ((0 <= c_ping_interval (handler_config g))%Z <->
   forall t n, written ["workers"; "ping_interval"] doc t -> as_size cv t = Some n -> (n < 2 ^ 63)%N).
Proof.
  intros HL Hc. assert (Hin : In (["workers"; "ping_interval"], as_size cv, wrapped, (fun g => Some (g_ping_interval g)), Some 1000%Z) (number_settings cv)) by (cbn; auto 10).
  destruct (numbers doc g _ _ _ _ _ HL Hin) as (H1 & H2). cbn [handler_config c_ping_interval].
  destruct (scalar_at ["workers"; "ping_interval"] doc) as [t|] eqn:E.
  - apply scalar_at_iff in E. destruct (H1 t E) as (n & z & Hn & Hz & [= ->]). rewrite (wrapped_sign n z Hz) by (eapply Hc; exact Hn). split.
    + intros HL2 t' n' Ht' Hn'. apply scalar_at_iff in Ht', E. congruence.
    + intros H. exact (H t n E Hn).
  - rewrite scalar_at_none in E. specialize (H2 E). injection H2 as ->. split; [|lia]. intros _ t n Ht. destruct (E t Ht).
Qed.
End Load.
