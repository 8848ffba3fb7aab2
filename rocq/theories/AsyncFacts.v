(* Facts about asynchronous handlers. *)
From Coq Require Import Lia.
From Verif Require Import Base Wire SpecWire WireFacts Async SpecAsync.
Local Open Scope string_scope.
Local Open Scope list_scope.

(* ---- the sockets implement the mailboxes ---- *)

Definition enc (x : item) : list string :=
  match x with Letter m => m_key m :: m_ident m :: m_data m | Stop => ["TERMINATE"] end.
Definition plain_item (x : item) : Prop := match x with Letter m => m_key m <> "TERMINATE" | Stop => True end.
Definition peer_box (p : peer) (b : box) : Prop :=
  p_pipe p = map enc (b_items b) /\ Forall plain_item (b_items b) /\
  match b_status b with
  | Fresh => p_known p = false /\ p_returned p = false /\ b_items b = []
  | Open => p_known p = true /\ p_returned p = false
  | Closed => p_returned p = true
  end.
Definition sim (ch : channel) (bs : string -> box) : Prop := ch_router ch = None /\ forall id, peer_box (ch_peers ch id) (bs id).

Lemma can_put hwm ch b id : peer_box (ch_peers ch id) b -> forall x,
  can_take hwm ch id = true /\ put hwm x b = Box Open (b_items b ++ [x]) /\ b_status b = Open \/ can_take hwm ch id = false /\ put hwm x b = b.
Proof.
  intros (H1 & _ & H3) x. unfold can_take, put. rewrite H1, map_length. destruct (b_status b).
  - destruct H3 as (-> & _). right. auto.
  - destruct H3 as (-> & ->). simpl. destruct (Nat.ltb (length (b_items b)) hwm); auto.
  - rewrite H3. right. split; [|reflexivity]. destruct (p_known (ch_peers ch id)); reflexivity.
Qed.

Lemma send_sim hwm ch bs id fs x : sim ch bs -> plain_item x ->
  (forall can, router_send_all can fs None = ((if can id then [(id, enc x)] else []), None)) ->
  sim (send_frames hwm fs ch) (fun i => if String.eqb id i then put hwm x (bs i) else bs i).
Proof.
  intros (Hr & Hs) Hx Hf. unfold send_frames. rewrite Hr, Hf. destruct (can_put hwm ch (bs id) id (Hs id) x) as [(-> & EP & ES)|(-> & EP)].
  - split; [reflexivity|]. intros i. cbn [fold_left ch_peers]. unfold deliver, set_peer. cbn [fst snd]. rewrite (String.eqb_sym i id).
    destruct (String.eqb_spec id i) as [<-|]; [|apply Hs]. rewrite EP. destruct (Hs id) as (H1 & H2 & H3). rewrite ES in H3. destruct H3 as (H3 & H4).
    repeat split; cbn; auto; [rewrite H1, map_app; reflexivity|]. apply Forall_app. auto.
  - split; [reflexivity|]. intros i. cbn [fold_left ch_peers]. destruct (String.eqb_spec id i) as [<-|]; [|apply Hs]. rewrite EP. apply Hs.
Qed.

Lemma pass_frames_sent id m can : m_data m <> [] ->
  router_send_all can (pass_frames id m) None = ((if can id then [(id, enc (Letter m))] else []), None).
Proof.
  intros Hd. unfold pass_frames. cbn [router_send_all router_send f_more f_bytes]. rewrite send_data by exact Hd. destruct (can id); reflexivity.
Qed.

Lemma step_sim hwm e ch bs : sim ch bs -> plain e ->
  sim (snd (exec_step hwm e ch)) (fun i => snd (box_step hwm i e (bs i))) /\
  forall id, done_by id (fst (exec_step hwm e ch)) = fst (box_step hwm id e (bs id)).
Proof.
  intros HS Hp. destruct e as [id|id m|id|id]; cbn [exec_step box_step fst snd].
  - split; [|reflexivity]. destruct HS as (Hr & Hs). split; [exact Hr|]. intros i. cbn [ch_peers]. unfold set_peer. rewrite (String.eqb_sym i id).
    destruct (String.eqb_spec id i) as [<-|]; [|apply Hs]. destruct (Hs id) as (H1 & H2 & H3). destruct (bs id) as ([| |], items); cbn in *.
    + destruct H3 as (H3 & H4 & H5). rewrite H4. repeat split; auto.
    + destruct H3 as (H3 & H4). rewrite H4. repeat split; auto.
    + rewrite H3. repeat split; auto.
  - split; [|reflexivity]. destruct Hp as (Hd & Hk). apply (send_sim hwm ch bs id _ (Letter m)); [exact HS|exact Hk|].
    intros can. apply pass_frames_sent. exact Hd.
  - split; [|reflexivity]. apply (send_sim hwm ch bs id _ Stop); [exact HS|exact I|]. intros can. unfold terminate_frames.
    cbn [router_send_all router_send f_more f_bytes]. destruct (can id); reflexivity.
  - destruct HS as (Hr & Hs). destruct (Hs id) as (H1 & H2 & H3). destruct (bs id) as (st, items) eqn:Eb.
    assert (Hidle : forall st', bs id = Box st' items -> (forall rest, st' = Open -> items = rest -> rest = []) ->
      sim ch (fun i => snd (if String.eqb id i then match b_status (bs i), b_items (bs i) with
        | Open, Letter m :: rest => ([Some m], Box Open rest) | Open, Stop :: rest => ([None], Box Closed rest) | _, _ => ([], bs i) end else ([], bs i))) /\
      forall i, [] = fst (if String.eqb id i then match b_status (bs i), b_items (bs i) with
        | Open, Letter m :: rest => ([Some m], Box Open rest) | Open, Stop :: rest => ([None], Box Closed rest) | _, _ => ([], bs i) end else ([], bs i))).
    { intros st' E' Ho. split; [split; [exact Hr|]|]; intros i; destruct (String.eqb_spec id i) as [<-|]; try apply Hs; try reflexivity; rewrite E'; cbn [b_status b_items].
      - rewrite Eb in E'. injection E' as <-. destruct st; try (cbn; rewrite <- Eb; apply Hs). rewrite (Ho items eq_refl eq_refl) in *. cbn. rewrite <- Eb. apply Hs.
      - destruct st'; try reflexivity. rewrite (Ho items eq_refl eq_refl). reflexivity. }
    cbn in H1, H2, H3. destruct st.
    + destruct H3 as (H3 & H4 & ->). rewrite H4, H1. cbn [map fst snd]. apply (Hidle Fresh Eb). discriminate.
    + destruct H3 as (H3 & H4). rewrite H4, H1. destruct items as [|x items]; [apply (Hidle Open Eb); auto|]. clear Hidle. cbn [map].
      assert (G : forall (returned : bool) st' out, st' = (if returned then Closed else Open) ->
        (forall i, box_step hwm i (Take id) (bs i) = if String.eqb id i then ([out], Box st' items) else ([], bs i)) ->
        sim (mkChannel (ch_router ch) (set_peer id (mkPeer (p_known (ch_peers ch id)) (map enc items) returned) (ch_peers ch)))
            (fun i => snd (box_step hwm i (Take id) (bs i))) /\
        forall i, done_by i [(id, out)] = fst (box_step hwm i (Take id) (bs i))).
      { intros returned st' out -> HB. split; [split; [exact Hr|]|]; intros i; rewrite HB.
        - cbn [ch_peers]. unfold set_peer. rewrite (String.eqb_sym i id). destruct (String.eqb_spec id i) as [<-|]; [|apply Hs].
          inversion H2; subst. destruct returned; repeat split; cbn; auto.
        - unfold done_by. cbn. destruct (String.eqb id i); reflexivity. }
      destruct x as [m|]; cbn [enc].
      * assert (ER : thread_round (m_key m :: m_ident m :: m_data m) = Handle m).
        { unfold thread_round, TERMINATE_MSG. inversion H2 as [|? ? Hk _]; subst. cbn in Hk. apply String.eqb_neq in Hk. rewrite Hk. destruct m. reflexivity. }
        rewrite ER. apply (G false Open (Some m)); [reflexivity|]. intros i. cbn [box_step]. destruct (String.eqb_spec id i) as [<-|]; [|reflexivity]. rewrite Eb. reflexivity.
      * change (thread_round ["TERMINATE"]) with Return. apply (G true Closed None); [reflexivity|]. intros i. cbn [box_step].
        destruct (String.eqb_spec id i) as [<-|]; [|reflexivity]. rewrite Eb. reflexivity.
    + rewrite H3. cbn [fst snd]. apply (Hidle Closed Eb). discriminate.
Qed.

Lemma done_by_app id a b : done_by id (a ++ b) = done_by id a ++ done_by id b.
Proof. apply flat_map_app. Qed.

Lemma steps_sim hwm es : forall ch bs, sim ch bs -> Forall plain es -> forall id,
  done_by id (fst (exec_steps hwm es ch)) = fst (box_steps hwm id es (bs id)) /\
  p_pipe (ch_peers (snd (exec_steps hwm es ch)) id) = map enc (b_items (snd (box_steps hwm id es (bs id)))).
Proof.
  induction es as [|e es IH]; intros ch bs HS Hp id; [destruct HS as (_ & Hs); split; [reflexivity|apply Hs]|]. inversion Hp; subst.
  destruct (step_sim hwm e ch bs HS) as (HS1 & HD); [assumption|]. cbn [exec_steps box_steps]. specialize (HD id).
  destruct (exec_step hwm e ch) as (a, ch1). cbn [fst snd] in *.
  destruct (IH ch1 _ HS1) with (id := id) as (IH1 & IH2); [assumption|]. cbv beta in IH1, IH2.
  destruct (exec_steps hwm es ch1) as (c, ch2). destruct (box_step hwm id e (bs id)) as (b, b1). cbn [fst snd] in *.
  destruct (box_steps hwm id es b1) as (d, b2). cbn [fst snd] in *. rewrite done_by_app, HD, IH1. auto.
Qed.

Lemma new_sim : sim new_channel (fun _ => new_box).
Proof. split; [reflexivity|]. intros id. repeat split. constructor. Qed.

Theorem refines hwm es id : Forall plain es ->
  done_by id (fst (exec_steps hwm es new_channel)) = fst (box_steps hwm id es new_box) /\
  p_pipe (ch_peers (snd (exec_steps hwm es new_channel)) id) = map enc (b_items (snd (box_steps hwm id es new_box))).
Proof. intros Hp. exact (steps_sim hwm es new_channel _ new_sim Hp id). Qed.

(* ---- mailboxes ---- *)

Section Box.
Context (hwm : nat) (id : string).
Local Notation steps := (box_steps hwm id).

Lemma box_cons e es b : steps (e :: es) b =
  (fst (box_step hwm id e b) ++ fst (steps es (snd (box_step hwm id e b))), snd (steps es (snd (box_step hwm id e b)))).
Proof. cbn [box_steps]. destruct (box_step hwm id e b) as (a, b1). cbn [fst snd]. destruct (steps es b1). reflexivity. Qed.

Lemma box_app es1 es2 : forall b, steps (es1 ++ es2) b =
  (fst (steps es1 b) ++ fst (steps es2 (snd (steps es1 b))), snd (steps es2 (snd (steps es1 b)))).
Proof.
  induction es1 as [|e es1 IH]; intros b; [cbn; destruct (steps es2 b); reflexivity|]. cbn [app]. rewrite !box_cons, IH. cbn [fst snd].
  rewrite <- app_assoc. reflexivity.
Qed.

(* only the steps of a handler matter to it *)
Definition concerns (e : step) : bool := match e with Connect i | Pass i _ | Terminate i | Take i => String.eqb i id end.
Lemma unconcerned e b : concerns e = false -> box_step hwm id e b = ([], b).
Proof. destruct e; cbn; intros ->; reflexivity. Qed.
Lemma own_steps es : forall b, steps es b = steps (filter concerns es) b.
Proof.
  induction es as [|e es IH]; intros b; [reflexivity|]. cbn [filter]. rewrite box_cons. destruct (concerns e) eqn:E.
  - rewrite box_cons, IH. reflexivity.
  - rewrite unconcerned by exact E. cbn [fst snd app]. rewrite <- IH. destruct (steps es b); reflexivity.
Qed.

Lemma fresh_waits es : Forall (fun e => e <> Connect id) es -> steps es new_box = ([], new_box).
Proof.
  induction 1 as [|e es He _ IH]; [reflexivity|]. rewrite box_cons. assert (E : box_step hwm id e new_box = ([], new_box)).
  { destruct e; cbn; destruct (String.eqb_spec id0 id) as [->|]; try reflexivity. contradiction. }
  rewrite E. cbn [fst snd app]. rewrite IH. reflexivity.
Qed.

Definition roomy (es : list step) (b : box) : Prop :=
  forall es1 e es2, es = es1 ++ e :: es2 -> (exists m, e = Pass id m) \/ e = Terminate id -> length (b_items (snd (steps es1 b))) < hwm.
Lemma roomy_tail e es b : roomy (e :: es) b -> roomy es (snd (box_step hwm id e b)).
Proof. intros H es1 x es2 -> Hx. specialize (H (e :: es1) x es2 eq_refl Hx). rewrite box_cons in H. exact H. Qed.
Lemma roomy_head e es b : roomy (e :: es) b -> (exists m, e = Pass id m) \/ e = Terminate id -> length (b_items b) < hwm.
Proof. intros H Hx. exact (H [] e es eq_refl Hx). Qed.
Lemma roomy_app es1 es2 b : roomy (es1 ++ es2) b -> roomy es1 b /\ roomy es2 (snd (steps es1 b)).
Proof.
  intros H. split.
  - intros a x c E Hx. apply (H a x (c ++ es2)); [rewrite E, <- app_assoc; reflexivity|exact Hx].
  - intros a x c E Hx. specialize (H (es1 ++ a) x c). rewrite box_app in H. apply H; [rewrite E, app_assoc; reflexivity|exact Hx].
Qed.

Lemma handled_app a b : handled_msgs (a ++ b) = handled_msgs a ++ handled_msgs b.
Proof. apply flat_map_app. Qed.
Lemma letters_app a b : letters (a ++ b) = letters a ++ letters b.
Proof. apply flat_map_app. Qed.
Lemma letters_map ms : letters (map Letter ms) = ms.
Proof. induction ms as [|m ms IH]; [reflexivity|]. cbn. rewrite <- IH at 2. reflexivity. Qed.

(* an open mailbox that is never full *)
Lemma open_fifo es : forall ms, no_stop id es -> roomy es (Box Open (map Letter ms)) -> exists done waiting,
  steps es (Box Open (map Letter ms)) = (map Some done, Box Open (map Letter waiting)) /\ done ++ waiting = ms ++ passed_to id es.
Proof.
  induction es as [|e es IH]; intros ms Hn Hr.
  - exists [], ms. cbn. rewrite app_nil_r. auto.
  - inversion Hn as [|? ? Hne Hn']; subst. pose proof (roomy_tail _ _ _ Hr) as Hr1. pose proof (roomy_head _ _ _ Hr) as Hh. rewrite box_cons.
    destruct e as [i|i m|i|i]; cbn [box_step fst snd] in *; unfold passed_to; cbn [flat_map]; fold (passed_to id es).
    + assert (E : (if String.eqb i id then match b_status (Box Open (map Letter ms)) with Fresh => Box Open (b_items (Box Open (map Letter ms))) | _ => Box Open (map Letter ms) end else Box Open (map Letter ms)) = Box Open (map Letter ms)) by (destruct (String.eqb i id); reflexivity).
      rewrite E in *. destruct (IH ms Hn' Hr1) as (d & wt & -> & Hd). exists d, wt. auto.
    + destruct (String.eqb_spec i id) as [->|Hi].
      * unfold put in *. cbn [b_status b_items] in *. assert (L : Nat.ltb (length (map Letter ms)) hwm = true) by (apply Nat.ltb_lt; apply Hh; left; eauto).
        rewrite L in *. change ([Letter m]) with (map Letter [m]) in *. rewrite <- map_app in *.
        destruct (IH (ms ++ [m]) Hn' Hr1) as (d & wt & -> & Hd). exists d, wt. split; [reflexivity|]. rewrite Hd, <- app_assoc. reflexivity.
      * destruct (IH ms Hn' Hr1) as (d & wt & -> & Hd). exists d, wt. auto.
    + destruct (String.eqb_spec i id) as [->|Hi]; [contradiction|]. destruct (IH ms Hn' Hr1) as (d & wt & -> & Hd). exists d, wt. auto.
    + destruct (String.eqb i id); [|cbn [fst snd] in *; destruct (IH ms Hn' Hr1) as (d & wt & -> & Hd); exists d, wt; auto].
      destruct ms as [|m ms]; cbn [map b_status b_items fst snd] in *.
      * destruct (IH [] Hn' Hr1) as (d & wt & Es & Hd). cbn [map] in Es. rewrite Es. exists d, wt. auto.
      * destruct (IH ms Hn' Hr1) as (d & wt & -> & Hd). exists (m :: d), wt. split; [reflexivity|]. cbn. rewrite Hd. reflexivity.
Qed.

(* nothing but takes after a stop *)
Lemma drain es : forall ms, only_takes id es -> fst (steps es (Box Open (map Letter ms ++ [Stop]))) = firstn (takes id es) (map Some ms ++ [None]).
Proof.
  induction es as [|e es IH]; intros ms Ho; [reflexivity|]. inversion Ho as [|? ? He Ho']; subst. rewrite box_cons. cbn [fst].
  destruct e as [i|i m|i|i]; cbn [box_step fst snd app]; unfold takes; cbn [filter].
  - replace (if String.eqb i id then _ else _) with (Box Open (map Letter ms ++ [Stop])) by (destruct (String.eqb i id); reflexivity). apply IH. exact Ho'.
  - destruct (String.eqb_spec i id) as [->|]; [contradiction|]. apply IH. exact Ho'.
  - destruct (String.eqb_spec i id) as [->|]; [contradiction|]. apply IH. exact Ho'.
  - destruct (String.eqb i id) eqn:Ei; [|apply IH; exact Ho']. cbn [length]. destruct ms as [|m ms]; cbn [map app b_status b_items fst snd firstn].
    + f_equal. clear -Ho'. rewrite firstn_nil. induction es as [|e es IH]; [reflexivity|]. inversion Ho' as [|? ? He Ho]; subst. rewrite box_cons. cbn [fst].
      assert (E : box_step hwm id e (Box Closed []) = ([], Box Closed [])) by (destruct e as [i|i m|i|i]; cbn; destruct (String.eqb i id); reflexivity).
      rewrite E. cbn [fst snd app]. apply IH. exact Ho.
    + f_equal. apply IH. exact Ho'.
Qed.

(* without a stop in the mailbox the thread does not return *)
Lemma goes_on es : forall b, b_status b <> Closed -> ~ In Stop (b_items b) -> no_stop id es ->
  ~ In None (fst (steps es b)) /\ b_status (snd (steps es b)) <> Closed /\ ~ In Stop (b_items (snd (steps es b))).
Proof.
  induction es as [|e es IH]; intros b Hb Hi Hn; [cbn; auto|]. inversion Hn as [|? ? Hne Hn']; subst. rewrite box_cons. cbn [fst snd].
  assert (G : ~ In None (fst (box_step hwm id e b)) /\ b_status (snd (box_step hwm id e b)) <> Closed /\ ~ In Stop (b_items (snd (box_step hwm id e b)))).
  { destruct b as (st, items). cbn in Hb, Hi. assert (N : ~ In (@None msg) []) by (intros []).
    destruct e as [i|i m|i|i]; cbn [box_step]; destruct (String.eqb_spec i id) as [->|];
      try (cbn [fst snd b_status b_items]; split; [exact N|split; [exact Hb|exact Hi]]).
    - split; [exact N|]. destruct st; cbn; auto. split; [discriminate|exact Hi].
    - split; [exact N|]. unfold put. cbn [b_status b_items snd]. destruct st; cbn [b_status b_items]; auto.
      destruct (Nat.ltb (length items) hwm); cbn [b_status b_items]; auto. split; [exact Hb|].
      rewrite in_app_iff. intros [H|[H|[]]]; [auto|discriminate].
    - contradiction.
    - cbn [b_status b_items]. destruct st; [split; [exact N|auto]| |contradiction]. destruct items as [|[m|] items]; cbn [fst snd b_status b_items].
      + auto.
      + split; [intros [H|[]]; discriminate|]. split; [exact Hb|]. intros H. apply Hi. right. exact H.
      + exfalso. apply Hi. left. reflexivity. }
  destruct G as (G1 & G2 & G3). destruct (IH _ G2 G3 Hn') as (I1 & I2 & I3). split; [|auto]. rewrite in_app_iff. tauto.
Qed.

Lemma some_of_refl {A} (l : list A) : some_of l l.
Proof. induction l; constructor; assumption. Qed.
Lemma some_of_app {A} (a a' b b' : list A) : some_of a a' -> some_of b b' -> some_of (a ++ b) (a' ++ b').
Proof. induction 1; intros Hb; cbn; [exact Hb|constructor; auto|constructor; auto]. Qed.
Lemma some_of_trans {A} (a b c : list A) : some_of a b -> some_of b c -> some_of a c.
Proof.
  intros H1 H2. revert a H1. induction H2; intros a H1; [exact H1| |constructor; auto]. inversion H1; subst; constructor; auto.
Qed.

(* whatever happens: nothing handled twice, in another order or altered *)
Lemma some_handled es : forall b, some_of (handled_msgs (fst (steps es b)) ++ letters (b_items (snd (steps es b)))) (letters (b_items b) ++ passed_to id es).
Proof.
  induction es as [|e es IH]; intros b; [cbn; rewrite app_nil_r; apply some_of_refl|]. rewrite box_cons. cbn [fst snd].
  rewrite handled_app, <- app_assoc. specialize (IH (snd (box_step hwm id e b))).
  assert (G : some_of (handled_msgs (fst (box_step hwm id e b)) ++ letters (b_items (snd (box_step hwm id e b)))) (letters (b_items b) ++ passed_to id [e])).
  { destruct b as (st, items). destruct e as [i|i m|i|i]; cbn [box_step passed_to flat_map]; destruct (String.eqb i id); cbn [app fst snd]; rewrite ?app_nil_r; try apply some_of_refl.
    - destruct st; apply some_of_refl.
    - unfold put. cbn [b_status b_items]. assert (S : some_of (letters items) (letters items ++ [m])).
      { rewrite <- (app_nil_r (letters items)) at 1. apply some_of_app; [apply some_of_refl|]. constructor. constructor. }
      destruct st; try exact S. destruct (Nat.ltb (length items) hwm); [|exact S]. cbn. rewrite letters_app. apply some_of_refl.
    - unfold put. cbn [b_status b_items]. destruct st; try apply some_of_refl. destruct (Nat.ltb (length items) hwm); [|apply some_of_refl]. cbn.
      rewrite letters_app. cbn. rewrite app_nil_r. apply some_of_refl.
    - destruct st; try apply some_of_refl. destruct items as [|[m|] items]; apply some_of_refl. }
  assert (EP : passed_to id (e :: es) = passed_to id [e] ++ passed_to id es) by (unfold passed_to; cbn [flat_map]; rewrite app_nil_r; reflexivity).
  rewrite EP, (app_assoc (letters (b_items b))).
  eapply some_of_trans; [|apply some_of_app; [exact G|apply some_of_refl]]. rewrite <- app_assoc. apply some_of_app; [apply some_of_refl|exact IH].
Qed.
End Box.

(* ---- theorems ---- *)

Theorem own hwm id es : Forall plain es ->
  done_by id (fst (exec_steps hwm es new_channel)) =
  done_by id (fst (exec_steps hwm (filter (fun e => match e with Connect i | Pass i _ | Terminate i | Take i => String.eqb i id end) es) new_channel)).
Proof.
  intros Hp. destruct (refines hwm es id Hp) as (-> & _). rewrite own_steps. fold (concerns id). symmetry. apply refines.
  apply Forall_forall. intros e He. apply filter_In in He. rewrite Forall_forall in Hp. apply Hp. apply He.
Qed.

Theorem at_most_once hwm id es : Forall plain es ->
  some_of (handled_msgs (done_by id (fst (exec_steps hwm es new_channel)))) (passed_to id es).
Proof.
  intros Hp. destruct (refines hwm es id Hp) as (-> & _). pose proof (some_handled hwm id es new_box) as H. cbn [new_box b_items letters flat_map app] in H.
  eapply some_of_trans; [|exact H]. rewrite <- (app_nil_r (handled_msgs _)) at 1. apply some_of_app; [apply some_of_refl|].
  generalize (letters (b_items (snd (box_steps hwm id es new_box)))). intros l. induction l; constructor; assumption.
Qed.

Theorem exactly_once hwm id es0 es1 : Forall plain (es0 ++ Connect id :: es1) ->
  Forall (fun e => e <> Connect id) es0 -> no_stop id es1 -> never_full hwm id (es0 ++ Connect id :: es1) ->
  exists handled waiting,
  done_by id (fst (exec_steps hwm (es0 ++ Connect id :: es1) new_channel)) = map Some handled /\
  p_pipe (ch_peers (snd (exec_steps hwm (es0 ++ Connect id :: es1) new_channel)) id) = map (fun m => m_key m :: m_ident m :: m_data m) waiting /\
  handled ++ waiting = passed_to id es1.
Proof.
  intros Hp H0 H1 Hf. destruct (refines hwm _ id Hp) as (-> & ->). rewrite box_app, fresh_waits by exact H0. cbn [fst snd app].
  apply (roomy_app hwm id es0) in Hf. rewrite fresh_waits in Hf by exact H0. destruct Hf as (_ & Hf). apply roomy_tail in Hf.
  rewrite box_cons. cbn [box_step fst snd app] in *. rewrite String.eqb_refl in *. cbn [b_status b_items new_box] in *.
  destruct (open_fifo hwm id es1 [] H1 Hf) as (d & wt & E & Hd). cbn [map] in E. rewrite E. exists d, wt. cbn [fst snd b_items]. rewrite map_map. auto.
Qed.

Theorem terminates hwm id es0 es1 es2 : Forall plain (es0 ++ Connect id :: es1 ++ Terminate id :: es2) ->
  Forall (fun e => e <> Connect id) es0 -> no_stop id es1 -> never_full hwm id (es0 ++ Connect id :: es1 ++ [Terminate id]) -> only_takes id es2 ->
  exists n, length (passed_to id es1) = n + length (p_pipe (ch_peers (snd (exec_steps hwm (es0 ++ Connect id :: es1) new_channel)) id)) /\
  done_by id (fst (exec_steps hwm (es0 ++ Connect id :: es1 ++ Terminate id :: es2) new_channel)) =
  firstn (n + takes id es2) (map Some (passed_to id es1) ++ [None]).
Proof.
  intros Hp H0 H1 Hf H2. assert (Hp1 : Forall plain (es0 ++ Connect id :: es1)).
  { rewrite Forall_forall in *. intros e He. apply Hp. rewrite !in_app_iff in *. cbn in *. rewrite in_app_iff. tauto. }
  assert (Hf1 : never_full hwm id (es0 ++ Connect id :: es1)).
  { intros a x b E Hx. apply (Hf a x (b ++ [Terminate id])); [|exact Hx]. change (Connect id :: es1 ++ [Terminate id]) with ((Connect id :: es1) ++ [Terminate id]).
    rewrite app_assoc, E, <- app_assoc. reflexivity. }
  destruct (exactly_once hwm id es0 es1 Hp1 H0 H1 Hf1) as (d & wt & Ed & Ew & Hd). exists (length d). split.
  { rewrite Ew, map_length, <- Hd, app_length. reflexivity. }
  destruct (refines hwm _ id Hp) as (-> & _). destruct (refines hwm _ id Hp1) as (E1 & E2). rewrite E1 in Ed. rewrite E2 in Ew.
  change (Connect id :: es1 ++ Terminate id :: es2) with ((Connect id :: es1) ++ Terminate id :: es2). rewrite app_assoc, box_app. cbn [fst]. rewrite Ed.
  assert (ES : snd (box_steps hwm id (es0 ++ Connect id :: es1) new_box) = Box Open (map Letter wt)).
  { rewrite box_app, fresh_waits by exact H0. cbn [fst snd app]. rewrite box_cons. cbn [box_step fst snd app]. rewrite String.eqb_refl. cbn [b_status b_items new_box].
    pose proof Hf1 as Hr. apply (roomy_app hwm id es0) in Hr. rewrite fresh_waits in Hr by exact H0. destruct Hr as (_ & Hr). apply roomy_tail in Hr.
    cbn [box_step snd] in Hr. rewrite String.eqb_refl in Hr. cbn [b_status b_items new_box] in Hr.
    destruct (open_fifo hwm id es1 [] H1 Hr) as (d' & wt' & E & Hd'). cbn [map] in E. rewrite E. cbn [snd].
    rewrite box_app, fresh_waits in Ed by exact H0. cbn [fst snd app] in Ed. rewrite box_cons in Ed. cbn [box_step fst snd app] in Ed. rewrite String.eqb_refl in Ed.
    cbn [b_status b_items new_box] in Ed. rewrite E in Ed. cbn [fst] in Ed. assert (d' = d).
    { clear -Ed. revert d Ed. induction d' as [|x d' IH]; intros [|y d] Ed; try discriminate; [reflexivity|]. cbn in Ed. injection Ed as -> Ed. f_equal. apply IH. exact Ed. }
    subst d'. cbn [app] in Hd'. rewrite <- Hd in Hd'. apply app_inv_head in Hd'. subst. reflexivity. }
  rewrite ES. rewrite box_cons. cbn [box_step fst snd app]. rewrite String.eqb_refl. unfold put. cbn [b_status b_items].
  assert (HL : length (map Letter wt) < hwm).
  { specialize (Hf (es0 ++ Connect id :: es1) (Terminate id) []). rewrite ES in Hf. apply Hf; [|right; reflexivity]. rewrite <- app_assoc. reflexivity. }
  apply Nat.ltb_lt in HL. rewrite HL. rewrite (drain hwm id es2 wt H2).
  rewrite <- Hd, map_app, <- app_assoc, <- (map_length Some d). rewrite firstn_app_2. reflexivity.
Qed.

Theorem hangs hwm id es1 es2 : Forall plain (es1 ++ Terminate id :: es2) -> no_stop id es1 -> no_stop id es2 ->
  Forall (fun e => e <> Connect id) es1 \/ length (p_pipe (ch_peers (snd (exec_steps hwm es1 new_channel)) id)) >= hwm ->
  ~ In None (done_by id (fst (exec_steps hwm (es1 ++ Terminate id :: es2) new_channel))).
Proof.
  intros Hp H1 H2 Hc. assert (Hp1 : Forall plain es1) by (apply Forall_app in Hp; apply Hp).
  destruct (refines hwm _ id Hp) as (-> & _). destruct (refines hwm _ id Hp1) as (_ & Ep). rewrite Ep, map_length in Hc.
  rewrite box_app, box_cons. cbn [fst snd].
  destruct (goes_on hwm id es1 new_box) as (G1 & G2 & G3); [discriminate|intros []|exact H1|].
  set (b := snd (box_steps hwm id es1 new_box)) in *.
  assert (EB : box_step hwm id (Terminate id) b = ([], b)).
  { cbn [box_step]. rewrite String.eqb_refl. f_equal. unfold put. destruct Hc as [Hc|Hc].
    - unfold b. rewrite fresh_waits by exact Hc. reflexivity.
    - destruct (b_status b); try reflexivity. replace (Nat.ltb (length (b_items b)) hwm) with false; [reflexivity|]. symmetry. apply Nat.ltb_ge. lia. }
  rewrite EB. cbn [fst snd app]. rewrite in_app_iff. destruct (goes_on hwm id es2 b G2 G3 H2) as (I1 & _). tauto.
Qed.

(* few messages: never full *)
Lemma box_length hwm id es : forall b, length (b_items (snd (box_steps hwm id es b))) <=
  length (b_items b) + length (filter (fun e => match e with Pass i _ | Terminate i => String.eqb i id | _ => false end) es).
Proof.
  induction es as [|e es IH]; intros b; [cbn; lia|]. rewrite box_cons. cbn [snd]. specialize (IH (snd (box_step hwm id e b))).
  destruct e as [i|i m|i|i]; cbn [box_step filter] in *; destruct (String.eqb i id); cbn [snd length] in *; try lia.
  - destruct b as ([| |], ?); cbn in *; lia.
  - unfold put in *. destruct (b_status b); try lia. destruct (Nat.ltb (length (b_items b)) hwm); cbn [b_items] in *; rewrite ?app_length in *; cbn in *; lia.
  - unfold put in *. destruct (b_status b); try lia. destruct (Nat.ltb (length (b_items b)) hwm); cbn [b_items] in *; rewrite ?app_length in *; cbn in *; lia.
  - destruct b as ([| |], [|[|] ?]); cbn in *; lia.
Qed.

Theorem few hwm id es : length (filter (fun e => match e with Pass i _ | Terminate i => String.eqb i id | _ => false end) es) <= hwm -> never_full hwm id es.
Proof.
  intros H es1 e es2 -> He. pose proof (box_length hwm id es1 new_box) as HL. rewrite filter_app, app_length in H. cbn [filter] in H.
  assert (E : (match e with Pass i _ | Terminate i => String.eqb i id | _ => false end) = true) by (destruct He as [(m & ->)| ->]; apply String.eqb_refl).
  rewrite E in H. cbn in *. lia.
Qed.
