(* Facts about Replies.v. *)
From Coq Require Import Lia.
From Verif Require Import Base Wire Replies SpecReplies.
Local Open Scope string_scope.
Local Open Scope list_scope.

Definition flat (m : msg) : list string := m_key m :: m_ident m :: m_data m.
Definition unflat (b : option msg) : list string := match b with None => [] | Some m => flat m end.

(* the answer the handler is in the middle of *)
Fixpoint pending (before : option msg) (ms : list msg) : option msg :=
  match ms with
  | [] => before
  | m :: rest =>
      let m' := match before with None => m | Some b => Msg (m_key b) (m_ident b) (m_data b ++ m_key m :: m_ident m :: m_data m) end in
      match m_data m with [] => pending (Some m') rest | _ :: _ => pending None rest end
  end.

Lemma glued_app : forall a b before, glued before (a ++ b) = glued before a ++ glued (pending before a) b.
Proof.
  induction a as [|m a IH]; intros b before; [reflexivity|]. cbn. destruct (m_data m); rewrite IH; reflexivity.
Qed.
Lemma pending_app : forall a b before, pending before (a ++ b) = pending (pending before a) b.
Proof.
  induction a as [|m a IH]; intros b before; [reflexivity|]. cbn. destruct (m_data m); apply IH.
Qed.

Lemma send_data : forall x data d, dealer_send_all (data_frames (x :: data)) d = ([d ++ x :: data], []).
Proof.
  intros x data; revert x. induction data as [|y data IH]; intros x d; [reflexivity|].
  cbn [data_frames dealer_send_all] in *. unfold dealer_send at 1. cbn [f_more f_bytes].
  rewrite IH. cbn. rewrite <- app_assoc. reflexivity.
Qed.

Lemma send_response_spec : forall m b,
  dealer_send_all (response_frames m) (unflat b) = (map flat (glued b [m]), unflat (pending b [m])).
Proof.
  intros [k i [|x d]] b; unfold response_frames; cbn [m_key m_ident m_data].
  - destruct b as [[bk bi bd]|]; cbn; unfold flat; cbn; rewrite <- ?app_assoc; reflexivity.
  - cbn [dealer_send_all]. unfold dealer_send. cbn [f_more f_bytes]. rewrite send_data.
    destruct b as [[bk bi bd]|]; cbn; unfold flat; cbn; rewrite <- ?app_assoc; reflexivity.
Qed.

Lemma glued_data : forall ms b, Forall (fun m => m_data m <> []) (glued b ms).
Proof.
  induction ms as [|m ms IH]; intros b; cbn; [constructor|]. destruct (m_data m) eqn:E; [apply IH|].
  constructor; [|apply IH]. destruct b as [[]|]; cbn; [|congruence]. intros H. now apply app_eq_nil in H as [_ H].
Qed.
Lemma glued_whole : forall ms, Forall (fun m => m_data m <> []) ms -> glued None ms = ms.
Proof. induction 1 as [|m ms H _ IH]; [reflexivity|]. cbn. destruct (m_data m); congruence. Qed.

Lemma receive_data_frames : forall x data rest, receive_data true (data_frames (x :: data) ++ rest) = Some (x :: data, rest).
Proof.
  intros x data; revert x. induction data as [|y data IH]; intros x rest; [cbn; destruct rest; reflexivity|].
  specialize (IH y rest). cbn in *. rewrite IH. reflexivity.
Qed.
Lemma read_one : forall id m rest, m_data m <> [] -> read_response (incoming id (flat m) ++ rest) = Some (id, m, rest).
Proof.
  intros id [k i [|x d]] rest H; cbn in H; [congruence|]. unfold incoming, flat, read_response. cbn [m_key m_ident m_data].
  change (data_frames (id :: k :: i :: x :: d) ++ rest) with (Frame id true :: Frame k true :: Frame i true :: (data_frames (x :: d) ++ rest)).
  cbn [f_more]. rewrite receive_data_frames. reflexivity.
Qed.

Lemma heard_of_app : forall id a b, heard_of id (a ++ b) = heard_of id a ++ heard_of id b.
Proof. intros. unfold heard_of. apply flat_map_app. Qed.
Lemma answers_app : forall id a b, answers id (a ++ b) = answers id a ++ answers id b.
Proof. intros. unfold answers. apply flat_map_app. Qed.

(* the state after es, when out has been read *)
Definition after (es : list reply_step) (out : list (string * msg)) (r : replies) : Prop :=
  exists (items : list (string * msg)) (pipe : string -> list msg),
  rp_in r = flat_map (fun p => incoming (fst p) (flat (snd p))) items /\
  Forall (fun p => m_data (snd p) <> []) items /\
  (forall id, rp_begun r id = unflat (pending None (answers id es))) /\
  (forall id, rp_pipe r id = map flat (pipe id)) /\
  (forall id, glued None (answers id es) = heard_of id out ++ heard_of id items ++ pipe id).

Lemma after_step : forall es out r e a r', after es out r -> reply e r = Some (a, r') -> after (es ++ [e]) (out ++ a) r'.
Proof.
  intros es out r e a r' (items & pipe & Hin & Hd & Hb & Hp & Hg) Hs.
  destruct e as [id m|id|]; cbn [reply] in Hs.
  - rewrite Hb, send_response_spec in Hs. injection Hs as <- <-.
    exists items, (fun i => if String.eqb i id then pipe id ++ glued (pending None (answers id es)) [m] else pipe i).
    cbn [rp_in rp_begun rp_pipe]. unfold at_. repeat split; auto.
    + intros i. rewrite answers_app, pending_app. destruct (String.eqb_spec i id) as [->|N].
      * cbn [answers flat_map app]. rewrite String.eqb_refl. reflexivity.
      * cbn [answers flat_map]. rewrite (proj2 (String.eqb_neq id i)) by congruence. apply Hb.
    + intros i. destruct (String.eqb_spec i id) as [->|N]; [|apply Hp]. rewrite map_app, Hp. reflexivity.
    + intros i. rewrite answers_app, glued_app, app_nil_r, Hg. destruct (String.eqb_spec i id) as [->|N].
      * unfold answers at 2. cbn [flat_map app]. rewrite String.eqb_refl. cbn [app]. rewrite <- !app_assoc. reflexivity.
      * unfold answers at 2. cbn [flat_map]. rewrite (proj2 (String.eqb_neq id i)) by congruence. cbn [app glued]. apply app_nil_r.
  - rewrite Hp in Hs. destruct (pipe id) as [|m rest] eqn:E; cbn [map] in Hs; [discriminate|]. injection Hs as <- <-.
    exists (items ++ [(id, m)]), (fun i => if String.eqb i id then rest else pipe i).
    cbn [rp_in rp_begun rp_pipe]. unfold at_. repeat split.
    + rewrite flat_map_app, Hin. cbn [flat_map fst snd]. rewrite app_nil_r. reflexivity.
    + apply Forall_app; split; [assumption|]. constructor; [|constructor].
      pose proof (glued_data (answers id es) None) as G. rewrite Hg, E in G. rewrite !Forall_app in G. destruct G as (_ & _ & G).
      inversion G; assumption.
    + intros i. rewrite answers_app. cbn [answers flat_map]. rewrite app_nil_r. apply Hb.
    + intros i. destruct (String.eqb i id); auto.
    + intros i. rewrite answers_app. cbn [answers flat_map]. rewrite !app_nil_r, Hg, heard_of_app. 
      replace (heard_of i [(id, m)]) with (if String.eqb i id then [m] else [] : list msg)
        by (unfold heard_of; cbn [flat_map fst snd]; rewrite app_nil_r, (String.eqb_sym i id); reflexivity). destruct (String.eqb_spec i id) as [->|N].
      * rewrite E, <- !app_assoc. reflexivity.
      * rewrite app_nil_r. reflexivity.
  - destruct items as [|[id m] items]; cbn [flat_map fst snd] in Hin; rewrite Hin in Hs; [discriminate|].
    inversion Hd as [|? ? D1 D2]; subst. rewrite read_one in Hs by assumption. injection Hs as <- <-.
    exists items, pipe. cbn [rp_in rp_begun rp_pipe]. repeat split; auto.
    + intros i. rewrite answers_app. cbn [answers flat_map]. rewrite app_nil_r. apply Hb.
    + intros i. rewrite answers_app. cbn [answers flat_map]. rewrite app_nil_r, Hg, heard_of_app. rewrite <- app_assoc.
      cbn [heard_of flat_map fst snd app]. rewrite !app_nil_r, <- !app_assoc. reflexivity.
Qed.

Lemma after_steps : forall es' es out r out' r', after es out r -> replies_all es' r = Some (out', r') -> after (es ++ es') (out ++ out') r'.
Proof.
  induction es' as [|e es' IH]; intros es out r out' r' A H; cbn in H.
  - injection H as <- <-. rewrite !app_nil_r. assumption.
  - destruct (reply e r) as [[a r1]|] eqn:E; [|discriminate]. destruct (replies_all es' r1) as [[b r2]|] eqn:E2; [|discriminate].
    injection H as <- <-. pose proof (after_step _ _ _ _ _ _ A E) as A1. pose proof (IH _ _ _ _ _ A1 E2) as A2.
    rewrite <- !app_assoc in A2. exact A2.
Qed.
Lemma reached : forall es out r, replies_all es no_replies = Some (out, r) -> after es out r.
Proof.
  intros es out r H. change es with ([] ++ es). change out with ([] ++ out). refine (after_steps es [] [] no_replies out r _ H).
  exists [], (fun _ => []). cbn. auto 10.
Qed.

Lemma in_order : forall es out r id, replies_all es no_replies = Some (out, r) ->
  exists later, glued None (answers id es) = heard_of id out ++ later /\ (rp_in r = [] -> rp_pipe r id = [] -> later = []).
Proof.
  intros es out r id H. destruct (reached _ _ _ H) as (items & pipe & Hin & _ & _ & Hp & Hg).
  exists (heard_of id items ++ pipe id). split; [apply Hg|]. intros Ei Ep. rewrite Hp in Ep. apply map_eq_nil in Ep. rewrite Ep.
  destruct items as [|[i m] items]; [reflexivity|]. rewrite Hin in Ei. discriminate.
Qed.
Lemma unchanged : forall es out r id, replies_all es no_replies = Some (out, r) -> (forall m, In m (answers id es) -> m_data m <> []) ->
  exists later, answers id es = heard_of id out ++ later /\ (rp_in r = [] -> rp_pipe r id = [] -> later = []).
Proof.
  intros es out r id H W. destruct (in_order es out r id H) as (later & G & L). rewrite glued_whole in G by (now apply Forall_forall).
  exists later. auto.
Qed.
Lemma never_blocks : forall es out r, replies_all es no_replies = Some (out, r) -> rp_in r <> [] -> reply Read r <> None.
Proof.
  intros es out r H N. destruct (reached _ _ _ H) as (items & pipe & Hin & Hd & _). destruct items as [|[i m] items]; [now rewrite Hin in N|].
  inversion Hd; subst. cbn [reply]. rewrite Hin. cbn [flat_map fst snd]. rewrite read_one by assumption. discriminate.
Qed.
Lemma from_handlers : forall es out r id m, replies_all es no_replies = Some (out, r) -> In (id, m) out -> In m (glued None (answers id es)).
Proof.
  intros es out r id m H I. destruct (in_order es out r id H) as (later & -> & _). apply in_or_app. left. unfold heard_of.
  apply in_flat_map. exists (id, m). split; [assumption|]. cbn. rewrite String.eqb_refl. now left.
Qed.

(* everything complete can be read *)
Lemma replies_all_app : forall a b r o1 r1 o2 r2, replies_all a r = Some (o1, r1) -> replies_all b r1 = Some (o2, r2) ->
  replies_all (a ++ b) r = Some (o1 ++ o2, r2).
Proof.
  induction a as [|e a IH]; intros b r o1 r1 o2 r2 H1 H2; cbn in *; [now injection H1 as <- <-|].
  destruct (reply e r) as [[x y]|]; [|discriminate]. destruct (replies_all a y) as [[x2 y2]|] eqn:E; [|discriminate].
  injection H1 as <- <-. rewrite (IH _ _ _ _ _ _ E H2). now rewrite <- app_assoc.
Qed.
Lemma quiet : forall e n i, (forall j m, e <> Respond j m) -> answers i (repeat e n) = [].
Proof. intros e n i H. induction n as [|n IH]; [reflexivity|]. cbn. destruct e; [exfalso; eapply H; reflexivity|exact IH|exact IH]. Qed.
Lemma choose_all : forall id n r, length (rp_pipe r id) = n -> exists r', replies_all (repeat (Choose id) n) r = Some ([], r') /\
  rp_pipe r' id = [] /\ (forall i, rp_pipe r i = [] -> rp_pipe r' i = []).
Proof.
  intros id. induction n as [|n IH]; intros r L.
  - exists r. apply length_zero_iff_nil in L. auto.
  - cbn [repeat replies_all reply]. destruct (rp_pipe r id) as [|x rest] eqn:E; [discriminate|]. cbn in L. injection L as L.
    destruct (IH (mkReplies (rp_begun r) (at_ id rest (rp_pipe r)) (rp_in r ++ incoming id x))) as (r' & H & P & Q).
    { cbn. unfold at_. now rewrite String.eqb_refl. }
    exists r'. rewrite H. repeat split; auto. intros i Z. apply Q. cbn. unfold at_. destruct (String.eqb_spec i id) as [->|]; [congruence|assumption].
Qed.
Lemma choose_each : forall ids r, (forall i, ~ In i ids -> rp_pipe r i = []) ->
  exists es r', no_answers es /\ replies_all es r = Some ([], r') /\ forall i, rp_pipe r' i = [].
Proof.
  induction ids as [|id ids IH]; intros r Z.
  - exists [], r. repeat split; auto.
  - destruct (choose_all id _ r eq_refl) as (r1 & H1 & P & Q).
    destruct (IH r1) as (es & r2 & N & H2 & A).
    { intros i Ni. destruct (String.eqb_spec i id) as [->|D]; [assumption|]. apply Q, Z. cbn. intros [->|]; auto. }
    exists (repeat (Choose id) (length (rp_pipe r id)) ++ es), r2. repeat split; auto.
    + intros i. rewrite answers_app, N, app_nil_r. apply quiet; discriminate.
    + exact (replies_all_app _ _ _ _ _ _ _ H1 H2).
Qed.
Lemma read_each : forall items r, rp_in r = flat_map (fun p => incoming (fst p) (flat (snd p))) items ->
  Forall (fun p : string * msg => m_data (snd p) <> []) items ->
  exists r', replies_all (repeat Read (length items)) r = Some (items, r') /\ rp_in r' = [] /\ rp_pipe r' = rp_pipe r.
Proof.
  induction items as [|[i m] items IH]; intros r Hin Hd; [exists r; auto|]. inversion Hd; subst.
  cbn [length repeat replies_all reply]. rewrite Hin. cbn [flat_map fst snd]. rewrite read_one by assumption.
  destruct (IH (mkReplies (rp_begun r) (rp_pipe r) (flat_map (fun p => incoming (fst p) (flat (snd p))) items)) eq_refl) as (r' & H & P & Q); [assumption|].
  exists r'. rewrite H. auto.
Qed.
Lemma all_read : forall es out r, replies_all es no_replies = Some (out, r) ->
  exists es' out' r', no_answers es' /\ replies_all es' r = Some (out', r') /\ forall id, heard_of id (out ++ out') = glued None (answers id es).
Proof.
  intros es out r H. 
  pose (ids := flat_map (fun e => match e with Respond i _ => [i] | _ => [] end) es).
  destruct (choose_each ids r) as (es1 & r1 & N1 & H1 & P1).
  { intros i Ni. destruct (reached _ _ _ H) as (items & pipe & _ & _ & _ & Hp & Hg). specialize (Hg i).
    assert (answers i es = []) as Z.
    { clear - Ni. induction es as [|[j m|j|] es IH]; auto. cbn. cbn in Ni. destruct (String.eqb_spec j i) as [->|]; [tauto|]. apply IH. tauto. }
    rewrite Z in Hg. cbn in Hg. symmetry in Hg. apply app_eq_nil in Hg as [_ Hg]. apply app_eq_nil in Hg as [_ Hg]. now rewrite Hp, Hg. }
  pose proof (replies_all_app _ _ _ _ _ _ _ H H1) as H01. destruct (reached _ _ _ H01) as (items & _ & Hin & Hd & _).
  destruct (read_each items r1 Hin Hd) as (r2 & H2 & Z & Q).
  exists (es1 ++ repeat Read (length items)), items, r2.
  assert (no_answers (es1 ++ repeat Read (length items))) as N.
  { intros i. rewrite answers_app, N1. apply quiet; discriminate. }
  pose proof (replies_all_app _ _ _ _ _ _ _ H1 H2) as H12. cbn in H12. repeat split; auto.
  intros id. pose proof (replies_all_app _ _ _ _ _ _ _ H H12) as HA. destruct (in_order _ _ _ id HA) as (later & G & L).
  rewrite answers_app, N, app_nil_r in G. rewrite L, app_nil_r in G; auto. now rewrite Q.
Qed.
Lemma silent : forall es out r, replies_all es no_replies = Some (out, r) -> no_answers es -> out = [] /\ rp_in r = [].
Proof.
  intros es out r H N. split.
  - destruct out as [|[i m] out]; [reflexivity|]. pose proof (from_handlers _ _ _ i m H (or_introl eq_refl)) as F. rewrite N in F. destruct F.
  - destruct (reached _ _ _ H) as (items & pipe & Hin & _ & _ & _ & Hg). destruct items as [|[i m] items]; [exact Hin|].
    specialize (Hg i). rewrite N in Hg. cbn in Hg. rewrite String.eqb_refl in Hg. symmetry in Hg. apply app_eq_nil in Hg as [_ Hg]. discriminate.
Qed.
