(* Sending and receiving over a ROUTER socket. *)
From Coq Require Import Lia.
From Verif Require Import Base Wire SpecWire.
Local Open Scope string_scope.
Local Open Scope list_scope.

Lemma send_data can d : forall to acc, d <> [] ->
  router_send_all can (data_frames d) (Some (to, acc)) =
  (match to with Some i => [(i, acc ++ d)] | None => [] end, None).
Proof.
  induction d as [|x [|y t] IH]; intros to acc Hd; [contradiction| |].
  - simpl. destruct to; reflexivity.
  - change (data_frames (x :: y :: t)) with (Frame x true :: data_frames (y :: t)). cbn [router_send_all router_send f_more f_bytes].
    rewrite IH by discriminate. destruct to; cbn [app]; rewrite <- ?app_assoc; reflexivity.
Qed.

Lemma send_all_app can fs1 fs2 r : router_send_all can (fs1 ++ fs2) r =
  let '(d1, r1) := router_send_all can fs1 r in
  let '(d2, r2) := router_send_all can fs2 r1 in (d1 ++ d2, r2).
Proof.
  revert r. induction fs1 as [|f t IH]; intros r; simpl.
  - destruct (router_send_all can fs2 r). reflexivity.
  - destruct (router_send can f r) as (d1, r1). rewrite IH. destruct (router_send_all can t r1) as (d2, r2).
    destruct (router_send_all can fs2 r2) as (d3, r3). rewrite app_assoc. reflexivity.
Qed.

Lemma send_one can m : m_data m <> [] ->
  send_message can m None = (if can (m_ident m) then [(m_ident m, m_data m)] else [], None).
Proof.
  intros H. unfold send_message, message_frames. cbn [router_send_all router_send f_more f_bytes].
  rewrite send_data by exact H. destruct (can (m_ident m)); reflexivity.
Qed.

Theorem delivered ms : (forall can m, In (can, m) ms -> m_data m <> []) -> send_messages ms None = (ideal ms, None).
Proof.
  induction ms as [|(can, m) t IH]; intros H; [reflexivity|]. cbn [send_messages ideal].
  rewrite send_one by (eapply H; left; reflexivity). rewrite IH by (intros; eapply H; right; eassumption). reflexivity.
Qed.

Theorem delivered_to i ms : (forall can m, In (can, m) ms -> m_data m <> [] /\ can i = true) ->
  arrives_at i (fst (send_messages ms None)) =
  map (fun p => m_data (snd p)) (filter (fun p => String.eqb (m_ident (snd p)) i) ms).
Proof.
  intros H. rewrite delivered by (intros can m Hm; apply (H can m Hm)). cbn [fst]. unfold arrives_at.
  induction ms as [|(can, m) t IH]; [reflexivity|]. cbn [ideal filter fst snd]. rewrite filter_app, map_app.
  rewrite IH by (intros c x Hx; apply (H c x); right; exact Hx).
  destruct (String.eqb_spec (m_ident m) i) as [E|E].
  - destruct (H can m (or_introl eq_refl)) as (_ & Hc). rewrite E, Hc. simpl. rewrite String.eqb_refl. reflexivity.
  - destruct (can (m_ident m)); simpl; [|reflexivity]. rewrite (proj2 (String.eqb_neq _ _) E). reflexivity.
Qed.

Lemma send_idents es : forall to acc, (forall m, In m es -> m_data m = []) ->
  send_messages (map (fun m => (fun _ => true, m)) es) (Some (to, acc)) = ([], Some (to, acc ++ map m_ident es)).
Proof.
  induction es as [|m t IH]; intros to acc H; cbn [map send_messages]; [rewrite app_nil_r; reflexivity|].
  unfold send_message, message_frames. rewrite (H m (or_introl eq_refl)). cbn [data_frames router_send_all router_send f_more f_bytes app].
  rewrite IH by (intros; apply H; right; assumption). rewrite <- app_assoc. reflexivity.
Qed.

Lemma send_messages_app l1 l2 r : send_messages (l1 ++ l2) r =
  let '(d1, r1) := send_messages l1 r in
  let '(d2, r2) := send_messages l2 r1 in (d1 ++ d2, r2).
Proof.
  revert r. induction l1 as [|(can, m) t IH]; intros r; simpl.
  - destruct (send_messages l2 r). reflexivity.
  - destruct (send_message can m r) as (d1, r1). rewrite IH. destruct (send_messages t r1) as (d2, r2).
    destruct (send_messages l2 r2) as (d3, r3). rewrite app_assoc. reflexivity.
Qed.

Theorem glued_exact ms ds : glued ms ds -> fst (send_messages (map (fun m => (fun _ => true, m)) ms) None) = ds.
Proof.
  induction 1 as [es He|es m ms i is ds He Hm Hi HG IH].
  - destruct es as [|e es]; [reflexivity|]. cbn [map send_messages]. unfold send_message, message_frames.
    rewrite (He e (or_introl eq_refl)). cbn [data_frames router_send_all router_send f_more f_bytes app].
    rewrite send_idents by (intros; apply He; right; assumption). reflexivity.
  - rewrite map_app, send_messages_app. cbn [map]. destruct es as [|e es].
    + cbn [map app] in *. injection Hi as <- <-. cbn [send_messages app]. rewrite send_one by exact Hm.
      destruct (send_messages _ None) as (d, r). cbn [fst] in *. rewrite <- IH. reflexivity.
    + cbn [map app] in Hi. injection Hi as <- <-. cbn [map send_messages]. unfold send_message at 1, message_frames.
      rewrite (He e (or_introl eq_refl)). cbn [data_frames router_send_all router_send f_more f_bytes app].
      rewrite send_idents by (intros; apply He; right; assumption). cbn [app].
      unfold send_message, message_frames. cbn [router_send_all router_send f_more f_bytes]. rewrite send_data by exact Hm. cbn [app].
      destruct (send_messages _ None) as (d, r). cbn [fst] in *. rewrite <- IH, map_app, <- !app_assoc. reflexivity.
Qed.

Theorem glued_total ms : exists ds, glued ms ds.
Proof.
  assert (H : forall n es, (forall m, In m es -> m_data m = []) -> forall ms, length ms < n -> exists ds, glued (es ++ ms) ds).
  { induction n as [|n IH]; intros es He ms0 Hl; [lia|]. destruct ms0 as [|m t].
    - exists []. rewrite app_nil_r. apply gl_end. exact He.
    - simpl in Hl. destruct (m_data m) as [|x d] eqn:Ed.
      + destruct (IH (es ++ [m])) with (ms := t) as (ds & Hd); [|lia|].
        * intros y Hy. apply in_app_iff in Hy. destruct Hy as [Hy|[<-|[]]]; auto.
        * rewrite <- app_assoc in Hd. exists ds. exact Hd.
      + destruct (IH [] ltac:(intros y []) t ltac:(lia)) as (ds & Hd). cbn [app] in Hd.
        destruct (map m_ident (es ++ [m])) as [|i is] eqn:Ei.
        * rewrite map_app in Ei. destruct (map m_ident es); discriminate.
        * eexists. eapply gl_block; eauto. rewrite Ed. discriminate. }
  destruct (H (S (length ms)) [] ltac:(intros y []) ms ltac:(lia)) as (ds & Hd). eauto.
Qed.

(* receiving *)
Lemma receive_multipart x l fs rest : multipart (x :: l) fs ->
  exists f t, fs = f :: t /\ f_bytes f = x /\ receive_data (f_more f) (t ++ rest) = Some (l, rest).
Proof.
  revert x fs. induction l as [|y l IH]; intros x fs H; inversion H; subst.
  - exists (Frame x false), []. repeat split. simpl. destruct rest; reflexivity.
  - inversion H3.
  - destruct (IH y fs0 H3) as (f & t & -> & Hf & Hr). exists (Frame x true), (f :: t). repeat split.
    cbn [f_more app receive_data]. rewrite Hr, Hf. reflexivity.
Qed.

Theorem received key ms fs rest : (forall m, In m ms -> m_key m = key) -> incoming ms fs ->
  receive_messages key (length ms) (fs ++ rest) = Some (ms, rest).
Proof.
  intros H Hi. induction Hi as [|m ms fs gs Hm Hi IH]; [reflexivity|]. cbn [length receive_messages].
  rewrite <- app_assoc. destruct (receive_multipart _ _ _ (gs ++ rest) Hm) as (f & t & -> & Hf & Hr).
  unfold receive_message. cbn [app]. rewrite Hr, Hf, IH by (intros; apply H; right; assumption).
  specialize (H m (or_introl eq_refl)). destruct m as [k i d]. cbn in H. subst k. reflexivity.
Qed.

Lemma receive_data_waits l : receive_data true (map (fun x => Frame x true) l) = None.
Proof. induction l as [|x l IH]; [reflexivity|]. cbn [map receive_data f_more]. rewrite IH. reflexivity. Qed.
Theorem receive_waits key l : receive_message key (map (fun x => Frame x true) l) = None.
Proof. destruct l as [|x l]; [reflexivity|]. cbn [map receive_message f_more]. rewrite receive_data_waits. reflexivity. Qed.

Lemma data_frames_multipart d : d <> [] -> multipart d (data_frames d).
Proof.
  induction d as [|x [|y t] IH]; intros Hd; [contradiction|constructor|].
  change (data_frames (x :: y :: t)) with (Frame x true :: data_frames (y :: t)). constructor. apply IH. discriminate.
Qed.
Theorem frames_incoming ms : (forall m, In m ms -> m_data m <> []) -> incoming ms (flat_map message_frames ms).
Proof.
  induction ms as [|m t IH]; intros H; [constructor|]. cbn [flat_map]. constructor.
  - constructor. apply data_frames_multipart. apply H. left. reflexivity.
  - apply IH. intros; apply H; right; assumption.
Qed.
