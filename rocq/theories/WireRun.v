(* What the sockets deliver in a run. *)
From Coq Require Import Lia.
From Verif Require Import Base Bytes Containers Worker Multi Single Queue Handler Wire Spec SpecRun SpecOut SpecWire Provenance
  Messages Out WireFacts Demo.
Local Open Scope string_scope.
Local Open Scope list_scope.

Section WithConfig.
Context (o : oracle) (cfg : config).

Lemma sent_in key tr m : In m (sent_on key tr) -> exists tr1 e tr2, tr = tr1 ++ e :: tr2 /\ In m (ev_out e) /\ m_key m = key.
Proof.
  unfold sent_on. rewrite filter_In, in_flat_map, String.eqb_eq. intros ((e & He & Hm) & Hk).
  apply in_split in He. destruct He as (tr1 & tr2 & ->). eauto 10.
Qed.

Lemma paired_in cans ms can m : In (can, m) (paired cans ms) -> In m ms.
Proof. apply in_combine_r. Qed.

Theorem run_delivered k tr s key cans : run o cfg k tr s ->
  (key = "workers" -> k = KMulti \/ forall e j, In e tr -> adopts j e = false) ->
  (key = "monitor" -> forall e i, In e tr -> ev_in e <> Msg "workers" i ["progress"]) ->
  send_messages (paired cans (sent_on key tr)) None = (ideal (paired cans (sent_on key tr)), None).
Proof.
  intros HR Hw Hm. apply delivered. intros can m Hin. apply paired_in in Hin.
  destruct (sent_in _ _ _ Hin) as (tr1 & e & tr2 & -> & Ho & Hk). intros Hd.
  assert (He : In e (tr1 ++ e :: tr2)) by (rewrite in_app_iff; simpl; auto).
  destruct (proj1 (empty_iff _ _ _ _ _ _ _ HR m) (conj Ho Hd)) as [(-> & (j & Ha) & ->)|((i & Hi) & ->)].
  - simpl in Hk. destruct (Hw (eq_sym Hk)) as [?|Hno]; [discriminate|]. rewrite (Hno e j He) in Ha. discriminate.
  - simpl in Hk. exact (Hm (eq_sym Hk) e i He Hi).
Qed.

Lemma glued_prefix l ms ds : (forall m, In m l -> m_data m <> []) -> glued ms ds ->
  glued (l ++ ms) (map (fun m => (m_ident m, m_data m)) l ++ ds).
Proof.
  intros H HG. induction l as [|m l IH]; [exact HG|]. simpl.
  apply (gl_block [] m _ (m_ident m) []); [intros x []|apply H; left; reflexivity|reflexivity|].
  apply IH. intros x Hx. apply H. right. exact Hx.
Qed.

(* after an adoption the next message to a worker goes to the adopting worker, with the identity of
   its addressee in front *)
Theorem adoption_misdelivers tr1 e tr2 s j m rest : run o cfg KSingle (tr1 ++ e :: tr2) s ->
  (forall e' j', In e' tr1 -> adopts j' e' = false) -> adopts j e = true ->
  sent_on "workers" tr2 = m :: rest -> m_data m <> [] ->
  exists ds, fst (send_messages (map (fun m => (fun _ => true, m)) (sent_on "workers" (tr1 ++ e :: tr2))) None) =
    map (fun m => (m_ident m, m_data m)) (sent_on "workers" tr1) ++
    (m_ident (ev_in e), m_ident m :: m_data m) :: ds.
Proof.
  intros HR Hno Ha Hs Hm. destruct (glued_total rest) as (ds & HG). exists ds.
  apply glued_exact.
  assert (E : sent_on "workers" (tr1 ++ e :: tr2) =
    sent_on "workers" tr1 ++ [Msg "workers" (m_ident (ev_in e)) []] ++ m :: rest).
  { rewrite <- Hs. unfold sent_on. rewrite flat_map_app, filter_app. cbn [flat_map]. rewrite filter_app.
    rewrite (adoption_sends _ _ _ _ _ _ _ _ HR Ha eq_refl). reflexivity. }
  rewrite E. apply glued_prefix.
  - intros x Hx Hd. destruct (sent_in _ _ _ Hx) as (t1 & e1 & t2 & -> & Ho & Hk).
    rewrite <- app_assoc in HR. simpl in HR.
    destruct (proj1 (empty_iff _ _ _ _ _ _ _ HR x) (conj Ho Hd)) as [(_ & (j1 & Ha1) & _)|(_ & ->)].
    + rewrite (Hno e1 j1) in Ha1; [discriminate|]. rewrite in_app_iff. simpl. auto.
    + discriminate.
  - apply (gl_block [Msg "workers" (m_ident (ev_in e)) []] m rest _ [m_ident m]).
    + intros x [<-|[]]. reflexivity.
    + exact Hm.
    + reflexivity.
    + exact HG.
Qed.

End WithConfig.

(* a worker comes back with a job; then a job is submitted for another worker *)
Definition misdelivery_inputs : list msg :=
  [from_worker "A" ["init"; "g"]; from_worker "A" ["ping"]; from_worker "B" ["init"; "h"; ""; "current_job=old"];
   from_client "u" ["eval"; "x"; "hwgroup=g"; ""; "url"]; from_worker "A" ["ping"]].
