(* What the broker does not look at: erasing payloads and metadata and renaming job identifiers and
   client identities commutes with the handler. *)
From Coq Require Import Lia.
From Verif Require Import Base Bytes Containers Worker Multi Single Queue Handler SpecText SpecBlind Spec Facts TextFacts HeaderFacts.
Local Open Scope string_scope.
Local Open Scope list_scope.

(* ---- maps keyed by workers ---- *)
Section Maps.
Context {A B : Type} (f : A -> B).
Definition pmf (m : pmap A) : pmap B := map (fun p => (fst p, f (snd p))) m.
Lemma pmf_mem w m : pm_mem w (pmf m) = pm_mem w m.
Proof. unfold pm_mem, pmf. induction m as [|(w', a) t IH]; simpl; [reflexivity|]. f_equal. exact IH. Qed.
Lemma pmf_find w m : pm_find w (pmf m) = option_map f (pm_find w m).
Proof. induction m as [|(w', a) t IH]; simpl; [reflexivity|]. destruct (same_worker w' w); [reflexivity|exact IH]. Qed.
Lemma pmf_insert w a m : pm_insert w (f a) (pmf m) = pmf (pm_insert w a m).
Proof. induction m as [|(w', a') t IH]; simpl; [reflexivity|]. destruct (addr_lt w w'); simpl; [reflexivity|]. f_equal. exact IH. Qed.
Lemma pmf_emplace w a m : pm_emplace w (f a) (pmf m) = pmf (pm_emplace w a m).
Proof. unfold pm_emplace. rewrite pmf_mem. destruct (pm_mem w m); [reflexivity|apply pmf_insert]. Qed.
Lemma pmf_set w a m : pm_set w (f a) (pmf m) = pmf (pm_set w a m).
Proof.
  unfold pm_set. rewrite pmf_mem. destruct (pm_mem w m); [|apply pmf_insert]. unfold pmf. rewrite !map_map.
  apply map_ext. intros (w', a'). simpl. destruct (same_worker w' w); reflexivity.
Qed.
Lemma pmf_index d w m : pm_index (f d) w (pmf m) = (f (fst (pm_index d w m)), pmf (snd (pm_index d w m))).
Proof.
  unfold pm_index. rewrite pmf_find. destruct (pm_find w m); simpl; [reflexivity|]. rewrite pmf_insert. reflexivity.
Qed.
Lemma pmf_erase w m : pm_erase w (pmf m) = pmf (pm_erase w m).
Proof.
  unfold pm_erase. induction m as [|(w', a) t IH]; simpl; [reflexivity|].
  destruct (same_worker w' w); simpl; [exact IH|]. f_equal. exact IH.
Qed.
End Maps.

Definition resmap {A B} (f : A -> B) (x : res A) : res B := match x with Val a => Val (f a) | Fail e => Fail e end.
Lemma rbind_map {A B C D} (f : A -> B) (g : C -> D) x (k : A -> res C) (k' : B -> res D) :
  (forall a, k' (f a) = resmap g (k a)) -> rbind (resmap f x) k' = resmap g (rbind x k).
Proof. intros H. destruct x; simpl; [apply H|reflexivity]. Qed.

(* ---- the queue managers ---- *)
Section Managers.
Context (ph : request -> request).
Hypothesis ph_id : forall r, r_id (ph r) = r_id r.
Hypothesis ph_headers : forall r, r_headers (ph r) = r_headers r.

Definition oph := option_map ph.
Definition ent (e : entry) : entry := mkEntry (ph (e_request e)) (e_arrived e).
Definition emulti (q : multi) : multi := mkMulti (pmf (map ph) (mq_queues q)) (pmf oph (mq_current q)) (mq_order q).
Definition esingle (q : single) : single :=
  mkSingle (map ent (sq_jobs q)) (pmf oph (sq_worker_jobs q)) (sq_workers q) (sq_clock q) (sq_sorts q).
Definition emgr (m : manager) : manager :=
  match m with QSingle q => QSingle (esingle q) | QMulti q => QMulti (emulti q) end.
Definition prod_map {A B C D} (f : A -> B) (g : C -> D) (p : A * C) : B * D := (f (fst p), g (snd p)).

(* multi *)
Lemma emulti_index_cur w q : pm_index None w (pmf oph q) = prod_map oph (pmf oph) (pm_index None w q).
Proof. exact (pmf_index oph None w q). Qed.
Lemma emulti_index_q w q : pm_index [] w (pmf (map ph) q) = prod_map (map ph) (pmf (map ph)) (pm_index [] w q).
Proof. exact (pmf_index (map ph) [] w q). Qed.
Lemma set_cur w r q : pm_set w (Some (ph r)) (pmf oph q) = pmf oph (pm_set w (Some r) q).
Proof. exact (pmf_set oph w (Some r) q). Qed.
Lemma set_none w q : pm_set w None (pmf oph q) = pmf oph (pm_set w None q).
Proof. exact (pmf_set oph w None q). Qed.

Lemma emulti_add w cur q : multi_add_worker w (oph cur) (emulti q) = prod_map oph emulti (multi_add_worker w cur q).
Proof.
  unfold multi_add_worker, prod_map, emulti. simpl. f_equal. f_equal.
  - apply (pmf_emplace (map ph) w []).
  - apply (pmf_emplace oph).
Qed.
Lemma emulti_terminated w q :
  multi_worker_terminated w (emulti q) = prod_map (map ph) emulti (multi_worker_terminated w q).
Proof.
  unfold multi_worker_terminated, emulti. simpl. rewrite emulti_index_cur, emulti_index_q.
  destruct (pm_index None w (mq_current q)) as (cur, c1). destruct (pm_index [] w (mq_queues q)) as (qd, q1).
  unfold prod_map. simpl. rewrite !pmf_erase, map_app. destruct cur; reflexivity.
Qed.
Lemma emulti_enqueue r q : multi_enqueue (ph r) (emulti q) = resmap (prod_map id emulti) (multi_enqueue r q).
Proof.
  unfold multi_enqueue. rewrite ph_headers. simpl mq_order.
  destruct (multi_select (r_headers r) (mq_order q)) as [[w|]|e]; simpl; [|reflexivity|reflexivity].
  rewrite emulti_index_cur. destruct (pm_index None w (mq_current q)) as (cur, c1). unfold prod_map at 1. simpl.
  destruct cur; simpl.
  - rewrite emulti_index_q. destruct (pm_index [] w (mq_queues q)) as (qd, q1). unfold prod_map at 1. simpl.
    unfold prod_map, emulti. simpl. rewrite <- pmf_set, map_app. reflexivity.
  - unfold prod_map, emulti. simpl. rewrite set_cur. reflexivity.
Qed.
Lemma emulti_take w q : multi_take w (emulti q) = prod_map oph emulti (multi_take w q).
Proof.
  unfold multi_take. simpl mq_queues. rewrite emulti_index_q. destruct (pm_index [] w (mq_queues q)) as (qd, q1).
  unfold prod_map at 1. simpl. destruct qd as [|r rest]; simpl; [reflexivity|].
  unfold prod_map, emulti. simpl. rewrite set_cur, pmf_set. reflexivity.
Qed.
Lemma emulti_finished w q : multi_worker_finished w (emulti q) = prod_map oph emulti (multi_worker_finished w q).
Proof.
  unfold multi_worker_finished. rewrite <- emulti_take. unfold emulti. simpl. rewrite set_none. reflexivity.
Qed.
Lemma emulti_current w q : multi_get_current w (emulti q) = prod_map oph emulti (multi_get_current w q).
Proof.
  unfold multi_get_current. simpl. rewrite emulti_index_cur. destruct (pm_index None w (mq_current q)). reflexivity.
Qed.
Lemma emulti_cancelled w q : multi_worker_cancelled w (emulti q) = prod_map oph emulti (multi_worker_cancelled w q).
Proof.
  unfold multi_worker_cancelled. simpl. rewrite emulti_index_cur. destruct (pm_index None w (mq_current q)) as (c, m).
  unfold prod_map, emulti. simpl. rewrite set_none. reflexivity.
Qed.
Lemma emulti_count q : multi_queued_count (emulti q) = multi_queued_count q.
Proof.
  unfold multi_queued_count, emulti. simpl. generalize 0. induction (mq_queues q) as [|(w, l) t IH]; intros n; simpl; [reflexivity|].
  rewrite map_length. apply IH.
Qed.

(* single *)
Lemma ent_le tie a b : entry_le tie (ent a) (ent b) = entry_le tie a b.
Proof. unfold entry_le, ent. simpl. rewrite !ph_id. reflexivity. Qed.
Lemma ent_insert tie e l : sort_insert tie (ent e) (map ent l) = map ent (sort_insert tie e l).
Proof. induction l as [|x t IH]; simpl; [reflexivity|]. rewrite ent_le. destruct (entry_le tie e x); simpl; [reflexivity|]. f_equal. exact IH. Qed.
Lemma ent_sort tie l : sort_entries tie (map ent l) = map ent (sort_entries tie l).
Proof. induction l as [|e t IH]; simpl; [reflexivity|]. rewrite IH. apply ent_insert. Qed.
Lemma ph_assignable r ws : assignable (ph r) ws = assignable r ws.
Proof. induction ws as [|w t IH]; simpl; [reflexivity|]. rewrite ph_headers, IH. reflexivity. Qed.
Lemma ph_select r m : select_idle (ph r) (pmf oph m) = select_idle r m.
Proof.
  induction m as [|(w, [x|]) t IH]; simpl; [reflexivity|exact IH|]. rewrite ph_headers, IH. reflexivity.
Qed.
Lemma ent_take w l : take_first w (map ent l) = resmap (option_map (prod_map ph (map ent))) (take_first w l).
Proof.
  induction l as [|e t IH]; simpl; [reflexivity|]. rewrite ph_headers.
  destruct (check_headers w (r_headers (e_request e))) as [[|]|x]; simpl; try reflexivity.
  rewrite IH. destruct (take_first w t) as [[(r, rest)|]|x]; reflexivity.
Qed.
Lemma ent_split ws l : split_jobs ws (map ent l) = resmap (prod_map (map ent) (map ph)) (split_jobs ws l).
Proof.
  induction l as [|e t IH]; simpl; [reflexivity|]. rewrite ph_assignable.
  destruct (assignable (e_request e) ws) as [b|x]; simpl; [|reflexivity]. rewrite IH.
  destruct (split_jobs ws t) as [(kept, gone)|x]; simpl; [|reflexivity]. destruct b; reflexivity.
Qed.

Section Single.
Context (o : oracle).
Lemma esingle_assign w q : single_assign o w (esingle q) = resmap (prod_map oph esingle) (single_assign o w q).
Proof.
  unfold single_assign. simpl. rewrite ent_sort, ent_take.
  destruct (take_first w (sort_entries (o_tie o (sq_sorts q)) (sq_jobs q))) as [[(r, rest)|]|x]; simpl; [| |reflexivity];
    unfold prod_map, esingle; simpl; rewrite set_none, ?set_cur; reflexivity.
Qed.
Lemma esingle_add w cur q : single_add_worker o w (oph cur) (esingle q) = resmap (prod_map oph esingle) (single_add_worker o w cur q).
Proof.
  unfold single_add_worker. destruct cur as [r|].
  - simpl. rewrite set_cur. reflexivity.
  - cbn [oph option_map]. rewrite <- esingle_assign. f_equal. unfold esingle. simpl. rewrite set_none. reflexivity.
Qed.
Lemma esingle_terminated w q :
  single_worker_terminated w (esingle q) = resmap (prod_map (map ph) esingle) (single_worker_terminated w q).
Proof.
  unfold single_worker_terminated. simpl. rewrite emulti_index_cur. destruct (pm_index None w (sq_worker_jobs q)) as (cur, wj).
  unfold prod_map at 1. simpl. rewrite ent_split. destruct (split_jobs (list_remove w (sq_workers q)) (sq_jobs q)) as [(kept, gone)|x]; simpl; [|reflexivity].
  unfold prod_map, esingle. simpl. rewrite pmf_erase, map_app. destruct cur; reflexivity.
Qed.
Lemma esingle_enqueue r q : single_enqueue o (ph r) (esingle q) = resmap (prod_map id esingle) (single_enqueue o r q).
Proof.
  unfold single_enqueue. simpl. rewrite ph_select. destruct (select_idle r (sq_worker_jobs q)) as [[w|]|x]; simpl; [| |reflexivity].
  - unfold prod_map, esingle. simpl. rewrite set_cur. reflexivity.
  - rewrite ph_assignable. destruct (assignable r (sq_workers q)) as [[|]|x]; simpl; [|reflexivity|reflexivity].
    unfold prod_map, esingle. simpl. rewrite map_app. reflexivity.
Qed.
Lemma esingle_current w q : single_get_current w (esingle q) = prod_map oph esingle (single_get_current w q).
Proof. unfold single_get_current. simpl. rewrite emulti_index_cur. destruct (pm_index None w (sq_worker_jobs q)). reflexivity. Qed.
Lemma esingle_cancelled w q : single_worker_cancelled w (esingle q) = prod_map oph esingle (single_worker_cancelled w q).
Proof.
  unfold single_worker_cancelled. simpl. rewrite emulti_index_cur. destruct (pm_index None w (sq_worker_jobs q)) as (c, m).
  unfold prod_map, esingle. simpl. rewrite set_none. reflexivity.
Qed.

(* both *)
Lemma lift_s {A B} (f : A -> B) x : lift_single (resmap (prod_map f esingle) x) = resmap (prod_map f emgr) (lift_single x).
Proof. destruct x as [(a, q)|e]; reflexivity. Qed.
Lemma lift_m {A B} (f : A -> B) x : lift_multi (prod_map f emulti x) = resmap (prod_map f emgr) (lift_multi x).
Proof. destruct x as (a, q). reflexivity. Qed.

Lemma eq_add w cur m : q_add_worker o w (oph cur) (emgr m) = resmap (prod_map oph emgr) (q_add_worker o w cur m).
Proof. destruct m as [q|q]; simpl; [rewrite esingle_add; apply lift_s|rewrite emulti_add; apply lift_m]. Qed.
Lemma eq_assign w m : q_assign_request o w (emgr m) = resmap (prod_map oph emgr) (q_assign_request o w m).
Proof. destruct m as [q|q]; simpl; [rewrite esingle_assign; apply lift_s|unfold multi_assign; rewrite emulti_take; apply lift_m]. Qed.
Lemma eq_finished w m : q_worker_finished o w (emgr m) = resmap (prod_map oph emgr) (q_worker_finished o w m).
Proof. destruct m as [q|q]; simpl; [unfold single_worker_finished; rewrite esingle_assign; apply lift_s|rewrite emulti_finished; apply lift_m]. Qed.
Lemma eq_terminated w m : q_worker_terminated w (emgr m) = resmap (prod_map (map ph) emgr) (q_worker_terminated w m).
Proof. destruct m as [q|q]; simpl; [rewrite esingle_terminated; apply lift_s|rewrite emulti_terminated; apply lift_m]. Qed.
Lemma eq_enqueue r m : q_enqueue_request o (ph r) (emgr m) = resmap (prod_map id emgr) (q_enqueue_request o r m).
Proof.
  destruct m as [q|q]; simpl; [rewrite esingle_enqueue; apply lift_s|]. rewrite emulti_enqueue.
  destruct (multi_enqueue r q) as [(a, q')|e]; reflexivity.
Qed.
Lemma eq_current w m : q_get_current w (emgr m) = resmap (prod_map oph emgr) (q_get_current w m).
Proof. destruct m as [q|q]; simpl; [rewrite esingle_current; apply (lift_s oph (Val _))|rewrite emulti_current; apply lift_m]. Qed.
Lemma eq_cancelled w m : q_worker_cancelled w (emgr m) = resmap (prod_map oph emgr) (q_worker_cancelled w m).
Proof. destruct m as [q|q]; simpl; [rewrite esingle_cancelled; apply (lift_s oph (Val _))|rewrite emulti_cancelled; apply lift_m]. Qed.
Lemma eq_count m : q_queued_count (emgr m) = q_queued_count m.
Proof. destruct m as [q|q]; simpl; [apply map_length|apply emulti_count]. Qed.
End Single.
End Managers.

(* ---- the handler ---- *)
Section Renaming.
Context (who ren : string -> string).
Hypothesis ren_inj : forall a b, ren a = ren b -> a = b.

Definition ef (d : list string) : list string :=
  match d with
  | a :: j :: _ => if String.eqb a "eval" then ["eval"; ren j] else d
  | _ => d
  end.
Definition er (r : request) : request :=
  mkRequest (r_id r) (r_headers r) [] (ren (r_job r)) (ef (r_frames r)) (r_complete r).
Definition es (s : state) : state := set_queue (emgr er (s_queue s)) s.
Definition estatus (d : list string) : list string :=
  match d with
  | a :: b :: c :: j :: t =>
      if String.eqb a "type" && String.eqb b "job-status" && String.eqb c "id" then a :: b :: c :: ren j :: t else d
  | _ => d
  end.
Definition bo (m : msg) : msg :=
  if String.eqb (m_key m) KEY_CLIENTS then Msg (m_key m) (who (m_ident m)) (m_data m)
  else if String.eqb (m_key m) KEY_WORKERS then Msg (m_key m) (m_ident m) (ef (m_data m))
  else if String.eqb (m_key m) KEY_STATUS_NOTIFIER then Msg (m_key m) (m_ident m) (estatus (m_data m))
  else if String.eqb (m_key m) KEY_MONITOR then
    Msg (m_key m) (m_ident m) (match m_data m with [] => [] | j :: t => ren j :: t end)
  else m.
Definition eres {A B} (f : A -> B) (x : list msg * (fault + A * state)) : list msg * (fault + B * state) :=
  (map bo (fst x), match snd x with inl e => inl e | inr (a, s) => inr (f a, es s) end).

Definition commutes {A B} (f : A -> B) (c : M A) (c' : M B) : Prop := forall s, c' (es s) = eres f (c s).

Lemma co_bind {A B C D} (f : A -> B) (g : C -> D) c c' k k' :
  commutes f c c' -> (forall a, commutes g (k a) (k' (f a))) -> commutes g (bind c k) (bind c' k').
Proof.
  intros Hc Hk s. unfold bind. rewrite (Hc s). unfold eres at 1. destruct (c s) as (o1, [e|(a, s1)]); simpl; [reflexivity|].
  rewrite (Hk a s1). unfold eres. destruct (k a s1) as (o2, r). simpl. rewrite map_app. reflexivity.
Qed.
Lemma co_ret {A B} (f : A -> B) a b : b = f a -> commutes f (ret a) (ret b).
Proof. intros -> s. reflexivity. Qed.
Lemma co_fail {A B} (f : A -> B) e : commutes f (fail e) (fail e).
Proof. intros s. reflexivity. Qed.
Lemma co_get : commutes es get get.
Proof. intros s. reflexivity. Qed.
Lemma co_modify f g : (forall s, g (es s) = es (f s)) -> commutes id (modify f) (modify g).
Proof. intros H s. unfold modify, eres. simpl. rewrite H. reflexivity. Qed.
Lemma co_respond m m' : m' = bo m -> commutes id (respond m) (respond m').
Proof. intros -> s. reflexivity. Qed.
Lemma co_lift {A} (x : res A) : commutes id (lift x) (lift x).
Proof. destruct x; [apply co_ret; reflexivity|apply co_fail]. Qed.
Lemma co_at v i : commutes id (at_ v i) (at_ v i).
Proof. unfold at_. destruct (nth_error v i); [apply co_ret; reflexivity|apply co_fail]. Qed.
Lemma co_queue {A B} (f : A -> B) c c' :
  (forall m, c' (emgr er m) = resmap (prod_map f (emgr er)) (c m)) -> commutes f (queue_call c) (queue_call c').
Proof.
  intros H s. unfold queue_call. change (s_queue (es s)) with (emgr er (s_queue s)). rewrite H.
  destruct (c (s_queue s)) as [(a, m)|e]; reflexivity.
Qed.
Lemma co_when (b : bool) c c' : commutes id c c' -> commutes id (when b c) (when b c').
Proof. destruct b; simpl; auto. intros _. apply co_ret. reflexivity. Qed.

Context (o : oracle) (cfg : config).

Lemma er_id r : r_id (er r) = r_id r. Proof. reflexivity. Qed.
Lemma er_headers r : r_headers (er r) = r_headers r. Proof. reflexivity. Qed.
Lemma co_enqueue r : commutes id (queue_call (q_enqueue_request o r)) (queue_call (q_enqueue_request o (er r))).
Proof. apply co_queue. intros m. apply (eq_enqueue er er_headers). Qed.
Lemma co_add w cur : commutes (option_map er) (queue_call (q_add_worker o w cur)) (queue_call (q_add_worker o w (option_map er cur))).
Proof. apply co_queue. intros m. apply (eq_add er er_id er_headers). Qed.
Lemma co_assign w : commutes (option_map er) (queue_call (q_assign_request o w)) (queue_call (q_assign_request o w)).
Proof. apply co_queue. intros m. apply (eq_assign er er_id er_headers). Qed.
Lemma co_finished w : commutes (option_map er) (queue_call (q_worker_finished o w)) (queue_call (q_worker_finished o w)).
Proof. apply co_queue. intros m. apply (eq_finished er er_id er_headers). Qed.
Lemma co_terminated w : commutes (map er) (queue_call (q_worker_terminated w)) (queue_call (q_worker_terminated w)).
Proof. apply co_queue. intros m. apply (eq_terminated er er_headers). Qed.
Lemma co_current w : commutes (option_map er) (queue_call (q_get_current w)) (queue_call (q_get_current w)).
Proof. apply co_queue. intros m. apply (eq_current er). Qed.
Lemma co_cancelled w : commutes (option_map er) (queue_call (q_worker_cancelled w)) (queue_call (q_worker_cancelled w)).
Proof. apply co_queue. intros m. apply (eq_cancelled er). Qed.

Lemma co_send w r : commutes id (send_request w r) (send_request w (er r)).
Proof. apply co_respond. reflexivity. Qed.
Lemma co_send_if w x : commutes id (send_if w x) (send_if w (option_map er x)).
Proof. destruct x; [apply co_send|apply co_ret; reflexivity]. Qed.
Lemma co_assigned x r : commutes id (match x with Some w => send_request w r | None => ret tt end)
  (match x with Some w => send_request w (er r) | None => ret tt end).
Proof. destruct x; [apply co_send|apply co_ret; reflexivity]. Qed.
Lemma co_monitor j t : commutes id (notify_monitor j t) (notify_monitor (ren j) t).
Proof. apply co_respond. reflexivity. Qed.
Lemma co_rejected j t : commutes id (rejected_job j t) (rejected_job (ren j) t).
Proof. apply co_respond. reflexivity. Qed.
Lemma co_failed j t : commutes id (job_failed j t) (job_failed (ren j) t).
Proof. apply co_respond. reflexivity. Qed.
Lemma co_done j : commutes id (job_done j) (job_done (ren j)).
Proof. apply co_respond. reflexivity. Qed.
Lemma co_error t : commutes id (notify_error t) (notify_error t).
Proof. apply co_respond. reflexivity. Qed.
Lemma co_incr k : commutes id (stat_incr k) (stat_incr k).
Proof. apply co_modify. reflexivity. Qed.
Lemma co_stat k v : commutes id (stat_set k v) (stat_set k v).
Proof. apply co_modify. reflexivity. Qed.
Lemma co_fails r : commutes id (failures_incr r) (failures_incr (er r)).
Proof. apply co_modify. reflexivity. Qed.

Ltac co := match goal with
  | |- commutes _ (bind (queue_call (q_get_current _)) _) _ => eapply co_bind; [apply co_current|intros []; cbn [option_map]]
  | |- commutes _ (bind (queue_call (q_worker_cancelled _)) _) _ => eapply co_bind; [apply co_cancelled|intros []; cbn [option_map]]
  | |- commutes _ (bind (queue_call (q_assign_request _ _)) _) _ => eapply co_bind; [apply co_assign|intros ?]
  | |- commutes _ (bind (queue_call (q_worker_finished _ _)) _) _ => eapply co_bind; [apply co_finished|intros ?]
  | |- commutes _ (bind (queue_call (q_enqueue_request _ _)) _) _ => eapply co_bind; [apply co_enqueue|intros ?]
  | |- commutes _ (bind get _) _ => eapply co_bind; [apply co_get|intros ?]
  | |- commutes _ (bind (ret _) _) _ => eapply co_bind; [apply (co_ret id); reflexivity|intros ?]
  | |- commutes _ (bind (send_if _ _) _) _ => eapply co_bind; [apply co_send_if|intros ?]
  | |- commutes _ (bind (notify_monitor _ _) _) _ => eapply co_bind; [apply co_monitor|intros ?]
  | |- commutes _ (bind (rejected_job _ _) _) _ => eapply co_bind; [apply co_rejected|intros ?]
  | |- commutes _ (bind (job_failed _ _) _) _ => eapply co_bind; [apply co_failed|intros ?]
  | |- commutes _ (bind (job_done _) _) _ => eapply co_bind; [apply co_done|intros ?]
  | |- commutes _ (bind (notify_error _) _) _ => eapply co_bind; [apply co_error|intros ?]
  | |- commutes _ (bind (stat_incr _) _) _ => eapply co_bind; [apply co_incr|intros ?]
  | |- commutes _ (bind (stat_set _ _) _) _ => eapply co_bind; [apply co_stat|intros ?]
  | |- commutes _ (bind (failures_incr _) _) _ => eapply co_bind; [apply co_fails|intros ?]
  | |- commutes _ (bind (modify _) _) _ => eapply co_bind; [apply co_modify; reflexivity|intros ?]
  | |- commutes _ (bind (respond _) _) _ => eapply co_bind; [apply co_respond; reflexivity|intros ?]
  | |- commutes _ (bind (at_ _ _) _) _ => eapply co_bind; [apply co_at|intros ?; cbv beta; match goal with |- context [id ?x] => change (id x) with x | _ => idtac end]
  | |- commutes _ (bind (lift _) _) _ => eapply co_bind; [apply co_lift|intros ?; cbv beta; match goal with |- context [id ?x] => change (id x) with x | _ => idtac end]
  | |- commutes _ (ret _) _ => apply co_ret; reflexivity
  | |- commutes _ (fail _) _ => apply co_fail
  | |- commutes _ (send_if _ _) _ => apply co_send_if
  | |- commutes _ (stat_set _ _) _ => apply co_stat
  | |- commutes _ (modify _) _ => apply co_modify; reflexivity
  | |- commutes _ (respond _) _ => apply co_respond; reflexivity
  | |- commutes _ (rejected_job _ _) _ => apply co_rejected
  | |- commutes _ (notify_monitor _ _) _ => apply co_monitor
  | |- commutes _ (stat_incr _) _ => apply co_incr
  end.

Lemma co_check r t : commutes id (check_failure_count cfg r t) (check_failure_count cfg (er r) t).
Proof.
  unfold check_failure_count. co. change (failures (er r) (es a)) with (failures r a).
  destruct (N.leb (c_max_failures cfg) (failures r a)); repeat co.
Qed.
Lemma co_reassign r : commutes id (reassign_request o r) (reassign_request o (er r)).
Proof.
  unfold reassign_request. co. change (id a) with a. destruct (negb (enqueued a)); simpl; [repeat co|].
  eapply co_bind; [apply co_assigned|intros ?]. co.
Qed.

Lemma co_scan time ws : commutes id (timer_scan cfg time ws) (timer_scan cfg time ws).
Proof.
  induction ws as [|w t IH]; simpl; [co|]. co. change (s_timers (es a)) with (s_timers a). change (s_live (es a)) with (s_live a).
  destruct (negb _); [co|]. destruct (Z.ltb _ _).
  - co. co. eapply co_bind; [exact IH|intros ?]. co.
  - co. exact IH.
Qed.
Lemma co_expire_requests rs : commutes (map er) (expire_requests o cfg rs) (expire_requests o cfg (map er rs)).
Proof.
  induction rs as [|r t IH]; simpl; [co|]. destruct (r_complete r); simpl.
  - eapply co_bind; [apply co_check|intros ok]. unfold id. destruct ok; simpl; [|exact IH].
    eapply co_bind; [apply co_reassign|intros d]. unfold id. destruct d; simpl.
    + co. exact IH.
    + eapply co_bind; [exact IH|intros rest]. co.
  - co. co. exact IH.
Qed.
Lemma co_reject_all d rs : commutes id (reject_all d rs) (reject_all d (map er rs)).
Proof. induction rs as [|r t IH]; simpl; [co|]. co. exact IH. Qed.
Lemma co_expire_workers ws : commutes id (expire_workers o cfg ws) (expire_workers o cfg ws).
Proof.
  induction ws as [|w t IH]; cbn [expire_workers]; [co|]. co. co.
  - co. eapply co_bind; [apply co_terminated|intros rs]. eapply co_bind; [apply co_expire_requests|intros un].
    eapply co_bind; [apply co_reject_all|intros ?]. exact IH.
  - co. eapply co_bind; [apply co_terminated|intros rs]. eapply co_bind; [apply co_expire_requests|intros un].
    eapply co_bind; [apply co_reject_all|intros ?]. exact IH.
Qed.
Lemma co_idle ws : commutes id (count_idle ws) (count_idle ws).
Proof. induction ws as [|w t IH]; cbn [count_idle]; [co|]. co; co; exact IH. Qed.
Lemma co_timer k i d : commutes id (process_timer o cfg (Msg k i d)) (process_timer o cfg (Msg k i d)).
Proof.
  unfold process_timer. simpl. destruct d as [|front t]; [co|]. co. co. eapply co_bind; [apply co_scan|intros rm].
  eapply co_bind; [apply co_expire_workers|intros ?]. co.
  change (s_queue (es a2)) with (emgr er (s_queue a2)). rewrite (eq_count er). co. co. co.
  eapply co_bind; [apply co_idle|intros ?]. co. co.
Qed.

Lemma co_worker_done i job t :
  commutes id (process_worker_done o cfg i ("done" :: job :: t)) (process_worker_done o cfg i ("done" :: ren job :: t)).
Proof.
  unfold process_worker_done. co. change (s_reg (es a)) with (s_reg a).
  destruct (find_worker_by_identity i (s_reg a)) as [w|]; [|co].
  change (length ("done" :: ren job :: t)) with (length ("done" :: job :: t)).
  destruct (Nat.ltb (length ("done" :: job :: t)) 3); [co|]. co.
  2: { eapply co_bind; [apply (co_ret ren); reflexivity|]. intros ?. co. }
  eapply co_bind; [apply (co_ret ren); reflexivity|]. intros j. simpl r_job.
  assert (E : String.eqb (ren j) (ren (r_job r)) = String.eqb j (r_job r)).
  { destruct (String.eqb_spec j (r_job r)) as [->|Hn]; [apply String.eqb_refl|]. apply String.eqb_neq. intros H. apply Hn. apply ren_inj. exact H. }
  rewrite E. destruct (negb (String.eqb j (r_job r))); [co|].
  change (at_ ("done" :: ren job :: t) 2) with (at_ ("done" :: job :: t) 2).
  change (at_ ("done" :: ren job :: t) 3) with (at_ ("done" :: job :: t) 3).
  co. destruct (String.eqb a0 "OK").
  { repeat co. }
  destruct (String.eqb a0 "INTERNAL_ERROR").
  { destruct (negb _); [co|]. co; [|co]. co. co. simpl r_complete. eapply co_bind with (f := id).
    - destruct (negb (r_complete r0)); [co|]. eapply co_bind; [apply co_check|intros ok]. unfold id. destruct ok.
      + eapply co_bind; [apply co_reassign|intros ?]. co.
      + co. co.
    - intros ?. repeat co. }
  destruct (String.eqb a0 "FAILED"); [|repeat co].
  destruct (negb _); [co|]. repeat co.
Qed.

(* init *)
Lemma extra_twin f f' : Forall2 (twin_entry ren) f f' -> forall d cur n,
  parse_init_extra f' d (option_map er cur) n =
  let '(d', cur', n') := parse_init_extra f d cur n in (d', option_map er cur', n').
Proof.
  induction 1 as [|x y t t' Hx Ht IH]; intros d cur n; [reflexivity|]. simpl. destruct Hx as [f f' v H1 H2|f k v H1 Hk].
  - apply split_header_spec in H1, H2. rewrite H1, H2. simpl. exact (IH d (Some (incomplete_request n v)) (S n)).
  - apply split_header_spec in H1. rewrite H1. destruct (String.eqb k "description"); [apply IH|].
    apply String.eqb_neq in Hk. rewrite Hk. apply IH.
Qed.
Lemma init_headers_block frames hdrs extra h : header_block frames hdrs extra ->
  parse_init_headers frames h = (fst (parse_init_headers hdrs h), "" :: extra).
Proof.
  intros (-> & Hn). revert h. induction hdrs as [|f t IH]; intros h; simpl; [reflexivity|].
  destruct (String.eqb_spec f "") as [->|_]; [simpl in Hn; tauto|]. destruct (split_header f) as (k, v).
  apply IH. simpl in Hn. tauto.
Qed.
Lemma init_headers_none frames h : ~ In "" frames -> parse_init_headers frames h = (fst (parse_init_headers frames h), []).
Proof.
  revert h. induction frames as [|f t IH]; intros h Hn; simpl; [reflexivity|].
  destruct (String.eqb_spec f "") as [->|_]; [simpl in Hn; tauto|]. destruct (split_header f) as (k, v).
  apply IH. simpl in Hn. tauto.
Qed.
Lemma co_init_gen i m m' h rest rest' :
  Nat.ltb (length m') 2 = Nat.ltb (length m) 2 -> nth_error m' 1 = nth_error m 1 ->
  parse_init_headers (skipn 2 m) [] = (h, rest) -> parse_init_headers (skipn 2 m') [] = (h, rest') ->
  (forall d cur n, parse_init_extra rest' d (option_map er cur) n =
     let '(d', cur', n') := parse_init_extra rest d cur n in (d', option_map er cur', n')) ->
  commutes id (process_worker_init o i m) (process_worker_init o i m').
Proof.
  intros Hl Hat H1 H2 Hx. unfold process_worker_init. rewrite Hl. destruct (Nat.ltb (length m) 2); [co|].
  unfold at_. rewrite Hat. destruct (nth_error m 1) as [hw|]; [|intros s; reflexivity].
  co. rewrite H1, H2. co. change (s_reg (es a0)) with (s_reg a0). change (s_next_w (es a0)) with (s_next_w a0).
  change (s_next_r (es a0)) with (s_next_r a0).
  match goal with |- commutes _ (match _ with Some w => if _ then _ else bind _ (fun _ => ?R) | None => _ end)
                             (match _ with Some w' => if _ then _ else bind _ (fun _ => ?R') | None => _ end) =>
    assert (HR : commutes id R R') end.
  { co. co. specialize (Hx "" None (s_next_r a0)). cbn [option_map] in Hx. rewrite Hx.
    destruct (parse_init_extra rest "" None (s_next_r a0)) as ((d', cur'), n'). co. co.
    eapply co_bind; [apply co_add|intros x]. repeat co. }
  destruct (find_worker_by_identity i (s_reg a0)) as [w|]; [|exact HR].
  destruct (headers_equal w h); [co|]. co. exact HR.
Qed.

(* eval *)
Lemma prefix_app p k : String.prefix p k = true <-> exists m, k = (p ++ m)%string.
Proof.
  revert k. induction p as [|a p IH]; intros k; simpl.
  - split; [exists k; reflexivity|destruct k; reflexivity].
  - destruct k as [|b k]; [split; [discriminate|intros (m & H); discriminate]|].
    simpl. destruct (ascii_dec a b) as [->|Hn].
    + split.
      * intros H. apply IH in H. destruct H as (m & ->). exists m. reflexivity.
      * intros (m & H). apply IH. exists m. congruence.
    + split; [discriminate|]. intros (m & H). congruence.
Qed.
Lemma prefix_before p c k v : no_char c p -> String.prefix p (k ++ String c v) = String.prefix p k.
Proof.
  revert k. induction p as [|a p IH]; intros k Hn.
  - destruct k; reflexivity.
  - destruct k as [|b k]; simpl.
    + destruct (ascii_dec a c) as [->|_]; [|reflexivity]. exfalso. apply (Hn "" p). reflexivity.
    + destruct (ascii_dec a b); [|reflexivity]. apply IH. intros x y ->. apply (Hn (String a x) y). reflexivity.
Qed.
Lemma meta_frame f k v : split_header f = (k, v) -> is_meta k = negb (not_meta f).
Proof.
  intros H. apply split_header_spec in H. unfold not_meta. rewrite negb_involutive.
  assert (E : is_meta k = String.prefix "meta." k).
  { apply eq_true_iff_eq. rewrite is_meta_spec, prefix_app. reflexivity. }
  rewrite E. destruct H as [k v Hk|f Hf]; [|reflexivity]. symmetry. apply prefix_before.
  intros a b H. do 5 (destruct a as [|? a]; [discriminate|injection H as _ H]). destruct a; discriminate.
Qed.
Lemma store_filter need : forall h md md', fst (store (filter not_meta need) h md') = fst (store need h md)
  /\ snd (store (filter not_meta need) h md') = md'.
Proof.
  induction need as [|f t IH]; intros h md md'; simpl; [auto|].
  destruct (split_header f) as (k, v) eqn:E. pose proof (meta_frame _ _ _ E) as Hm. destruct (not_meta f); simpl in Hm; rewrite Hm.
  - simpl. rewrite E, Hm. apply IH.
  - apply IH.
Qed.
Lemma co_ret_bind {A B C D} (g : C -> D) (a : A) (b : B) k k' : commutes g (k a) (k' b) -> commutes g (bind (ret a) k) (bind (ret b) k').
Proof. intros H s. specialize (H s). unfold bind, ret. rewrite H. destruct (k a s). reflexivity. Qed.
Lemma co_client i d : commutes id (respond (Msg KEY_CLIENTS i d)) (respond (Msg KEY_CLIENTS (who i) d)).
Proof. apply co_respond. reflexivity. Qed.

Definition nf_eval (need : list string) : list string := filter not_meta need ++ [""].
Lemma nf_block need : ~ In "" need -> header_block (nf_eval need) (filter not_meta need) [].
Proof. intros Hn. split; [reflexivity|]. rewrite filter_In. tauto. Qed.

Lemma co_eval i job frames need payload : header_block frames need payload ->
  commutes id (process_client_eval o i ("eval" :: job :: frames)) (process_client_eval o (who i) ("eval" :: ren job :: nf_eval need)).
Proof.
  intros Hb. unfold process_client_eval. eapply co_bind; [apply co_client|intros _].
  unfold at_. simpl nth_error. apply co_ret_bind. change (skipn 2 ("eval" :: job :: frames)) with frames.
  change (skipn 2 ("eval" :: ren job :: nf_eval need)) with (nf_eval need).
  rewrite (parse_eval_block _ _ _ [] [] Hb), (parse_eval_block _ _ _ [] [] (nf_block need (proj2 Hb))).
  destruct (store_filter need [] [] []) as (Eh & Em). destruct (store need [] []) as (h, md).
  destruct (store (filter not_meta need) [] []) as (h', md'). simpl in Eh, Em. subst h' md'.
  simpl lift. apply co_ret_bind. co. change (s_frozen (es a)) with (s_frozen a). change (s_next_r (es a)) with (s_next_r a).
  destruct (s_frozen a); [apply co_client|]. co.
  eapply co_bind; [apply (co_enqueue (complete_request (s_next_r a) h md job payload))|intros x].
  change (id x) with x. destruct (enqueued x).
  - eapply co_bind; [apply (co_assigned (assigned_to x) (complete_request (s_next_r a) h md job payload))|intros _]. apply co_client.
  - eapply co_bind; [apply co_client|intros _]. apply co_monitor.
Qed.
Lemma co_cut i job frames : ~ In "" frames ->
  commutes id (process_client_eval o i ("eval" :: job :: frames)) (process_client_eval o (who i) ("eval" :: ren job :: frames)).
Proof.
  intros Hn. unfold process_client_eval. eapply co_bind; [apply co_client|intros _].
  unfold at_. simpl nth_error. apply co_ret_bind. change (skipn 2 ("eval" :: job :: frames)) with frames.
  change (skipn 2 ("eval" :: ren job :: frames)) with frames.
  destruct frames as [|f t]; [intros s; reflexivity|]. rewrite parse_eval_no_block by (auto; discriminate).
  simpl lift. apply co_ret_bind. co.
Qed.

Lemma co_on_client i d d' : nth_error d' 0 = nth_error d 0 ->
  (forall c, nth_error d 0 = Some c -> commutes id (call_function (client_commands o) c i d) (call_function (client_commands o) c (who i) d')) ->
  commutes id (on_request o cfg (Msg "clients" i d)) (on_request o cfg (Msg "clients" (who i) d')).
Proof.
  intros Hn Hc. unfold on_request. simpl. co. eapply co_bind with (f := id); [|intros _; co].
  unfold at_. rewrite Hn. destruct (nth_error d 0) as [c|] eqn:E; [|intros s; reflexivity]. apply co_ret_bind. apply Hc. reflexivity.
Qed.
Lemma co_on_worker i d d' : nth_error d' 0 = nth_error d 0 ->
  (forall c, nth_error d 0 = Some c -> commutes id (call_function (worker_commands o cfg) c i d) (call_function (worker_commands o cfg) c i d')) ->
  commutes id (on_request o cfg (Msg "workers" i d)) (on_request o cfg (Msg "workers" i d')).
Proof.
  intros Hn Hc. unfold on_request. simpl. eapply co_bind with (f := id); [|intros _; co; co].
  co. change (s_reg (es a)) with (s_reg a). eapply co_bind with (f := id).
  - destruct (find_worker_by_identity i (s_reg a)); repeat co.
  - intros _. unfold at_. rewrite Hn. destruct (nth_error d 0) as [c|] eqn:E; [|intros s; reflexivity]. apply co_ret_bind. apply Hc. reflexivity.
Qed.
Lemma co_on_rest k i d : k <> "clients" -> k <> "workers" ->
  commutes id (on_request o cfg (Msg k i d)) (on_request o cfg (Msg k i d)).
Proof.
  intros H1 H2. apply String.eqb_neq in H1, H2. unfold on_request, KEY_CLIENTS, KEY_WORKERS. cbn [m_key]. rewrite H1, H2. cbn [when].
  co. co. apply co_when. apply co_timer.
Qed.

Lemma co_stats i i' m m' : i' = who i -> commutes id (process_client_get_runtime_stats i m) (process_client_get_runtime_stats i' m').
Proof. intros ->. unfold process_client_get_runtime_stats. co. apply co_client. Qed.

(* every message but a submission with a header block *)
Lemma co_twin m m' : twin who ren m m' ->
  (exists i job frames need payload, m = Msg "clients" i ("eval" :: job :: frames) /\ header_block frames need payload) \/
  commutes id (on_request o cfg m) (on_request o cfg m').
Proof.
  destruct 1 as [i job f f' need need' p p' Hb Hb' E|i job f Hn|i d Hd|i hw f f' hdrs x x' Hb Hb' Hx|i job t|i job t|i d Hi Hd Hp|k i d H1 H2].
  - left. exists i, job, f, need, p. auto.
  - right. apply co_on_client; [reflexivity|]. intros c [= <-]. apply co_cut. exact Hn.
  - right. apply co_on_client; [reflexivity|]. intros c Hc. destruct d as [|c' t]; [discriminate|]. injection Hc as ->.
    unfold call_function, client_commands, worker_commands. cbn [sm_find].
    destruct (String.eqb_spec "eval" c) as [<-|_].
    { destruct t as [|j t]; [|destruct (Hd j t); reflexivity]. unfold process_client_eval. eapply co_bind; [apply co_client|intros _]. intros s. reflexivity. }
    destruct (String.eqb "get-runtime-stats" c); [apply co_stats; reflexivity|].
    destruct (String.eqb "freeze" c); [unfold process_client_freeze; co; apply co_client|].
    destruct (String.eqb "unfreeze" c); [unfold process_client_unfreeze; co; apply co_client|]. co.
  - right. apply co_on_worker; [reflexivity|]. intros c [= <-]. change (call_function (worker_commands o cfg) "init") with (process_worker_init o).
    eapply co_init_gen.
    + reflexivity.
    + reflexivity.
    + change (skipn 2 ("init" :: hw :: f)) with f. apply init_headers_block. exact Hb.
    + change (skipn 2 ("init" :: hw :: f')) with f'. apply init_headers_block. exact Hb'.
    + intros d cur n. simpl. apply extra_twin. exact Hx.
  - right. apply co_on_worker; [reflexivity|]. intros c [= <-]. apply co_worker_done.
  - right. apply co_on_worker; [reflexivity|]. intros c [= <-]. apply co_respond. reflexivity.
  - right. apply co_on_worker; [reflexivity|]. intros c Hc. destruct d as [|c' t]; [discriminate|]. injection Hc as ->.
    unfold call_function, client_commands, worker_commands. cbn [sm_find].
    destruct (String.eqb_spec "init" c) as [<-|_].
    { destruct t as [|hw f]; [intros s; reflexivity|]. pose proof (init_headers_none f [] (Hi hw f eq_refl)) as Hh.
      eapply co_init_gen; [reflexivity|reflexivity|exact Hh|exact Hh|reflexivity]. }
    destruct (String.eqb_spec "done" c) as [<-|_].
    { destruct t as [|j t]; [|destruct (Hd j t); reflexivity]. unfold process_worker_done. co. change (s_reg (es a)) with (s_reg a).
      destruct (find_worker_by_identity i (s_reg a)); [|co]. cbn [length Nat.ltb Nat.leb]. co. }
    destruct (String.eqb "ping" c).
    { unfold process_worker_ping. co. change (s_reg (es a)) with (s_reg a). destruct (find_worker_by_identity i (s_reg a)); co. }
    destruct (String.eqb_spec "progress" c) as [<-|_]; [|co].
    destruct t as [|j t]; [|destruct (Hp j t); reflexivity]. apply co_respond. reflexivity.
  - right. apply co_on_rest; assumption.
Qed.
Lemma co_on_eval i job frames need payload : header_block frames need payload ->
  commutes id (on_request o cfg (Msg "clients" i ("eval" :: job :: frames)))
              (on_request o cfg (Msg "clients" (who i) ("eval" :: ren job :: nf_eval need))).
Proof. intros Hb. apply co_on_client; [reflexivity|]. intros c [= <-]. eapply co_eval. exact Hb. Qed.
End Renaming.

(* ---- the addressees ---- *)
Definition utters {A} (P : msg -> Prop) (c : M A) : Prop := forall s, Forall P (fst (c s)).
Lemma utters_bind {A B} P (c : M A) (k : A -> M B) : utters P c -> (forall a, utters P (k a)) -> utters P (bind c k).
Proof.
  intros Hc Hk s. unfold bind. specialize (Hc s). destruct (c s) as (o1, [e|(a, s1)]); [exact Hc|].
  specialize (Hk a s1). destruct (k a s1) as (o2, r). apply Forall_app. auto.
Qed.
Lemma utters_quiet {A} P (c : M A) : (forall s, fst (c s) = []) -> utters P c.
Proof. intros H s. rewrite H. constructor. Qed.
Lemma utters_respond (P : msg -> Prop) m : P m -> utters P (respond m).
Proof. intros H s. repeat constructor. exact H. Qed.
Lemma utters_queue {A} P (c : manager -> res (A * manager)) : utters P (queue_call c).
Proof. apply utters_quiet. intros s. unfold queue_call. destruct (c (s_queue s)) as [(a, m)|e]; reflexivity. Qed.
Lemma utters_at P v i : utters P (at_ v i).
Proof. apply utters_quiet. intros s. unfold at_. destruct (nth_error v i); reflexivity. Qed.
Lemma utters_lift {A} P (x : res A) : utters P (lift x).
Proof. apply utters_quiet. intros s. destruct x; reflexivity. Qed.

Ltac utter :=
  repeat (intros; cbv zeta; lazymatch goal with
  | |- utters _ (bind _ _) => apply utters_bind
  | |- utters _ (ret _) => apply utters_quiet; reflexivity
  | |- utters _ get => apply utters_quiet; reflexivity
  | |- utters _ (fail _) => apply utters_quiet; reflexivity
  | |- utters _ (modify _) => apply utters_quiet; reflexivity
  | |- utters _ (respond _) => apply utters_respond
  | |- utters _ (lift _) => apply utters_lift
  | |- utters _ (at_ _ _) => apply utters_at
  | |- utters _ (queue_call _) => apply utters_queue
  | |- utters _ (let '(_, _) := ?x in _) => destruct x
  | |- utters _ (match ?x with _ => _ end) => destruct x
  | |- utters _ _ => solve [auto]
  end).

Definition peer (m : msg) : Prop := In (m_key m) ["clients"; "workers"; "status_notifier"; "monitor"].

Section Peers.
Context (o : oracle) (cfg : config).
Ltac says := unfold check_failure_count, reassign_request, rejected_job, job_failed, job_done, notify_error, send_if,
  notify_monitor, send_request, failures_incr, stat_incr, stat_set; utter; try (unfold peer; simpl; tauto).
Lemma says_requests rs : utters peer (expire_requests o cfg rs).
Proof. induction rs; cbn [expire_requests]; says. Qed.
Lemma says_reject d rs : utters peer (reject_all d rs).
Proof. induction rs; cbn [reject_all]; says. Qed.
Lemma says_workers ws : utters peer (expire_workers o cfg ws).
Proof. pose proof says_requests. pose proof says_reject. induction ws; cbn [expire_workers]; says. Qed.
Lemma says_scan t ws : utters peer (timer_scan cfg t ws).
Proof. induction ws; cbn [timer_scan]; says. Qed.
Lemma says_idle ws : utters peer (count_idle ws).
Proof. induction ws; cbn [count_idle]; says. Qed.
Lemma says_timer m : utters peer (process_timer o cfg m).
Proof. pose proof says_workers. pose proof says_scan. pose proof says_idle. unfold process_timer. says. Qed.
Lemma says_eval i m : utters peer (process_client_eval o i m).
Proof. unfold process_client_eval. says. Qed.
Lemma says_init i m : utters peer (process_worker_init o i m).
Proof. unfold process_worker_init. says. Qed.
Lemma says_done i m : utters peer (process_worker_done o cfg i m).
Proof. unfold process_worker_done. says. Qed.
Lemma says_call l c i m : Forall (fun p => forall i m, utters peer (snd p i m)) l -> utters peer (call_function l c i m).
Proof.
  intros H. unfold call_function. induction H as [|(k, f) t Hf Ht IH]; cbn [sm_find]; [says|].
  destruct (String.eqb k c); [apply Hf|exact IH].
Qed.
Lemma says_request m : utters peer (on_request o cfg m).
Proof.
  pose proof says_timer. pose proof says_eval. pose proof says_init. pose proof says_done.
  assert (H3 : forall c i d, utters peer (call_function (client_commands o) c i d)).
  { intros c i d. apply says_call. repeat apply Forall_cons; try apply Forall_nil; cbn [snd]; auto; intros;
      unfold process_client_get_runtime_stats, process_client_freeze, process_client_unfreeze; says. }
  assert (H4 : forall c i d, utters peer (call_function (worker_commands o cfg) c i d)).
  { intros c i d. apply says_call. repeat apply Forall_cons; try apply Forall_nil; cbn [snd]; auto; intros;
      unfold process_worker_ping, process_worker_progress; says. }
  unfold on_request, when. utter.
Qed.
End Peers.

(* ---- twins ---- *)
Definition same (x : string) : string := x.

Section Twins.
Context (who ren : string -> string).
Hypothesis ren_inj : forall a b, ren a = ren b -> a = b.
Context (o : oracle) (cfg : config).

Lemma twin_self m m' : twin who ren m m' -> twin same same m' m'.
Proof.
  destruct 1 as [i job f f' need need' p p' Hb Hb' E|i job f Hn|i d Hd|i hw f f' hdrs x x' Hb Hb' Hx|i job t|i job t|i d Hi Hd Hp|k i d H1 H2].
  - exact (tw_eval same same (who i) (ren job) f' f' need' need' p' p' Hb' Hb' eq_refl).
  - exact (tw_cut same same (who i) (ren job) f Hn).
  - exact (tw_client same same (who i) d Hd).
  - apply (tw_init same same i hw f' f' hdrs x' x' Hb' Hb'). clear - Hx. induction Hx as [|a b t t' H Ht IH]; constructor; [|exact IH].
    destruct H as [f f' v H1 H2|f k v H1 Hk]; [exact (te_job same f' f' (ren v) H2 H2)|eapply te_other; eassumption].
  - exact (tw_done same same i (ren job) t).
  - exact (tw_progress same same i (ren job) t).
  - exact (tw_worker same same i d Hi Hd Hp).
  - exact (tw_rest same same k i d H1 H2).
Qed.

Definition alike (s s' : state) : Prop := es ren s = es same s'.

Lemma twin_step m m' s s' : twin who ren m m' -> alike s s' ->
  eres who ren (@id unit) (on_request o cfg m s) = eres same same (@id unit) (on_request o cfg m' s').
Proof.
  intros Ht Ha. destruct (co_twin who ren ren_inj o cfg m m' Ht) as [(i & job & f & need & p & -> & Hb)|Hc].
  - inversion Ht as [i0 job0 f0 f' need0 need' p0 p' Hb0 Hb' E| | | | | | |]; subst.
    + destruct (header_block_fun _ _ _ _ _ Hb0 Hb) as (-> & ->).
      rewrite <- (co_on_eval who ren o cfg i job f need p Hb s).
      rewrite <- (co_on_eval same same o cfg (who i) (ren job) f' need' p' Hb' s').
      unfold alike in Ha. rewrite Ha. unfold nf_eval. rewrite E. reflexivity.
    + destruct Hb as (-> & _). exfalso. match goal with H : ~ In _ _ |- _ => apply H end. apply in_or_app. right. left. reflexivity.
    + exfalso. match goal with H : forall job frames, _ <> _ |- _ => apply (H job f); reflexivity end.
    + congruence.
  - destruct (co_twin same same (fun a b H => H) o cfg m' m' (twin_self _ _ Ht)) as [(i & job & f & need & p & -> & Hb)|Hc'].
    + inversion Ht as [i0 job0 f0 f' need0 need' p0 p' Hb0 Hb' E| | | | | | |]; subst.
      * destruct (header_block_fun _ _ _ _ _ Hb' Hb) as (-> & ->).
        rewrite <- (co_on_eval who ren o cfg i0 job0 f0 need0 p0 Hb0 s).
        rewrite <- (co_on_eval same same o cfg (who i0) (ren job0) f need p Hb s').
        unfold alike in Ha. rewrite Ha. unfold nf_eval. rewrite E. reflexivity.
      * destruct Hb as (-> & _). exfalso. match goal with H : ~ In _ _ |- _ => apply H end. apply in_or_app. right. left. reflexivity.
      * exfalso. match goal with H : forall job frames, _ <> _ |- _ => apply (H job f); reflexivity end.
      * congruence.
    + rewrite <- (Hc s), <- (Hc' s'). unfold alike in Ha. rewrite Ha. reflexivity.
Qed.

Lemma ef_cases r d : (exists j p, d = "eval" :: j :: p /\ ef r d = ["eval"; r j]) \/
  ((forall j p, d <> "eval" :: j :: p) /\ ef r d = d).
Proof.
  destruct d as [|a [|j p]]; [right; split; [discriminate|reflexivity]|right; split; [discriminate|reflexivity]|].
  simpl. destruct (String.eqb_spec a "eval") as [->|Hn]; [left; eauto|right; split; congruence].
Qed.
Lemma estatus_cases r d : (exists j t, d = "type" :: "job-status" :: "id" :: j :: t /\ estatus r d = "type" :: "job-status" :: "id" :: r j :: t) \/
  ((forall j t, d <> "type" :: "job-status" :: "id" :: j :: t) /\ estatus r d = d).
Proof.
  destruct d as [|a [|b [|c [|j t]]]]; try (right; split; [discriminate|reflexivity]).
  simpl. destruct (String.eqb_spec a "type") as [->|Hn]; [|right; split; [congruence|reflexivity]].
  destruct (String.eqb_spec b "job-status") as [->|Hn]; [|right; split; [congruence|reflexivity]].
  destruct (String.eqb_spec c "id") as [->|Hn]; [left; eauto|right; split; [congruence|reflexivity]].
Qed.
Lemma bo_key w r m : m_key (bo w r m) = m_key m.
Proof. unfold bo. repeat (destruct (String.eqb _ _); try reflexivity). Qed.

Lemma twin_outs x y : bo who ren x = bo same same y -> peer x -> twin_out who ren x y.
Proof.
  intros H Hp. assert (Hk : m_key x = m_key y) by (rewrite <- (bo_key who ren x), H; apply bo_key).
  destruct x as (k, i, d), y as (k', i', d'). simpl in Hk. subst k'. destruct Hp as [Hp|[Hp|[Hp|[Hp|[]]]]]; simpl in Hp; subst k; unfold bo in H; simpl in H.
  - injection H as Hi Hd. unfold same in Hi. subst. constructor.
  - injection H as Hi Hd. subst i'.
    destruct (ef_cases ren d) as [(j & p & -> & E)|(Hn & E)], (ef_cases same d') as [(j' & p' & -> & E')|(Hn' & E')]; rewrite E, E' in Hd.
    + change (same j') with j' in Hd. injection Hd as <-. constructor.
    + exfalso. eapply Hn'. symmetry. exact Hd.
    + exfalso. eapply Hn. exact Hd.
    + subst d'. constructor. exact Hn.
  - injection H as Hi Hd. subst i'.
    destruct (estatus_cases ren d) as [(j & p & -> & E)|(Hn & E)], (estatus_cases same d') as [(j' & p' & -> & E')|(Hn' & E')]; rewrite E, E' in Hd.
    + change (same j') with j' in Hd. injection Hd as <- <-. constructor.
    + exfalso. eapply Hn'. symmetry. exact Hd.
    + exfalso. eapply Hn. exact Hd.
    + subst d'. constructor. exact Hn.
  - injection H as Hi Hd. subst i'. destruct d as [|j t], d' as [|j' t']; try discriminate; [constructor|].
    change (same j') with j' in Hd. injection Hd as <- <-. constructor.
Qed.
Lemma twin_outs_all l : forall l', map (bo who ren) l = map (bo same same) l' -> Forall peer l -> Forall2 (twin_out who ren) l l'.
Proof.
  induction l as [|x t IH]; intros [|y t'] H Hp; try discriminate; [constructor|]. injection H as Hx Ht. inversion Hp. subst.
  constructor; [apply twin_outs; assumption|apply IH; assumption].
Qed.

Lemma twin_event m m' s s' outs r : twin who ren m m' -> alike s s' -> on_request o cfg m s = (outs, r) ->
  exists outs' r', on_request o cfg m' s' = (outs', r') /\ Forall2 (twin_out who ren) outs outs' /\
  match r, r' with inl f, inl f' => f = f' | inr (_, s1), inr (_, s1') => alike s1 s1' | _, _ => False end.
Proof.
  intros Ht Ha H. pose proof (twin_step m m' s s' Ht Ha) as E. pose proof (says_request o cfg m s) as Hp. rewrite H in E, Hp.
  destruct (on_request o cfg m' s') as (outs', r'). exists outs', r'. split; [reflexivity|].
  unfold eres in E. simpl in E, Hp. injection E as E1 E2. split; [apply twin_outs_all; assumption|].
  destruct r as [f|(a, s1)], r' as [f'|(a', s1')]; try discriminate; [injection E2; auto|].
  unfold alike. exact (f_equal (fun x : fault + unit * state => match x with inr (_, z) => z | inl _ => es ren s1 end) E2).
Qed.

Lemma twin_run k tr s : run o cfg k tr s -> forall ms, Forall2 (twin who ren) (map ev_in tr) ms ->
  exists tr' s', run o cfg k tr' s' /\ map ev_in tr' = ms /\ alike s s' /\
  Forall2 (Forall2 (twin_out who ren)) (map ev_out tr) (map ev_out tr').
Proof.
  induction 1 as [|tr s m outs s1 HR IH Hs]; intros ms Hm.
  - inversion Hm. subst. exists [], (init_state (empty_manager k)). split; [constructor|]. split; [reflexivity|].
    split; [destruct k; reflexivity|constructor].
  - rewrite map_app in Hm. apply Forall2_app_inv_l in Hm. destruct Hm as (ms1 & ms2 & H1 & H2 & ->). simpl in H2.
    inversion H2 as [|? m' ? ? Ht Hnil]. subst. inversion Hnil. subst.
    destruct (IH ms1 H1) as (tr' & s' & HR' & E & Ha & Ho). destruct (twin_event _ _ _ _ _ _ Ht Ha Hs) as (outs' & r' & Hs' & Ho' & Hr).
    destruct r' as [f|([], s1')]; [destruct Hr|]. exists (tr' ++ [mkEvent s' m' outs' s1']), s1'.
    split; [econstructor; eassumption|]. rewrite !map_app, E. split; [reflexivity|]. split; [exact Hr|].
    apply Forall2_app; [exact Ho|]. simpl. auto.
Qed.

Lemma run_inputs k tr s : run o cfg k tr s -> forall tr' s', run o cfg k tr' s' -> map ev_in tr' = map ev_in tr -> tr' = tr /\ s' = s.
Proof.
  induction 1 as [|tr s m outs s1 HR IH Hs]; intros tr' s' H' E.
  - destruct H' as [|tr' ? ? ? ? ?]; [auto|]. rewrite map_app in E. destruct (map ev_in tr'); discriminate.
  - destruct H' as [|tr' s2 m' outs' s3 HR' Hs']; [rewrite map_app in E; destruct (map ev_in tr); discriminate|].
    rewrite !map_app in E. simpl in E. apply app_inj_tail in E. destruct E as (E & ->).
    destruct (IH _ _ HR' E) as (-> & ->). rewrite Hs in Hs'. injection Hs' as <- <-. auto.
Qed.

Theorem blind k tr s : run o cfg k tr s -> forall ms, Forall2 (twin who ren) (map ev_in tr) ms ->
  exists tr' s', run o cfg k tr' s' /\ map ev_in tr' = ms /\ Forall2 (Forall2 (twin_out who ren)) (map ev_out tr) (map ev_out tr').
Proof. intros H ms Hm. destruct (twin_run k tr s H ms Hm) as (tr' & s' & H1 & H2 & _ & H3). eauto. Qed.

Theorem blind_crash k tr s tr' s' m m' outs f : run o cfg k tr s -> run o cfg k tr' s' ->
  Forall2 (twin who ren) (map ev_in tr) (map ev_in tr') -> twin who ren m m' -> crashes o cfg s m outs f ->
  exists outs', crashes o cfg s' m' outs' f /\ Forall2 (twin_out who ren) outs outs'.
Proof.
  intros H H' Hm Ht Hc. destruct (twin_run k tr s H _ Hm) as (tr2 & s2 & H2 & E & Ha & _).
  destruct (run_inputs _ _ _ H' _ _ H2 E) as (-> & ->).
  destruct (twin_event _ _ _ _ _ _ Ht Ha Hc) as (outs' & r' & Hs' & Ho' & Hr).
  destruct r' as [f'|]; [|destruct Hr]. subst f'. exists outs'. auto.
Qed.
End Twins.

(* for the examples *)
Lemma no_eq (s : string) : find_char "=" s = None -> no_char "=" s.
Proof.
  induction s as [|c s IH]; intros H a b E; [destruct a; discriminate|]. simpl in H. destruct (Ascii.eqb_spec c "=") as [->|Hn]; [discriminate|].
  destruct a as [|c' a]; [injection E; intros; subst; apply Hn; reflexivity|]. injection E as -> E.
  destruct (find_char "=" s); [discriminate|]. exact (IH eq_refl a b E).
Qed.
