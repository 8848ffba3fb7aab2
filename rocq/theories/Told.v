(* What the frontend and the monitor hear of jobs that end (C66). *)
From Coq Require Import Lia Permutation.
From Verif Require Import Base Bytes Containers Worker Multi Single Queue Handler Logger LogHandler SpecText Spec SpecRun SpecMsg SpecQueue SpecPings
  SpecOutcome SpecJoin SpecTick SpecJournal SpecTold
  SpecOut SpecAgain Facts TextFacts QueueInv Atoms Conserve Messages Out Journal JournalFacts.
Local Open Scope string_scope.
Local Open Scope list_scope.

Lemma said_app a b : said (a ++ b) = said a ++ said b.
Proof. unfold said. apply flat_map_app. Qed.
Lemma said_say m l : said (Say m :: l) = m :: said l.
Proof. reflexivity. Qed.
Lemma said_line v f a l : said (Line v f a :: l) = said l.
Proof. reflexivity. Qed.
Lemma said_free s w : said (free s w) = [].
Proof. unfold free. destruct (current_of _ _); reflexivity. Qed.
Lemma said_sent w r : said (sent w r) = [handover w r].
Proof. reflexivity. Qed.
Lemma said_given w x : said (flat_map (sent w) (olist x)) = map (handover w) (olist x).
Proof. destruct x; reflexivity. Qed.
Lemma said_lines {A} v f (g : A -> list string) l : said (map (fun a => Line v f (g a)) l) = [].
Proof. induction l as [|a l IH]; [reflexivity|]. simpl map. rewrite said_line. exact IH. Qed.
Lemma said_says {A} (f : A -> msg) l : said (map (fun a => Say (f a)) l) = map f l.
Proof. induction l as [|a l IH]; [reflexivity|]. simpl map. rewrite said_say, IH. reflexivity. Qed.

Section Job.
Context (j : string).
Local Notation ok := (with_status j "OK").
Local Notation bad := (with_status j "FAILED").
Local Notation heard_failed := (told j "FAILED").

Lemma ok_of_ok j' : ok (ok_report j') = String.eqb j' j.
Proof. unfold with_status, starts_with, list_string_eqb, ok_report. simpl. rewrite !andb_true_r. reflexivity. Qed.
Lemma bad_of_ok j' : bad (ok_report j') = false.
Proof. unfold with_status, starts_with, list_string_eqb, ok_report. simpl. rewrite !andb_false_r. reflexivity. Qed.
Lemma ok_of_bad j' d : ok (failed_report j' d) = false.
Proof. unfold with_status, starts_with, list_string_eqb, failed_report. simpl. rewrite !andb_false_r. reflexivity. Qed.
Lemma bad_of_bad j' d : bad (failed_report j' d) = String.eqb j' j.
Proof. unfold with_status, starts_with, list_string_eqb, failed_report. simpl. rewrite !andb_true_r. reflexivity. Qed.
Lemma told_tell t t' j' : told j t (tell j' t') = String.eqb j' j && String.eqb t' t.
Proof. unfold told, msg_eqb, list_string_eqb, tell. simpl. rewrite andb_true_r. reflexivity. Qed.

(* neither heard by the frontend as a status nor by the monitor *)
Definition mute (m : msg) : Prop := ok m = false /\ bad m = false /\ forall t, told j t m = false.
Lemma mute_hand w r : mute (handover w r).
Proof. repeat split. Qed.
Lemma mute_client i d : mute (Msg "clients" i d).
Proof. repeat split. Qed.
Lemma mute_worker i d : mute (Msg "workers" i d).
Proof. repeat split. Qed.
Lemma mute_inits w : mute (two_inits w).
Proof. repeat split. Qed.

(* OK and FAILED statuses, FAILED and ABORTED words in a list of messages *)
Definition tally (l : list msg) : nat * nat * nat * nat :=
  (list_count ok l, list_count bad l, list_count heard_failed l, list_count (told j "ABORTED") l).
Definition plus4 (x y : nat * nat * nat * nat) : nat * nat * nat * nat :=
  let '(a, b, c, d) := x in let '(a', b', c', d') := y in (a + a', b + b', c + c', d + d').
Lemma tally_app l1 l2 : tally (l1 ++ l2) = plus4 (tally l1) (tally l2).
Proof. unfold tally. rewrite !list_count_app. reflexivity. Qed.
Lemma tally_mute m l : mute m -> tally (m :: l) = tally l.
Proof. intros (H1 & H2 & H3). unfold tally. rewrite !list_count_cons, H1, H2, !H3. reflexivity. Qed.
Definition b2n (b : bool) : nat := if b then 1 else 0.
Lemma tally_bad j' d l : tally (failed_report j' d :: l) = plus4 (0, b2n (String.eqb j' j), 0, 0) (tally l).
Proof.
  unfold tally. rewrite !list_count_cons, ok_of_bad, bad_of_bad. reflexivity.
Qed.
Lemma tally_ok j' l : tally (ok_report j' :: l) = plus4 (b2n (String.eqb j' j), 0, 0, 0) (tally l).
Proof. unfold tally. rewrite !list_count_cons, ok_of_ok, bad_of_ok. reflexivity. Qed.
Lemma tally_failed j' l : tally (tell j' "FAILED" :: l) = plus4 (0, 0, b2n (String.eqb j' j), 0) (tally l).
Proof.
  unfold tally. rewrite !list_count_cons, !told_tell. change (String.eqb "FAILED" "FAILED") with true. change (String.eqb "FAILED" "ABORTED") with false.
  rewrite andb_true_r, andb_false_r. reflexivity.
Qed.
Lemma tally_aborted j' l : tally (tell j' "ABORTED" :: l) = plus4 (0, 0, 0, b2n (String.eqb j' j)) (tally l).
Proof.
  unfold tally. rewrite !list_count_cons, !told_tell. change (String.eqb "ABORTED" "FAILED") with false. change (String.eqb "ABORTED" "ABORTED") with true.
  rewrite andb_true_r, andb_false_r. reflexivity.
Qed.
Lemma tally_hands w x : tally (map (handover w) (olist x)) = (0, 0, 0, 0).
Proof. destruct x; [simpl map; rewrite tally_mute by apply mute_hand|]; reflexivity. Qed.

Lemma rescued_tally cfg ws att m rs outs un m' : rescued cfg ws att m rs outs un m' ->
  exists n n', tally (said outs) = (0, n, n + list_count (job_is j) un, n').
Proof.
  induction 1; try destruct IHrescued as (n & n' & E).
  - exists 0, 0. reflexivity.
  - rewrite !said_say, tally_bad, tally_failed, E. simpl. eexists _, n'. rewrite <- Nat.add_assoc. reflexivity.
  - rewrite !said_say, tally_bad, tally_failed, E. simpl. eexists _, n'. rewrite <- Nat.add_assoc. reflexivity.
  - unfold tried_again. rewrite !said_line, said_say, said_line, tally_failed, E. simpl. rewrite list_count_cons.
    exists n, n'. unfold b2n. f_equal. f_equal. unfold job_is at 2. lia.
  - unfold tried_again. rewrite said_line, said_app, said_sent, said_say, tally_app, tally_aborted, E. simpl app.
    rewrite (tally_mute _ [] (mute_hand w r)). simpl. eauto.
  - unfold tried_again, waits. rewrite !said_line, said_say, tally_aborted, E. simpl. eauto.
Qed.

Lemma died_tally w un : tally (map (died_report w) un) = (0, list_count (job_is j) un, 0, 0).
Proof.
  induction un as [|r un IH]; [reflexivity|]. simpl map. unfold died_report at 1. rewrite tally_bad, IH, list_count_cons. reflexivity.
Qed.

Lemma expired_tally cfg rm ws att m l m' : expired cfg rm ws att m l m' -> exists n n', tally (said l) = (0, n, n, n').
Proof.
  induction 1 as [|w rm ws ws1 att m rs m1 att1 outs un m2 outs' m' _ _ _ HR _ _ (n & n' & IH)]; [exists 0, 0; reflexivity|].
  destruct (rescued_tally _ _ _ _ _ _ _ _ HR) as (n1 & n1' & E).
  rewrite said_line, !said_app, said_says, !tally_app, E, died_tally, IH. simpl. exists (n1 + list_count (job_is j) un + n), (n1' + n').
  do 3 (f_equal; try lia).
Qed.

(* ---- which event it is ---- *)

Lemma not_done st s i c rest outs s' : c <> "done" -> report_of st j (mkEvent s (Msg "workers" i (c :: rest)) outs s') = false.
Proof.
  intros H. apply String.eqb_neq in H. unfold report_of, credited, own_report, starts_with, list_string_eqb. simpl. rewrite H. simpl.
  rewrite andb_false_r. reflexivity.
Qed.
Lemma not_workers st s k i d outs s' : k <> "workers" -> report_of st j (mkEvent s (Msg k i d) outs s') = false.
Proof. intros H. apply String.eqb_neq in H. unfold report_of, credited, own_report. simpl. rewrite H. reflexivity. Qed.
Lemma done_is st st' s i w r rest outs s' : sender i s = Some w -> current_of (s_queue s) w = Some r ->
  report_of st j (mkEvent s (Msg "workers" i ("done" :: r_job r :: st' :: rest)) outs s') =
  String.eqb st' st && (String.eqb st "OK" || Nat.eqb (length rest) 1) && String.eqb (r_job r) j.
Proof.
  intros H1 H2. unfold report_of, credited, own_report. cbn [ev_in ev_pre m_ident m_key m_data]. fold (sender i s). rewrite H1.
  cbn [nth_error]. rewrite H2. unfold job_is. rewrite !String.eqb_refl. reflexivity.
Qed.
Lemma done_foreign st s i rest outs s' : sender i s = None -> report_of st j (mkEvent s (Msg "workers" i ("done" :: rest)) outs s') = false.
Proof. intros H. unfold report_of, credited, own_report. cbn [ev_in ev_pre m_ident m_key m_data]. fold (sender i s). rewrite H, !andb_false_r. reflexivity. Qed.
Lemma done_brief st s i rest outs s' : length rest < 2 -> report_of st j (mkEvent s (Msg "workers" i ("done" :: rest)) outs s') = false.
Proof.
  intros H. unfold report_of, credited. cbn [ev_in ev_pre m_ident m_key m_data].
  destruct rest as [|a [|b rest]]; [| |simpl in H; lia]; rewrite andb_false_r; reflexivity.
Qed.
Lemma done_wrong st s i w r j' rest outs s' : sender i s = Some w -> current_of (s_queue s) w = Some r -> j' <> r_job r ->
  report_of st j (mkEvent s (Msg "workers" i ("done" :: j' :: rest)) outs s') = false.
Proof.
  intros H1 H2 H3. unfold report_of, credited, own_report. cbn [ev_in ev_pre m_ident m_key m_data]. fold (sender i s). rewrite H1.
  cbn [nth_error]. rewrite H2. unfold job_is. assert (String.eqb (r_job r) j' = false) as -> by (apply String.eqb_neq; congruence).
  rewrite !andb_false_r. reflexivity.
Qed.

Lemma down_other s k i d outs s' : k <> "clients" -> turned_down j (mkEvent s (Msg k i d) outs s') = false.
Proof. intros H. apply String.eqb_neq in H. unfold turned_down, is_submission. simpl. rewrite H. reflexivity. Qed.
Lemma down_word s i c rest outs s' : c <> "eval" -> turned_down j (mkEvent s (Msg "clients" i (c :: rest)) outs s') = false.
Proof.
  intros H. apply String.eqb_neq in H. unfold turned_down, is_submission, starts_with, list_string_eqb. simpl. rewrite H. simpl.
  rewrite andb_false_r. reflexivity.
Qed.
Lemma down_quiet s m outs s' : Forall (fun x => m_key x <> "clients" \/ exists t, m_data x = [t] /\ t <> "reject") outs -> turned_down j (mkEvent s m outs s') = false.
Proof.
  intros H. unfold turned_down. cbn [ev_in ev_pre ev_out]. assert (existsb (fun m => String.eqb (m_key m) "clients" && starts_with ["reject"] (m_data m)) outs = false) as ->.
  - induction H as [|x l Hx _ IH]; [reflexivity|]. simpl. rewrite IH, orb_false_r. destruct Hx as [Hx|(t & Hx & Hn)].
    + apply String.eqb_neq in Hx. rewrite Hx. reflexivity.
    + rewrite Hx. apply String.eqb_neq in Hn. unfold starts_with, list_string_eqb. simpl. rewrite Hn. apply andb_false_r.
  - apply andb_false_r.
Qed.

Definition own_words (e : event) : nat * nat := if passes_on e then (0, 0) else
  (list_count heard_failed (ev_out e), list_count (told j "ABORTED") (ev_out e)).

Definition balanced (e : event) : Prop :=
  list_count ok (ev_out e) = b2n (report_of "OK" j e) /\
  fst (own_words e) + b2n (report_of "FAILED" j e) + b2n (report_of "INTERNAL_ERROR" j e && on_announced e) =
    list_count bad (ev_out e) + b2n (turned_down j e) /\
  (m_key (ev_in e) <> "timer" -> snd (own_words e) = 0).

Lemma balanced_by e a b c d : tally (ev_out e) = (a, b, c, d) -> passes_on e = false ->
  a = b2n (report_of "OK" j e) ->
  c + b2n (report_of "FAILED" j e) + b2n (report_of "INTERNAL_ERROR" j e && on_announced e) = b + b2n (turned_down j e) ->
  (m_key (ev_in e) <> "timer" -> d = 0) -> balanced e.
Proof.
  intros T P Ha Hb Hd. unfold tally in T. injection T as <- <- <- <-. unfold balanced, own_words. rewrite P. cbn [fst snd]. auto.
Qed.

Lemma passes_not s k i c rest outs s' : c <> "progress" -> passes_on (mkEvent s (Msg k i (c :: rest)) outs s') = false.
Proof.
  intros H. apply String.eqb_neq in H. unfold passes_on, is_command, starts_with, list_string_eqb. simpl. rewrite H. simpl. apply andb_false_r.
Qed.
Lemma passes_key s k i d outs s' : k <> "workers" -> passes_on (mkEvent s (Msg k i d) outs s') = false.
Proof. intros H. apply String.eqb_neq in H. unfold passes_on, is_command. simpl. rewrite H. reflexivity. Qed.

Lemma announced_is s i w r d outs s' : sender i s = Some w -> current_of (s_queue s) w = Some r ->
  on_announced (mkEvent s (Msg "workers" i d) outs s') = negb (r_complete r).
Proof. intros H1 H2. unfold on_announced. cbn [ev_in ev_pre m_ident]. rewrite H1, H2. reflexivity. Qed.

Ltac ne := let E := fresh in intros E; discriminate E.
Ltac calm := unfold tried_again, waits, received; cbn [map];
  repeat (rewrite said_line || rewrite said_say || rewrite said_app || rewrite said_sent || rewrite said_given || rewrite said_free || rewrite said_lines); cbn [app said flat_map].
Ltac hush := repeat (rewrite tally_mute by first [apply mute_client|apply mute_hand|apply mute_worker|apply mute_inits]).
Ltac count := cbn [ev_out]; calm; rewrite ?app_nil_r; hush.

Ltac quietly := repeat (apply Forall_cons; [first [left; ne|right; eexists; split; [reflexivity|ne]]|]); apply Forall_nil.

Theorem journal_balanced cfg s s' m l : journal cfg s s' m l -> balanced (mkEvent s m (said l) s').
Proof.
  destruct 1.
  (* clients *)
  1-8: eapply balanced_by; [count; try rewrite tally_failed; reflexivity
       |apply passes_key; ne|rewrite not_workers by ne; reflexivity| |reflexivity]; rewrite !not_workers by ne; cbn [andb b2n].
  1: { rewrite down_quiet; [reflexivity|]. calm. quietly. }
  1: { unfold turned_down. cbn [ev_pre]. rewrite H0, andb_false_r. reflexivity. }
  1: { rewrite down_quiet; [reflexivity|]. calm. quietly. }
  1: { rewrite down_quiet; [reflexivity|]. calm. quietly. }
  1: { unfold turned_down, is_submission. cbn [ev_pre ev_in ev_out m_key m_data]. rewrite H0. calm. unfold starts_with, list_string_eqb. simpl. rewrite ?andb_true_r, ?orb_false_r, ?orb_true_r, ?andb_true_r. change (list_count heard_failed []) with 0. lia. }
  1-3: rewrite down_word by ne; reflexivity.
  (* workers *)
  1: { eapply balanced_by; [count; reflexivity|apply passes_not; ne|rewrite not_done by ne; reflexivity| |reflexivity].
       rewrite !not_done by ne. rewrite down_other by ne. reflexivity. }
  1: { unfold balanced, own_words. rewrite !not_done by ne. rewrite down_other by ne. repeat split. }
  1-3: eapply balanced_by; [count; try (destruct (sender i s); cbn [olist map said flat_map app]; hush; try apply tally_hands); reflexivity
       |apply passes_not; ne|rewrite not_done by ne; reflexivity| |reflexivity];
       rewrite !not_done by ne; rewrite down_other by ne; reflexivity.
  1-3: eapply balanced_by; [count; reflexivity|apply passes_not; ne| | |reflexivity];
       first [rewrite !done_foreign by assumption|rewrite !done_brief by assumption|erewrite !done_wrong by eassumption]; try rewrite down_other by ne; reflexivity.
  all: try (eapply balanced_by; [count; rewrite ?tally_ok, ?tally_bad, ?tally_failed, ?tally_hands; reflexivity|apply passes_not; ne| | |reflexivity];
       erewrite !done_is by eassumption; try rewrite down_other by ne; try erewrite announced_is by eassumption).
  all: try match goal with H : length ?rest <> 1 |- _ => apply Nat.eqb_neq in H; rewrite ?H end.
  all: try match goal with H : r_complete _ = _ |- _ => rewrite ?H end.
  all: try (destruct (String.eqb (r_job r) j); reflexivity).
  - (* tried again *)
    eapply balanced_by; [cbn [ev_out]; calm; rewrite ?app_nil_r; destruct x; calm; hush; reflexivity|apply passes_not; ne| | |reflexivity];
      erewrite !done_is by eassumption; try rewrite down_other by ne; try erewrite announced_is by eassumption; [reflexivity|].
    rewrite H1. destruct (String.eqb (r_job r) j); reflexivity.
  - (* status *)
    assert (String.eqb st "OK" = false) as -> by (apply String.eqb_neq; intros ->; apply H1; simpl; auto). reflexivity.
  - assert (String.eqb st "FAILED" = false) as -> by (apply String.eqb_neq; intros ->; apply H1; simpl; auto).
    assert (String.eqb st "INTERNAL_ERROR" = false) as -> by (apply String.eqb_neq; intros ->; apply H1; simpl; auto). reflexivity.
  - (* timer *)
    destruct (expired_tally _ _ _ _ _ _ _ H1) as (n & n' & E). eapply balanced_by; [exact E|apply passes_key; ne|rewrite not_workers by ne; reflexivity| |].
    + rewrite !not_workers by ne. rewrite down_other by ne. cbn [andb b2n]. lia.
    + intros Hn. exfalso. apply Hn. reflexivity.
  - assert (c <> "done" /\ c <> "progress") as (N1 & N2) by (split; intros ->; apply H; simpl; auto).
    eapply balanced_by; [reflexivity|apply passes_not; exact N2|rewrite not_done by exact N1; reflexivity| |reflexivity].
    rewrite !not_done by exact N1. rewrite down_other by ne. reflexivity.
  - assert (c <> "eval") as N1 by (intros ->; apply H; simpl; auto).
    eapply balanced_by; [reflexivity|apply passes_key; ne|rewrite not_workers by ne; reflexivity| |reflexivity].
    rewrite !not_workers by ne. rewrite down_word by exact N1. reflexivity.
  - assert (k <> "workers" /\ k <> "clients") as (N1 & N2) by (split; intros ->; apply H; simpl; auto).
    eapply balanced_by; [reflexivity|apply passes_key; exact N1|rewrite not_workers by exact N1; reflexivity| |reflexivity].
    rewrite !not_workers by exact N1. rewrite down_other by exact N2. reflexivity.
Qed.

Lemma report_split out m : may_say m out -> is_report j out = ok out || bad out /\ (ok out && bad out = false).
Proof.
  assert (HN : forall d, notification d -> is_report j (Msg "status_notifier" "" d) = ok (Msg "status_notifier" "" d) || bad (Msg "status_notifier" "" d) /\
    (ok (Msg "status_notifier" "" d) && bad (Msg "status_notifier" "" d) = false)).
  { intros d [t|j'|j' t]; [split; reflexivity| |].
    - fold (ok_report j'). rewrite ok_of_ok, bad_of_ok, orb_false_r, andb_false_r. split; [|reflexivity].
      unfold is_report, starts_with, list_string_eqb, ok_report. simpl. rewrite andb_true_r. reflexivity.
    - fold (failed_report j' t). rewrite ok_of_bad, bad_of_bad. split; [|reflexivity].
      unfold is_report, starts_with, list_string_eqb, failed_report. simpl. rewrite andb_true_r. reflexivity. }
  destruct 1; try (split; reflexivity); try (apply HN; constructor).
  - destruct H as (w & j' & p & ->). split; reflexivity.
  - destruct H as [(w & j' & p & ->)|[(d & -> & Hd & _)|[(j' & ->)|(j' & ->)]]]; try (split; reflexivity). apply HN. exact Hd.
Qed.
Lemma reports_split l : (forall out, In out l -> is_report j out = ok out || bad out /\ (ok out && bad out = false)) ->
  list_count (is_report j) l = list_count ok l + list_count bad l.
Proof.
  induction l as [|x l IH]; intros H; [reflexivity|]. rewrite !list_count_cons, IH by (intros; apply H; simpl; auto).
  destruct (H x (or_introl eq_refl)) as (-> & E). destruct (ok x), (bad x); simpl in *; try discriminate; lia.
Qed.

(* the event is an INTERNAL_ERROR about a job the worker announced *)
Lemma count_snoc {A} (p : A -> bool) l a : list_count p (l ++ [a]) = list_count p l + b2n (p a).
Proof. rewrite list_count_app, list_count_cons. change (list_count p []) with 0. unfold b2n. destruct (p a); lia. Qed.
Lemma total_snoc {A} (f : A -> nat) l a : total f (l ++ [a]) = total f l + f a.
Proof. rewrite total_app. simpl. lia. Qed.

Theorem told_ledger o cfg k tr s : run o cfg k tr s ->
  reports j tr = results j "OK" tr + results j "FAILED" tr /\
  results j "OK" tr = list_count (report_of "OK" j) tr /\
  words j "FAILED" tr + list_count (report_of "FAILED" j) tr + list_count (fun e => report_of "INTERNAL_ERROR" j e && on_announced e) tr =
    results j "FAILED" tr + list_count (turned_down j) tr /\
  words j "ABORTED" tr = aborts j tr.
Proof.
  induction 1 as [|tr s m outs s' HR IH E]; [repeat split|]. destruct IH as (I1 & I2 & I3 & I4).
  pose proof (run_snoc _ _ _ _ _ _ _ _ HR E) as HR'. set (e := mkEvent s m outs s') in *.
  destruct (record_journal o cfg k tr e [] s' HR') as (HJ & Es).
  pose proof (journal_balanced cfg _ _ _ _ HJ) as HB. cbn [ev_pre ev_post ev_in] in HB. rewrite Es in HB. change (mkEvent (ev_pre e) (ev_in e) (ev_out e) (ev_post e)) with e in HB.
  destruct HB as (B1 & B2 & B3).
  assert (B0 : list_count (is_report j) (ev_out e) = list_count ok (ev_out e) + list_count bad (ev_out e)).
  { apply reports_split. intros out Ho. apply (report_split out (ev_in e)). exact (says_allowed o cfg k tr e [] s' HR' out Ho). }
  unfold reports, results, words, aborts in *. rewrite !total_snoc, !count_snoc. rewrite B0, B1.
  repeat split; [lia|lia| |].
  - assert ((if passes_on e then 0 else list_count heard_failed (ev_out e)) = fst (own_words e)) as -> by (unfold own_words; destruct (passes_on e); reflexivity). lia.
  - assert ((if passes_on e then 0 else list_count (told j "ABORTED") (ev_out e)) = snd (own_words e)) as -> by (unfold own_words; destruct (passes_on e); reflexivity).
    rewrite I4. f_equal. unfold aborts_of. destruct (String.eqb (m_key (ev_in e)) "timer") eqn:Ek.
    + unfold own_words, passes_on, is_command. apply String.eqb_eq in Ek. rewrite Ek. reflexivity.
    + apply B3. apply String.eqb_neq. exact Ek.
Qed.
End Job.
