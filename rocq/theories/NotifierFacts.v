(* Facts about the notifier. *)
From Coq Require Import Lia Sorted.
From Verif Require Import Base Bytes Containers SpecText TextFacts HeaderFacts OrderFacts HexFacts Handler Spec SpecRun SpecOut Out Notifier SpecHttp.
Local Open Scope string_scope.
Local Open Scope list_scope.

(* ---- the query text ---- *)

Lemma length_pos s : Nat.ltb 0 (String.length s) = negb (String.eqb s "").
Proof. destruct s; reflexivity. Qed.

Lemma pair_nonempty k v : (k ++ "=" ++ v)%string <> "".
Proof. destruct k; discriminate. Qed.

Lemma app_nonempty a b : a <> "" -> (a ++ b)%string <> "".
Proof. destruct a; [contradiction|discriminate]. Qed.

Lemma query_acc q : forall acc, acc <> "" ->
  fold_left query_step q acc = (acc ++ match q with [] => "" | _ => "&" ++ query_text q end)%string.
Proof.
  induction q as [|(k, v) q IH]; intros acc Ha; simpl; [rewrite append_nil_r; reflexivity|].
  unfold query_step at 2. rewrite length_pos. destruct (String.eqb_spec acc "") as [E|_]; [contradiction|]. cbn [negb fst snd].
  rewrite IH.
  - rewrite !append_assoc_s. f_equal. f_equal. unfold query_text. simpl. destruct q as [|p q]; simpl.
    + rewrite !append_nil_r. reflexivity.
    + repeat (cbn [append] || rewrite append_assoc_s). reflexivity.
  - apply app_nonempty. apply app_nonempty. exact Ha.
Qed.

Lemma query_spec q : get_http_query q = query_text q.
Proof.
  unfold get_http_query. destruct q as [|(k, v) q]; [reflexivity|]. cbn [fold_left].
  unfold query_step at 2. cbn [String.length Nat.ltb Nat.leb fst snd append].
  rewrite query_acc by apply pair_nonempty. unfold query_text. simpl. destruct q as [|p q]; simpl; [rewrite append_nil_r; reflexivity|].
  reflexivity.
Qed.

(* ---- the parameter map ---- *)

Definition increasing (q : smap string) : Prop := StronglySorted (fun a b => String.ltb (fst a) (fst b) = true) q.

Lemma insert_in {A} k (v : A) m x : In x (sm_insert k v m) <-> x = (k, v) \/ In x m.
Proof.
  induction m as [|(k', v') m IH]; simpl; [intuition congruence|].
  destruct (String.ltb k k'); simpl; [intuition congruence|]. rewrite IH. intuition congruence.
Qed.

Lemma insert_increasing k (v : string) m : increasing m -> sm_mem k m = false -> increasing (sm_insert k v m).
Proof.
  unfold increasing. induction m as [|(k', v') m IH]; simpl; intros H Hm.
  - repeat constructor.
  - apply orb_false_iff in Hm. destruct Hm as (Hk & Hm). apply String.eqb_neq in Hk. inversion H as [|? ? H1 H2]; subst.
    destruct (String.ltb k k') eqn:E.
    + constructor; [exact H|]. constructor; [exact E|]. rewrite Forall_forall in *. intros x Hx. simpl.
      eapply ltb_trans; [exact E|]. apply (H2 x Hx).
    + constructor; [apply IH; assumption|]. rewrite Forall_forall in *. intros x Hx. apply insert_in in Hx. destruct Hx as [->|Hx].
      * simpl. apply ltb_false in E. destruct E as [->|E]; [contradiction|exact E].
      * apply H2. exact Hx.
Qed.

Lemma set_increasing k (v : string) m : increasing m -> increasing (sm_set k v m).
Proof.
  intros H. unfold sm_set. destruct (sm_mem k m) eqn:E; [|apply insert_increasing; assumption].
  clear E. unfold increasing in *. induction H as [|(k', v') m H IH HF]; simpl; [constructor|]. constructor; [exact IH|].
  rewrite Forall_forall in *. intros x Hx. apply in_map_iff in Hx. destruct Hx as ((k2, v2) & <- & Hx).
  specialize (HF _ Hx). simpl in *. destruct (String.eqb_spec k' k) as [->|], (String.eqb_spec k2 k) as [->|]; exact HF.
Qed.

Lemma increasing_in q : increasing q -> forall k v, In (k, v) q <-> sm_find k q = Some v.
Proof.
  induction 1 as [|(k', v') q H IH HF]; simpl; intros k v; [split; [intros []|discriminate]|].
  rewrite Forall_forall in HF. destruct (String.eqb_spec k' k) as [->|Hne].
  - split.
    + intros [[= ->]|Hi]; [reflexivity|]. specialize (HF _ Hi). simpl in HF. rewrite ltb_irrefl in HF. discriminate.
    + intros [= ->]. left. reflexivity.
  - rewrite <- IH. split; [intros [[= ? ?]|?]; [contradiction|assumption]|auto].
Qed.

Lemma find_set k k' (v : string) m : sm_find k (sm_set k' v m) = if String.eqb k' k then Some v else sm_find k m.
Proof.
  unfold sm_set. rewrite sm_mem_find. destruct (sm_find k' m) as [v0|] eqn:E.
  - induction m as [|(k2, v2) m IH]; simpl in *; [discriminate|].
    destruct (String.eqb_spec k2 k') as [->|Hne].
    + simpl. destruct (String.eqb_spec k' k) as [->|Hne']; [reflexivity|].
      clear - Hne'. induction m as [|(k3, v3) m IH]; simpl; [reflexivity|].
      destruct (String.eqb_spec k3 k') as [->|]; simpl.
      * destruct (String.eqb_spec k' k) as [->|]; [contradiction|]. exact IH.
      * destruct (String.eqb_spec k3 k); [reflexivity|exact IH].
    + simpl. rewrite (IH E). destruct (String.eqb_spec k2 k) as [->|]; [|reflexivity].
      destruct (String.eqb_spec k' k) as [->|]; [contradiction|reflexivity].
  - rewrite sm_find_insert; [reflexivity|]. rewrite sm_mem_find, E. reflexivity.
Qed.

(* ---- the pairs ---- *)

Lemma read_pairs_odd frames : forall t i ps, Nat.even (length frames) = false -> read_pairs frames t i ps = Fail DerefEnd.
Proof.
  induction frames as [frames IH] using (well_founded_induction (Wf_nat.well_founded_ltof _ (@length string))).
  intros t i ps H. destruct frames as [|k [|v rest]]; [discriminate|reflexivity|]. simpl in H. cbn [read_pairs].
  destruct (String.eqb k "type"); [|destruct (String.eqb k "id")]; apply IH; auto; unfold Wf_nat.ltof; simpl; lia.
Qed.

Lemma flat_even frames : Nat.even (length frames) = true -> exists ps, frames = flat ps.
Proof.
  induction frames as [frames IH] using (well_founded_induction (Wf_nat.well_founded_ltof _ (@length string))).
  intros H. destruct frames as [|k [|v rest]]; [exists []; reflexivity|discriminate|]. simpl in H.
  destruct (IH rest) as (ps & ->); [unfold Wf_nat.ltof; simpl; lia|exact H|]. exists ((k, v) :: ps). reflexivity.
Qed.

Definition or_else (x y : option string) : option string := match x with Some _ => x | None => y end.

Lemma read_pairs_flat ps : forall t i q, increasing q -> exists q',
  read_pairs (flat ps) t i q =
    Val (match last_value "type" ps with Some x => x | None => t end,
         match last_value "id" ps with Some x => x | None => i end, q') /\
  increasing q' /\
  forall k, sm_find k q' = if String.eqb k "type" || String.eqb k "id" then sm_find k q else or_else (last_value k ps) (sm_find k q).
Proof.
  induction ps as [|(k, v) ps IH]; intros t i q Hq; simpl.
  - exists q. split; [reflexivity|]. split; [exact Hq|]. intros k. destruct (String.eqb k "type" || String.eqb k "id"); reflexivity.
  - destruct (String.eqb_spec k "type") as [->|Ht]; [|destruct (String.eqb_spec k "id") as [->|Hi]].
    + destruct (IH v i q Hq) as (q' & E & Hq' & F). exists q'. split; [|split; [exact Hq'|]].
      * rewrite E. change (String.eqb "type" "id") with false. destruct (last_value "type" ps), (last_value "id" ps); reflexivity.
      * intros k'. rewrite F. rewrite (String.eqb_sym "type" k'). destruct (String.eqb k' "type"); [reflexivity|].
        destruct (String.eqb k' "id"); [reflexivity|]. destruct (last_value k' ps); reflexivity.
    + destruct (IH t v q Hq) as (q' & E & Hq' & F). exists q'. split; [|split; [exact Hq'|]].
      * rewrite E. change (String.eqb "id" "type") with false. destruct (last_value "type" ps), (last_value "id" ps); reflexivity.
      * intros k'. rewrite F. rewrite (String.eqb_sym "id" k'). destruct (String.eqb k' "type"); [reflexivity|].
        destruct (String.eqb k' "id"); [reflexivity|]. destruct (last_value k' ps); reflexivity.
    + destruct (IH t i (sm_set k v q) (set_increasing _ _ _ Hq)) as (q' & E & Hq' & F). exists q'. split; [|split; [exact Hq'|]].
      * rewrite E. destruct (last_value "type" ps), (last_value "id" ps); reflexivity.
      * intros k'. rewrite F, find_set. destruct (String.eqb_spec k' "type") as [->|H1]; simpl.
        { destruct (String.eqb_spec k "type"); [contradiction|reflexivity]. }
        destruct (String.eqb_spec k' "id") as [->|H2]; simpl.
        { destruct (String.eqb_spec k "id"); [contradiction|reflexivity]. }
        destruct (last_value k' ps); simpl; [reflexivity|]. destruct (String.eqb k k'); reflexivity.
Qed.

(* ---- retries ---- *)

Definition calls (p : post) (target : string) (call : curl_outcome -> list act * option string) : Prop :=
  forall out, call out = match out with
    | NoHandle => ([], None)
    | Performed None => ([Post p], None)
    | Performed (Some e) => ([Post p], Some ("POST request failed to " ++ target ++ ". Error: (" ++ to_string_Z (fst e) ++ ") " ++ snd e)%string)
    end.

Lemma retry_failed p target call outs : calls p target call ->
  forall r n d, exists es, (forall i e, nth_error es i = Some e -> fails_with (outs (n + i)) e) /\
    (length es < r /\ outs (n + length es) = Performed None /\ retry call outs n r d = failed_attempts p target es d ++ [Post p] \/
     length es < r /\ outs (n + length es) = NoHandle /\ retry call outs n r d = failed_attempts p target es d \/
     length es = r /\ retry call outs n r d = failed_attempts p target es d).
Proof.
  intros Hc. induction r as [|r IH]; intros n d.
  - exists []. split; [intros [|i] e [=]|]. right. right. auto.
  - cbn [retry]. rewrite Hc. destruct (outs n) as [|[e|]] eqn:E.
    + exists []. split; [intros [|i] e [=]|]. right. left. cbn. rewrite Nat.add_0_r. split; [lia|auto].
    + destruct (IH (S n) (d * 2)%N) as (es & Hf & HO). exists (e :: es). split.
      * intros [|i] e' Hi; cbn in Hi; [injection Hi as <-; rewrite Nat.add_0_r; exact E|]. replace (n + S i) with (S n + i) by lia. apply Hf. exact Hi.
      * cbn [length failed_attempts app]. replace (n + S (length es)) with (S n + length es) by lia. rewrite (N.mul_comm d 2) in HO |- *. unfold complaint.
        destruct HO as [(H1 & H2 & ->)|[(H1 & H2 & ->)|(H1 & ->)]]; [left|right; left|right; right]; repeat split; auto; lia.
    + exists []. split; [intros [|i] e [=]|]. left. cbn. rewrite Nat.add_0_r. split; [lia|auto].
Qed.

Lemma retry_attempts p target call outs : calls p target call -> attempts p target outs (retry call outs 0 4 1%N).
Proof.
  intros Hc. destruct (retry_failed p target call outs Hc 4 0 1%N) as (es & Hf & [(H1 & H2 & ->)|[(H1 & H2 & ->)|(H1 & ->)]]).
  - apply at_delivered; assumption.
  - apply at_no_handle; assumption.
  - apply at_given_up; assumption.
Qed.

Lemma auth_spec c : (if Nat.ltb 0 (String.length (n_username c)) || Nat.ltb 0 (String.length (n_password c))
          then Some (c_str (n_username c ++ ":" ++ n_password c)) else None) = auth c.
Proof. unfold auth. rewrite !length_pos. destruct (n_username c); simpl; [|reflexivity]. destruct (n_password c); reflexivity. Qed.

Lemma path_spec s : (if negb (String.eqb s "") then "/" ++ s else "")%string = path s.
Proof. unfold path. destruct (String.eqb s ""); reflexivity. Qed.

(* ---- any message ---- *)

Theorem any_odd c outs m : Nat.even (length (m_data m)) = false -> notifier_on_request c outs m = Fail DerefEnd.
Proof. intros H. unfold notifier_on_request. rewrite read_pairs_odd by exact H. reflexivity. Qed.

Theorem any_even c outs m pairs : m_data m = flat pairs -> exists q acts,
  parameters pairs q /\ notifier_on_request c outs m = Val acts /\
  attempts (mkPost (c_str (n_address c ++ path_of (last_value "type" pairs) ++ path_of (last_value "id" pairs))) (n_port c)
              (c_str (query_text q)) (auth c))
    (n_address c ++ path_of (last_value "type" pairs) ++ path_of (last_value "id" pairs) ++ "?" ++ query_text q) outs acts.
Proof.
  intros Hd. unfold notifier_on_request. rewrite Hd.
  destruct (read_pairs_flat pairs "" "" []) as (q & E & Hq & F); [constructor|]. rewrite E. cbn [rbind].
  exists q. eexists. split; [|split; [reflexivity|]].
  - split; [exact Hq|]. intros k v. rewrite (increasing_in _ Hq), F. simpl.
    destruct (String.eqb_spec k "type") as [->|H1]; simpl; [split; [discriminate|intros (? & _); contradiction]|].
    destruct (String.eqb_spec k "id") as [->|H2]; simpl; [split; [discriminate|intros (_ & ? & _); contradiction]|].
    destruct (last_value k pairs) as [x|]; simpl; split; try discriminate.
    + intros [= ->]. auto.
    + intros (_ & _ & [= ->]). reflexivity.
    + intros (_ & _ & ?). discriminate.
  - apply retry_attempts. intros out. unfold curl_post. rewrite auth_spec, query_spec, !path_spec.
    replace (path match last_value "type" pairs with Some x => x | None => "" end) with (path_of (last_value "type" pairs))
      by (destruct (last_value "type" pairs); reflexivity).
    replace (path match last_value "id" pairs with Some x => x | None => "" end) with (path_of (last_value "id" pairs))
      by (destruct (last_value "id" pairs); reflexivity).
    destruct out as [|[(code, text)|]]; cbn [fst snd]; rewrite ?append_assoc_s; reflexivity.
Qed.

(* ---- the broker's notifications ---- *)

Theorem notification_posted c outs m : notification (m_data m) -> exists p target acts,
  post_for c (m_data m) p target /\ notifier_on_request c outs m = Val acts /\ attempts p target outs acts.
Proof.
  intros H. unfold notifier_on_request. destruct m as [key i d]. cbn [m_data] in *.
  destruct H as [t|j|j t].
  - eexists _, _, _. split; [apply pf_error|]. split; [reflexivity|]. apply retry_attempts. intros out.
    unfold curl_post. rewrite auth_spec, query_spec. destruct out as [|[(code, text)|]]; do 4 (cbn; rewrite ?append_assoc_s); reflexivity.
  - eexists _, _, _. split; [apply pf_done|]. split; [reflexivity|]. apply retry_attempts. intros out.
    unfold curl_post. rewrite auth_spec, query_spec, !path_spec. destruct out as [|[(code, text)|]]; do 4 (cbn; rewrite ?append_assoc_s); reflexivity.
  - eexists _, _, _. split; [apply pf_failed|]. split; [reflexivity|]. apply retry_attempts. intros out.
    unfold curl_post. rewrite auth_spec, query_spec, !path_spec. destruct out as [|[(code, text)|]]; do 4 (cbn; rewrite ?append_assoc_s); reflexivity.
Qed.

Theorem run_notifications o cfg k tr1 e tr2 s : run o cfg k (tr1 ++ e :: tr2) s -> forall m, In m (ev_out e) ->
  m_key m = "status_notifier" -> m_ident m = "" /\ notification (m_data m).
Proof.
  intros HR m Hin Hk. pose proof (says_allowed _ _ _ _ _ _ _ HR m Hin) as HM.
  remember (ev_in e) as x. destruct HM; simpl in Hk; try discriminate Hk; try (split; [reflexivity|constructor]).
  - destruct H as (w & j' & pl & ->). discriminate.
  - destruct H as [(w & j' & pl & ->)|[(d & -> & Hn & _)|[(j' & ->)|(j' & ->)]]]; try discriminate. auto.
Qed.

Theorem run_posted o cfg k tr1 e tr2 s : run o cfg k (tr1 ++ e :: tr2) s -> forall m, In m (ev_out e) ->
  m_key m = "status_notifier" -> forall c outs, exists p target acts,
  post_for c (m_data m) p target /\ notifier_on_request c outs m = Val acts /\ attempts p target outs acts.
Proof.
  intros HR m Hin Hk c outs. destruct (run_notifications _ _ _ _ _ _ _ HR m Hin Hk) as (_ & H). apply notification_posted. exact H.
Qed.

(* ---- the body ---- *)

Lemma c_str_id s : no_char "000"%char s -> c_str s = s.
Proof.
  induction s as [|a s IH]; intros H; [reflexivity|]. apply no_char_cons in H. destruct H as (H1 & H2). simpl.
  destruct (Ascii.eqb_spec a "000"); [contradiction|]. rewrite (IH H2). reflexivity.
Qed.

Lemma c_str_cut a b : no_char "000"%char a -> c_str (a ++ String "000" b) = a.
Proof.
  induction a as [|c a IH]; intros H; [reflexivity|]. apply no_char_cons in H. destruct H as (H1 & H2). simpl.
  destruct (Ascii.eqb_spec c "000"); [contradiction|]. rewrite (IH H2). reflexivity.
Qed.

Lemma no_char_app c a b : no_char c (a ++ b)%string <-> no_char c a /\ no_char c b.
Proof.
  induction a as [|x a IH]; simpl; [split; [intros H; split; [apply no_char_nil|exact H]|tauto]|].
  rewrite !no_char_cons, IH. tauto.
Qed.

Lemma split_sep c a b : no_char c a -> split_at c (a ++ String c b) = a :: split_at c b.
Proof.
  induction a as [|x a IH]; intros H; simpl; [rewrite Ascii.eqb_refl; reflexivity|].
  apply no_char_cons in H. destruct H as (H1 & H2). destruct (Ascii.eqb_spec x c); [contradiction|]. rewrite (IH H2). reflexivity.
Qed.

Lemma split_one c a : no_char c a -> split_at c a = [a].
Proof.
  induction a as [|x a IH]; intros H; simpl; [reflexivity|].
  apply no_char_cons in H. destruct H as (H1 & H2). destruct (Ascii.eqb_spec x c); [contradiction|]. rewrite (IH H2). reflexivity.
Qed.

Lemma split_join c s : exists h r, split_at c s = h :: r /\
  forall acc, fold_left (fun acc x => acc ++ String c x)%string r (acc ++ h)%string = (acc ++ s)%string.
Proof.
  induction s as [|x s (h & r & E & IH)]; simpl; [exists "", []; split; reflexivity|].
  rewrite E. destruct (Ascii.eqb_spec x c) as [->|Hne].
  - exists "", (h :: r). split; [reflexivity|]. intros acc. simpl. rewrite append_nil_r.
    specialize (IH (acc ++ String c "")%string). rewrite !append_assoc_s in IH. exact IH.
  - exists (String x h), r. split; [reflexivity|]. intros acc. specialize (IH (acc ++ String x "")%string).
    rewrite !append_assoc_s in IH. exact IH.
Qed.

Lemma form_pair_spec k v : no_char "="%char k -> form_pair (k ++ "=" ++ v) = (form_decode k, form_decode v).
Proof.
  intros H. unfold form_pair. simpl append. rewrite split_sep by exact H. destruct (split_join "=" v) as (h & r & E & J). rewrite E.
  f_equal. f_equal. specialize (J ""). exact J.
Qed.

(* text that decoding leaves alone *)
Definition undecoded (s : string) : Prop :=
  no_char "+"%char s /\ forall a x y b, s = (a ++ String "%" (String x (String y b)))%string -> hex_digit x = None \/ hex_digit y = None.

Lemma undecoded_tail c s : undecoded (String c s) -> undecoded s.
Proof.
  intros (H1 & H2). apply no_char_cons in H1. split; [apply H1|]. intros a x y b ->. apply (H2 (String c a) x y b). reflexivity.
Qed.

Lemma decode_id s : undecoded s -> form_decode s = s.
Proof.
  induction s as [|c s IH]; intros H; [reflexivity|]. pose proof (IH (undecoded_tail _ _ H)) as E. destruct H as (H1 & H2).
  apply no_char_cons in H1. simpl. destruct (Ascii.eqb_spec c "+") as [->|]; [destruct H1; contradiction|].
  destruct (Ascii.eqb_spec c "%") as [->|]; [|rewrite E; reflexivity].
  destruct s as [|x [|y t]]; [reflexivity|rewrite E; reflexivity|].
  destruct (H2 "" x y t eq_refl) as [Hx|Hx]; rewrite Hx; [|destruct (hex_digit x)]; rewrite E; reflexivity.
Qed.

Lemma decode_length n : forall s, String.length s <= n -> String.length (form_decode s) <= String.length s.
Proof.
  induction n as [|n IH]; intros s Hs.
  - destruct s; [simpl; lia|simpl in Hs; lia].
  - destruct s as [|c s]; [simpl; lia|]. simpl in Hs. assert (Es := IH s ltac:(lia)). simpl.
    destruct (Ascii.eqb c "+"); [simpl; lia|]. destruct (Ascii.eqb c "%"); [|simpl; lia].
    destruct s as [|x [|y t]]; [simpl; lia|simpl in *; lia|].
    destruct (hex_digit x); [|simpl in *; lia]. destruct (hex_digit y); [|simpl in *; lia].
    simpl in Hs. assert (Et := IH t ltac:(lia)). simpl. lia.
Qed.

Lemma decode_fixed s : form_decode s = s -> undecoded s.
Proof.
  induction s as [|c s IH]; intros H.
  - split; [apply no_char_nil|]. intros [|? a] x y b E; discriminate.
  - simpl in H. destruct (Ascii.eqb_spec c "+") as [->|Hp]; [discriminate|].
    destruct (Ascii.eqb_spec c "%") as [->|Hc].
    + assert (Hno : (forall x y t, s = String x (String y t) -> hex_digit x = None \/ hex_digit y = None) /\ form_decode s = s).
      { destruct s as [|x [|y t]].
        - split; [discriminate|reflexivity].
        - injection H as H. split; [discriminate|exact H].
        - destruct (hex_digit x) eqn:Hx; [destruct (hex_digit y) eqn:Hy|].
          + injection H as _ H. pose proof (decode_length _ t (le_n _)) as L. rewrite H in L. simpl in L. lia.
          + injection H as H. split; [|exact H]. intros ? ? ? [= <- <- <-]. auto.
          + injection H as H. split; [|exact H]. intros ? ? ? [= <- <- <-]. auto. }
      destruct Hno as (Hno & E). destruct (IH E) as (U1 & U2). split; [apply no_char_cons; split; [discriminate|exact U1]|].
      intros [|a0 a] x y b [= ]; [eapply Hno; eassumption|subst; eapply U2; reflexivity].
    + injection H as H. destruct (IH H) as (U1 & U2). split; [apply no_char_cons; auto|].
      intros [|a0 a] x y b [= ]; [contradiction|subst; eapply U2; reflexivity].
Qed.

Lemma literal_parts s : literal s <-> no_char "&"%char s /\ no_char "000"%char s /\ undecoded s.
Proof. unfold literal, undecoded. tauto. Qed.

Definition good_pair (p : string * string) : Prop := literal (fst p) /\ no_char "="%char (fst p) /\ literal (snd p).

Lemma good_piece p : good_pair p -> no_char "&"%char (fst p ++ "=" ++ snd p) /\ no_char "000"%char (fst p ++ "=" ++ snd p) /\
  form_pair (fst p ++ "=" ++ snd p) = p.
Proof.
  destruct p as (k, v). intros (Hk & He & Hv). cbn [fst snd] in *. apply literal_parts in Hk. apply literal_parts in Hv.
  destruct Hk as (K1 & K2 & K3), Hv as (V1 & V2 & V3).
  split; [|split].
  - rewrite !no_char_app. split; [exact K1|]. split; [|exact V1]. apply no_char_cons. split; [discriminate|apply no_char_nil].
  - rewrite !no_char_app. split; [exact K2|]. split; [|exact V2]. apply no_char_cons. split; [discriminate|apply no_char_nil].
  - rewrite form_pair_spec by exact He. rewrite !decode_id by assumption. reflexivity.
Qed.

Lemma query_cons p q : q <> [] -> query_text (p :: q) = ((fst p ++ "=" ++ snd p) ++ String "&" (query_text q))%string.
Proof. destruct q as [|p' q]; [contradiction|]. reflexivity. Qed.

Theorem round_trip q : Forall good_pair q -> form_pairs (c_str (query_text q)) = q.
Proof.
  intros H. assert (N : no_char "000"%char (query_text q)).
  { induction H as [|p q Hp Hq IH]; [apply no_char_nil|]. destruct (good_piece p Hp) as (_ & Np & _). destruct q as [|p' q].
    - exact Np.
    - rewrite query_cons by discriminate. apply no_char_app. split; [exact Np|]. apply no_char_cons. split; [discriminate|exact IH]. }
  rewrite c_str_id by exact N. clear N. unfold form_pairs.
  induction H as [|p q Hp Hq IH]; [reflexivity|]. destruct (good_piece p Hp) as (Na & _ & E).
  destruct q as [|p' q].
  - change (query_text [p]) with (fst p ++ "=" ++ snd p)%string. rewrite split_one by exact Na. cbn [filter].
    destruct (String.eqb_spec (fst p ++ "=" ++ snd p) "") as [Ee|_]; [destruct (pair_nonempty _ _ Ee)|]. cbn [negb map]. rewrite E. reflexivity.
  - rewrite query_cons by discriminate. rewrite split_sep by exact Na. cbn [filter].
    destruct (String.eqb_spec (fst p ++ "=" ++ snd p) "") as [Ee|_]; [destruct (pair_nonempty _ _ Ee)|]. cbn [negb map]. rewrite E, IH. reflexivity.
Qed.

(* the failure text of a job: exactly the literal texts survive *)

Lemma first_pair k v b : no_char "&"%char k -> no_char "="%char k -> no_char "&"%char v ->
  form_pairs (k ++ "=" ++ v ++ String "&" b) = (form_decode k, form_decode v) :: form_pairs b.
Proof.
  intros Hk He Hv. unfold form_pairs.
  replace (k ++ "=" ++ v ++ String "&" b)%string with ((k ++ "=" ++ v) ++ String "&" b)%string by (rewrite !append_assoc_s; reflexivity).
  rewrite split_sep.
  - cbn [filter]. destruct (String.eqb_spec (k ++ "=" ++ v) "") as [Ee|_]; [destruct (pair_nonempty _ _ Ee)|]. cbn [negb map].
    rewrite form_pair_spec by exact He. reflexivity.
  - rewrite !no_char_app. split; [exact Hk|]. split; [|exact Hv]. apply no_char_cons. split; [discriminate|apply no_char_nil].
Qed.

Lemma char_split c s : no_char c s \/ exists a b, s = (a ++ String c b)%string /\ no_char c a.
Proof.
  induction s as [|x s IH]; [left; apply no_char_nil|]. destruct (Ascii.eqb_spec x c) as [->|Hne].
  - right. exists "", s. split; [reflexivity|apply no_char_nil].
  - destruct IH as [H|(a & b & -> & H)]; [left; apply no_char_cons; auto|]. right. exists (String x a), b. split; [reflexivity|].
    apply no_char_cons. auto.
Qed.

Lemma str_length_app a b : String.length (a ++ b) = String.length a + String.length b.
Proof. induction a; simpl; auto. Qed.

Lemma cut_first s : exists t, c_str s = t /\ no_char "000"%char t /\ (t = s \/ exists b, s = (t ++ String "000" b)%string).
Proof.
  destruct (char_split "000" s) as [H|(a & b & -> & H)].
  - exists s. rewrite c_str_id by exact H. auto.
  - exists a. rewrite c_str_cut by exact H. split; [reflexivity|]. split; [exact H|]. right. exists b. reflexivity.
Qed.

Lemma message_first t rest : exists v r, form_pairs (c_str ("message=" ++ t ++ String "&" rest)) = ("message", form_decode v) :: r /\
  (v = t \/ String.length v < String.length t) /\ (v = t -> no_char "&"%char t /\ no_char "000"%char t).
Proof.
  assert (Hm : forall v, no_char "&"%char v -> form_pairs ("message=" ++ v) = [("message", form_decode v)]).
  { intros v Hv. unfold form_pairs. rewrite split_one.
    - cbn [filter]. change (String.eqb ("message=" ++ v) "") with false. cbn [negb map]. f_equal.
      apply (form_pair_spec "message" v). apply find_char_none. reflexivity.
    - apply (no_char_app "&" "message=" v). split; [apply find_char_none; reflexivity|exact Hv]. }
  assert (Hf : forall v b, no_char "&"%char v -> form_pairs ("message=" ++ v ++ String "&" b) = ("message", form_decode v) :: form_pairs b).
  { intros v b Hv. apply (first_pair "message" v b); [apply find_char_none; reflexivity|apply find_char_none; reflexivity|exact Hv]. }
  assert (Hc : forall x, c_str ("message=" ++ x) = ("message=" ++ c_str x)%string) by reflexivity.
  rewrite Hc. destruct (char_split "000" t) as [N|(a & b & -> & N)].
  - assert (Ec : c_str (t ++ String "&" rest) = (t ++ String "&" (c_str rest))%string).
    { clear - N. induction t as [|x t IH]; [reflexivity|]. apply no_char_cons in N. destruct N as (N1 & N2). simpl.
      destruct (Ascii.eqb_spec x "000"); [contradiction|]. rewrite (IH N2). reflexivity. }
    rewrite Ec. destruct (char_split "&" t) as [A|(a & b & -> & A)].
    + exists t, (form_pairs (c_str rest)). split; [apply Hf; exact A|]. auto.
    + rewrite append_assoc_s. cbn [append]. exists a. eexists. split; [apply Hf; exact A|].
      rewrite str_length_app. simpl. split; [right; lia|]. intros E. apply (f_equal String.length) in E. rewrite str_length_app in E. simpl in E. lia.
  - rewrite append_assoc_s. cbn [append]. rewrite c_str_cut by exact N. destruct (char_split "&" a) as [A|(a' & b' & -> & A)].
    + exists a, []. split; [apply Hm; exact A|]. rewrite str_length_app. simpl. split; [right; lia|].
      intros E. apply (f_equal String.length) in E. rewrite str_length_app in E. simpl in E. lia.
    + exists a'. eexists. split; [apply Hf; exact A|]. rewrite !str_length_app. simpl. split; [right; lia|].
      intros E. apply (f_equal String.length) in E. rewrite !str_length_app in E. simpl in E. lia.
Qed.

Theorem failed_text_iff t : form_pairs (c_str ("message=" ++ t ++ "&status=FAILED")) = [("message", t); ("status", "FAILED")] <-> literal t.
Proof.
  split.
  - intros H. destruct (message_first t "status=FAILED") as (v & r & E & Hl & Hv).
    cbn [append] in H, E. rewrite E in H. injection H as Hd _.
    assert (L := decode_length _ v (le_n _)). rewrite Hd in L.
    assert (Ev : v = t) by (destruct Hl as [?|?]; [assumption|lia]). destruct (Hv Ev) as (H1 & H2). rewrite Ev in Hd.
    apply literal_parts. split; [exact H1|]. split; [exact H2|]. apply decode_fixed. exact Hd.
  - intros H. apply (round_trip [("message", t); ("status", "FAILED")]).
    assert (Hl : forall s, find_char "&" s = None -> find_char "000" s = None -> find_char "+" s = None -> find_char "%" s = None -> literal s).
    { intros s A B C D. apply find_char_none in A. apply find_char_none in B. apply find_char_none in C. apply find_char_none in D.
      split; [exact A|]. split; [exact B|]. split; [exact C|]. intros a x y b E. exfalso. exact (D _ _ E). }
    constructor; [|constructor; [|constructor]]; (split; [|split]); cbn [fst snd]; try exact H; try (apply Hl; reflexivity); apply find_char_none; reflexivity.
Qed.

Theorem round_trip_pairs q : (forall k v, In (k, v) q -> literal k /\ no_char "="%char k /\ literal v) ->
  form_pairs (c_str (get_http_query q)) = q.
Proof. intros H. rewrite query_spec. apply round_trip. apply Forall_forall. intros (k, v) Hi. exact (H k v Hi). Qed.

Lemma attempts_posts p target outs acts p' : attempts p target outs acts -> In (Post p') acts -> p' = p.
Proof.
  assert (G : forall es d, In (Post p') (failed_attempts p target es d) -> p' = p).
  { induction es as [|e es IH]; intros d; [intros []|]. intros [[= ->]|[[=]|[[=]|H]]]; [reflexivity|exact (IH _ H)]. }
  intros [es _ _ _|es _ _ _|es _ _] H; try (eapply G; exact H).
  apply in_app_iff in H. destruct H as [H|[[= ->]|[]]]; [eapply G; exact H|reflexivity].
Qed.

(* what the frontend reads *)
Theorem run_read o cfg k tr1 e tr2 s : run o cfg k (tr1 ++ e :: tr2) s -> forall m, In m (ev_out e) ->
  m_key m = "status_notifier" -> forall c outs acts p, notifier_on_request c outs m = Val acts -> In (Post p) acts ->
  forall j t, m_data m = ["type"; "job-status"; "id"; j; "status"; "FAILED"; "message"; t] ->
  (form_pairs (p_body p) = [("message", t); ("status", "FAILED")] <-> literal t).
Proof.
  intros HR m Hin Hk c outs acts p Ha Hp j t Hd.
  destruct (run_posted _ _ _ _ _ _ _ HR m Hin Hk c outs) as (p' & target & acts' & HP & Ha' & HA).
  rewrite Ha in Ha'. injection Ha' as <-. rewrite (attempts_posts _ _ _ _ _ HA Hp). rewrite Hd in HP. inversion HP; subst.
  apply failed_text_iff.
Qed.

Theorem run_read_ok o cfg k tr1 e tr2 s : run o cfg k (tr1 ++ e :: tr2) s -> forall m, In m (ev_out e) ->
  m_key m = "status_notifier" -> forall c outs acts p, notifier_on_request c outs m = Val acts -> In (Post p) acts ->
  forall j, m_data m = ["type"; "job-status"; "id"; j; "status"; "OK"] -> form_pairs (p_body p) = [("status", "OK")].
Proof.
  intros HR m Hin Hk c outs acts p Ha Hp j Hd.
  destruct (run_posted _ _ _ _ _ _ _ HR m Hin Hk c outs) as (p' & target & acts' & HP & Ha' & HA).
  rewrite Ha in Ha'. injection Ha' as <-. rewrite (attempts_posts _ _ _ _ _ HA Hp). rewrite Hd in HP. inversion HP; subst. reflexivity.
Qed.
