(* Property C60: all workers are lost. *)
From Coq Require Import Lia.
From Verif Require Import Base Bytes Containers Worker Multi Single Queue Handler SpecText Spec SpecRun SpecMsg SpecPings SpecLost Pings Demo Detect Lost.
Local Open Scope string_scope.
Local Open Scope list_scope.

(* From some time on nothing is heard of any worker, while clients may go on submitting. Once the announced times exceed the
   patience, no worker is registered, no job is held, and every job accepted or announced, before or
   meanwhile, has been reported to the frontend. *)
Theorem C60_all_lost : forall o cfg k tr1 s1 tr2 s zs d, run o cfg k tr1 s1 -> run o cfg k (tr1 ++ tr2) s -> all_heard tr1 s1 -> dead_silence tr2 ->
  good_clock d (tr1 ++ tr2) -> (0 <= d)%Z -> (0 <= c_ping_interval cfg)%Z -> (1 <= c_max_liveness cfg)%N ->
  ticks tr2 zs -> (patience cfg d < sum zs)%Z ->
  s_reg s = [] /\ held (s_queue s) = [] /\
  forall j, acceptances j (tr1 ++ tr2) + adoptions j (tr1 ++ tr2) = reports j (tr1 ++ tr2).
Proof. exact all_lost. Qed.
Print Assumptions C60_all_lost.

(* It does happen: the broker survives the ticks, and needs no more of them than it takes to exceed the patience. *)
Theorem C60_will_be_lost : forall o cfg k tr s d t i, run o cfg k tr s -> all_heard tr s -> good_clock d tr -> reads t d -> (0 < d)%Z -> (0 <= c_ping_interval cfg)%Z ->
  (1 <= c_max_liveness cfg)%N -> in_i64 (c_ping_interval cfg + d) = true ->
  exists n tr2 s2, run o cfg k (tr ++ tr2) s2 /\ map ev_in tr2 = repeat (Msg "timer" i [t]) n /\ (Z.of_nat n * d <= patience cfg d + d)%Z /\
  s_reg s2 = [] /\ held (s_queue s2) = [] /\ forall j, acceptances j (tr ++ tr2) + adoptions j (tr ++ tr2) = reports j (tr ++ tr2).
Proof. exact will_be_lost. Qed.
Print Assumptions C60_will_be_lost.

(* Two workers work and fall silent; x and y are under way, z is submitted later. *)
Definition before_silence : list msg :=
  [from_worker "A" ["init"; "g"]; from_worker "B" ["init"; "h"; ""; "current_job=x"]; from_worker "A" ["ping"]; from_worker "B" ["ping"];
   from_client "u" ["eval"; "y"; "hwgroup=g|h"; ""]; tick "600"].
Definition in_silence : list msg :=
  [tick "600"; from_client "u" ["eval"; "z"; "hwgroup=g"; ""; "p"]; tick "600"; tick "600"; tick "600"; tick "600"].
Example C60_example : forall k, exists tr1 s1 tr2 s, run demo_oracle demo_cfg k tr1 s1 /\ run demo_oracle demo_cfg k (tr1 ++ tr2) s /\
  all_heard tr1 s1 /\ dead_silence tr2 /\ good_clock 600 (tr1 ++ tr2) /\ (exists zs, ticks tr2 zs /\ (patience demo_cfg 600 < sum zs)%Z) /\
  length (s_reg s1) = 2 /\ map r_job (held (s_queue s1)) <> [] /\ s_reg s = [] /\
  adoptions "x" (tr1 ++ tr2) = 1 /\ reports "x" (tr1 ++ tr2) = 1 /\
  acceptances "y" (tr1 ++ tr2) = 1 /\ reports "y" (tr1 ++ tr2) = 1 /\
  acceptances "z" (tr1 ++ tr2) = 1 /\ reports "z" (tr1 ++ tr2) = 1.
Proof.
  intros k. remember (exec demo_oracle demo_cfg (start k) before_silence) as x eqn:Ex.
  remember (match snd x with inr s1 => exec demo_oracle demo_cfg s1 in_silence | inl f => ([], inl f) end) as y eqn:Ey.
  assert (E : match snd x, snd y with
    | inr s1, inr s =>
        all_heardb (fst x) s1 && forallb (fun e => negb (String.eqb (m_key (ev_in e)) "workers")) (fst y) &&
        match ticks_of (fst x ++ fst y), ticks_of (fst y) with
        | Some a, Some b => forallb (fun z => Z.leb 0 z && Z.leb z 600) a && Z.ltb (patience demo_cfg 600) (sum b)
        | _, _ => false
        end &&
        Nat.eqb (length (s_reg s1)) 2 && negb (Nat.eqb (length (held (s_queue s1))) 0) && Nat.eqb (length (s_reg s)) 0 &&
        Nat.eqb (adoptions "x" (fst x ++ fst y)) 1 && Nat.eqb (reports "x" (fst x ++ fst y)) 1 &&
        Nat.eqb (acceptances "y" (fst x ++ fst y)) 1 && Nat.eqb (reports "y" (fst x ++ fst y)) 1 &&
        Nat.eqb (acceptances "z" (fst x ++ fst y)) 1 && Nat.eqb (reports "z" (fst x ++ fst y)) 1
    | _, _ => false
    end = true) by (rewrite Ey, Ex; destruct k; vm_compute; reflexivity).
  destruct x as (tr1, [f|s1]); simpl in Ey, E; [discriminate|]. destruct y as (tr2, [f|s]); simpl in E; [discriminate|].
  rewrite !andb_true_iff in E. destruct E as (((((((((((E1 & E2) & E3) & E4) & E5) & E6) & E7) & E8) & E9) & E10) & E11) & E12).
  exists tr1, s1, tr2, s. assert (H1 : run demo_oracle demo_cfg k tr1 s1) by (apply (exec_start _ _ _ before_silence); auto).
  destruct (ticks_of (tr1 ++ tr2)) as [a|] eqn:Ta; [|discriminate]. destruct (ticks_of tr2) as [b|] eqn:Tb; [|discriminate].
  apply andb_true_iff in E3. destruct E3 as (E3 & E3'). rewrite forallb_forall in E2, E3.
  split; [exact H1|]. split; [apply (exec_run _ _ _ in_silence _ _ _ _ H1); auto|]. split; [apply all_heardb_ok; exact E1|].
  split. { intros e I K. specialize (E2 e I). rewrite K in E2. discriminate. }
  split. { exists a. split; [apply ticks_of_ticks; exact Ta|]. apply Forall_forall. intros z I. specialize (E3 z I). lia. }
  split. { exists b. split; [apply ticks_of_ticks; exact Tb|]. lia. }
  apply Nat.eqb_eq in E4, E6, E7, E8, E9, E10, E11, E12. apply length_zero_iff_nil in E6.
  repeat split; auto. intros H. apply map_eq_nil in H. rewrite H in E5. discriminate.
Qed.

(* That every worker has been heard of is needed: one that never spoke after registering keeps its job (see C17). *)
Example C60_unheard_refuted : forall k, match exec demo_oracle demo_cfg (start k)
    ([from_worker "A" ["init"; "g"]; from_client "u" ["eval"; "y"; "hwgroup=g"; ""]] ++ repeat (tick "600") 20) with
  | (tr, inr s) => acceptances "y" tr = 1 /\ reports "y" tr = 0 /\ map r_job (held (s_queue s)) = ["y"] /\
      exists zs, ticks_of tr = Some zs /\ (patience demo_cfg 600 < sum zs)%Z
  | _ => False
  end.
Proof. intros []; vm_compute; repeat split; (eexists; split; [reflexivity|]; vm_compute; reflexivity). Qed.
