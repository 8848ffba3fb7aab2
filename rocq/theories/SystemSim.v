(* An executable version of the closed system, for the examples of C54. *)
From Verif Require Import Base Bytes Containers Worker Multi Single Queue Handler SpecText Spec SpecRun SpecMsg SpecFatal SpecSystem Pings.
Local Open Scope string_scope.
Local Open Scope list_scope.

Inductive act : Type :=
| Do (i : string)               (* worker i starts, or handles the oldest message it has received *)
| Say (i : string) (m : saying) (* worker i pings, reports progress or the end of its job *)
| Read (i : string)             (* the broker reads the oldest message of worker i *)
| Submit (j : string)           (* a client submits a job any worker can take *)
| Tick (t : string).            (* t milliseconds pass *)

Definition does (n : node) : option node :=
  match n_proc n, n_inbox n with
  | Off, inb => Some (mkNode (On None) inb (n_outbox n ++ [Hello None]))
  | On _, [] => None
  | On job, m :: inb =>
      match m with
      | e :: j :: _ => if String.eqb e "eval" then Some (mkNode (On (Some j)) inb (n_outbox n)) else Some (mkNode (On job) inb (n_outbox n))
      | [e] => if String.eqb e "intro" then Some (mkNode (On job) inb (n_outbox n ++ [Hello job])) else Some (mkNode (On job) inb (n_outbox n))
      | [] => Some (mkNode (On job) inb (n_outbox n))
      end
  end.
Lemma does_work n n' : does n = Some n' -> work n n'.
Proof.
  destruct n as [[|job] inb out]; unfold does; cbn [n_proc n_inbox n_outbox].
  - intros H. injection H as <-. constructor.
  - destruct inb as [|m inb]; [discriminate|]. destruct m as [|e [|j pl]].
    + intros H. injection H as <-. constructor; discriminate.
    + destruct (String.eqb_spec e "intro") as [->|Hne]; intros H; injection H as <-; [constructor|]. constructor; [discriminate|congruence].
    + destruct (String.eqb_spec e "eval") as [->|Hne]; intros H; injection H as <-; [econstructor|]. constructor; [congruence|discriminate].
Qed.
Definition says (n : node) (m : saying) : option node :=
  match n_proc n, m with
  | On job, Ping | On job, Progress _ => Some (mkNode (On job) (n_inbox n) (n_outbox n ++ [m]))
  | On (Some j'), Done j v => if String.eqb j' j then Some (mkNode (On None) (n_inbox n) (n_outbox n ++ [m])) else None
  | _, _ => None
  end.
Lemma says_work n m n' : says n m = Some n' -> work n n'.
Proof.
  destruct n as [[|[j'|]] inb out], m as [d| |fr|j v]; unfold says; cbn [n_proc n_inbox n_outbox]; try discriminate;
    try (intros H; injection H as <-; constructor).
  destruct (String.eqb_spec j' j) as [->|]; [|discriminate]. intros H. injection H as <-. constructor.
Qed.

Section Sim.
Context (o : oracle) (cfg : config) (k : kind) (cards : string -> card).
(* whether all workers must be settled when a client or the timer is heard *)
Context (strict : bool).
Definition greets (m : saying) : bool := match m with Hello _ => true | _ => false end.
Definition is_intro (d : list string) : bool := match d with [e] => String.eqb e "intro" | _ => false end.
Definition settledb (s : state) (ns : nodes) : bool :=
  forallb (fun w => forallb (fun d => negb (is_intro d)) (n_inbox (ns (w_identity w))) &&
                    forallb (fun m => negb (greets m)) (n_outbox (ns (w_identity w)))) (s_reg s).
Definition input_of (a : act) : option msg :=
  match a with
  | Submit j => Some (Msg "clients" "u" ["eval"; j; ""; "url"])
  | Tick t => Some (Msg "timer" "" [t])
  | _ => None
  end.
Definition fine (s : state) (a : act) : bool :=
  match a with
  | Tick t => match stoll t with
              | Val z => forallb (fun w => match ping_timer s w with Some old => in_i64 (old + z) | None => true end) (s_reg s)
              | Fail _ => false
              end
  | _ => true
  end.
Definition sim (x : state * nodes) (a : act) : option (state * nodes) :=
  let (s, ns) := x in
  match a with
  | Do i => match does (ns i) with Some n => Some (s, put i n ns) | None => None end
  | Say i m => match says (ns i) m with Some n => Some (s, put i n ns) | None => None end
  | Read i =>
      match n_outbox (ns i) with
      | m :: out => match on_request o cfg (Msg "workers" i (frames (cards i) m)) s with
                    | (outs, inr (_, s')) => Some (s', deliver outs (taken i out ns))
                    | _ => None
                    end
      | [] => None
      end
  | _ => match input_of a with
         | Some m => match on_request o cfg m s with
                     | (outs, inr (_, s')) => if fine s a && (negb strict || settledb s ns) then Some (s', deliver outs ns) else None
                     | _ => None
                     end
         | None => None
         end
  end.
Fixpoint sims (x : state * nodes) (l : list act) : option (state * nodes) :=
  match l with [] => Some x | a :: t => match sim x a with Some y => sims y t | None => None end end.

Definition restriction : state -> state -> nodes -> Prop := if strict then settled else anytime.
Definition reached (x : state * nodes) : Prop := exists tr, system o cfg k cards restriction tr (fst x) (snd x).

Lemma settledb_ok s s' ns : settledb s ns = true -> settled s s' ns.
Proof.
  intros H w Hin _. unfold settledb in H. rewrite forallb_forall in H. specialize (H w Hin). apply andb_true_iff in H. destruct H as (H1 & H2).
  rewrite forallb_forall in H1, H2. split.
  - intros Hi. specialize (H1 _ Hi). discriminate.
  - intros job Hj. specialize (H2 _ Hj). discriminate.
Qed.
Lemma fine_ok s a m : input_of a = Some m -> fine s a = true -> m_key m <> "workers" /\ benign s m.
Proof.
  destruct a as [i|i x|i|j|t]; try discriminate; simpl; intros E HF; injection E as <-; (split; [discriminate|]).
  - apply be_eval. intros need payload x v (E & Hn) Hin. destruct need as [|y need]; [destruct Hin|]. injection E as <- _. destruct Hn. left. reflexivity.
  - destruct (stoll t) as [z|] eqn:Ez; [|discriminate]. eapply be_tick; [apply reads_stoll; exact Ez|].
    intros w old Hin Hp. rewrite forallb_forall in HF. specialize (HF w Hin). rewrite Hp in HF. exact HF.
Qed.

Lemma sim_sound x a y : reached x -> sim x a = Some y -> reached y.
Proof.
  intros (tr & HS) H. destruct x as [s ns]. simpl in HS.
  assert (HO : forall m outs u s', input_of a = Some m -> on_request o cfg m s = (outs, inr (u, s')) ->
     fine s a && (negb strict || settledb s ns) = true -> reached (s', deliver outs ns)).
  { intros m outs [] s' Ei Es Hf. apply andb_true_iff in Hf. destruct Hf as (Hf & Hst). destruct (fine_ok _ _ _ Ei Hf) as (Hk & Hb).
    eexists. eapply sy_other; [exact HS|exact Hk|exact Hb|exact Es|]. unfold restriction. destruct strict; [|exact I].
    apply settledb_ok. exact Hst. }
  destruct a as [i|i m|i|j|t]; unfold sim in H.
  - destruct (does (ns i)) as [n|] eqn:En; [|discriminate]. injection H as <-. exists tr. apply sy_work; [exact HS|apply does_work; exact En].
  - destruct (says (ns i) m) as [n|] eqn:En; [|discriminate]. injection H as <-. exists tr. apply sy_work; [exact HS|eapply says_work; exact En].
  - destruct (n_outbox (ns i)) as [|m out] eqn:Eo; [discriminate|].
    destruct (on_request o cfg (Msg "workers" i (frames (cards i) m)) s) as (outs, [f|([], s')]) eqn:Es; [discriminate|]. injection H as <-.
    eexists. eapply sy_read; [exact HS|exact Eo|exact Es].
  - destruct (input_of (Submit j)) as [m|] eqn:Em; [|discriminate].
    destruct (on_request o cfg m s) as (outs, [f|(u, s')]) eqn:Es; [discriminate|]. destruct (fine s (Submit j) && _) eqn:Ef; [|discriminate].
    injection H as <-. exact (HO _ _ _ _ eq_refl Es eq_refl).
  - destruct (input_of (Tick t)) as [m|] eqn:Em; [|discriminate].
    destruct (on_request o cfg m s) as (outs, [f|(u, s')]) eqn:Es; [discriminate|]. destruct (fine s (Tick t) && _) eqn:Ef; [|discriminate].
    injection H as <-. exact (HO _ _ _ _ eq_refl Es eq_refl).
Qed.
Lemma sims_sound l : forall x y, reached x -> sims x l = Some y -> reached y.
Proof.
  induction l as [|a l IH]; simpl; intros x y HR H; [injection H as <-; exact HR|].
  destruct (sim x a) as [z|] eqn:Ez; [|discriminate]. eapply IH; [|exact H]. eapply sim_sound; eassumption.
Qed.
Definition begin : state * nodes := (init_state (empty_manager k), fun _ => mkNode Off [] []).
Lemma begin_reached : reached begin.
Proof. exists []. exact (sy_start _ _ _ _ _). Qed.
End Sim.
