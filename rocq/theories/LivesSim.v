(* An executable version of the system with restarts, for the examples of C63. *)
From Verif Require Import Base Bytes Containers Worker Multi Single Queue Handler SpecText Spec SpecRun SpecMsg SpecFatal SpecQueue SpecSystem SpecLives
  HandlerSim Pings SystemSim.
Local Open Scope string_scope.
Local Open Scope list_scope.

(* None: the broker is started again *)
Definition is_submit (a : act) : bool := match a with Submit _ => true | _ => false end.
Definition stage : Type := list event * list event * state * nodes.
Section Sim.
Context (o : oracle) (cfg : config) (k : kind) (cards : string -> card).
(* whether all registered workers must be settled when the broker is started again *)
Context (strict : bool).
Definition lsim (x : stage) (a : option act) : option stage :=
  let '(past, tr, s, ns) := x in
  match a with
  | None => if negb strict || settledb s ns then Some (past ++ tr, [], init_state (empty_manager k), ns) else None
  | Some (Do i) => match does (ns i) with Some n => Some (past, tr, s, put i n ns) | None => None end
  | Some (Say i m) => match says (ns i) m with Some n => Some (past, tr, s, put i n ns) | None => None end
  | Some (Read i) =>
      match n_outbox (ns i) with
      | m :: out => match on_request o cfg (Msg "workers" i (frames (cards i) m)) s with
                    | (outs, inr (_, s')) => Some (past, tr ++ [mkEvent s (Msg "workers" i (frames (cards i) m)) outs s'], s', deliver outs (taken i out ns))
                    | _ => None
                    end
      | [] => None
      end
  | Some a =>
      match input_of a with
      | Some m => match on_request o cfg m s with
                  | (outs, inr (_, s')) => if fine s a && (is_submit a || settledb s ns) then Some (past, tr ++ [mkEvent s m outs s'], s', deliver outs ns) else None
                  | _ => None
                  end
      | None => None
      end
  end.
Fixpoint lsims (x : stage) (l : list (option act)) : option stage :=
  match l with [] => Some x | a :: t => match lsim x a with Some y => lsims y t | None => None end end.

Definition passing : state -> string -> node -> node -> Prop := if strict then outlives else outlives_anyhow.
Definition lived (x : stage) : Prop := let '(past, tr, s, ns) := x in lives cards passing o cfg k past tr s ns.

Lemma subseq_refl {A} (l : list A) : subseq l l.
Proof. induction l; constructor; assumption. Qed.
Lemma settled_outlives s ns i : settledb s ns = true -> outlives s i (ns i) (ns i).
Proof.
  intros H. destruct (sender i s) as [w|] eqn:Es; [|left; auto]. right. right. unfold sender in Es. apply find_some in Es. destruct Es as (Hin & Ei).
  unfold named in Ei. apply String.eqb_eq in Ei. subst i.
  destruct (settledb_ok s (init_state (s_queue s)) ns H w Hin (fun F => F)) as (H1 & H2).
  split; [exact H1|]. split; [exact H2|]. split; [reflexivity|]. split; apply subseq_refl.
Qed.

Lemma lives_run pass o' cfg' k' past tr s ns : lives cards pass o' cfg' k' past tr s ns -> run o' cfg' k' tr s.
Proof. induction 1; try constructor; try assumption; econstructor; eassumption. Qed.
Lemma lsim_sound x a y : lived x -> lsim x a = Some y -> lived y.
Proof.
  destruct x as (((past, tr), s), ns). intros HS H. unfold lived in HS.
  assert (HO : forall a m outs u s', input_of a = Some m -> on_request o cfg m s = (outs, inr (u, s')) ->
     fine s a && (is_submit a || settledb s ns) = true -> lived (past, tr ++ [mkEvent s m outs s'], s', deliver outs ns)).
  { intros a' m outs [] s' Ei Es Hf. apply andb_true_iff in Hf. destruct Hf as (Hf & Hst). destruct (fine_ok _ _ _ Ei Hf) as (Hk & Hb).
    eapply li_other; [exact HS|exact Hk|exact Hb|exact Es|]. apply orb_true_iff in Hst. destruct Hst as [Hst|Hst]; [|apply settledb_ok; exact Hst].
    intros w Hin Hout. destruct Hout. eapply (keep_workers o cfg); [eapply run_inv; eapply lives_run; exact HS| |exact Es|exact Hin].
    destruct a' as [| | |j|]; try discriminate. injection Ei as <-. discriminate. }
  destruct a as [[i|i m|i|j|t]|]; unfold lsim in H.
  - destruct (does (ns i)) as [n|] eqn:En; [|discriminate]. injection H as <-. apply li_work; [exact HS|apply does_work; exact En].
  - destruct (says (ns i) m) as [n|] eqn:En; [|discriminate]. injection H as <-. apply li_work; [exact HS|eapply says_work; exact En].
  - destruct (n_outbox (ns i)) as [|m out] eqn:Eo; [discriminate|].
    destruct (on_request o cfg (Msg "workers" i (frames (cards i) m)) s) as (outs, [f|([], s')]) eqn:Es; [discriminate|]. injection H as <-.
    eapply li_read; [exact HS|exact Eo|exact Es].
  - destruct (input_of (Submit j)) as [m|] eqn:Em; [|discriminate].
    destruct (on_request o cfg m s) as (outs, [f|(u, s')]) eqn:Es; [discriminate|]. destruct (fine s (Submit j) && _) eqn:Ef; [|discriminate].
    injection H as <-. exact (HO (Submit j) _ _ _ _ Em Es Ef).
  - destruct (input_of (Tick t)) as [m|] eqn:Em; [|discriminate].
    destruct (on_request o cfg m s) as (outs, [f|(u, s')]) eqn:Es; [discriminate|]. destruct (fine s (Tick t) && _) eqn:Ef; [|discriminate].
    injection H as <-. exact (HO (Tick t) _ _ _ _ Em Es Ef).
  - destruct (negb strict || settledb s ns) eqn:Eg; [|discriminate]. injection H as <-. eapply li_again; [exact HS|]. intros i. unfold passing.
    destruct strict; [|reflexivity]. apply settled_outlives. exact Eg.
Qed.
Lemma lsims_sound l : forall x y, lived x -> lsims x l = Some y -> lived y.
Proof.
  induction l as [|a l IH]; simpl; intros x y HR H; [injection H as <-; exact HR|].
  destruct (lsim x a) as [z|] eqn:Ez; [|discriminate]. eapply IH; [|exact H]. eapply lsim_sound; eassumption.
Qed.
Definition lbegin : stage := ([], [], init_state (empty_manager k), fun _ => mkNode Off [] []).
Lemma lbegin_lived : lived lbegin.
Proof. exact (li_start _ _ _ _ _). Qed.
End Sim.
