(* An executable version of the closed system with the ROUTER socket, for the examples of C57. *)
From Verif Require Import Base Bytes Containers Worker Multi Single Queue Handler Wire SpecText Spec SpecRun SpecMsg SpecFatal SpecWire SpecSystem
  SpecWired Pings SystemSim.
Local Open Scope string_scope.
Local Open Scope list_scope.

Section Sim.
Context (o : oracle) (cfg : config) (k : kind) (cards : string -> card).
Definition wsim (x : state * nodes * router) (a : act) : option (state * nodes * router) :=
  let '(s, ns, r) := x in
  match a with
  | Do i => match does (ns i) with Some n => Some (s, put i n ns, r) | None => None end
  | Say i m => match says (ns i) m with Some n => Some (s, put i n ns, r) | None => None end
  | Read i =>
      match n_outbox (ns i) with
      | m :: out => match on_request o cfg (Msg "workers" i (frames (cards i) m)) s with
                    | (outs, inr (_, s')) => let (ds, r') := send_messages (to_workers outs) r in Some (s', arrive ds (taken i out ns), r')
                    | _ => None
                    end
      | [] => None
      end
  | _ => match input_of a with
         | Some m => match on_request o cfg m s with
                     | (outs, inr (_, s')) => if fine s a && settledb s ns
                         then let (ds, r') := send_messages (to_workers outs) r in Some (s', arrive ds ns, r') else None
                     | _ => None
                     end
         | None => None
         end
  end.
Fixpoint wsims (x : state * nodes * router) (l : list act) : option (state * nodes * router) :=
  match l with [] => Some x | a :: t => match wsim x a with Some y => wsims y t | None => None end end.

Definition wreached (x : state * nodes * router) : Prop :=
  exists tr, wired o cfg k cards settled tr (fst (fst x)) (snd (fst x)) (snd x).
Lemma wsim_sound x a y : wreached x -> wsim x a = Some y -> wreached y.
Proof.
  intros (tr & HS) H. destruct x as [[s ns] r]. simpl in HS.
  assert (HO : forall m outs u s' ds r', input_of a = Some m -> on_request o cfg m s = (outs, inr (u, s')) ->
     send_messages (to_workers outs) r = (ds, r') -> fine s a && settledb s ns = true -> wreached (s', arrive ds ns, r')).
  { intros m outs [] s' ds r' Ei Es Ed Hf. apply andb_true_iff in Hf. destruct Hf as (Hf & Hst). destruct (fine_ok _ _ _ Ei Hf) as (Hk & Hb).
    eexists. eapply wi_other; [exact HS|exact Hk|exact Hb|exact Es| |exact Ed]. apply settledb_ok. exact Hst. }
  destruct a as [i|i m|i|j|t]; unfold wsim in H.
  - destruct (does (ns i)) as [n|] eqn:En; [|discriminate]. injection H as <-. exists tr. apply wi_work; [exact HS|apply does_work; exact En].
  - destruct (says (ns i) m) as [n|] eqn:En; [|discriminate]. injection H as <-. exists tr. apply wi_work; [exact HS|eapply says_work; exact En].
  - destruct (n_outbox (ns i)) as [|m out] eqn:Eo; [discriminate|].
    destruct (on_request o cfg (Msg "workers" i (frames (cards i) m)) s) as (outs, [f|([], s')]) eqn:Es; [discriminate|].
    destruct (send_messages (to_workers outs) r) as (ds, r') eqn:Ed. injection H as <-.
    eexists. eapply wi_read; [exact HS|exact Eo|exact Es|exact Ed].
  - destruct (input_of (Submit j)) as [m|] eqn:Em; [|discriminate].
    destruct (on_request o cfg m s) as (outs, [f|(u, s')]) eqn:Es; [discriminate|]. destruct (fine s (Submit j) && _) eqn:Ef; [|discriminate].
    destruct (send_messages (to_workers outs) r) as (ds, r') eqn:Ed. injection H as <-. exact (HO _ _ _ _ _ _ eq_refl Es Ed eq_refl).
  - destruct (input_of (Tick t)) as [m|] eqn:Em; [|discriminate].
    destruct (on_request o cfg m s) as (outs, [f|(u, s')]) eqn:Es; [discriminate|]. destruct (fine s (Tick t) && _) eqn:Ef; [|discriminate].
    destruct (send_messages (to_workers outs) r) as (ds, r') eqn:Ed. injection H as <-. exact (HO _ _ _ _ _ _ eq_refl Es Ed eq_refl).
Qed.
Lemma wsims_sound l : forall x y, wreached x -> wsims x l = Some y -> wreached y.
Proof.
  induction l as [|a l IH]; simpl; intros x y HR H; [injection H as <-; exact HR|].
  destruct (wsim x a) as [z|] eqn:Ez; [|discriminate]. eapply IH; [|exact H]. eapply wsim_sound; eassumption.
Qed.
Definition wbegin : state * nodes * router := (init_state (empty_manager k), fun _ => mkNode Off [] [], None).
Lemma wbegin_reached : wreached wbegin.
Proof. exists []. exact (wi_start _ _ _ _ _). Qed.
End Sim.
