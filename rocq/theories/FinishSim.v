(* A schedule for the broker and its workers left to themselves, for the examples of C58. *)
From Verif Require Import Base Bytes Containers Worker Multi Single Queue Handler SpecText Spec SpecRun SpecMsg SpecFatal SpecSystem SpecFinish
  Pings SystemSim.
Local Open Scope string_scope.
Local Open Scope list_scope.

Section Sim.
Context (o : oracle) (cfg : config) (cards : string -> card).

(* the next step, looking at the workers in ids in turn; the first `bad` jobs that end do so with an internal error *)
Fixpoint next_act (bad : bool) (ns : nodes) (ids : list string) : option act :=
  match ids with
  | [] => None
  | i :: rest =>
      match ns i with
      | mkNode _ _ (_ :: _) => Some (Read i)
      | mkNode (On _) (_ :: _) [] => Some (Do i)
      | mkNode (On (Some j)) [] [] => Some (Say i (Done j (if bad then VError "x" else VOk)))
      | _ => next_act bad ns rest
      end
  end.
Definition busy_act (ns : nodes) (a : act) : bool :=
  match a with
  | Do i => match n_proc (ns i) with Off => false | On _ => true end
  | Say _ (Done _ _) | Read _ => true
  | _ => false
  end.
Fixpoint works (fuel bad : nat) (ids : list string) (x : state * nodes) : nat * option (state * nodes) :=
  match fuel with
  | 0 => (0, Some x)
  | S f =>
      match next_act (Nat.ltb 0 bad) (snd x) ids with
      | None => (0, Some x)
      | Some a => if busy_act (snd x) a
                  then match sim o cfg cards true x a with
                       | Some y => let (n, z) := works f (match a with Say _ _ => bad - 1 | _ => bad end) ids y in (S n, z)
                       | None => (0, None)
                       end
                  else (0, None)
      end
  end.

Lemma does_duty n n' : n_proc n <> Off -> does n = Some n' -> duty n n'.
Proof.
  destruct n as [[|job] inb out]; unfold does; cbn [n_proc n_inbox n_outbox]; intros Hp; [congruence|].
  destruct inb as [|m inb]; [discriminate|]. destruct m as [|e [|j pl]].
  - intros H. injection H as <-. constructor; discriminate.
  - destruct (String.eqb_spec e "intro") as [->|Hne]; intros H; injection H as <-; [constructor|]. constructor; [discriminate|congruence].
  - destruct (String.eqb_spec e "eval") as [->|Hne]; intros H; injection H as <-; [econstructor|]. constructor; [congruence|discriminate].
Qed.
Lemma says_duty n j v n' : says n (Done j v) = Some n' -> duty n n'.
Proof.
  destruct n as [[|[j'|]] inb out]; unfold says; cbn [n_proc n_inbox n_outbox]; try discriminate.
  destruct (String.eqb_spec j' j) as [->|]; [|discriminate]. intros H. injection H as <-. constructor.
Qed.
Lemma works_carries fuel : forall bad ids x n y tr, works fuel bad ids x = (n, Some y) ->
  exists tr', carries o cfg cards n 0 tr (fst x) (snd x) tr' (fst y) (snd y).
Proof.
  induction fuel as [|f IH]; intros bad ids x n y tr H; simpl in H; [injection H as <- <-; eexists; constructor|].
  destruct (next_act _ _ ids) as [a|]; [|injection H as <- <-; eexists; constructor].
  destruct (busy_act (snd x) a) eqn:Eb; [|discriminate]. destruct (sim o cfg cards true x a) as [z|] eqn:Es; [|discriminate].
  destruct (works f _ ids z) as (n', w) eqn:Ew. injection H as <- ->. destruct x as [s ns]. cbn [fst snd] in Eb, Es |- *. unfold sim in Es.
  destruct a as [i|i m|i|j|t]; try discriminate.
  - destruct (does (ns i)) as [nd|] eqn:En; [|discriminate]. injection Es as <-. destruct (IH _ _ _ _ _ tr Ew) as (tr' & H').
    exists tr'. eapply ca_duty; [|exact H']. apply does_duty; [|exact En]. intros E. unfold busy_act in Eb. rewrite E in Eb. discriminate.
  - destruct m as [d| |fr|j v]; try discriminate. destruct (says (ns i) (Done j v)) as [nd|] eqn:En; [|discriminate]. injection Es as <-.
    destruct (IH _ _ _ _ _ tr Ew) as (tr' & H'). exists tr'. eapply ca_duty; [|exact H']. eapply says_duty; exact En.
  - destruct (n_outbox (ns i)) as [|m out] eqn:Eo; [discriminate|].
    destruct (on_request o cfg (Msg "workers" i (frames (cards i) m)) s) as (outs, [f'|([], s')]) eqn:Er; [discriminate|]. injection Es as <-.
    destruct (IH _ _ _ _ _ (tr ++ [mkEvent s (Msg "workers" i (frames (cards i) m)) outs s']) Ew) as (tr' & H'). exists tr'. eapply ca_read; [exact Eo|exact Er|exact H'].
Qed.
End Sim.
