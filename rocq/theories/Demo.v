(* Concrete runs used by the examples beside the theorems. *)
From Verif Require Import Base Bytes Containers Worker Multi Single Queue Handler Spec.
Local Open Scope string_scope.
Local Open Scope list_scope.

Definition demo_oracle : oracle := mkOracle (fun n => N.of_nat (100 - n)) (fun n => Z.of_nat n) (fun _ r => N.of_nat r).
Definition demo_cfg : config := mkConfig 2 2 1000.

Definition from_worker (i : string) (d : list string) : msg := Msg "workers" i d.
Definition from_client (i : string) (d : list string) : msg := Msg "clients" i d.
Definition tick (t : string) : msg := Msg "timer" "" [t].

(* two workers, four jobs: one finished, one failed, one reassigned until its limit, one queued *)
Definition demo_inputs : list msg :=
  [from_worker "A" ["init"; "group1"; "env=c"; "threads=4"];
   from_worker "B" ["init"; "group2"; "env=c"; "threads=8"; ""; "description=box"];
   from_client "u" ["eval"; "job1"; "hwgroup=group1|group2"; "env=c"; "threads=4"; ""; "url1"; "url2"];
   from_client "u" ["eval"; "job2"; "hwgroup=group1"; "meta.user=joe"; ""; "url3"];
   from_client "v" ["eval"; "job3"; "hwgroup=group2"; "threads=6"; ""; "url4"];
   from_client "v" ["eval"; "job4"; "hwgroup=group3"; ""; "url5"];
   from_client "v" ["eval"; "job1"; "hwgroup=group1|group2"; ""; "url6"];
   from_worker "A" ["done"; "job1"; "OK"];
   from_worker "A" ["done"; "job2"; "INTERNAL_ERROR"; "disk"];
   from_worker "B" ["done"; "job1"; "FAILED"; "bad"];
   from_worker "B" ["done"; "job3"; "INTERNAL_ERROR"; "disk"];
   from_worker "A" ["ping"];
   from_client "w" ["eval"; "job5"; "env=c"; ""];
   from_client "w" ["eval"; "job6"; "env=c"; ""];
   tick "600"; tick "600"; tick "600"; from_worker "A" ["ping"]; tick "600";
   from_worker "A" ["done"; "job2"; "OK"]].

Lemma exec_run o cfg k ms : forall tr0 s0 tr s, run o cfg k tr0 s0 ->
  exec o cfg s0 ms = (tr, inr s) -> run o cfg k (tr0 ++ tr) s.
Proof.
  induction ms as [|m ms IH]; simpl; intros tr0 s0 tr s HR H.
  - injection H as <- <-. rewrite app_nil_r. exact HR.
  - destruct (on_request o cfg m s0) as (outs, [f|([], s1)]) eqn:E; [discriminate|].
    destruct (exec o cfg s1 ms) as (tr1, r1) eqn:E1. injection H as <- ->.
    replace (tr0 ++ mkEvent s0 m outs s1 :: tr1) with ((tr0 ++ [mkEvent s0 m outs s1]) ++ tr1)
      by (rewrite <- app_assoc; reflexivity).
    eapply IH; [|exact E1]. apply run_snoc; assumption.
Qed.

Definition start (k : kind) : state := init_state (empty_manager k).
Lemma exec_start o cfg k ms tr s : exec o cfg (start k) ms = (tr, inr s) -> run o cfg k tr s.
Proof. intros H. apply (exec_run o cfg k ms [] (start k) tr s); [apply run_nil|exact H]. Qed.

(* what an execution shows: outputs per input and the fault, if any *)
Definition outputs (x : list event * (fault + state)) : list (list msg) := map ev_out (fst x).
Definition final (x : list event * (fault + state)) : option state :=
  match snd x with inr s => Some s | inl _ => None end.

(* the n-th event of an execution *)
Definition event_at (x : list event * (fault + state)) (n : nat) : event :=
  nth n (fst x) (mkEvent (start KSingle) (tick "") [] (start KSingle)).

Lemma split_nth {A} (l : list A) d : forall n, n < length l -> l = firstn n l ++ nth n l d :: skipn (S n) l.
Proof.
  induction l as [|a l IH]; simpl; intros [|n] H; [inversion H|inversion H|reflexivity|].
  simpl. f_equal. apply IH. apply Nat.succ_lt_mono. exact H.
Qed.

Lemma exec_event o cfg k ms n (P : event -> Prop) :
  let x := exec o cfg (start k) ms in
  Nat.ltb n (length (fst x)) = true -> match final x with Some _ => True | None => False end -> P (event_at x n) ->
  exists tr1 e tr2 s, run o cfg k (tr1 ++ e :: tr2) s /\ P e.
Proof.
  intros x Hn Hf HP. destruct x as (tr, [f|s]) eqn:E; [destruct Hf|].
  exists (firstn n tr), (event_at (tr, inr s) n), (skipn (S n) tr), s. split; [|exact HP].
  unfold event_at. simpl fst. rewrite <- split_nth by (apply Nat.ltb_lt; exact Hn).
  apply (exec_start o cfg k ms). exact E.
Qed.

Ltac find_in := vm_compute; repeat (first [left; reflexivity | right]).
