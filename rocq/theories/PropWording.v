(* C79. A job is what its headers require, and a worker what its headers offer, not how they are written. *)
From Verif Require Import Base Bytes Containers Worker Multi Single Queue Handler SpecText Spec SpecRun SpecMsg SpecOutcome SpecOracle SpecWording WordingRun TextFacts Demo.
Local Open Scope string_scope.
Local Open Scope list_scope.

(* Write the headers of every job and of every worker in another way that says the same: the broker does the same, for all
   that follows, except that a refusal lists the headers as they were written. One queue per worker, whatever the environment. *)
Theorem C79_multi : forall o o' cfg tr s ms, run o cfg KMulti tr s -> Forall2 reworded (map ev_in tr) ms ->
  exists tr' s', run o' cfg KMulti tr' s' /\ map ev_in tr' = ms /\ Forall2 (Forall2 retold) (map ev_out tr) (map ev_out tr') /\ fatal_alike o o' cfg s s'.
Proof. exact wording_multi. Qed.
Print Assumptions C79_multi.

(* One queue for all: in the same environment if the clock never shows the same time twice, *)
Theorem C79_single : forall o cfg tr s ms, no_ties o -> run o cfg KSingle tr s -> Forall2 reworded (map ev_in tr) ms ->
  exists tr' s', run o cfg KSingle tr' s' /\ map ev_in tr' = ms /\ Forall2 (Forall2 retold) (map ev_out tr) (map ev_out tr') /\ fatal_alike o o cfg s s'.
Proof. exact wording_single_clock. Qed.
Print Assumptions C79_single.

(* and for some results of std::sort otherwise. *)
Theorem C79_single_ties : forall o cfg tr s ms, run o cfg KSingle tr s -> Forall2 reworded (map ev_in tr) ms ->
  exists tie tr' s', run (mkOracle (o_addr o) (o_clock o) tie) cfg KSingle tr' s' /\ map ev_in tr' = ms /\
    Forall2 (Forall2 retold) (map ev_out tr) (map ev_out tr') /\ fatal_alike o (mkOracle (o_addr o) (o_clock o) tie) cfg s s'.
Proof. exact wording_single. Qed.
Print Assumptions C79_single_ties.

(* Frames in another order, or repeated, require the same, *)
Theorem C79_rearranged : forall need need', (forall f, In f need <-> In f need') -> same_wants need need'.
Proof. exact wants_rearranged. Qed.
Print Assumptions C79_rearranged.

(* and so they do with metadata among them or without. *)
Theorem C79_metadata : forall f m v a b, header_frame f ("meta." ++ m)%string v -> same_wants (a ++ f :: b) (a ++ b).
Proof. exact wants_metadata. Qed.
Print Assumptions C79_metadata.

(* Headers of workers may be put in another order as long as those of the same name stay in order. *)
Theorem C79_workers : forall f g k v k' v' a b, header_frame f k v -> header_frame g k' v' -> k <> k' -> same_headers (a ++ f :: g :: b) (a ++ g :: f :: b).
Proof. exact headers_swapped. Qed.
Print Assumptions C79_workers.

(* What is not sent to clients is the same altogether, and clients get the same kinds of answers. *)
Theorem C79_elsewhere : forall l l', Forall2 retold l l' ->
  filter (fun m => negb (String.eqb (m_key m) "clients")) l = filter (fun m => negb (String.eqb (m_key m) "clients")) l' /\
  map (fun m => (m_key m, m_ident m, hd_error (m_data m))) l = map (fun m => (m_key m, m_ident m, hd_error (m_data m))) l'.
Proof. exact retold_elsewhere. Qed.
Print Assumptions C79_elsewhere.

Definition wording_inputs (w x y : list string) : list msg :=
  [from_worker "A" ("init" :: "g" :: w); from_worker "B" ["init"; "h"; "env=c"];
   from_client "u" ("eval" :: "x" :: x ++ [""; "url"]); from_client "u" ("eval" :: "y" :: y ++ [""]);
   from_worker "A" ["done"; "x"; "INTERNAL_ERROR"; "disk"]; tick "1100"; tick "1100"].

Example C79_example :
  Forall2 reworded (wording_inputs ["env=c"; "threads=4"] ["env=c"; "threads=2"] ["env=z"; "hwgroup=g"])
    (wording_inputs ["threads=4"; "env=c"] ["threads=2"; "meta.user=joe"; "env=c"; "env=c"] ["hwgroup=g"; "env=z"; "env=z"]) /\
  exists tr s tr' s', run demo_oracle demo_cfg KMulti tr s /\ run demo_oracle demo_cfg KMulti tr' s' /\
    map ev_in tr = wording_inputs ["env=c"; "threads=4"] ["env=c"; "threads=2"] ["env=z"; "hwgroup=g"] /\
    map ev_in tr' = wording_inputs ["threads=4"; "env=c"] ["threads=2"; "meta.user=joe"; "env=c"; "env=c"] ["hwgroup=g"; "env=z"; "env=z"] /\
    map ev_out tr =
      [[]; []; [Msg "clients" "u" ["ack"]; Msg "workers" "A" ["eval"; "x"; "url"]; Msg "clients" "u" ["accept"]];
       [Msg "clients" "u" ["ack"]; Msg "clients" "u" ["reject"; "No worker available for given headers: env=z; hwgroup=g; "]; Msg "monitor" "recodex-monitor" ["y"; "FAILED"]];
       [Msg "workers" "A" ["eval"; "x"; "url"]]; [];
       [Msg "status_notifier" "" ["type"; "job-status"; "id"; "x"; "status"; "FAILED"; "message"; "Job was reassigned too many (1) times. Last failure message was: Worker timed out and its job cannot be reassigned"];
        Msg "monitor" "recodex-monitor" ["x"; "FAILED"]]] /\
    nth 3 (map ev_out tr') [] =
      [Msg "clients" "u" ["ack"]; Msg "clients" "u" ["reject"; "No worker available for given headers: env=z; env=z; hwgroup=g; "]; Msg "monitor" "recodex-monitor" ["y"; "FAILED"]] /\
    forall n, n <> 3 -> nth n (map ev_out tr') [] = nth n (map ev_out tr) [].
Proof.
  assert (NC : forall k, find_char "=" k = None -> no_char "=" k) by (intros k; apply find_char_none).
  split.
  - constructor.
    { apply (rw_init "A" "g" ["env=c"; "threads=4"] ["threads=4"; "env=c"] []); [|cbn; intuition discriminate|cbn; intuition discriminate|auto].
      apply (C79_workers "env=c" "threads=4" "env" "c" "threads" "4" [] []); [apply (hf_pair "env" "c"); apply NC; reflexivity|apply (hf_pair "threads" "4"); apply NC; reflexivity|discriminate]. }
    constructor; [apply rw_same|]. constructor; [|constructor; [|repeat (constructor; [apply rw_same|]); constructor]].
    + apply (rw_eval "u" "x" _ _ ["env=c"; "threads=2"] ["threads=2"; "meta.user=joe"; "env=c"; "env=c"] ["url"]).
      * split; [reflexivity|]. cbn. intuition discriminate.
      * split; [reflexivity|]. cbn. intuition discriminate.
      * intros h v. pose proof (C79_metadata "meta.user=joe" "user" "joe" ["threads=2"] ["env=c"; "env=c"] (hf_pair "meta.user" "joe" (NC "meta.user" eq_refl)) h v) as HM.
        cbn [app] in HM. symmetry. eapply iff_trans; [exact HM|]. apply C79_rearranged. cbn. tauto.
      * intros v (f & HI & HF & _). assert (E : v = "2").
        { destruct HI as [<-|[<-|[]]].
          - destruct (header_frame_fun _ _ _ _ _ HF (hf_pair "env" "c" (NC "env" eq_refl))) as (E & _). discriminate E.
          - exact (proj2 (header_frame_fun _ _ _ _ _ HF (hf_pair "threads" "2" (NC "threads" eq_refl)))). }
        subst v. exists 2%N, false, 2%N. split; [apply number_of_read; reflexivity|]. split; reflexivity.
    + apply (rw_eval "u" "y" _ _ ["env=z"; "hwgroup=g"] ["hwgroup=g"; "env=z"; "env=z"] []).
      * split; [reflexivity|]. cbn. intuition discriminate.
      * split; [reflexivity|]. cbn. intuition discriminate.
      * apply C79_rearranged. cbn. tauto.
      * intros v (f & HI & HF & _). exfalso. destruct HI as [<-|[<-|[]]].
        { destruct (header_frame_fun _ _ _ _ _ HF (hf_pair "env" "z" (NC "env" eq_refl))) as (E & _). discriminate E. }
        { destruct (header_frame_fun _ _ _ _ _ HF (hf_pair "hwgroup" "g" (NC "hwgroup" eq_refl))) as (E & _). discriminate E. }
  - destruct (exec demo_oracle demo_cfg (start KMulti) (wording_inputs ["env=c"; "threads=4"] ["env=c"; "threads=2"] ["env=z"; "hwgroup=g"])) as (tr, [f|s]) eqn:E; [vm_compute in E; discriminate|].
    destruct (exec demo_oracle demo_cfg (start KMulti) (wording_inputs ["threads=4"; "env=c"] ["threads=2"; "meta.user=joe"; "env=c"; "env=c"] ["hwgroup=g"; "env=z"; "env=z"])) as (tr', [f|s']) eqn:E'; [vm_compute in E'; discriminate|].
    exists tr, s, tr', s'. split; [exact (exec_start _ _ _ _ _ _ E)|]. split; [exact (exec_start _ _ _ _ _ _ E')|].
    vm_compute in E, E'. injection E as <- <-. injection E' as <- <-. split; [reflexivity|split; [reflexivity|split; [reflexivity|split; [reflexivity|]]]].
    intros [|[|[|[|[|[|[|n]]]]]]] H; try reflexivity. contradiction.
Qed.

(* The condition on thread counts cannot be dropped: which of two is read first decides whether the broker survives. *)
Example C79_counts_refuted : same_wants ["threads=8"; "threads=x"] ["threads=x"; "threads=8"] /\
  exists tr s, run demo_oracle demo_cfg KMulti tr s /\
    (forall outs f, ~ crashes demo_oracle demo_cfg s (from_client "u" ["eval"; "j"; "threads=8"; "threads=x"; ""]) outs f) /\
    crashes demo_oracle demo_cfg s (from_client "u" ["eval"; "j"; "threads=x"; "threads=8"; ""]) [Msg "clients" "u" ["ack"]] InvalidArgument.
Proof.
  split; [apply C79_rearranged; cbn; tauto|].
  destruct (exec demo_oracle demo_cfg (start KMulti) [from_worker "A" ["init"; "g"; "threads=4"]]) as (tr, [f|s]) eqn:E; [vm_compute in E; discriminate|].
  exists tr, s. split; [exact (exec_start _ _ _ _ _ _ E)|]. vm_compute in E. injection E as <- <-. split; [intros outs f H; vm_compute in H; discriminate H|reflexivity].
Qed.

(* Nor may headers of the same name change places in what a worker says: it would be taken for another one. *)
Example C79_workers_refuted : forall k, exists tr s, run demo_oracle demo_cfg k tr s /\
  map ev_in tr = [from_worker "A" ["init"; "g"; "env=c"; "env=d"]; from_worker "A" ["init"; "g"; "env=d"; "env=c"]] /\
  map ev_out tr = [[]; [Msg "status_notifier" "" ["type"; "error"; "message"; "Received two different INIT messages from the same worker (41)"]]].
Proof.
  intros k. destruct (exec demo_oracle demo_cfg (start k) [from_worker "A" ["init"; "g"; "env=c"; "env=d"]; from_worker "A" ["init"; "g"; "env=d"; "env=c"]]) as (tr, [f|s]) eqn:E;
    [destruct k; vm_compute in E; discriminate|].
  exists tr, s. split; [exact (exec_start _ _ _ _ _ _ E)|]. destruct k; vm_compute in E; injection E as <- <-; split; reflexivity.
Qed.
