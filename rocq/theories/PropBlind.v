(* C51: what the broker does not look at. *)
From Verif Require Import Base Bytes Containers Worker Multi Single Queue Handler SpecText SpecBlind Spec Demo Blind.
Local Open Scope string_scope.
Local Open Scope list_scope.

(* Change the inputs of a run as follows: rename the clients in any way; rename the jobs so that different
   jobs keep different names; replace the payload of every submission and the metadata (headers whose
   name begins with "meta.") by others. Then the broker does the same: each message is answered by
   messages of the same kinds to the same addressees in the same order, with the jobs renamed and
   other payloads. *)
Theorem C51_blind : forall who ren, (forall a b, ren a = ren b -> a = b) ->
  forall o cfg k tr s, run o cfg k tr s -> forall ms, Forall2 (twin who ren) (map ev_in tr) ms ->
  exists tr' s', run o cfg k tr' s' /\ map ev_in tr' = ms /\ Forall2 (Forall2 (twin_out who ren)) (map ev_out tr) (map ev_out tr').
Proof. exact blind. Qed.
Print Assumptions C51_blind.

(* And it dies in the same places, of the same cause. *)
Theorem C51_blind_crash : forall who ren, (forall a b, ren a = ren b -> a = b) ->
  forall o cfg k tr s tr' s' m m' outs f, run o cfg k tr s -> run o cfg k tr' s' ->
  Forall2 (twin who ren) (map ev_in tr) (map ev_in tr') -> twin who ren m m' -> crashes o cfg s m outs f ->
  exists outs', crashes o cfg s' m' outs' f /\ Forall2 (twin_out who ren) outs outs'.
Proof. exact blind_crash. Qed.
Print Assumptions C51_blind_crash.

(* Two such input sequences, and what they are answered with. *)
Definition blind_inputs : list msg :=
  [from_worker "A" ["init"; "g"; "env=c"; ""; "current_job=z"; "description=box"];
   from_client "u" ["eval"; "x"; "meta.user=joe"; "env=c"; ""; "url1"; "url2"];
   from_client "v" ["eval"; "y"; "env=c"; ""];
   from_worker "A" ["progress"; "z"; "STARTED"]; from_worker "A" ["done"; "z"; "OK"]; from_worker "A" ["done"; "x"; "INTERNAL_ERROR"; "disk"];
   from_client "v" ["get-runtime-stats"]].
Definition other_inputs : list msg :=
  [from_worker "A" ["init"; "g"; "env=c"; ""; "current_job=job z"; "description=box"];
   from_client "nobody" ["eval"; "job x"; "env=c"; "meta.a"; "meta.b=1"; ""];
   from_client "nobody" ["eval"; "job y"; "meta.=4"; "env=c"; ""; ""; "p"];
   from_worker "A" ["progress"; "job z"; "STARTED"]; from_worker "A" ["done"; "job z"; "OK"]; from_worker "A" ["done"; "job x"; "INTERNAL_ERROR"; "disk"];
   from_client "nobody" ["get-runtime-stats"]].
Example C51_example_twins : Forall2 (twin (fun _ => "nobody") (append "job ")) blind_inputs other_inputs.
Proof.
  repeat apply Forall2_cons; [| | | | | | |apply Forall2_nil].
  - eapply (tw_init _ _ "A" "g" _ _ ["env=c"] ["current_job=z"; "description=box"] ["current_job=job z"; "description=box"]);
      [split; [reflexivity|intros [E|[]]; discriminate]|split; [reflexivity|intros [E|[]]; discriminate]|].
    repeat apply Forall2_cons; [| |apply Forall2_nil].
    + apply (te_job _ _ _ "z"); [apply (hf_pair "current_job" "z")|apply (hf_pair "current_job" "job z")]; apply no_eq; reflexivity.
    + apply (te_other _ _ "description" "box"); [apply (hf_pair "description" "box"); apply no_eq; reflexivity|discriminate].
  - apply (tw_eval (fun _ => "nobody") (append "job ") "u" "x" _ _ ["meta.user=joe"; "env=c"] ["env=c"; "meta.a"; "meta.b=1"] ["url1"; "url2"] []);
      [| |reflexivity]; (split; [reflexivity|]; simpl; intros H; repeat destruct H as [H|H]; (discriminate || contradiction)).
  - apply (tw_eval (fun _ => "nobody") (append "job ") "v" "y" _ _ ["env=c"] ["meta.=4"; "env=c"] [] [""; "p"]);
      [| |reflexivity]; (split; [reflexivity|]; simpl; intros H; repeat destruct H as [H|H]; (discriminate || contradiction)).
  - apply (tw_progress _ (append "job ") "A" "z").
  - apply (tw_done _ (append "job ") "A" "z").
  - apply (tw_done _ (append "job ") "A" "x").
  - apply (tw_client (fun _ => "nobody")). discriminate.
Qed.
Example C51_example : forall k,
  let out (u v x z : string) (p : list string) :=
   [match k with KSingle => [Msg "workers" "A" []] | KMulti => [] end;
    [Msg "clients" u ["ack"]; Msg "clients" u ["accept"]]; [Msg "clients" v ["ack"]; Msg "clients" v ["accept"]];
    [Msg "monitor" "recodex-monitor" [z; "STARTED"]];
    [Msg "status_notifier" "" ["type"; "job-status"; "id"; z; "status"; "OK"]; Msg "workers" "A" ("eval" :: x :: p)]; 
    [Msg "workers" "A" ("eval" :: x :: p)];
    [Msg "clients" v ["evaluated-jobs"; "1"; "failed-jobs"; "1"; "idle-worker-count"; "0"; "queued-jobs"; "0"; "worker-count"; "0"; "is-frozen"; "0"]]] in
  outputs (exec demo_oracle demo_cfg (start k) blind_inputs) = out "u" "v" "x" "z" ["url1"; "url2"] /\
  outputs (exec demo_oracle demo_cfg (start k) other_inputs) = out "nobody" "nobody" "job x" "job z" [].
Proof. intros []; vm_compute; split; reflexivity. Qed.

(* When two jobs get one name, the theorem fails: a report of x is ignored while A works on y, but a report
   of j ends j. *)
Example C51_same_names_refuted :
  let inputs x y := [from_worker "A" ["init"; "g"]; from_client "u" ["eval"; y; ""]; from_worker "A" ["done"; x; "OK"]] in
  Forall2 (twin (fun i => i) (fun _ => "j")) (inputs "x" "y") (inputs "j" "j") /\
  map (@length msg) (outputs (exec demo_oracle demo_cfg (start KSingle) (inputs "x" "y"))) = [0; 3; 0] /\
  map (@length msg) (outputs (exec demo_oracle demo_cfg (start KSingle) (inputs "j" "j"))) = [0; 3; 1].
Proof.
  split; [|split; reflexivity]. repeat apply Forall2_cons; [| | |apply Forall2_nil].
  - apply (tw_worker (fun i => i) (fun _ => "j")); [intros hw fr E; injection E as _ <-; intros []|discriminate|discriminate].
  - apply (tw_eval (fun i => i) (fun _ => "j") "u" "y" _ _ [] [] [] []); [split; [reflexivity|intros []]|split; [reflexivity|intros []]|reflexivity].
  - apply (tw_done (fun i => i) (fun _ => "j") "A" "x").
Qed.
