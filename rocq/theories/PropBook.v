(* C69. Seen by clients and by workers that only talk about themselves, the broker is a guest book: a list of names with what
   they said of themselves. *)
From Verif Require Import Base Bytes Containers Worker Multi Single Queue Handler SpecText Spec SpecRun SpecMsg SpecFront SpecBook Book Demo.
Local Open Scope string_scope.
Local Open Scope list_scope.

(* Every execution is one of the book: the book gives the broker's answers, and its guests stand for the registered
   workers, in the order of the registry. *)
Theorem C69_book : forall o cfg k tr s, run o cfg k tr s ->
  exists b, served cfg (map ev_in tr) (map answers tr) b /\ b_frozen b = s_frozen s /\ Forall2 (stands s) (b_guests b) (s_reg s).
Proof. exact run_stands. Qed.
Print Assumptions C69_book.

(* The messages heard determine the answers and the book. *)
Theorem C69_determined : forall cfg ms as1 b1, served cfg ms as1 b1 -> forall as2 b2, served cfg ms as2 b2 -> as1 = as2 /\ b1 = b2.
Proof. exact served_fun. Qed.
Print Assumptions C69_determined.

Definition book_inputs : list msg :=
  [from_worker "A" ["init"; "g"; "env=c"]; from_worker "B" ["init"; "h"; "env=c"; "threads=4"; ""; "description=box"];
   from_worker "A" ["init"; "g"; "env=c"]; from_client "u" ["eval"; "x"; "env=c"; "threads=3"; "hwgroup=g|h"; ""];
   from_client "u" ["eval"; "y"; "threads=5"; "env=c"; ""]; from_worker "B" ["ping"]; tick "600"; tick "600"; tick "700";
   from_worker "B" ["done"; "x"; "OK"]; from_client "u" ["freeze"]; tick "400"; from_worker "A" ["ping"];
   from_client "u" ["eval"; "z"; ""]; from_worker "B" ["progress"; "x"; "TASK"]].

(* A registers twice with the same headers and is forgotten after two missed pings; B registers with a description. *)
Example C69_example : exists tr s b, run demo_oracle demo_cfg KMulti tr s /\ map ev_in tr = book_inputs /\
  served demo_cfg book_inputs (map answers tr) b /\
  map (fun g => (g_name g, g_group g, g_note g, g_chances g, g_waited g)) (b_guests b) = [("B", "h", "box", 2%N, 0%Z)] /\ b_frozen b = true /\
  skipn 3 (map answers tr) =
    [[Msg "clients" "u" ["ack"]; Msg "clients" "u" ["accept"]];
     [Msg "clients" "u" ["ack"]; Msg "clients" "u" ["reject"; "No worker available for given headers: env=c; threads=5; "]];
     [Msg "workers" "B" ["pong"]]; []; []; []; []; [Msg "clients" "u" ["ack"]]; []; [Msg "workers" "A" ["intro"]];
     [Msg "clients" "u" ["ack"]; Msg "clients" "u" ["reject"; "The broker is frozen."]];
     [Msg "monitor" "recodex-monitor" ["x"; "TASK"]]].
Proof.
  destruct (exec demo_oracle demo_cfg (start KMulti) book_inputs) as (tr, [f|s]) eqn:E; [vm_compute in E; discriminate|].
  pose proof (exec_start _ _ _ _ _ _ E) as HR. destruct (C69_book _ _ _ _ _ HR) as (b & H1 & H2 & H3).
  exists tr, s, b. split; [exact HR|]. vm_compute in E. injection E as <- <-.
  split; [reflexivity|]. split; [exact H1|]. split; [|split; [exact H2|reflexivity]].
  clear - H3. cbn [s_reg] in H3. inversion H3 as [|g w gs ws (S1 & S2 & S3 & S4 & S5 & _) H4 E1 E2]; subst. inversion H4; subst.
  destruct g as (n, hw, fr, note, ch, wt). vm_compute in S4. vm_compute in S5. cbn in S1, S2, S3. cbn [map g_name g_group g_note g_chances g_waited].
  subst. injection S5 as <-. reflexivity.
Qed.
