(* The whole process, specified without handlers and tables: which messages the loop takes in which order, and what is
   answered, by the ledger (SpecLedger) or the hall (SpecPool). *)
From Verif Require Import Base Bytes Containers Worker Multi Single Queue Handler SpecText Spec SpecRun SpecFront SpecFatal SpecLedger SpecPool Reactor SpecReactor Config SpecConfig Logger Startup SpecStartup.
Local Open Scope string_scope.
Local Open Scope list_scope.

(* The messages in the order in which they are handled; cs and ks wait on the sockets of the clients and the workers.
   In every round the first message of each is taken, that of the clients first; then comes the time waited. *)
Fixpoint agenda (cs ks : list (string * list string)) (ws : list wait) : list msg :=
  match ws with
  | [] => []
  | w :: rest =>
      let cs := cs ++ arrived_on "clients" [w] in
      let ks := ks ++ arrived_on "workers" [w] in
      named_msgs "clients" (firstn 1 cs) ++ named_msgs "workers" (firstn 1 ks) ++ timer_msg w :: agenda (tl cs) (tl ks) rest
  end.

(* the messages ms are answered with outss, which leaves the ledger L *)
Inductive answered (o : oracle) (cfg : config) : kind -> list msg -> list (list msg) -> ledger -> Prop :=
| an_multi : forall ms outss L, reacted cfg ms outss L -> answered o cfg KMulti ms outss L
| an_single : forall ms outss R, responded (o_addr o) (o_clock o) in_time cfg ms outss R -> answered o cfg KSingle ms outss (as_ledger R).

(* what an observer sees: each message handed to the broker, followed by its answers on their way *)
Definition shown_one (x : msg * list msg) : list effect := Act (ACall 0 (fst x)) :: map Act (flat_map broker_route (snd x)).
Definition shown (ms : list msg) (outss : list (list msg)) : list effect := flat_map shown_one (combine ms outss).

(* the process has started with settings g and manager k *)
Definition started (env : environment) (args : list string) (g : settings) (k : kind) : Prop :=
  exists doc, configured env args doc g /\ log_opens env g /\ chosen doc k /\ Forall (opens env) (openings g).
Definition prelude (g : settings) : list effect := begun g ++ map opening (openings g).
