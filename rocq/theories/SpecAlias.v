(* Vocabulary for saying that workers are told apart by their names and nothing else: the same messages with every worker
   called by another name. *)
From Verif Require Import Base Bytes Containers Worker Multi Single Queue Handler Spec SpecRun.
Local Open Scope string_scope.
Local Open Scope list_scope.

Section Alias.
(* the other name of every worker *)
Context (alias : string -> string).

(* a message received *)
Definition under (m : msg) : msg := if String.eqb (m_key m) "workers" then Msg "workers" (alias (m_ident m)) (m_data m) else m.

(* messages sent: apart from the address of a message to a worker, the name (in hexadecimal, with a note the worker gave
   itself) is found in two messages to the frontend *)
Inductive readdressed : msg -> msg -> Prop :=
| ra_worker : forall i d, readdressed (Msg "workers" i d) (Msg "workers" (alias i) d)
| ra_twice : forall i note, readdressed
    (Msg "status_notifier" "" ["type"; "error"; "message";
       ("Received two different INIT messages from the same worker (" ++ (string_to_hex i ++ note) ++ ")")%string])
    (Msg "status_notifier" "" ["type"; "error"; "message";
       ("Received two different INIT messages from the same worker (" ++ (string_to_hex (alias i) ++ note) ++ ")")%string])
| ra_dieded : forall j i note, readdressed
    (failed_report j ("Worker " ++ (string_to_hex i ++ note) ++ " dieded")%string)
    (failed_report j ("Worker " ++ (string_to_hex (alias i) ++ note) ++ " dieded")%string)
| ra_other : forall k i d, k <> "workers" -> readdressed (Msg k i d) (Msg k i d).

(* in states s and s' the same messages are fatal, with the same fault and the same messages sent before it *)
Definition same_end (o o' : oracle) (cfg : config) (s s' : state) : Prop :=
  (forall m outs f, crashes o cfg s m outs f -> exists outs', Forall2 readdressed outs outs' /\ crashes o' cfg s' (under m) outs' f) /\
  (forall m outs' f, crashes o' cfg s' (under m) outs' f -> exists outs, Forall2 readdressed outs outs' /\ crashes o cfg s m outs f).
End Alias.

(* what clients and the monitor get *)
Definition for_others (m : msg) : bool := String.eqb (m_key m) "clients" || String.eqb (m_key m) "monitor".
