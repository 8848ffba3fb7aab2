(* Vocabulary for what the broker's environment can influence beside the messages it sends: the
   addresses of objects, the clock, and how std::sort leaves equal elements. *)
From Verif Require Import Base Bytes Containers Worker Multi Single Queue Handler SpecText Spec.

(* two environments allocate the workers in the same order of addresses *)
Definition same_addresses (o1 o2 : oracle) : Prop := forall i j, (o_addr o1 i < o_addr o1 j <-> o_addr o2 i < o_addr o2 j)%N.
(* their clocks order all readings alike *)
Definition same_clocks (o1 o2 : oracle) : Prop := forall i j, (o_clock o1 i < o_clock o1 j <-> o_clock o2 i < o_clock o2 j)%Z.
(* no two readings of the clock are equal *)
Definition no_ties (o : oracle) : Prop := forall i j, o_clock o i = o_clock o j -> i = j.
(* they order elements with equal times alike *)
Definition same_ties (o1 o2 : oracle) : Prop := forall n i j, (o_tie o1 n i <= o_tie o1 n j <-> o_tie o2 n i <= o_tie o2 n j)%N.

(* what an observer sees of a history: the messages received and those sent for each *)
Definition seen (tr : list event) : list (msg * list msg) := map (fun e => (ev_in e, ev_out e)) tr.
