(* Property C59: the answers of asynchronous handlers. *)
From Verif Require Import Base Wire Replies SpecReplies RepliesFacts.
Local Open Scope string_scope.
Local Open Scope list_scope.

(* For every interleaving of any number of handlers with the socket and the reactor: what the reactor has read of a handler
   is what that handler has answered, in order, up to what is still under way. *)
Theorem C59_unchanged : forall es out r id, replies_all es no_replies = Some (out, r) ->
  (forall m, In m (answers id es) -> m_data m <> []) ->
  exists later, answers id es = heard_of id out ++ later /\ (rp_in r = [] -> rp_pipe r id = [] -> later = []).
Proof. exact unchanged. Qed.
Print Assumptions C59_unchanged.

(* Whatever it answers: an answer without data frames is one message with the next answer. The other handlers are
   not affected. *)
Theorem C59_in_order : forall es out r id, replies_all es no_replies = Some (out, r) ->
  exists later, glued None (answers id es) = heard_of id out ++ later /\ (rp_in r = [] -> rp_pipe r id = [] -> later = []).
Proof. exact in_order. Qed.
Print Assumptions C59_in_order.

(* Once poll has reported a message, reading it does not block. *)
Theorem C59_never_blocks : forall es out r, replies_all es no_replies = Some (out, r) -> rp_in r <> [] -> reply Read r <> None.
Proof. exact never_blocks. Qed.
Print Assumptions C59_never_blocks.

(* At any time the reactor can come to have read all there is. *)
Theorem C59_all_read : forall es out r, replies_all es no_replies = Some (out, r) ->
  exists es' out' r', no_answers es' /\ replies_all es' r = Some (out', r') /\ forall id, heard_of id (out ++ out') = glued None (answers id es).
Proof. exact all_read. Qed.
Print Assumptions C59_all_read.

(* If no handler answers, as the notifier does not, the reactor never finds anything on this socket. *)
Theorem C59_silent : forall es out r, replies_all es no_replies = Some (out, r) -> no_answers es -> out = [] /\ rp_in r = [].
Proof. exact silent. Qed.
Print Assumptions C59_silent.

(* Two handlers, whose answers cross. *)
Definition two : list reply_step :=
  [Respond "a" (Msg "workers" "w1" ["x"; "y"]); Respond "b" (Msg "clients" "c1" [""]); Respond "a" (Msg "workers" "w2" ["z"]);
   Choose "b"; Choose "a"; Read; Read; Choose "a"].
Example C59_two : exists r, replies_all two no_replies = Some ([("b", Msg "clients" "c1" [""]); ("a", Msg "workers" "w1" ["x"; "y"])], r) /\
  rp_in r <> [] /\ rp_pipe r "a" = [] /\ reply Read r <> None /\
  forall m, In m (answers "a" two) -> m_data m <> [].
Proof.
  eexists. split; [reflexivity|]. cbn. repeat split; try discriminate.
  intros m [<-|[<-|[]]]; discriminate.
Qed.

(* Not every answer arrives as it was given: one without data frames is kept back for ever if it is the last one ... *)
Example C59_kept_back_refuted : exists r, replies_all [Respond "a" (Msg "workers" "w1" [])] no_replies = Some ([], r) /\
  rp_in r = [] /\ (forall id, rp_pipe r id = []) /\ reply (Choose "a") r = None /\ reply Read r = None.
Proof.
  eexists. split; [reflexivity|]. cbn. repeat split. intros id. unfold at_. destruct (String.eqb id "a"); reflexivity.
Qed.
(* ... and swallows the next one otherwise. *)
Example C59_swallowed_refuted : exists r,
  replies_all [Respond "a" (Msg "workers" "w1" []); Respond "a" (Msg "clients" "c1" ["ok"]); Choose "a"; Read] no_replies =
  Some ([("a", Msg "workers" "w1" ["clients"; "c1"; "ok"])], r) /\ rp_in r = [].
Proof. eexists. split; reflexivity. Qed.
