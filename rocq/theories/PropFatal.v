(* C23: exactly which messages kill the broker. *)
From Verif Require Import Base Bytes Containers Worker Multi Single Queue Handler SpecText Spec SpecRun SpecMsg SpecPings SpecFatal
  Fatal Demo.
Local Open Scope string_scope.
Local Open Scope list_scope.

(* C23. In every reachable state, a message kills the broker in exactly the cases listed by `dies`, with
   the fault and after the messages given there. *)
Theorem C23_fatal : forall o cfg k tr s m outs f,
  run o cfg k tr s -> (crashes o cfg s m outs f <-> dies tr s m outs f).
Proof. exact crash_iff. Qed.
Print Assumptions C23_fatal.

(* C23. Benign messages never kill it. *)
Theorem C23_benign : forall o cfg k tr s m,
  run o cfg k tr s -> benign s m -> exists outs s', on_request o cfg m s = (outs, inr (tt, s')).
Proof. exact benign_harmless. Qed.
Print Assumptions C23_benign.

(* a worker that declares thread counts and one that does not *)
Definition fatal_inputs : list msg :=
  [from_worker "A" ["init"; "g"; "threads=4"]; from_worker "B" ["init"; "h"];
   from_client "u" ["eval"; "j1"; "hwgroup=h"; ""; "url"]; tick "900"].
Definition reply_to (k : kind) (m : msg) : option (list msg * option fault) :=
  option_map (fun s => let '(outs, r) := on_request demo_oracle demo_cfg m s in
                       (outs, match r with inl f => Some f | inr _ => None end))
    (final (exec demo_oracle demo_cfg (start k) fatal_inputs)).

(* the bad thread count is reached at worker A only, and only when everything before it is offered *)
Example C23_example_eval : forall k,
  reply_to k (from_client "u" ["eval"; "j2"; "threads=2"; "threads=x"; ""]) =
    Some ([Msg "clients" "u" ["ack"]], Some InvalidArgument) /\
  reply_to k (from_client "u" ["eval"; "j2"; "threads=99999999999999999999"; ""]) =
    Some ([Msg "clients" "u" ["ack"]], Some OutOfRange) /\
  option_map snd (reply_to k (from_client "u" ["eval"; "j2"; "threads=5"; "threads=x"; ""])) = Some None /\
  option_map snd (reply_to k (from_client "u" ["eval"; "j2"; "hwgroup=h"; "threads=x"; ""])) = Some None /\
  option_map snd (reply_to k (from_client "u" ["eval"; "j2"; "xyz=1"; "threads=x"; ""])) = Some (Some InvalidArgument) /\
  option_map snd (reply_to k (from_client "u" ["eval"; "j2"; "threads=x"])) = Some None.
Proof. destruct k; vm_compute; auto 10. Qed.

Example C23_example_other : forall k,
  reply_to k (from_worker "A" ["done"; "j1"; "OK"]) = Some ([], Some NullDeref) /\
  option_map snd (reply_to k (from_worker "B" ["done"; "j9"; "OK"])) = Some None /\
  option_map snd (reply_to k (from_worker "C" ["done"; "j9"; "OK"])) = Some None /\
  reply_to k (from_worker "C" ["init"; "g"; "threads=4"; "threads="; ""]) = Some ([], Some InvalidArgument) /\
  option_map snd (reply_to k (from_worker "A" ["init"; "g"; "threads=x"])) = Some (Some InvalidArgument) /\
  reply_to k (from_worker "A" []) = Some ([], Some OutOfRange) /\
  reply_to k (tick "9223372036854775807") = Some ([], Some IntOverflow) /\
  reply_to k (tick "9223372036854775808") = Some ([], Some OutOfRange) /\
  option_map snd (reply_to k (tick " -12 ms")) = Some None.
Proof. destruct k; vm_compute; auto 15. Qed.
