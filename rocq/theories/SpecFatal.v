(* Which messages kill the broker, in which state, with which fault, and what is still sent. *)
From Verif Require Import Base Bytes Containers Worker Multi Single Queue Handler SpecText Spec SpecRun SpecMsg SpecPings.
Local Open Scope string_scope.
Local Open Scope list_scope.

(* reading thread count v (unsigned long) throws f *)
Definition bad_count (v : string) (f : fault) : Prop :=
  (f = InvalidArgument /\ forall neg n, ~ number v neg n) \/
  (f = OutOfRange /\ exists neg n, number v neg n /\ (two64 <= n)%N).

(* reading elapsed time t (long long) throws f *)
Definition bad_time (t : string) (f : fault) : Prop :=
  (f = InvalidArgument /\ forall neg n, ~ number t neg n) \/
  (f = OutOfRange /\ exists neg n, number t neg n /\ in_i64 (if neg then - Z.of_N n else Z.of_N n)%Z = false).

(* the thread counts in the header frames are before, all of them numbers, then one that is not *)
Definition first_bad (hdrs before : list string) (f : fault) : Prop :=
  exists v after, values "threads" hdrs (before ++ v :: after) /\
    (forall x, In x before -> exists n, denotes x n) /\ bad_count v f.

(* comparing the requirements of a job with a worker gets as far as the bad thread count: headers are
   compared in the order of their names, up to the first one that is not offered, and thread counts
   are read only for workers that declare some *)
Definition reaches (hw : string) (hdrs need before : list string) : Prop :=
  (exists fr d, In fr hdrs /\ header_frame fr "threads" d) /\
  (forall x, In x before -> offers hw hdrs "threads" x) /\
  (forall k x, requires need k x -> String.ltb k "threads" = true -> offers hw hdrs k x).

(* in state s, reached by history tr, the message kills the broker, which has sent outs by then *)
Inductive dies (tr : list event) (s : state) : msg -> list msg -> fault -> Prop :=
| di_empty_worker : forall i, dies tr s (Msg "workers" i []) [] OutOfRange
| di_empty_client : forall i, dies tr s (Msg "clients" i []) [] OutOfRange
| di_empty_tick : forall i, dies tr s (Msg "timer" i []) [] DerefEnd
| di_eval_bare : forall i, dies tr s (Msg "clients" i ["eval"]) [Msg "clients" i ["ack"]] OutOfRange
| di_eval_job : forall i j, dies tr s (Msg "clients" i ["eval"; j]) [Msg "clients" i ["ack"]] DerefEnd
| di_eval_threads : forall i j frames need payload before f w reg hw hdrs,
    s_frozen s = false -> header_block frames need payload -> first_bad need before f ->
    In w (s_reg s) -> In reg tr -> joined reg w hw hdrs -> reaches hw hdrs need before ->
    dies tr s (Msg "clients" i ("eval" :: j :: frames)) [Msg "clients" i ["ack"]] f
| di_init_new : forall i hw frames hdrs before f,
    sender i s = None -> init_block frames hdrs -> first_bad hdrs before f ->
    dies tr s (Msg "workers" i ("init" :: hw :: frames)) [] f
| di_init_changed : forall i hw frames hdrs before f w reg hw0 hdrs0,
    sender i s = Some w -> In reg tr -> joined reg w hw0 hdrs0 -> init_block frames hdrs -> ~ same_headers hdrs0 hdrs ->
    first_bad hdrs before f ->
    dies tr s (Msg "workers" i ("init" :: hw :: frames))
      [Msg "status_notifier" "" ["type"; "error"; "message";
         ("Received two different INIT messages from the same worker (" ++ get_description w ++ ")")%string]] f
| di_done_idle : forall i w j st rest,
    sender i s = Some w -> current_of (s_queue s) w = None ->
    dies tr s (Msg "workers" i ("done" :: j :: st :: rest)) [] NullDeref
| di_tick_text : forall i t rest f, bad_time t f -> dies tr s (Msg "timer" i (t :: rest)) [] f
| di_tick_overflow : forall i t rest z w old,
    reads t z -> In w (s_reg s) -> ping_timer s w = Some old -> in_i64 (old + z) = false ->
    dies tr s (Msg "timer" i (t :: rest)) [] IntOverflow.

(* messages that are harmless whatever else is going on *)
Inductive benign (s : state) : msg -> Prop :=
| be_channel : forall key i d, ~ In key ["workers"; "clients"; "timer"] -> benign s (Msg key i d)
| be_worker_word : forall i c d, c <> "init" -> c <> "done" -> benign s (Msg "workers" i (c :: d))
| be_client_word : forall i c d, c <> "eval" -> benign s (Msg "clients" i (c :: d))
| be_short_init : forall i, benign s (Msg "workers" i ["init"])
| be_init : forall i hw frames hdrs, init_block frames hdrs ->
    (forall fr v, In fr hdrs -> header_frame fr "threads" v -> exists n, denotes v n) ->
    benign s (Msg "workers" i ("init" :: hw :: frames))
| be_done_short : forall i d, length d < 2 -> benign s (Msg "workers" i ("done" :: d))
| be_done_unknown : forall i d, sender i s = None -> benign s (Msg "workers" i ("done" :: d))
| be_done : forall i d w r, sender i s = Some w -> current_of (s_queue s) w = Some r -> benign s (Msg "workers" i ("done" :: d))
| be_eval : forall i j fr frames,
    (forall need payload x v, header_block (fr :: frames) need payload -> In x need -> header_frame x "threads" v ->
       exists n, denotes v n) ->
    benign s (Msg "clients" i ("eval" :: j :: fr :: frames))
| be_tick : forall i t rest z, reads t z ->
    (forall w old, In w (s_reg s) -> ping_timer s w = Some old -> in_i64 (old + z) = true) ->
    benign s (Msg "timer" i (t :: rest)).
