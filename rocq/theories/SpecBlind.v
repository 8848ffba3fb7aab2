(* Vocabulary for saying what the broker does not look at: two messages that differ only in the job
   identifier, in the payload and metadata of a submission, or in the identity of the client. *)
From Verif Require Import Base Bytes SpecText.
Local Open Scope string_scope.
Local Open Scope list_scope.

(* the header frames of a submission that the broker may match against workers *)
Definition not_meta (f : string) : bool := negb (String.prefix "meta." f).

Section Renaming.
(* who: how client identities differ; ren: how job identifiers differ *)
Context (who ren : string -> string).

(* an entry after the empty frame of an init message *)
Inductive twin_entry : string -> string -> Prop :=
| te_job : forall f f' v, header_frame f "current_job" v -> header_frame f' "current_job" (ren v) -> twin_entry f f'
| te_other : forall f k v, header_frame f k v -> k <> "current_job" -> twin_entry f f.

(* received messages *)
Inductive twin : msg -> msg -> Prop :=
| tw_eval : forall i job frames frames' need need' payload payload',
    header_block frames need payload -> header_block frames' need' payload' ->
    filter not_meta need = filter not_meta need' ->
    twin (Msg "clients" i ("eval" :: job :: frames)) (Msg "clients" (who i) ("eval" :: ren job :: frames'))
| tw_cut : forall i job frames, ~ In "" frames ->
    twin (Msg "clients" i ("eval" :: job :: frames)) (Msg "clients" (who i) ("eval" :: ren job :: frames))
| tw_client : forall i d, (forall job frames, d <> "eval" :: job :: frames) ->
    twin (Msg "clients" i d) (Msg "clients" (who i) d)
| tw_init : forall i hw frames frames' hdrs extra extra',
    header_block frames hdrs extra -> header_block frames' hdrs extra' -> Forall2 twin_entry extra extra' ->
    twin (Msg "workers" i ("init" :: hw :: frames)) (Msg "workers" i ("init" :: hw :: frames'))
| tw_done : forall i job t, twin (Msg "workers" i ("done" :: job :: t)) (Msg "workers" i ("done" :: ren job :: t))
| tw_progress : forall i job t,
    twin (Msg "workers" i ("progress" :: job :: t)) (Msg "workers" i ("progress" :: ren job :: t))
| tw_worker : forall i d,
    (forall hw frames, d = "init" :: hw :: frames -> ~ In "" frames) ->
    (forall job t, d <> "done" :: job :: t) -> (forall job t, d <> "progress" :: job :: t) ->
    twin (Msg "workers" i d) (Msg "workers" i d)
| tw_rest : forall k i d, k <> "clients" -> k <> "workers" -> twin (Msg k i d) (Msg k i d).

(* sent messages *)
Inductive twin_out : msg -> msg -> Prop :=
| to_eval : forall i job payload payload',
    twin_out (Msg "workers" i ("eval" :: job :: payload)) (Msg "workers" i ("eval" :: ren job :: payload'))
| to_worker : forall i d, (forall job payload, d <> "eval" :: job :: payload) ->
    twin_out (Msg "workers" i d) (Msg "workers" i d)
| to_client : forall i d, twin_out (Msg "clients" i d) (Msg "clients" (who i) d)
| to_status : forall i job t,
    twin_out (Msg "status_notifier" i ("type" :: "job-status" :: "id" :: job :: t))
             (Msg "status_notifier" i ("type" :: "job-status" :: "id" :: ren job :: t))
| to_error : forall i d, (forall job t, d <> "type" :: "job-status" :: "id" :: job :: t) ->
    twin_out (Msg "status_notifier" i d) (Msg "status_notifier" i d)
| to_monitor : forall i job t, twin_out (Msg "monitor" i (job :: t)) (Msg "monitor" i (ren job :: t))
| to_empty : forall i, twin_out (Msg "monitor" i []) (Msg "monitor" i []).

End Renaming.
