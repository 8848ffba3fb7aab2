(* C72. The contract of the worker registry. *)
From Verif Require Import Base Bytes Containers Worker Multi Single Queue Handler SpecText Spec SpecRun SpecMsg SpecPings SpecFatal SpecRegistry Registry.
Local Open Scope string_scope.
Local Open Scope list_scope.

(* Whoever was added and not removed since is there, in the order of addition. *)
Theorem C72_contents : forall acts w, NoDup (map w_id (added acts)) -> (In w (perform acts) <-> present acts w).
Proof. exact perform_in. Qed.
Print Assumptions C72_contents.

Theorem C72_order : forall acts, sub (perform acts) (added acts).
Proof. exact perform_sub. Qed.
Print Assumptions C72_order.

(* The search by name finds the oldest worker of that name. *)
Theorem C72_by_name : forall i ws w, find_worker_by_identity i ws = Some w <->
  exists before after, ws = before ++ w :: after /\ w_identity w = i /\ forall v, In v before -> w_identity v <> i.
Proof. exact found_by_name. Qed.
Print Assumptions C72_by_name.

(* The search by the header frames of a request finds the oldest worker that offers all they require; it throws if it
   comes to a thread count that is no number before. *)
Theorem C72_by_need : forall need ws cs frames payload rq md, Forall2 made_from ws cs -> header_block frames need payload ->
  parse_eval_headers frames [] [] = Val (Some (rq, md, payload)) -> forall x, find_worker rq ws = x <-> outcome need ws cs x.
Proof. exact found_by_need. Qed.
Print Assumptions C72_by_need.

Definition mk (n : nat) (i hw : string) (frames : list string) : list worker :=
  match make_worker n 7 i hw (fst (parse_init_headers frames [])) with Val w => [w] | Fail _ => [] end.
Definition some_workers : list worker := mk 1 "A" "g" ["env=c"] ++ mk 2 "B" "h" ["env=c"; "threads=4"] ++ mk 3 "A" "h" ["env=c"; "threads=8"].
Definition ask (frames : list string) : option (res (option nat)) :=
  match parse_eval_headers frames [] [] with
  | Val (Some (rq, _, _)) => Some (match find_worker rq some_workers with Val x => Val (option_map w_id x) | Fail f => Fail f end)
  | _ => None
  end.
Example C72_example :
  map (fun acts => map w_id (perform acts))
    (match some_workers with [a; b; c] => [[Add a; Add b; Add c]; [Add a; Add b; Remove a; Add c; Remove a]; [Add a; Remove b; Add b]] | _ => [] end) =
    [[1; 2; 3]; [2; 3]; [1; 2]] /\
  option_map w_id (find_worker_by_identity "A" some_workers) = Some 1 /\ option_map w_id (find_worker_by_identity "C" some_workers) = None /\
  map ask [["env=c"; ""]; ["env=c"; "threads=5"; ""]; ["env=c"; "threads=3"; "hwgroup=g|h"; ""; "url"]; ["env=java"; ""]; ["env=c"; "threads=x"; ""]] =
    [Some (Val (Some 1)); Some (Val (Some 3)); Some (Val (Some 2)); Some (Val None); Some (Fail InvalidArgument)] /\
  outcome ["env=c"; "threads=5"] some_workers [("g", ["env=c"]); ("h", ["env=c"; "threads=4"]); ("h", ["env=c"; "threads=8"])]
    (Val (nth_error some_workers 2)).
Proof.
  split; [reflexivity|]. split; [reflexivity|]. split; [reflexivity|]. split; [vm_compute; reflexivity|].
  refine (proj1 (C72_by_need _ _ _ ["env=c"; "threads=5"; ""] [] _ [] _ _ eq_refl _) eq_refl).
  - vm_compute some_workers. repeat constructor; try (intros H; simpl in H; intuition discriminate); do 3 eexists; exists ""; eexists; (split; [vm_compute; reflexivity|reflexivity]).
  - split; [reflexivity|]. simpl. intuition discriminate.
Qed.
