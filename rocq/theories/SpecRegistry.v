(* The worker registry as such: a list in the order of registration that can be searched by name and by requirements. *)
From Verif Require Import Base Bytes Containers Worker Multi Single Queue Handler SpecText Spec SpecRun SpecMsg SpecPings SpecFatal.
Local Open Scope string_scope.
Local Open Scope list_scope.

Inductive act : Type := Add (w : worker) | Remove (w : worker).
Definition perform (acts : list act) : list worker :=
  fold_left (fun ws a => match a with Add w => reg_add w ws | Remove w => reg_remove w ws end) acts [].
Definition added (acts : list act) : list worker := flat_map (fun a => match a with Add w => [w] | Remove _ => [] end) acts.

(* w has been added and, as an object, not been removed since *)
Definition present (acts : list act) (w : worker) : Prop :=
  exists before after, acts = before ++ Add w :: after /\ forall v, In (Remove v) after -> w_id v <> w_id w.

Inductive sub {A} : list A -> list A -> Prop :=
| sub_nil : sub [] []
| sub_skip : forall a l m, sub l m -> sub l (a :: m)
| sub_keep : forall a l m, sub l m -> sub (a :: l) (a :: m).

(* w was made from group hw and header frames hdrs *)
Definition made_from (w : worker) (c : string * list string) : Prop :=
  ~ In "" (snd c) /\ exists wid addr i d w0, make_worker wid addr i (fst c) (fst (parse_init_headers (snd c) [])) = Val w0 /\ w = set_description d w0.

Definition able (c : string * list string) (need : list string) : Prop := forall k v, requires need k v -> offers (fst c) (snd c) k v.
Definition chokes (c : string * list string) (need : list string) (f : fault) : Prop :=
  exists before, first_bad need before f /\ reaches (fst c) (snd c) need before.
Definition passes (c : string * list string) (need : list string) : Prop := ~ able c need /\ forall f, ~ chokes c need f.
Definition all_before (P : string * list string -> Prop) (n : nat) (cs : list (string * list string)) : Prop :=
  forall i c, i < n -> nth_error cs i = Some c -> P c.

(* what a search for need gives: the first worker able to do it, unless a worker before it makes the search throw *)
Definition outcome (need : list string) (ws : list worker) (cs : list (string * list string)) (x : res (option worker)) : Prop :=
  match x with
  | Val (Some w) => exists n c, nth_error ws n = Some w /\ nth_error cs n = Some c /\ able c need /\ all_before (fun c => passes c need) n cs
  | Val None => all_before (fun c => passes c need) (length cs) cs
  | Fail f => exists n c, nth_error cs n = Some c /\ chokes c need f /\ all_before (fun c => passes c need) n cs
  end.
