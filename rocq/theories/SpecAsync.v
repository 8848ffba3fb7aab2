(* Asynchronous handlers, specified without frames and sockets: a bounded mailbox per handler. *)
From Verif Require Import Base Async.
Local Open Scope string_scope.
Local Open Scope list_scope.

Inductive item : Type := Letter (m : msg) | Stop.
Inductive status : Type := Fresh | Open | Closed.
Record box : Type := Box { b_status : status; b_items : list item }.

Definition put (hwm : nat) (x : item) (b : box) : box :=
  match b_status b with
  | Open => if Nat.ltb (length (b_items b)) hwm then Box Open (b_items b ++ [x]) else b
  | _ => b
  end.
(* a step as handler id sees it, and what it does *)
Definition box_step (hwm : nat) (id : string) (e : step) (b : box) : list (option msg) * box :=
  match e with
  | Connect i => ([], if String.eqb i id then match b_status b with Fresh => Box Open (b_items b) | _ => b end else b)
  | Pass i m => ([], if String.eqb i id then put hwm (Letter m) b else b)
  | Terminate i => ([], if String.eqb i id then put hwm Stop b else b)
  | Take i =>
      if String.eqb i id then
        match b_status b, b_items b with
        | Open, Letter m :: rest => ([Some m], Box Open rest)
        | Open, Stop :: rest => ([None], Box Closed rest)
        | _, _ => ([], b)
        end
      else ([], b)
  end.
Fixpoint box_steps (hwm : nat) (id : string) (es : list step) (b : box) : list (option msg) * box :=
  match es with
  | [] => ([], b)
  | e :: rest => let '(a, b1) := box_step hwm id e b in
                 let '(c, b2) := box_steps hwm id rest b1 in (a ++ c, b2)
  end.
Definition new_box : box := Box Fresh [].

(* messages that can be told apart on the wire *)
Definition plain (e : step) : Prop :=
  match e with Pass _ m => m_data m <> [] /\ m_key m <> "TERMINATE" | _ => True end.

(* what handler id does *)
Definition done_by (id : string) (outs : list (string * option msg)) : list (option msg) :=
  flat_map (fun x => if String.eqb (fst x) id then [snd x] else []) outs.
(* the messages passed to handler id, in order *)
Definition passed_to (id : string) (es : list step) : list msg :=
  flat_map (fun e => match e with Pass i m => if String.eqb i id then [m] else [] | _ => [] end) es.
Definition takes (id : string) (es : list step) : nat :=
  length (filter (fun e => match e with Take i => String.eqb i id | _ => false end) es).
Definition letters (xs : list item) : list msg := flat_map (fun x => match x with Letter m => [m] | Stop => [] end) xs.
(* the steps do nothing to handler id but take *)
Definition only_takes (id : string) (es : list step) : Prop :=
  Forall (fun e => match e with Pass i _ | Terminate i => i <> id | _ => True end) es.
Definition no_stop (id : string) (es : list step) : Prop := Forall (fun e => e <> Terminate id) es.
(* whenever something is put into the mailbox of id, there is room *)
Definition never_full (hwm : nat) (id : string) (es : list step) : Prop :=
  forall es1 e es2, es = es1 ++ e :: es2 -> (exists m, e = Pass id m) \/ e = Terminate id ->
  length (b_items (snd (box_steps hwm id es1 new_box))) < hwm.
Definition handled_msgs (outs : list (option msg)) : list msg := flat_map (fun x => match x with Some m => [m] | None => [] end) outs.
(* some of the elements, in the same order *)
Inductive some_of {A} : list A -> list A -> Prop :=
| so_nil : some_of [] []
| so_take : forall x l l', some_of l l' -> some_of (x :: l) (x :: l')
| so_skip : forall x l l', some_of l l' -> some_of l (x :: l').
