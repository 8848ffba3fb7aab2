(* Vocabulary for what becomes of the answers of asynchronous handlers (C59). *)
From Verif Require Import Base Wire Replies.
Local Open Scope string_scope.
Local Open Scope list_scope.

(* what handler id has answered *)
Definition answers (id : string) (es : list reply_step) : list msg :=
  flat_map (fun e => match e with Respond i m => if String.eqb i id then [m] else [] | _ => [] end) es.
(* what the reactor has read of handler id *)
Definition heard_of (id : string) (l : list (string * msg)) : list msg :=
  flat_map (fun p => if String.eqb (fst p) id then [snd p] else []) l.

(* An answer without data frames is not sent until the handler answers again, and then as one message: what follows
   becomes its data. `before` is such an answer. *)
Fixpoint glued (before : option msg) (ms : list msg) : list msg :=
  match ms with
  | [] => []
  | m :: rest =>
      let m' := match before with None => m | Some b => Msg (m_key b) (m_ident b) (m_data b ++ m_key m :: m_ident m :: m_data m) end in
      match m_data m with [] => glued (Some m') rest | _ :: _ => m' :: glued None rest end
  end.

(* steps of the socket and the reactor only *)
Definition no_answers (es : list reply_step) : Prop := forall id, answers id es = [].
