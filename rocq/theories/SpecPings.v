(* Vocabulary for the detection of silent workers. *)
From Verif Require Import Base Bytes Containers Worker Multi Single Queue Handler SpecText Spec SpecRun SpecMsg.
Local Open Scope string_scope.
Local Open Scope list_scope.

(* text t is read as the signed 64-bit number z *)
Definition reads (t : string) (z : Z) : Prop :=
  exists neg v, number t neg v /\ z = (if neg then - Z.of_N v else Z.of_N v)%Z /\ in_i64 z = true.

(* the elapsed times announced by the timer ticks of a history, in order *)
Inductive ticks : list event -> list Z -> Prop :=
| ti_nil : ticks [] []
| ti_tick : forall e tr t rest z zs, m_key (ev_in e) = "timer" -> m_data (ev_in e) = t :: rest -> reads t z ->
    ticks tr zs -> ticks (e :: tr) (z :: zs)
| ti_other : forall e tr zs, m_key (ev_in e) <> "timer" -> ticks tr zs -> ticks (e :: tr) zs.

Definition sum (zs : list Z) : Z := fold_right Z.add 0%Z zs.

(* the event is a message attributed to worker w *)
Definition hears (w : worker) (e : event) : Prop :=
  m_key (ev_in e) = "workers" /\ sender (m_ident (ev_in e)) (ev_pre e) = Some w.

(* no message of w in a history *)
Definition silent (w : worker) (tr : list event) : Prop := forall e, In e tr -> ~ hears w e.

(* worker w is registered by event e *)
Definition enters (w : worker) (e : event) : Prop := ~ In w (s_reg (ev_pre e)) /\ In w (s_reg (ev_post e)).
