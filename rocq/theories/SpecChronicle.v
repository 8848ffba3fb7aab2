(* The log of the process: what it says about each message, and about the one that ends the broker. *)
From Verif Require Import Base Bytes Containers Worker Multi Single Queue Handler Logger LogHandler SpecText Spec SpecJournal Reactor Config Startup SpecStartup.
Local Open Scope string_scope.
Local Open Scope list_scope.

(* l is the record of e according to the journal, with the messages that were sent *)
Definition kept (cfg : config) (e : event) (l : list out) : Prop := journal cfg (ev_pre e) (ev_post e) (ev_in e) l /\ said l = ev_out e.

(* last_words m outs l: outs are the messages still sent and l is the record *)
Inductive last_words : msg -> list msg -> list out -> Prop :=
| lw_empty : forall key i, last_words (Msg key i []) [] []
| lw_tick : forall i d, last_words (Msg "timer" i d) [] []
| lw_short : forall i d outs, length d <= 1 ->
    last_words (Msg "clients" i ("eval" :: d)) outs (received "eval" "clients" :: map Say outs)
| lw_eval : forall i job fr frames outs,
    last_words (Msg "clients" i ("eval" :: job :: fr :: frames)) outs
      (received "eval" "clients" :: map Say outs ++ [Line LDebug " - incoming job {}" [job]])
| lw_init : forall i d outs, last_words (Msg "workers" i ("init" :: d)) outs (received "init" "workers" :: map Say outs)
| lw_done : forall i d, last_words (Msg "workers" i ("done" :: d)) [] [received "done" "workers"].

(* fills fmt args t: t is fmt with each pair of braces replaced by the next argument, and there are as many of these *)
Inductive fills : string -> list string -> string -> Prop :=
| fi_end : fills "" [] ""
| fi_hole : forall x fmt args t, fills fmt args t -> fills ("{}" ++ fmt)%string (x :: args) (x ++ t)%string
| fi_char : forall c fmt args t, (forall rest, String c fmt <> ("{}" ++ rest)%string) -> fills fmt args t -> fills (String c fmt) args (String c t).
(* the texts of a record with their levels *)
Inductive puts_down : list out -> list (level * string) -> Prop :=
| pd_end : puts_down [] []
| pd_say : forall m l c, puts_down l c -> puts_down (Say m :: l) c
| pd_line : forall lv fmt args t l c, fills fmt args t -> puts_down l c -> puts_down (Line lv fmt args :: l) ((lv, t) :: c).
(* those of what the process does before it serves *)
Inductive mentions : list effect -> list (level * string) -> Prop :=
| mt_end : mentions [] []
| mt_note : forall lv t effs c, mentions effs c -> mentions (Note lv t :: effs) ((lv, t) :: c)
| mt_other : forall e effs c, (forall lv t, e <> Note lv t) -> mentions effs c -> mentions (e :: effs) c.
(* and if it comes to serve *)
Definition first_lines (g : settings) : list (level * string) :=
  (if Z.leb (enum (get_log_level (g_log_level g))) (enum LInfo)
   then [(LInfo, "------------------------------"); (LInfo, "    Started ReCodEx broker"); (LInfo, "------------------------------")]
   else [(LCritical, "--- Started ReCodEx broker ---")]) ++
  [(LInfo, "Initializing CURL..."); (LInfo, "CURL initialized."); (LInfo, "Initializing broker connection...");
   (LDebug, "Binding clients to " ++ tcp (g_client_address g) (g_client_port g));
   (LDebug, "Binding workers to " ++ tcp (g_worker_address g) (g_worker_port g));
   (LDebug, "Binding monitor to " ++ tcp (g_monitor_address g) (g_monitor_port g));
   (LInfo, "Broker connection initialized."); (LInfo, "Broker will now start brokering.")]%string.
