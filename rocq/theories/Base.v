(* Base definitions shared by the whole model: faults, results, messages. *)
From Coq Require Export String Ascii List NArith ZArith Bool Arith.
Export ListNotations.

(* Ways in which a C++ call can fail to return normally.
   OutOfRange / InvalidArgument are the C++ exceptions std::out_of_range / std::invalid_argument;
   the others are undefined behaviour, kept as distinct outcomes.
   No handler catches anything: an exception leaves broker_handler::on_request, reactor::start_loop
   (src/reactor/reactor.cpp:58-130) and broker_core::run (src/broker_core.cpp:26-31) and is caught by
   main (src/main.cpp:14-18), which returns 1. So every fault is the end of the broker process. *)
Inductive fault : Type :=
| OutOfRange        (* vector::at, std::stoul, std::stoll *)
| InvalidArgument   (* std::stoul, std::stoll *)
| NullDeref         (* UB: member access through a null shared_ptr *)
| DerefEnd          (* UB: dereferencing an end iterator / front() of an empty vector *)
| IntOverflow       (* UB: signed 64-bit overflow *)
| Diverge.          (* a loop that did not finish within its (provably sufficient) fuel *)

(* Result of a computation that may fail. *)
Inductive res (A : Type) : Type :=
| Val : A -> res A
| Fail : fault -> res A.
Arguments Val {A} _.
Arguments Fail {A} _.

Definition rbind {A B : Type} (m : res A) (k : A -> res B) : res B :=
  match m with Val a => k a | Fail e => Fail e end.

Notation "'let?' x ':=' m 'in' k" := (rbind m (fun x => k))
  (at level 200, x pattern, m at level 100, k at level 200, right associativity).

(* src/reactor/message_container.h:11-40 *)
Record msg : Type := Msg { m_key : string; m_ident : string; m_data : list string }.

(* message_container::operator== (src/reactor/message_container.cpp:10-13) *)
Definition list_string_eqb (a b : list string) : bool :=
  (Nat.eqb (length a) (length b)) && forallb (fun p => String.eqb (fst p) (snd p)) (combine a b).
Definition msg_eqb (a b : msg) : bool :=
  String.eqb (m_key a) (m_key b) && String.eqb (m_ident a) (m_ident b) && list_string_eqb (m_data a) (m_data b).

Definition two64 : N := 18446744073709551616%N.
Definition max_i64 : Z := 9223372036854775807%Z.
Definition min_i64 : Z := (-9223372036854775808)%Z.
Definition in_i64 (z : Z) : bool := (Z.leb min_i64 z) && (Z.leb z max_i64).

(* Subtracting one from a std::size_t: wraps to 2^64 - 1 at zero. *)
Definition size_pred (n : N) : N := if N.eqb n 0 then (two64 - 1)%N else (n - 1)%N.
