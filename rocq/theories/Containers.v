(* std::multimap<string,_>, std::map<string,_> and simple tables. *)
From Verif Require Import Base.

(* std::multimap<std::string, A>: the sequence of its elements in iteration order. *)
Definition mmap (A : Type) := list (string * A).

(* multimap::emplace inserts at the upper bound of the range of equal keys (C++11), i.e. before the
   first element with a greater key. Keys are ordered by unsigned bytes. *)
Fixpoint mm_emplace {A} (k : string) (v : A) (m : mmap A) : mmap A :=
  match m with
  | [] => [(k, v)]
  | (k', v') :: t => if String.ltb k k' then (k, v) :: (k', v') :: t else (k', v') :: mm_emplace k v t
  end.

(* multimap::equal_range(k): elements with key k in order. *)
Definition mm_equal_range {A} (k : string) (m : mmap A) : list A :=
  map snd (filter (fun p => String.eqb (fst p) k) m).

(* std::map<std::string, A> : sequence of elements in iteration order, keys distinct. *)
Definition smap (A : Type) := list (string * A).

Definition sm_mem {A} (k : string) (m : smap A) : bool := existsb (fun p => String.eqb (fst p) k) m.
Fixpoint sm_find {A} (k : string) (m : smap A) : option A :=
  match m with
  | [] => None
  | (k', v) :: t => if String.eqb k' k then Some v else sm_find k t
  end.
Fixpoint sm_insert {A} (k : string) (v : A) (m : smap A) : smap A :=
  match m with
  | [] => [(k, v)]
  | (k', v') :: t => if String.ltb k k' then (k, v) :: (k', v') :: t else (k', v') :: sm_insert k v t
  end.
(* map::emplace: does nothing when the key is present. *)
Definition sm_emplace {A} (k : string) (v : A) (m : smap A) : smap A :=
  if sm_mem k m then m else sm_insert k v m.
(* m[k] = v *)
Definition sm_set {A} (k : string) (v : A) (m : smap A) : smap A :=
  if sm_mem k m
  then map (fun p => if String.eqb (fst p) k then (fst p, v) else p) m
  else sm_insert k v m.

(* Tables from allocation numbers to counters, default 0: the mutable fields worker::liveness
   (src/worker.h:174, initialised to 0 by the constructor, src/worker.cpp:97) and
   request::failure_count (src/worker.h:96, initialised to 0). *)
Definition table := list (nat * N).
Fixpoint tbl_get (k : nat) (t : table) : N :=
  match t with
  | [] => 0%N
  | (k', v) :: t' => if Nat.eqb k k' then v else tbl_get k t'
  end.
Definition tbl_set (k : nat) (v : N) (t : table) : table := (k, v) :: t.
