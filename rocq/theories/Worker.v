(* src/worker.h, src/worker.cpp, src/worker_registry.cpp *)
From Verif Require Import Base Bytes Containers.
Local Open Scope string_scope.

(* struct request + class job_request_data, src/worker.h:15-115.
   r_id is the pointer identity (allocation number); failure_count is kept in a table of the broker
   state (see Containers.v). r_frames is job_request_data::data_. *)
Record request : Type := mkRequest {
  r_id : nat;
  r_headers : mmap string;
  r_metadata : smap string;
  r_job : string;
  r_frames : list string;
  r_complete : bool }.

(* request(headers, metadata, job_request_data(job_id, additional)), src/worker.h:31-38, 103-106 *)
Definition complete_request (rid : nat) (headers : mmap string) (metadata : smap string)
    (job_id : string) (additional : list string) : request :=
  mkRequest rid headers metadata job_id (["eval"; job_id] ++ additional)%list true.

(* request(job_request_data(job_id)), src/worker.h:44-46, 112-114 *)
Definition incomplete_request (rid : nat) (job_id : string) : request :=
  mkRequest rid [] [] job_id [] false.

(* header_matcher and its subclasses, src/worker.h:121-145, src/worker.cpp:4-93 *)
Inductive matcher : Type :=
| MExact (my_value : string)      (* header_matcher *)
| MMulti (my_value : string)      (* multiple_string_matcher *)
| MCount (my_count : N).          (* count_matcher *)

(* match, src/worker.cpp:4-7, 39-58, 90-93 *)
Definition match_value (m : matcher) (value : string) : res bool :=
  match m with
  | MExact my => Val (String.eqb value my)
  | MMulti my => match multi_match my value with Some b => Val b | None => Fail Diverge end
  | MCount c => let? v := stoul value in Val (N.leb v c)
  end.

(* class worker, src/worker.h:150-212. w_id is the pointer identity (allocation number), w_addr the
   address the allocator returned; liveness is in a table of the broker state. *)
Record worker : Type := mkWorker {
  w_id : nat;
  w_addr : N;
  w_identity : string;
  w_description : string;
  w_hwgroup : string;
  w_headers_copy : mmap string;
  w_headers : mmap matcher }.

(* src/worker.cpp:102-106: "threads" headers get a count_matcher (whose constructor calls stoul),
   all others the exact matcher. *)
Definition make_matcher (k v : string) : res matcher :=
  if String.eqb k "threads" then (let? n := stoul v in Val (MCount n)) else Val (MExact v).

Fixpoint make_matchers (hs : mmap string) (acc : mmap matcher) : res (mmap matcher) :=
  match hs with
  | [] => Val acc
  | (k, v) :: t => let? m := make_matcher k v in make_matchers t (mm_emplace k m acc)
  end.

(* worker::worker, src/worker.cpp:95-110 *)
Definition make_worker (wid : nat) (addr : N) (identity hwgroup : string) (headers : mmap string)
  : res worker :=
  let? ms := make_matchers headers (mm_emplace "hwgroup" (MMulti hwgroup) []) in
  Val (mkWorker wid addr identity "" hwgroup headers ms).

Definition set_description (d : string) (w : worker) : worker :=
  mkWorker (w_id w) (w_addr w) (w_identity w) d (w_hwgroup w) (w_headers_copy w) (w_headers w).

(* worker::check_header, src/worker.cpp:113-126 *)
Fixpoint check_any (ms : list matcher) (value : string) : res bool :=
  match ms with
  | [] => Val false
  | m :: t => let? b := match_value m value in if b then Val true else check_any t value
  end.
Definition check_header (w : worker) (header value : string) : res bool :=
  check_any (mm_equal_range header (w_headers w)) value.

(* worker::check_headers, src/worker.cpp:143-152 *)
Fixpoint check_headers (w : worker) (headers : mmap string) : res bool :=
  match headers with
  | [] => Val true
  | (k, v) :: t => let? b := check_header w k v in if b then check_headers w t else Val false
  end.

(* worker::headers_equal, src/worker.cpp:129-132: multimap operator== compares the sequences. *)
Fixpoint headers_eqb (a b : mmap string) : bool :=
  match a, b with
  | [], [] => true
  | (k1, v1) :: a', (k2, v2) :: b' => String.eqb k1 k2 && String.eqb v1 v2 && headers_eqb a' b'
  | _, _ => false
  end.
Definition headers_equal (w : worker) (other : mmap string) : bool := headers_eqb other (w_headers_copy w).

(* worker::get_description, src/worker.cpp:134-141 *)
Definition get_description (w : worker) : string :=
  if String.eqb (w_description w) "" then string_to_hex (w_identity w)
  else string_to_hex (w_identity w) ++ " (" ++ w_description w ++ ")".

(* Equality of worker_ptr *)
Definition same_worker (a b : worker) : bool := Nat.eqb (w_id a) (w_id b).
(* operator< of worker_ptr: by address. Distinct live objects have distinct addresses; the
   allocation number only makes the order total for arbitrary oracle addresses. *)
Definition addr_lt (a b : worker) : bool :=
  N.ltb (w_addr a) (w_addr b) || (N.eqb (w_addr a) (w_addr b) && Nat.ltb (w_id a) (w_id b)).

(* std::map<worker_ptr, A>: elements in iteration (address) order. *)
Definition pmap (A : Type) := list (worker * A).
Definition pm_mem {A} (w : worker) (m : pmap A) : bool := existsb (fun p => same_worker (fst p) w) m.
Fixpoint pm_find {A} (w : worker) (m : pmap A) : option A :=
  match m with
  | [] => None
  | (w', a) :: t => if same_worker w' w then Some a else pm_find w t
  end.
Fixpoint pm_insert {A} (w : worker) (a : A) (m : pmap A) : pmap A :=
  match m with
  | [] => [(w, a)]
  | (w', a') :: t => if addr_lt w w' then (w, a) :: (w', a') :: t else (w', a') :: pm_insert w a t
  end.
(* m.emplace(w, a) *)
Definition pm_emplace {A} (w : worker) (a : A) (m : pmap A) : pmap A :=
  if pm_mem w m then m else pm_insert w a m.
(* m[w] = a *)
Definition pm_set {A} (w : worker) (a : A) (m : pmap A) : pmap A :=
  if pm_mem w m then map (fun p => if same_worker (fst p) w then (fst p, a) else p) m
  else pm_insert w a m.
(* reading m[w]: inserts the default value when the key is absent *)
Definition pm_index {A} (d : A) (w : worker) (m : pmap A) : A * pmap A :=
  match pm_find w m with
  | Some a => (a, m)
  | None => (d, pm_insert w d m)
  end.
(* m.erase(w) *)
Definition pm_erase {A} (w : worker) (m : pmap A) : pmap A :=
  filter (fun p => negb (same_worker (fst p) w)) m.

(* class worker_registry, src/worker_registry.cpp *)
Definition reg_add (w : worker) (ws : list worker) : list worker := ws ++ [w].         (* 6-9 *)
Fixpoint reg_remove (w : worker) (ws : list worker) : list worker :=                   (* 11-18 *)
  match ws with
  | [] => []
  | w' :: t => if same_worker w' w then t else w' :: reg_remove w t
  end.
Fixpoint find_worker (headers : mmap string) (ws : list worker) : res (option worker) := (* 20-29 *)
  match ws with
  | [] => Val None
  | w :: t => let? b := check_headers w headers in if b then Val (Some w) else find_worker headers t
  end.
Fixpoint find_worker_by_identity (identity : string) (ws : list worker) : option worker := (* 31-40 *)
  match ws with
  | [] => None
  | w :: t => if String.eqb (w_identity w) identity then Some w else find_worker_by_identity identity t
  end.
