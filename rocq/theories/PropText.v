(* C24, C28, C29, C30, C39: the textual formats. *)
From Verif Require Import Base Bytes Containers Worker Multi Single Queue Handler SpecText TextFacts HeaderFacts OrderFacts HexFacts.
Local Open Scope string_scope.
Local Open Scope list_scope.

(* C24. A header frame is split at its first '='; without one it is both name and value. *)
Theorem C24_header_frame : forall f k v, split_header f = (k, v) <-> header_frame f k v.
Proof. exact split_header_spec. Qed.
Print Assumptions C24_header_frame.

Example C24_header_frame_example :
  header_frame "a=b=c" "a" "b=c" /\ header_frame "a=" "a" "" /\ header_frame "abc" "abc" "abc" /\ header_frame "=x" "" "x".
Proof. rewrite <- !C24_header_frame. auto. Qed.

(* C24. An eval stores, per header name, its values in the order sent; names starting with "meta."
   are never stored as headers but as metadata, first occurrence first. What follows the empty frame
   is the payload. *)
Theorem C24_eval_headers : forall frames hdrs rest, header_block frames hdrs rest ->
  exists h md, parse_eval_headers frames [] [] = Val (Some (h, md, rest)) /\
    (forall k vs, (forall m, ~ meta_name k m) -> values k hdrs vs -> mm_equal_range k h = vs) /\
    (forall m v, ~ In (("meta." ++ m)%string, v) h) /\
    (forall m v, sm_find m md = Some v <-> first_meta m hdrs v).
Proof. exact eval_headers_stored. Qed.
Print Assumptions C24_eval_headers.

Example C24_eval_headers_example :
  header_block ["b=2"; "meta.u=x"; "a=1"; "meta.u=y"; "b=1"; ""; "p"; ""] ["b=2"; "meta.u=x"; "a=1"; "meta.u=y"; "b=1"] ["p"; ""] /\
  parse_eval_headers ["b=2"; "meta.u=x"; "a=1"; "meta.u=y"; "b=1"; ""; "p"; ""] [] [] =
    Val (Some ([("a", "1"); ("b", "2"); ("b", "1")], [("u", "x")], ["p"; ""])).
Proof. split; [split; [reflexivity|simpl; intuition discriminate]|reflexivity]. Qed.

(* C24. The same for registrations, where "meta." has no special meaning. *)
Theorem C24_init_headers : forall frames hdrs, init_block frames hdrs ->
  exists h rest, parse_init_headers frames [] = (h, rest) /\
    forall k vs, values k hdrs vs -> mm_equal_range k h = vs.
Proof. exact init_headers_stored. Qed.
Print Assumptions C24_init_headers.

Example C24_init_headers_example :
  init_block ["env=c"; "env=java"; ""; "description=x"] ["env=c"; "env=java"] /\
  parse_init_headers ["env=c"; "env=java"; ""; "description=x"] [] = ([("env", "c"); ("env", "java")], [""; "description=x"]).
Proof. split; [left; exists ["description=x"]; split; [reflexivity|simpl; intuition discriminate]|reflexivity]. Qed.

(* C28. Hexadecimal identities are unambiguous, and so are the names used in logs and reports. *)
Theorem C28_hex_injective : forall s t, string_to_hex s = string_to_hex t -> s = t.
Proof. exact string_to_hex_inj. Qed.
Print Assumptions C28_hex_injective.

Theorem C28_description_injective : forall w1 w2, get_description w1 = get_description w2 ->
  w_identity w1 = w_identity w2 /\ w_description w1 = w_description w2.
Proof. exact get_description_inj. Qed.
Print Assumptions C28_description_injective.

(* bytes above 127 really are printed with eight digits, and a description can look like a suffix *)
Example C28_example :
  string_to_hex (String "255" (String "015" "")) = "ffffffff0f" /\
  string_to_hex (String "015" (String "255" "")) = "0fffffffff" /\
  get_description (mkWorker 0 0 "A" "x (y)" "g" [] []) = "41 (x (y))".
Proof. auto. Qed.

(* C29. *)
Theorem C29_hwgroup : forall group value, exists b,
  match_value (MMulti group) value = Val b /\ (b = true <-> In group (alternatives value)).
Proof. exact match_multi. Qed.
Print Assumptions C29_hwgroup.

Example C29_example :
  alternatives "g1|g2" = ["g1"; "g2"] /\ alternatives "g1||" = ["g1"; ""] /\ alternatives "" = [] /\
  match_value (MMulti "g2") "g1|g2|" = Val true /\ match_value (MMulti "") "g1|" = Val false /\
  match_value (MMulti "") "|g1" = Val true /\ match_value (MMulti "g") "g1|g2" = Val false.
Proof. repeat split. Qed.

(* C30. *)
Theorem C30_threads : forall wid addr ident hw hs w v, make_worker wid addr ident hw hs = Val w ->
  (check_header w "threads" v = Val true <->
   exists d n m, In ("threads", d) hs /\ denotes d n /\ denotes v m /\ (m <= n)%N).
Proof. exact threads_match. Qed.
Print Assumptions C30_threads.

(* ... matching throws exactly when the required value is no number and the worker declares threads *)
Theorem C30_threads_throws : forall wid addr ident hw hs w k v, make_worker wid addr ident hw hs = Val w ->
  ((exists e, check_header w k v = Fail e) <->
   k = "threads" /\ (forall m, ~ denotes v m) /\ exists d, In ("threads", d) hs).
Proof. exact threads_throws. Qed.
Print Assumptions C30_threads_throws.

(* ... registration throws exactly when a declared thread count is no number *)
Theorem C30_registration_throws : forall wid addr ident hw hs,
  (exists e, make_worker wid addr ident hw hs = Fail e) <->
  exists d, In ("threads", d) hs /\ forall n, ~ denotes d n.
Proof. exact make_worker_throws. Qed.
Print Assumptions C30_registration_throws.

Example C30_example : exists w, make_worker 0 0 "A" "g" [("threads", "8"); ("threads", "x")] = Fail InvalidArgument /\
  make_worker 0 0 "A" "g" [("threads", " 08cores"); ("threads", "2")] = Val w /\
  check_header w "threads" "+4" = Val true /\ check_header w "threads" "9" = Val false /\
  check_header w "threads" "-1" = Val false /\ check_header w "threads" "four" = Fail InvalidArgument /\
  denotes "-1" 18446744073709551615 /\ (forall n, ~ denotes "x" n) /\ (forall n, ~ denotes "18446744073709551616" n).
Proof.
  eexists. split; [reflexivity|]. split; [reflexivity|]. repeat (split; [reflexivity|]).
  split; [apply stoul_spec; reflexivity|]. split; intros n Hn; apply stoul_spec in Hn; discriminate.
Qed.

(* C39. What the reactor prints the broker reads back. *)
Theorem C39_round_trip : forall z, in_i64 z = true -> stoll (to_string_Z z) = Val z.
Proof. exact stoll_to_string. Qed.
Print Assumptions C39_round_trip.

(* ... and in general stoll reads exactly the representable numbers *)
Theorem C39_stoll : forall s z, stoll s = Val z <->
  exists neg v, number s neg v /\ z = (if neg then - Z.of_N v else Z.of_N v)%Z /\ in_i64 z = true.
Proof. exact stoll_spec. Qed.
Print Assumptions C39_stoll.

Example C39_example : to_string_Z min_i64 = "-9223372036854775808" /\ stoll "-9223372036854775808" = Val min_i64 /\
  stoll "9223372036854775808" = Fail OutOfRange /\ to_string_Z 1000 = "1000" /\ to_string_Z 0 = "0".
Proof. repeat split. Qed.
