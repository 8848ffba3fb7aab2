(* Textual formats of the protocol, specified independently of the parsing code. *)
From Verif Require Import Base.
Local Open Scope string_scope.

(* the byte c does not occur in s *)
Definition no_char (c : ascii) (s : string) : Prop := forall a b, s <> (a ++ String c b)%string.

(* frame f stores header k with value v: "k=v" split at the first '=', or a frame without '=' *)
Inductive header_frame : string -> string -> string -> Prop :=
| hf_pair : forall k v, no_char "=" k -> header_frame (k ++ "=" ++ v) k v
| hf_bare : forall f, no_char "=" f -> header_frame f f f.

(* the '|'-separated segments of s; always at least one *)
Fixpoint segments (s : string) : list string :=
  match s with
  | EmptyString => [EmptyString]
  | String a s' =>
      if Ascii.eqb a "|" then EmptyString :: segments s'
      else match segments s' with
           | h :: t => String a h :: t
           | [] => []
           end
  end.
(* one trailing empty segment does not count *)
Fixpoint drop_last_empty (l : list string) : list string :=
  match l with
  | [] => []
  | [x] => if String.eqb x "" then [] else [x]
  | x :: t => x :: drop_last_empty t
  end.
Definition alternatives (s : string) : list string := drop_last_empty (segments s).

(* decimal numbers *)
Definition blank (a : ascii) : Prop := In a (" " :: "009" :: "010" :: "011" :: "012" :: "013" :: nil)%char.
Definition digit (a : ascii) : option N :=
  match a with
  | "0" => Some 0 | "1" => Some 1 | "2" => Some 2 | "3" => Some 3 | "4" => Some 4
  | "5" => Some 5 | "6" => Some 6 | "7" => Some 7 | "8" => Some 8 | "9" => Some 9
  | _ => None
  end%char%N.
Fixpoint chars (s : string) : list ascii :=
  match s with EmptyString => [] | String a t => a :: chars t end.
(* value of a digit string, continuing from acc *)
Inductive decimal : N -> string -> N -> Prop :=
| dec_nil : forall acc, decimal acc "" acc
| dec_cons : forall acc a d s v, digit a = Some d -> decimal (10 * acc + d) s v -> decimal acc (String a s) v.
Definition starts_with_digit (s : string) : Prop := exists a t d, s = String a t /\ digit a = Some d.

(* s is blanks, an optional sign, a maximal non-empty digit string of value v, anything *)
Inductive number : string -> bool -> N -> Prop :=
| num : forall ws sign ds rest v,
    (forall a, In a (chars ws) -> blank a) ->
    sign = "" \/ sign = "+" \/ sign = "-" ->
    ds <> "" -> decimal 0 ds v -> ~ starts_with_digit rest ->
    number (ws ++ sign ++ ds ++ rest) (String.eqb sign "-") v.

(* the unsigned 64-bit number a text denotes for strtoul *)
Definition denotes (s : string) (n : N) : Prop :=
  exists neg v, number s neg v /\ (v < two64)%N /\ n = if neg then ((two64 - v) mod two64)%N else v.

(* ---- what a job requires and what a worker offers ---- *)

(* the headers of an eval or init message: frames up to the first empty one *)
Definition header_block (frames hdrs rest : list string) : Prop :=
  frames = (hdrs ++ "" :: rest)%list /\ ~ In "" hdrs.

Definition meta_name (k m : string) : Prop := k = ("meta." ++ m)%string.

(* a job with header frames hdrs requires k = v *)
Definition requires (hdrs : list string) (k v : string) : Prop :=
  exists f, In f hdrs /\ header_frame f k v /\ forall m, ~ meta_name k m.

(* a worker registered with hardware group hw and header frames hdrs meets the requirement k = v *)
Inductive offers (hw : string) (hdrs : list string) : string -> string -> Prop :=
| of_hwgroup : forall v, In hw (alternatives v) -> offers hw hdrs "hwgroup" v
| of_threads : forall f d v n m, In f hdrs -> header_frame f "threads" d ->
    denotes d n -> denotes v m -> (m <= n)%N -> offers hw hdrs "threads" v
| of_other : forall f k v, In f hdrs -> header_frame f k v -> k <> "threads" -> offers hw hdrs k v.

(* the first value given for metadata name m *)
Inductive first_meta (m : string) : list string -> string -> Prop :=
| fm_here : forall f t k v, header_frame f k v -> meta_name k m -> first_meta m (f :: t) v
| fm_later : forall f t k v x, header_frame f k v -> ~ meta_name k m -> first_meta m t x -> first_meta m (f :: t) x.

(* the header frames of an init message (after command and hwgroup): up to the first empty frame, or
   all of them *)
Definition init_block (frames hdrs : list string) : Prop :=
  (exists rest, header_block frames hdrs rest) \/ (frames = hdrs /\ ~ In "" hdrs).

(* the values header k has in the frames, in order *)
Inductive values (k : string) : list string -> list string -> Prop :=
| va_nil : values k [] []
| va_here : forall f t v vs, header_frame f k v -> values k t vs -> values k (f :: t) (v :: vs)
| va_other : forall f t k' v vs, header_frame f k' v -> k' <> k -> values k t vs -> values k (f :: t) vs.
