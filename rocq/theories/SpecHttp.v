(* HTTP requests to the frontend, specified independently of the notifier. *)
From Coq Require Import Sorted.
From Verif Require Import Base Bytes Containers SpecText Handler SpecOut Notifier.
Local Open Scope string_scope.
Local Open Scope list_scope.

Definition path (s : string) : string := if String.eqb s "" then "" else "/" ++ s.
Definition auth (c : notifier_config) : option string :=
  if String.eqb (n_username c ++ n_password c) "" then None else Some (c_str (n_username c ++ ":" ++ n_password c)).

(* the POST for a notification, and the text that names it in complaints *)
Inductive post_for (c : notifier_config) : list string -> post -> string -> Prop :=
| pf_error : forall t, post_for c ["type"; "error"; "message"; t]
    (mkPost (c_str (n_address c ++ "/error")) (n_port c) (c_str ("message=" ++ t)) (auth c))
    (n_address c ++ "/error?message=" ++ t)
| pf_done : forall j, post_for c ["type"; "job-status"; "id"; j; "status"; "OK"]
    (mkPost (c_str (n_address c ++ "/job-status" ++ path j)) (n_port c) "status=OK" (auth c))
    (n_address c ++ "/job-status" ++ path j ++ "?status=OK")
| pf_failed : forall j t, post_for c ["type"; "job-status"; "id"; j; "status"; "FAILED"; "message"; t]
    (mkPost (c_str (n_address c ++ "/job-status" ++ path j)) (n_port c) (c_str ("message=" ++ t ++ "&status=FAILED")) (auth c))
    (n_address c ++ "/job-status" ++ path j ++ "?message=" ++ t ++ "&status=FAILED").

(* the attempt fails with response code and error text *)
Definition fails_with (out : curl_outcome) (e : Z * string) : Prop := out = Performed (Some e).
Definition complaint (target : string) (e : Z * string) : string :=
  "curl failed: " ++ c_str ("POST request failed to " ++ target ++ ". Error: (" ++ to_string_Z (fst e) ++ ") " ++ snd e).
(* failed attempts, with complaints and waits of delay, 2 * delay, 4 * delay, ... seconds *)
Fixpoint failed_attempts (p : post) (target : string) (es : list (Z * string)) (delay : N) : list act :=
  match es with
  | [] => []
  | e :: es => Post p :: Complain (complaint target e) :: Sleep delay :: failed_attempts p target es (2 * delay)
  end.
(* at most four attempts, up to the first one that does not fail *)
Inductive attempts (p : post) (target : string) (outs : nat -> curl_outcome) : list act -> Prop :=
| at_delivered : forall es, length es < 4 -> (forall i e, nth_error es i = Some e -> fails_with (outs i) e) -> outs (length es) = Performed None ->
    attempts p target outs (failed_attempts p target es 1 ++ [Post p])
| at_no_handle : forall es, length es < 4 -> (forall i e, nth_error es i = Some e -> fails_with (outs i) e) -> outs (length es) = NoHandle ->
    attempts p target outs (failed_attempts p target es 1)
| at_given_up : forall es, length es = 4 -> (forall i e, nth_error es i = Some e -> fails_with (outs i) e) ->
    attempts p target outs (failed_attempts p target es 1).

(* ---- application/x-www-form-urlencoded, as a server reads it ---- *)

Fixpoint split_at (c : ascii) (s : string) : list string :=
  match s with
  | EmptyString => [EmptyString]
  | String a t => if Ascii.eqb a c then EmptyString :: split_at c t
                  else match split_at c t with h :: r => String a h :: r | [] => [] end
  end.
Definition hex_digit (a : ascii) : option N :=
  let n := N_of_ascii a in
  if N.leb 48 n && N.leb n 57 then Some (n - 48)%N
  else if N.leb 65 n && N.leb n 70 then Some (n - 55)%N
  else if N.leb 97 n && N.leb n 102 then Some (n - 87)%N
  else None.
Fixpoint form_decode (s : string) : string :=
  match s with
  | EmptyString => EmptyString
  | String a t =>
      if Ascii.eqb a "+" then String " " (form_decode t)
      else if Ascii.eqb a "%" then
        match t with
        | String x (String y t') =>
            match hex_digit x, hex_digit y with
            | Some x, Some y => String (ascii_of_N (16 * x + y)) (form_decode t')
            | _, _ => String a (form_decode t)
            end
        | _ => String a (form_decode t)
        end
      else String a (form_decode t)
  end.
Definition form_pair (s : string) : string * string :=
  match split_at "=" s with
  | [] => ("", "")
  | [k] => (form_decode k, "")
  | k :: v :: r => (form_decode k, form_decode (fold_left (fun acc x => acc ++ "=" ++ x) r v))
  end%string.
Definition form_pairs (body : string) : list (string * string) :=
  map form_pair (filter (fun s => negb (String.eqb s "")) (split_at "&" body)).

(* text that stands for itself: no '&', no NUL, no '+', no '%' followed by two hexadecimal digits *)
Definition literal (s : string) : Prop :=
  no_char "&"%char s /\ no_char "000"%char s /\ no_char "+"%char s /\
  forall a x y b, s = (a ++ String "%" (String x (String y b)))%string -> hex_digit x = None \/ hex_digit y = None.

(* ---- any message ---- *)

(* the last value given to a name, in a list of pairs *)
Fixpoint last_value (name : string) (pairs : list (string * string)) : option string :=
  match pairs with
  | [] => None
  | (k, v) :: t => match last_value name t with
                   | Some x => Some x
                   | None => if String.eqb k name then Some v else None
                   end
  end.
Definition flat (pairs : list (string * string)) : list string := flat_map (fun p => [fst p; snd p]) pairs.
Definition path_of (x : option string) : string := match x with Some s => path s | None => "" end.
(* q lists the parameters, by increasing name *)
Definition parameters (pairs q : list (string * string)) : Prop :=
  Sorted.StronglySorted (fun a b => String.ltb (fst a) (fst b) = true) q /\
  forall k v, In (k, v) q <-> k <> "type" /\ k <> "id" /\ last_value k pairs = Some v.
Definition query_text (q : list (string * string)) : string :=
  String.concat "&" (map (fun p => fst p ++ "=" ++ snd p)%string q).
