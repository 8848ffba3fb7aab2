(* Byte-string functions used by the broker: std::string::find/substr, std::stoul/stoll,
   std::to_string and helpers::string_to_hex. *)
From Coq Require Import Decimal DecimalString.
From Verif Require Import Base.
Local Open Scope string_scope.

(* std::string::find(c) : position of the first c, None is npos. *)
Fixpoint find_char (c : ascii) (s : string) : option nat :=
  match s with
  | EmptyString => None
  | String a s' => if Ascii.eqb a c then Some 0
                   else match find_char c s' with Some i => Some (S i) | None => None end
  end.

(* s.substr(n) for n <= s.size() *)
Definition str_drop (n : nat) (s : string) : string := substring n (String.length s - n) s.
(* s.substr(0, n) *)
Definition str_take (n : nat) (s : string) : string := substring 0 n s.

(* std::string::find(c, off) *)
Definition find_from (c : ascii) (off : nat) (s : string) : option nat :=
  match find_char c (str_drop off s) with Some i => Some (off + i) | None => None end.

(* Splitting a header frame at the first '=' :
     pos = s.find('='); value_size = s.size() - (pos + 1);
     key = s.substr(0, pos); value = s.substr(pos + 1, value_size)
   src/handlers/broker_handler.cpp:119-123, 202-205, 230-233.
   When there is no '=', pos = npos = 2^64-1, so pos + 1 wraps to 0, value_size = s.size(),
   key = s.substr(0, npos) = s and value = s.substr(0, s.size()) = s. *)
Definition split_header (s : string) : string * string :=
  match find_char "=" s with
  | Some p => (str_take p s, str_drop (p + 1) s)
  | None => (s, s)
  end.

(* multiple_string_matcher::match, src/worker.cpp:39-58 (loop on offset; explicit fuel). *)
Definition delimiter : ascii := "|".
Fixpoint multi_loop (fuel : nat) (offset : nat) (value my : string) : option bool :=
  match fuel with
  | O => None
  | S fuel' =>
      if Nat.ltb offset (String.length value) then
        let stop := match find_from delimiter offset value with
                    | Some e => e
                    | None => String.length value
                    end in
        if String.eqb (substring offset (stop - offset) value) my then Some true
        else multi_loop fuel' (stop + 1) value my
      else Some false
  end.
Definition multi_match (my value : string) : option bool :=
  multi_loop (S (String.length value)) 0 value my.

(* isspace in the C locale: space, \t \n \v \f \r *)
Definition is_space (a : ascii) : bool :=
  let n := N_of_ascii a in N.eqb n 32 || (N.leb 9 n && N.leb n 13).

Definition digit_of (a : ascii) : option N :=
  let n := N_of_ascii a in if N.leb 48 n && N.leb n 57 then Some (n - 48)%N else None.

Fixpoint skip_space (s : string) : string :=
  match s with
  | String a s' => if is_space a then skip_space s' else s
  | EmptyString => EmptyString
  end.

(* optional sign of strtoul/strtoll: (negative?, rest) *)
Definition read_sign (s : string) : bool * string :=
  match s with
  | String a s' => if Ascii.eqb a "-" then (true, s')
                   else if Ascii.eqb a "+" then (false, s') else (false, s)
  | EmptyString => (false, s)
  end.

(* value of the leading decimal digits, continuing from acc *)
Fixpoint read_digits_acc (acc : N) (s : string) : N :=
  match s with
  | EmptyString => acc
  | String a s' => match digit_of a with
                   | Some d => read_digits_acc (acc * 10 + d)%N s'
                   | None => acc
                   end
  end.
(* None when there is no leading digit *)
Definition read_digits (s : string) : option N :=
  match s with
  | EmptyString => None
  | String a _ => match digit_of a with Some _ => Some (read_digits_acc 0 s) | None => None end
  end.

(* std::stoul (base 10), used by count_matcher, src/worker.cpp:74, 92.
   strtoul: blanks, optional sign, digits, anything after them ignored; a minus sign negates modulo
   2^64; magnitudes above ULONG_MAX are ERANGE (std::out_of_range); no digit is
   std::invalid_argument. *)
Definition stoul (s : string) : res N :=
  let '(neg, s') := read_sign (skip_space s) in
  match read_digits s' with
  | None => Fail InvalidArgument
  | Some v => if N.ltb v two64
              then Val (if neg then N.modulo (two64 - v) two64 else v)
              else Fail OutOfRange
  end.

(* std::stoll (base 10), used by process_timer, src/handlers/broker_handler.cpp:385. *)
Definition stoll (s : string) : res Z :=
  let '(neg, s') := read_sign (skip_space s) in
  match read_digits s' with
  | None => Fail InvalidArgument
  | Some v => let z := if neg then Z.opp (Z.of_N v) else Z.of_N v in
              if in_i64 z then Val z else Fail OutOfRange
  end.

(* std::to_string for unsigned types *)
Definition to_string_N (n : N) : string := NilZero.string_of_uint (N.to_uint n).
(* std::to_string for signed types *)
Definition to_string_Z (z : Z) : string :=
  match z with
  | Zneg p => String "-" (to_string_N (Npos p))
  | _ => to_string_N (Z.to_N z)
  end.

(* One lower-case hexadecimal digit. *)
Definition hex_digit (n : N) : ascii :=
  ascii_of_N (if N.ltb n 10 then 48 + n else 87 + n)%N.

(* helpers::string_to_hex, src/helpers/string_to_hex.cpp:3-11.
   `static_cast<unsigned int>(c)` of a (signed, x86) char: bytes >= 0x80 are sign extended to
   0xffffffXX and printed with eight digits; setw(2)/setfill('0') pads the others to two. *)
Definition char_to_hex (a : ascii) : string :=
  let n := N_of_ascii a in
  let low := String (hex_digit (n / 16)) (String (hex_digit (n mod 16)) EmptyString) in
  if N.ltb n 128 then low else "ffffff" ++ low.
Fixpoint string_to_hex (s : string) : string :=
  match s with
  | EmptyString => EmptyString
  | String a s' => char_to_hex a ++ string_to_hex s'
  end.
