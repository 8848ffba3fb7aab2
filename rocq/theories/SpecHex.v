(* What printing a byte string through a hexadecimal ostream means, written without the model:
   digits, place values, minimal width and the conversion of a signed char to unsigned int. *)
From Verif Require Import Base.
Local Open Scope string_scope.

(* Reading text s from left to right, having read the number acc so far, gives v. *)
Inductive hex_from : N -> string -> N -> Prop :=
| hf_end : forall v, hex_from v "" v
| hf_digit : forall acc d c s v, String.get d "0123456789abcdef" = Some c ->
    hex_from (16 * acc + N.of_nat d) s v -> hex_from acc (String c s) v.

(* Text p is the number v with at least two digits, padded with zeroes only as far as needed. *)
Definition padded2 (p : string) (v : N) : Prop :=
  hex_from 0 p v /\
  (String.length p = 2 \/ (2 < String.length p /\ forall r, p <> String "0" r)).

(* static_cast<unsigned int>(char): the value modulo 2^32; the top bit makes a char negative. *)
Definition widened (a : ascii) (v : N) : Prop :=
  match a with
  | Ascii b0 b1 b2 b3 b4 b5 b6 top =>
      let low := (N.b2n b0 + 2 * N.b2n b1 + 4 * N.b2n b2 + 8 * N.b2n b3 + 16 * N.b2n b4 +
                  32 * N.b2n b5 + 64 * N.b2n b6)%N in
      Z.of_N v = ((Z.of_N low - (if top then 128 else 0)) mod 2 ^ 32)%Z
  end.

(* the text of a byte string: that of its bytes one after the other *)
Inductive hex_of : string -> string -> Prop :=
| ho_nil : hex_of "" ""
| ho_cons : forall a s v p q, widened a v -> padded2 p v -> hex_of s q -> hex_of (String a s) (p ++ q).
