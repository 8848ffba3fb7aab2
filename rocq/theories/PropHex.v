(* C28: the exact text of a hexadecimal identity. *)
From Verif Require Import Base Bytes SpecHex HexText.
Local Open Scope string_scope.

Theorem C28_hex_text : forall s t, string_to_hex s = t <-> hex_of s t.
Proof. exact string_to_hex_text. Qed.
Print Assumptions C28_hex_text.

(* the two sides of the sign boundary, and padding *)
Example C28_hex_text_example :
  hex_of (String "000" (String "127" (String "128" (String "010" "")))) "007fffffff800a" /\
  ~ hex_of (String "128" "") "80".
Proof.
  split; [apply C28_hex_text; reflexivity|].
  intros H. apply C28_hex_text in H. discriminate.
Qed.
