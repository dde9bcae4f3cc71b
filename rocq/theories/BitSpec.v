(* Bit fields of a byte buffer, independent of the code: bit k is bit 7-(k mod 8) of byte k/8 (most significant
   first); the field (pos,len) is the number whose binary digits are bits pos .. pos+len-1. *)
From Verif Require Import Base.

Definition bit (buf : list Z) (k : Z) : bool := Z.testbit (nth (Z.to_nat (k / 8)) buf 0) (7 - k mod 8).

Fixpoint field (buf : list Z) (pos : Z) (len : nat) : Z :=
  match len with
  | O => 0
  | S n => 2 * field buf pos n + Z.b2z (bit buf (pos + Z.of_nat n))
  end.

(* two's complement reading of a field *)
Definition field_signed (buf : list Z) (pos : Z) (len : nat) : Z :=
  if bit buf pos then field buf pos len - 2 ^ Z.of_nat len else field buf pos len.

(* sign and magnitude: first bit the sign, the others the magnitude *)
Definition field_glo (buf : list Z) (pos : Z) (len : nat) : Z :=
  if bit buf pos then - field buf (pos + 1) (len - 1) else field buf (pos + 1) (len - 1).
