(* GLONASS strings as transmitted (GLONASS ICD 4.4, 4.7), independent of the decoder. *)
From Coq Require Import QArith.
From Verif Require Import Base NavSpec.
Local Open Scope Z_scope.

(* The message's words hold the string most significant bit first: bit k (k = 0 is the first transmitted, the idle bit
   b85) is bit 31 - k mod 32 of word k / 32; bits b85 .. b1 are k = 0 .. 84. *)
Definition sbit (dw : list Z) (k : Z) : bool := Z.testbit (dword dw (k / 32)) (31 - k mod 32).
Fixpoint sfield (dw : list Z) (pos : Z) (len : nat) : Z :=
  match len with O => 0 | S n => 2 * sfield dw pos n + Z.b2z (sbit dw (pos + Z.of_nat n)) end.
(* two's complement *)
Definition sfieldS (dw : list Z) (pos : Z) (len : nat) : Z :=
  if sbit dw pos then sfield dw pos len - 2 ^ Z.of_nat len else sfield dw pos len.
(* sign and magnitude *)
Definition sfield_sm (dw : list Z) (pos : Z) (len : nat) : Z :=
  if sbit dw pos then - sfield dw (pos + 1) (len - 1) else sfield dw (pos + 1) (len - 1).
(* the ICD's numbering b1 (last) .. b85 (first) *)
Definition bn (dw : list Z) (n : Z) : bool := sbit dw (85 - n).
Definition str_no (dw : list Z) : Z := sfield dw 1 4.        (* b84..b81 *)
(* the receiver's superframe counter: upper half of the fourth word *)
Definition str_mark (dw : list Z) : Z := dword dw 3 / 65536.

(* ------------------------------------------------ the check sums, ICD table 4.13 *)
Definition to (a b : Z) : list Z := map (fun i => a + Z.of_nat i) (List.seq 0 (Z.to_nat (b - a + 1))).
Definition sums7 : list (list Z) :=
  [ [1; 9;10;12;13;15;17;19;20;22;24;26;28;30;32;34;35;37;39;41;43;45;47;49;51;53;55;57;59;61;63;65;66;68;70;72;74;76;78;80;82;84];
    [2; 9;11;12;14;15;18;19;21;22;25;26;29;30;33;34;36;37;40;41;44;45;48;49;52;53;56;57;60;61;64;65;67;68;71;72;75;76;79;80;83;84];
    [3] ++ to 10 12 ++ to 16 19 ++ to 23 26 ++ to 31 34 ++ to 38 41 ++ to 46 49 ++ to 54 57 ++ to 62 65 ++ to 69 72 ++ to 77 80 ++ [85];
    [4] ++ to 13 19 ++ to 27 34 ++ to 42 49 ++ to 58 65 ++ to 73 80;
    [5] ++ to 20 34 ++ to 50 65 ++ to 81 85;
    [6] ++ to 35 65;
    [7] ++ to 66 85 ].
Definition sum_all : list Z := to 1 85.
(* is the number of ones among the listed positions odd? *)
Definition odd_sum (b : Z -> bool) (l : list Z) : bool := fold_right (fun n a => xorb (b n) a) false l.
(* every sum even: an error-free string *)
Definition str_valid (b : Z -> bool) : Prop := Forall (fun l => odd_sum b l = false) sums7 /\ odd_sum b sum_all = false.
(* the rule for taking a string as received: all sums even, or exactly one of the seven and the overall sum odd *)
Definition str_accept (b : Z -> bool) : bool :=
  let n := length (filter (odd_sum b) sums7) in
  if odd_sum b sum_all then (n =? 1)%nat else (n =? 0)%nat.
(* b with the listed positions inverted *)
Definition flip (l : list Z) (b : Z -> bool) : Z -> bool := fun n => xorb (b n) (existsb (Z.eqb n) l).
