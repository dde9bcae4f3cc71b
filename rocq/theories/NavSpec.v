(* What navigation data messages carry, independent of the decoder. *)
From Coq Require Import QArith Qabs.
From Verif Require Import Base Dbl.
Local Open Scope Z_scope.

(* word i of the message: four bytes, least significant first *)
Definition dword (dw : list Z) (i : Z) : Z :=
  let b j := nth (Z.to_nat (4 * i + j)) dw 0 in b 0 + 256 * b 1 + 65536 * b 2 + 16777216 * b 3.

(* ---------------------------------------------------------------- GPS (IS-GPS-200) *)
(* Each word holds a 30-bit GPS word in its bits 29..0, first transmitted bit in bit 29; the last six are parity.
   Data bit k (0..239) of the subframe is bit k mod 24 of GPS word k / 24. *)
Definition dbit (dw : list Z) (k : Z) : bool := Z.testbit (dword dw (k / 24)) (29 - k mod 24).
Fixpoint dfield (dw : list Z) (pos : Z) (len : nat) : Z :=
  match len with O => 0 | S n => 2 * dfield dw pos n + Z.b2z (dbit dw (pos + Z.of_nat n)) end.
Definition dfieldS (dw : list Z) (pos : Z) (len : nat) : Z :=
  if dbit dw pos then dfield dw pos len - 2 ^ Z.of_nat len else dfield dw pos len.
(* subframe number: bits 43..45 *)
Definition gps_id (dw : list Z) : Z := dfield dw 43 3.
(* issue number carried by subframe 1 (low eight bits of IODC), subframe 2 and subframe 3 *)
Definition gps_issue (dw : list Z) : Z :=
  if gps_id dw =? 1 then dfield dw 168 8 else if gps_id dw =? 2 then dfield dw 48 8 else dfield dw 216 8.

(* a double that denotes exactly x; or x up to a relative error of 2^-n (nearly: 2^-50) *)
Definition exactly (d : dbl) (x : Q) : Prop := (dQ d == x)%Q.
Definition within (n : Z) (d : dbl) (x : Q) : Prop := (inject_Z (2 ^ n) * Qabs (dQ d - x) <= Qabs x)%Q.
Definition nearly (d : dbl) (x : Q) : Prop := within 50 d x.
(* v * 2^-k, and v semicircles * 2^-k in radians *)
Definition times2 (v k : Z) : Q := (inject_Z v / inject_Z (2 ^ k))%Q.
Definition pi20 : Q := (314159265358979323846 # 100000000000000000000)%Q.
Definition semi (v k : Z) : Q := (times2 v k * pi20)%Q.
