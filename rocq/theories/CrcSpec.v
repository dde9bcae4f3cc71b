(* Polynomials over GF(2) as non-negative integers (bit i = coefficient of x^i); addition is xor. *)
From Verif Require Import Base.

Fixpoint pmul_pos (q : positive) (a : Z) : Z :=
  match q with
  | xH => a
  | xO q' => 2 * pmul_pos q' a
  | xI q' => Z.lxor (2 * pmul_pos q' a) a
  end.
Definition pmul (q a : Z) : Z := match q with Zpos p => pmul_pos p a | _ => 0 end.
Definition pdivides (p x : Z) : Prop := exists q, 0 <= q /\ x = pmul q p.

(* x^24+x^23+x^18+x^17+x^14+x^11+x^10+x^7+x^6+x^5+x^4+x^3+x+1 *)
Definition crc24q_poly : Z :=
  fold_right (fun e acc => 2 ^ e + acc) 0 [24; 23; 18; 17; 14; 11; 10; 7; 6; 5; 4; 3; 1; 0].

(* a byte string as a polynomial, first bit the highest coefficient *)
Definition poly_of (l : list Z) : Z := fold_left (fun a b => a * 256 + b) l 0.

(* r is the remainder of m times x^24 modulo the generator *)
Definition is_crc24q (m : list Z) (r : Z) : Prop :=
  0 <= r < 2 ^ 24 /\ pdivides crc24q_poly (Z.lxor (poly_of m * 2 ^ 24) r).

(* a block that ends with its three CRC bytes *)
Definition block_ok (l : list Z) : Prop :=
  exists m c, l = m ++ c /\ length c = 3%nat /\ is_crc24q m (poly_of c).
