(* Times as points on the nanosecond line, independent of the code. *)
From Verif Require Import Base UtcModel.
Definition nanos (t : utc) : Z := sec t * 1000000000 + nsec t.
(* canonical: every instant has one representation *)
Definition normal (t : utc) : Prop := 0 <= nsec t < 1000000000.
(* what + and - produce *)
Definition almost_normal (t : utc) : Prop := 0 <= nsec t <= 1000000000.
Definition fits (s : Z) : Prop := - 2 ^ 63 < s < 2 ^ 63 - 1.   (* one second of slack for the carry *)
