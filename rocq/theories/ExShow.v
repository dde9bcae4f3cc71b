(* What the examples rover.cpp and base.cpp print.
     rover.cpp:38-75   UBX_Callback_Handler: relposned_callback
     base.cpp:36-74    UBX_Callback_Handler: svin_callback
   printf is modelled for the conversions used: %d, %s, %f.  Text printed by the library itself (stderr, version) is not part of it. *)
From Coq Require Import String Ascii Decimal DecimalString.
From Verif Require Import Base UbxSpec UbxModel UtcModel Dbl NavModel RosModel UbloxModel.
Local Open Scope string_scope.
Local Open Scope Z_scope.

(* ---------------------------------------------------------------- printf *)
Definition dec (z : Z) : string := NilEmpty.string_of_int (Z.to_int z).
Definition digit (d : Z) : string := String (ascii_of_N (Z.to_N (48 + d))) "".
Definition nl : string := String "010"%char "".
(* %f: six decimals of the exact value of the double, round half to even *)
Definition round_div (n d : Z) : Z :=
  let q := n / d in let r := n mod d in
  if 2 * r <? d then q else if d <? 2 * r then q + 1 else if Z.even q then q else q + 1.
Definition six (v : Z) : string :=
  digit (v / 100000 mod 10) ++ digit (v / 10000 mod 10) ++ digit (v / 1000 mod 10) ++ digit (v / 100 mod 10) ++ digit (v / 10 mod 10) ++ digit (v mod 10).
Definition fixed6 (d : dbl) : string :=
  let n := Z.abs (dm d) * 10 ^ 6 in
  let v := if 0 <=? de d then n * 2 ^ de d else round_div n (2 ^ (- de d)) in
  (if dm d <? 0 then "-" else "") ++ dec (v / 10 ^ 6) ++ "." ++ six (v mod 10 ^ 6).

(* ---------------------------------------------------------------- rover.cpp *)
(* relposned_callback, rover.cpp:47-74: every test is `msg.flags && constant`, that is flags != 0.
   iTow / 1000 is unsigned and below 2^31, so %d prints it as it is *)
Definition show_rel (m : list Z) : string :=
  let flags := u32_at m 60 in
  let b := negb (flags =? 0) in
  (if b && true then "RTK" else "No RTK " ++ nl) ++
  (if b && true then
     (if b && true then ", Moving Base" else "") ++
     (if b && true then " , Floating " ++ nl else if b && true then " , Fixed " ++ nl else "") ++
     (if b && true then "valid relative position components " ++ nl else "") ++
     "tow: " ++ dec (u32_at m 4 / 1000) ++ " relNED: " ++ dec (i32_at m 8) ++ ", " ++ dec (i32_at m 12) ++ ", " ++ dec (i32_at m 16) ++
     ", Distance: " ++ dec (i32_at m 20) ++ nl
   else "").
(* got_ubx, rover.cpp:41-45 *)
Definition rover_handler (cls id : Z) (m : list Z) : string := if (cls =? 0x01) && (id =? 0x3C) then show_rel m else "".

(* ---------------------------------------------------------------- base.cpp *)
Definition D_1EM4 : dbl := mkD 7378697629483821 (-66).   (* 0.0001 *)
Lemma lit_1em4 : literal D_1EM4 1 4 /\ literal D_1EM2 1 2. Proof. unfold literal. repeat split; vm_compute; congruence. Qed.
(* svin_callback, base.cpp:61-73: unsigned iTow and dur are printed with %d *)
Definition coord (m : list Z) (o h : nat) : dbl := dadd (sc (u32_at m o) D_1EM2) (sc (u8_at m h) D_1EM4).
Definition show_svin (m : list Z) : string :=
  "t: " ++ dec (i32_at m 4) ++ ", " ++ (if u8_at m 37 =? 0 then "INACTIVE" else "ACTIVE") ++ ", dur: " ++ dec (i32_at m 8) ++
  ", pos: [" ++ fixed6 (coord m 12 24) ++ ", " ++ fixed6 (coord m 16 25) ++ ", " ++ fixed6 (coord m 20 26) ++
  "], acc: " ++ fixed6 (sc (u32_at m 28) D_1EM4) ++ nl.
(* got_ubx, base.cpp:43-49 (the PVT branch is commented out) *)
Definition base_handler (cls id : Z) (m : list Z) : string := if (cls =? 0x01) && (id =? 0x3B) then show_svin m else "".

(* everything handler number hid prints in the course of the events ev *)
Definition console (h : Z -> Z -> list Z -> string) (hid : Z) (ev : list event) : string :=
  fold_right append "" (map (fun e => match e with EvUbx c => if c_lid c =? hid then h (c_cls c) (c_id c) (c_msg c) else "" | _ => "" end) ev).
