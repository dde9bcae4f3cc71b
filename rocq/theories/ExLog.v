(* The message handler of src/examples/read_log.cpp:37-73 (UBX_Callback_Handler), attached to a driver.
   printf is modelled for the conversions used: %d and %.3f (%2.3f is the same: such a number has at least five characters);
   exact decimal conversion, nearest, ties to even, as in glibc; infinities and NaNs as glibc prints them. *)
From Coq Require Import String.
From Verif Require Import Base UbxSpec UbxModel UtcModel Dbl NavModel RosModel UbloxModel ExShow.
Local Open Scope string_scope.
Local Open Scope Z_scope.

(* ---------------------------------------------------------------- printf *)
Definition three (v : Z) : string := digit (v / 100 mod 10) ++ digit (v / 10 mod 10) ++ digit (v mod 10).
(* q thousandths *)
Definition thousandths (neg : bool) (q : Z) : string := (if neg then "-" else "") ++ dec (q / 1000) ++ "." ++ three (q mod 1000).
(* m * 2^e in thousandths *)
Definition rnd3 (m e : Z) : Z := if 0 <=? e then m * 1000 * 2 ^ e else round_div (m * 1000) (2 ^ (- e)).
Definition fixed3 (d : dbl) : string := thousandths (dm d <? 0) (rnd3 (Z.abs (dm d)) (de d)).
(* a double, and a float promoted to double, as found in memory *)
Definition show64 (b : Z) : string :=
  let neg := Z.testbit b 63 in
  let ex := b / 2 ^ 52 mod 2048 in
  let fr := b mod 2 ^ 52 in
  if ex =? 2047 then (if neg then "-" else "") ++ (if fr =? 0 then "inf" else "nan")
  else thousandths neg (if ex =? 0 then rnd3 fr (-1074) else rnd3 (2 ^ 52 + fr) (ex - 1075)).
Definition show32 (b : Z) : string :=
  let neg := Z.testbit b 31 in
  let ex := b / 2 ^ 23 mod 256 in
  let fr := b mod 2 ^ 23 in
  if ex =? 255 then (if neg then "-" else "") ++ (if fr =? 0 then "inf" else "nan")
  else thousandths neg (if ex =? 0 then rnd3 fr (-149) else rnd3 (2 ^ 23 + fr) (ex - 150)).

(* ---------------------------------------------------------------- the handler *)
(* pvt_callback :53-61.  nano / 1000000 truncates; iTOW is unsigned but printed with %d *)
Definition show_pvt (m : list Z) : string :=
  "t: " ++ dec (u16_at m 4) ++ " " ++ dec (u8_at m 6) ++ "/" ++ dec (u8_at m 7) ++ ", " ++ dec (u8_at m 8) ++ ":" ++ dec (u8_at m 9) ++ ":" ++ dec (u8_at m 10) ++
  "." ++ dec (Z.quot (i32_at m 16) 1000000) ++
  ", lla: " ++ fixed3 (sc (i32_at m 28) D_1EM7) ++ ", " ++ fixed3 (sc (i32_at m 24) D_1EM7) ++ ", " ++ fixed3 (sc (i32_at m 32) D_1EM3) ++
  ", vel: " ++ fixed3 (sc (i32_at m 48) D_1EM3) ++ ", " ++ fixed3 (sc (i32_at m 52) D_1EM3) ++ ", " ++ fixed3 (sc (i32_at m 56) D_1EM3) ++ nl ++
  "tow: " ++ dec (i32_at m 0) ++ nl.
(* rawx_callback :63-72.  numMeas is int8_t; meas has 30 elements of 32 bytes from offset 16 (ubx_defs.h:849-903) *)
Definition show_meas (m : list Z) (i : nat) : string :=
  let o := (16 + 32 * i)%nat in
  "week: " ++ dec (u16_at m 8) ++ ", tow: " ++ show64 (u64_at m 0) ++ " gnss_id: " ++ dec (u8_at m (o + 20)) ++ ", sat_id: " ++ dec (u8_at m (o + 21)) ++
  ", P " ++ show64 (u64_at m o) ++ ", L " ++ show64 (u64_at m (o + 8)) ++ ", D " ++ show32 (u32_at m (o + 16)) ++ nl.
(* n iterations starting at i *)
Fixpoint raw_loop (n : nat) (m : list Z) (i : nat) : outcome string :=
  match n with
  | O => Ok ""
  | S k => if (i <? 30)%nat then let* r := raw_loop k m (S i) in Ok (show_meas m i ++ r) else UB UB_oob_read
  end.
Definition show_raw (m : list Z) : outcome string := raw_loop (Z.to_nat (i8_at m 11)) m 0.
(* got_ubx :44-51 *)
Definition log_handler (cls id : Z) (m : list Z) : outcome string :=
  let head := "GOT UBX MESSAGE" ++ nl in
  if (cls =? 0x01) && (id =? 0x07) then Ok (head ++ show_pvt m)
  else if (cls =? 0x02) && (id =? 0x15) then let* r := show_raw m in Ok (head ++ r)
  else Ok head.
(* everything it prints, registered as number hid (:113-114), in the course of the events ev *)
Fixpoint log_console (hid : Z) (ev : list event) : outcome string :=
  match ev with
  | [] => Ok ""
  | e :: r =>
      let* a := (match e with EvUbx c => if c_lid c =? hid then log_handler (c_cls c) (c_id c) (c_msg c) else Ok "" | _ => Ok "" end) in
      let* b := log_console hid r in Ok (a ++ b)
  end.
