(* Model of the sending half of UBX: src/parsers/ubx.cpp 65-71, 114-226, 493-521. *)
From Verif Require Import Base UbxModel.

(* A member assignment out_message_.X.field = v: bytes stored one after the other at an offset.
   out_message_ is the 2048-byte union UBX_message_t (ubx_defs.h:1007-1029); all its structures are packed and
   the target is little-endian (x86/ARM, as everywhere in this code base). *)
Fixpoint put (buf : list Z) (off : Z) (bs : list Z) : outcome (list Z) :=
  match bs with
  | [] => Ok buf
  | b :: r => let* buf' := aset buf off b in put buf' (off + 1) r
  end.

(* the bytes buf[0..n-1] handed to ser_.write (ubx.cpp:527-530) *)
Fixpoint load (n : nat) (buf : list Z) (i : Z) : outcome (list Z) :=
  match n with
  | O => Ok []
  | S n' => let* x := aget buf i in let* r := load n' buf (i + 1) in Ok (x :: r)
  end.

(* UBX::send_message ubx.cpp:114-131; the result is the sequence of ser_.write calls (523-530). *)
Definition send_message (cls id : Z) (buf : list Z) (len : Z) : outcome (list (list Z)) :=
  let* (a, b) := calculate_checksum cls id len buf in
  let* pl := load (Z.to_nat len) buf 0 in
  Ok [[START_BYTE_1]; [START_BYTE_2]; [cls]; [id]; [Z.land len 255]; [Z.land (Z.shiftr len 8) 255];
      pl; [a]; [b]].

Definition zeros (n : nat) : list Z := repeat 0 n.

(* Each sender returns the new out_message_ and the serial writes. *)
Definition sent : Type := (list Z * list (list Z))%type.
Definition send_out (cls id : Z) (buf : list Z) (len : Z) : outcome sent :=
  let* w := send_message cls id buf len in Ok (buf, w).

(* UBX::get_version ubx.cpp:69-70 (the poll it sends; the wait is in UbloxModel) *)
Definition send_ver_poll (out : list Z) : outcome sent := send_out 0x0A 0x04 out 0.

(* UBX::configure ubx.cpp:493-512; CFG_VALSET_t ubx_defs.h:605-617 (12 bytes) *)
Definition configure (out : list Z) (version layer data key size : Z) : outcome sent :=
  let* o := put out 0 (zeros 12) in
  let* o := put o 0 [u8 version] in
  let* o := put o 1 [u8 layer] in
  let* o := (if size =? 1 then put o 8 [u8 data] else Ok o) in
  let* o := (if size =? 2 then put o 8 (le32 (u32 data)) else Ok o) in
  let* o := put o 4 (le32 (u32 key)) in
  send_out 0x06 0x8A o 12.

(* UBX::get_configuration ubx.cpp:514-521; CFG_VALGET_t ubx_defs.h:476-481 (16 bytes) *)
Definition get_configuration (out : list Z) (version layer key : Z) : outcome sent :=
  let* o := put out 0 (zeros 16) in
  let* o := put o 0 [u8 version] in
  let* o := put o 1 [u8 layer] in
  let* o := put o 4 (le32 (u32 key)) in
  send_out 0x06 0x8B o 16.

(* UBX::start_survey_in ubx.cpp:133-139; CFG_TMODE3_t ubx_defs.h:328-352 (40 bytes); no memset *)
Definition start_survey_in (out : list Z) : outcome sent :=
  let* o := put out 2 (le16 1) in
  let* o := put o 24 (le32 60) in
  let* o := put o 28 (le32 3) in
  send_out 0x06 0x71 o 40.

(* run one sender after another on the same out_message_ *)
Definition seq (f g : list Z -> outcome sent) (out : list Z) : outcome sent :=
  let* (o1, w1) := f out in
  let* (o2, w2) := g o1 in
  Ok (o2, w1 ++ w2).

(* UBX::disable_nmea ubx.cpp:141-163; CFG_PRT_t ubx_defs.h:288-326 (20 bytes) *)
Definition disable_nmea (major : Z) (out : list Z) : outcome sent :=
  if major <=? 23 then
    let* o := put out 0 (zeros 20) in
    let* o := put o 0 [Z.lor 3 1] in                       (* portID = PORT_USB | PORT_UART1 *)
    let* o := put o 8 (le32 921600) in                     (* baudrate *)
    let* o := put o 14 (le16 (Z.lor 1 0x20)) in            (* outProtoMask *)
    let* o := put o 12 (le16 (Z.lor 1 0x20)) in            (* inProtoMask *)
    let* o := put o 16 (le16 (Z.lor (Z.lor 0xC0 0x800) 0)) in  (* flags *)
    send_out 0x06 0x00 o 20
  else
    seq (fun o => configure o 0 1 0 0x10770002 1) (fun o => configure o 0 1 0 0x10780002 1) out.

(* UBX::set_dynamic_mode ubx.cpp:165-182; CFG_NAV5_t ubx_defs.h:218-286 (36 bytes) *)
Definition set_dynamic_mode (major : Z) (out : list Z) : outcome sent :=
  if major <=? 23 then
    let* o := put out 0 (zeros 36) in
    let* o := put o 0 (le16 1) in                          (* mask = MASK_DYN *)
    let* o := put o 2 [8] in                               (* dynModel = DYNMODE_AIRBORNE_4G *)
    send_out 0x06 0x24 o 36
  else configure out 0 1 6 0x20110021 1.

(* UBX::set_nav_rate ubx.cpp:184-204; CFG_RATE_t ubx_defs.h:619-634 (6 bytes); period_ms is a uint8_t *)
Definition set_nav_rate (major period : Z) (out : list Z) : outcome sent :=
  let p := u8 period in
  if major <=? 23 then
    let* o := put out 0 (zeros 6) in
    let* o := put o 0 (le16 p) in
    let* o := put o 2 (le16 1) in
    let* o := put o 4 (le16 0) in
    send_out 0x06 0x08 o 6
  else
    seq (fun o => configure o 0 1 p 0x30210001 1)
        (seq (fun o => configure o 0 1 1 0x30210002 1) (fun o => configure o 0 1 0 0x20210003 1)) out.

(* UBX::enable_message ubx.cpp:217-226; CFG_MSG_t ubx_defs.h:211-216 (3 bytes) *)
Definition enable_message (cls id rate : Z) (out : list Z) : outcome sent :=
  let* o := put out 0 (zeros 3) in
  let* o := put o 0 [u8 cls] in
  let* o := put o 1 [u8 id] in
  let* o := put o 2 [u8 rate] in
  send_out 0x06 0x01 o 3.
