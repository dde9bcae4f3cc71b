(* Model of the RTCM class: src/parsers/rtcm.cpp, include/UBLOX/parsers/rtcm.h. *)
From Verif Require Import Base BitModel CrcModel.

(* rtcm.h:39 *)
Definition R_BUFFER_SIZE : Z := 1024.
(* rtcm.h:82 *)
Definition R_START_BYTE : Z := 0xD3.

(* rtcm.h:85-98 ParseState (members the reader uses) *)
Inductive rstate :=
| R_START | R_GOT_START_FRAME | R_GOT_LENGTH1 | R_GOT_LENGTH2 | R_GOT_PAYLOAD | R_GOT_CK_A | R_GOT_CK_B | R_GOT_CK_C.

(* rtcm.h:69-78, 99.  ck_a_, ck_b_, ck_c_ are only ever written and are left out. *)
Record rtcm := mkRtcm {
  r_buf : list Z;        (* in_buffer_     1024 bytes *)
  r_new : bool;          (* new_data_ *)
  r_mlen : Z;            (* message_len_   size_t *)
  r_head : Z;            (* buffer_head_   size_t *)
  r_plen : Z;            (* payload_len_   size_t *)
  r_start : bool;        (* start_message_ *)
  r_end : bool;          (* end_message_ *)
  r_prev : Z;            (* prev_byte_     uint8 *)
  r_nerr : Z;            (* num_errors_    size_t *)
  r_st : rstate          (* parse_state_ *)
}.

(* Field assignments. *)
Definition rw_buf s v := mkRtcm v (r_new s) (r_mlen s) (r_head s) (r_plen s) (r_start s) (r_end s) (r_prev s) (r_nerr s) (r_st s).
Definition rw_new s v := mkRtcm (r_buf s) v (r_mlen s) (r_head s) (r_plen s) (r_start s) (r_end s) (r_prev s) (r_nerr s) (r_st s).
Definition rw_mlen s v := mkRtcm (r_buf s) (r_new s) v (r_head s) (r_plen s) (r_start s) (r_end s) (r_prev s) (r_nerr s) (r_st s).
Definition rw_head s v := mkRtcm (r_buf s) (r_new s) (r_mlen s) v (r_plen s) (r_start s) (r_end s) (r_prev s) (r_nerr s) (r_st s).
Definition rw_plen s v := mkRtcm (r_buf s) (r_new s) (r_mlen s) (r_head s) v (r_start s) (r_end s) (r_prev s) (r_nerr s) (r_st s).
Definition rw_flags s a b := mkRtcm (r_buf s) (r_new s) (r_mlen s) (r_head s) (r_plen s) a b (r_prev s) (r_nerr s) (r_st s).
Definition rw_prev s v := mkRtcm (r_buf s) (r_new s) (r_mlen s) (r_head s) (r_plen s) (r_start s) (r_end s) v (r_nerr s) (r_st s).
Definition rw_nerr s v := mkRtcm (r_buf s) (r_new s) (r_mlen s) (r_head s) (r_plen s) (r_start s) (r_end s) (r_prev s) v (r_st s).
Definition rw_st s v := mkRtcm (r_buf s) (r_new s) (r_mlen s) (r_head s) (r_plen s) (r_start s) (r_end s) (r_prev s) (r_nerr s) v.

(* left uninitialised by the constructor *)
Record runinit := mkRUninit { run_buf : list Z; run_mlen : Z; run_plen : Z; run_nerr : Z }.

(* RTCM::RTCM rtcm.cpp:26-35 *)
Definition rtcm_init (u : runinit) : rtcm :=
  mkRtcm (run_buf u) false (run_mlen u) 0 (run_plen u) false false 0 (run_nerr u) R_START.

(* RTCM::restart rtcm.cpp:37-42 *)
Definition rtcm_restart (s : rtcm) : rtcm := rw_flags (rw_st s R_START) false false.
(* RTCM::parsing_message rtcm.cpp:44-47 *)
Definition rtcm_parsing (s : rtcm) : bool := r_start s && negb (r_end s).
(* RTCM::new_data rtcm.cpp:49-54: result and new state *)
Definition rtcm_new_data (s : rtcm) : bool * rtcm := (r_new s, rw_new s false).

(* one got_rtcm call: listener and the bytes buf[0..size-1] it is given *)
Definition rcall : Type := (Z * list Z)%type.

(* RTCM::check_crc rtcm.cpp:56-61; crc24's len is an int *)
Definition check_crc (s : rtcm) : outcome bool :=
  let* rd := getBit 24 (r_buf s) (u64 (r_head s - 3) * 8) in
  let* cp := crc24 (r_buf s) (r_plen s + 3) in
  Ok (rd =? cp).

(* RTCM::decode rtcm.cpp:162-177; ls: registered listeners (identities), in order *)
Definition rtcm_decode (ls : list Z) (s : rtcm) : outcome (rtcm * list rcall) :=
  let s1 := rw_mlen (rw_new s true) (r_head s) in
  let* ok := check_crc s1 in
  Ok (s1, if ok then map (fun l => (l, firstn (Z.to_nat (r_head s1)) (r_buf s1))) ls else []).

(* in_buffer_[buffer_head_++] = byte *)
Definition rpush (s : rtcm) (b : Z) : outcome rtcm :=
  let* buf := aset (r_buf s) (r_head s) b in Ok (rw_head (rw_buf s buf) (u64 (r_head s + 1))).

(* the switch rtcm.cpp:68-146; the default case (147-153 region) is unreachable: R_GOT_CK_C never survives a byte *)
Definition rtcm_switch (s : rtcm) (b : Z) : outcome rtcm :=
  match r_st s with
  | R_START =>
      let s0 := rw_head s 0 in
      if b =? R_START_BYTE
      then rpush (rw_flags (rw_plen (rw_st s0 R_GOT_START_FRAME) 0) true false) b
      else Ok s0
  | R_GOT_START_FRAME => let* s1 := rpush s b in Ok (rw_st s1 R_GOT_LENGTH1)
  | R_GOT_LENGTH1 =>
      let* s1 := rpush s b in
      let s2 := rw_st (rw_plen s1 (Z.lor (Z.shiftl (Z.land (r_prev s1) 3) 8) b)) R_GOT_LENGTH2 in
      if (R_BUFFER_SIZE <? r_plen s2) || (r_plen s2 =? 0)
      then Ok (rtcm_restart (rw_prev (rw_nerr s2 (u64 (r_nerr s2 + 1))) b))
      else Ok s2
  | R_GOT_LENGTH2 =>
      let* s1 := rpush s b in
      let s2 := if u64 (r_head s1 - 3) =? r_plen s1 then rw_st s1 R_GOT_PAYLOAD else s1 in
      if r_plen s2 <? u64 (r_head s2 - 3)
      then Ok (rw_flags (rw_prev (rw_st (rw_nerr s2 (u64 (r_nerr s2 + 1))) R_START) b) false false)
      else Ok s2
  | R_GOT_PAYLOAD => let* s1 := rpush s b in Ok (rw_st s1 R_GOT_CK_A)
  | R_GOT_CK_A => let* s1 := rpush s b in Ok (rw_st s1 R_GOT_CK_B)
  | R_GOT_CK_B =>
      let* s1 := rpush s b in
      if R_BUFFER_SIZE <? r_head s1
      then Ok (rw_flags (rw_st (rw_nerr (rw_head s1 0) (u64 (r_nerr s1 + 1))) R_START) false true)
      else Ok (rw_st s1 R_GOT_CK_C)
  | R_GOT_CK_C => Ok (rw_flags (rw_st (rw_nerr (rw_head s 0) (u64 (r_nerr s + 1))) R_START) false true)
  end.

Definition is_ckc (p : rstate) : bool := match p with R_GOT_CK_C => true | _ => false end.

(* RTCM::read_cb rtcm.cpp:63-159 for one byte (the body of the loop): new state and got_rtcm calls *)
Definition rtcm_byte (ls : list Z) (s : rtcm) (b : Z) : outcome (rtcm * list rcall) :=
  let* s1 := rtcm_switch s b in
  if is_ckc (r_st s1) then
    let* (s2, cs) := rtcm_decode ls (rw_flags (rw_st s1 R_START) false true) in
    Ok (rw_prev s2 b, cs)
  else Ok (rw_prev s1 b, []).

(* RTCM::read_cb over a chunk; one entry of calls per byte *)
Fixpoint rtcm_feed (ls : list Z) (s : rtcm) (bs : list Z) : outcome (rtcm * list (list rcall)) :=
  match bs with
  | [] => Ok (s, [])
  | b :: r =>
      let* (s1, c) := rtcm_byte ls s b in
      let* (s2, outs) := rtcm_feed ls s1 r in
      Ok (s2, c :: outs)
  end.
