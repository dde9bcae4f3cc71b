(* Model of the UBX class: src/parsers/ubx.cpp, include/UBLOX/parsers/ubx.h, ubx_defs.h. *)
From Verif Require Import Base.

(* ubx_defs.h:29 BUFFER_SIZE *)
Definition BUFFER_SIZE : Z := 2048.
(* ubx_defs.h:43-44 *)
Definition START_BYTE_1 : Z := 0xB5.
Definition START_BYTE_2 : Z := 0x62.

(* ------------------------------------------------------------ UBXListener, ubx.h:36-54 *)
(* Only the subscription set and an identity are kept; got_ubx itself is user code and shows up as
   an output of the model.  Simplification: listeners do not call back into the reader. *)
Record mlistener := mkML { ml_id : Z; ml_keys : list Z }.

(* ubx.h:41 and ubx.h:46: uint16_t key = cls << 8 | id *)
Definition sub_key (cls id : Z) : Z := u16 (Z.lor (Z.shiftl cls 8) id).

(* ubx.h:39-43 subscribe (std::set insert; a list stands for the set) *)
Definition subscribe (l : mlistener) (cls id : Z) : mlistener :=
  mkML (ml_id l) (sub_key cls id :: ml_keys l).

(* ubx.h:44-48 subscribed *)
Definition subscribed (l : mlistener) (cls id : Z) : bool :=
  existsb (Z.eqb (sub_key cls id)) (ml_keys l).

(* ------------------------------------------------------------ UBX state, ubx.h:103-153 *)
(* ubx_defs.h:184-197 parse_state_t (only the members the UBX reader uses) *)
Inductive pstate :=
| START | GOT_START_FRAME | GOT_CLASS | GOT_MSG_ID | GOT_LENGTH1 | GOT_LENGTH2
| GOT_PAYLOAD | GOT_CK_A | GOT_CK_B.

(* the data members ubx.h:105, 120-134, 150-152 (version .. new_data_, ubx.h:135-144, are used by nothing) *)
Record ubx := mkUbx {
  prev : Z;              (* prev_byte_            uint8  *)
  head : Z;              (* buffer_head_          uint16 *)
  start_m : bool;        (* start_message_ *)
  end_m : bool;          (* end_message_ *)
  got_ack : bool;        (* got_ack_ *)
  got_ver : bool;        (* got_ver_ *)
  got_nack : bool;       (* got_nack_ *)
  st : pstate;           (* parse_state_ *)
  mcls : Z;              (* message_class_ *)
  mtyp : Z;              (* message_type_ *)
  mlen : Z;              (* length_               uint16 *)
  cka : Z;               (* ck_a_ *)
  ckb : Z;               (* ck_b_ *)
  nerr : Z;              (* num_errors_           uint32 *)
  nmsg : Z;              (* num_messages_received_ uint32 *)
  inbuf : list Z;        (* in_message_.buffer    2048 bytes *)
  major : Z;             (* major_version_        int *)
  minor : Z;             (* minor_version_        int *)
  modname : list Z       (* module_name_          10 chars *)
}.

(* Field assignments of the members above (ubx.h:105-152). *)
Definition w_prev s v := mkUbx v (head s) (start_m s) (end_m s) (got_ack s) (got_ver s) (got_nack s) (st s) (mcls s) (mtyp s) (mlen s) (cka s) (ckb s) (nerr s) (nmsg s) (inbuf s) (major s) (minor s) (modname s).
Definition w_head s v := mkUbx (prev s) v (start_m s) (end_m s) (got_ack s) (got_ver s) (got_nack s) (st s) (mcls s) (mtyp s) (mlen s) (cka s) (ckb s) (nerr s) (nmsg s) (inbuf s) (major s) (minor s) (modname s).
Definition w_flags s a b := mkUbx (prev s) (head s) a b (got_ack s) (got_ver s) (got_nack s) (st s) (mcls s) (mtyp s) (mlen s) (cka s) (ckb s) (nerr s) (nmsg s) (inbuf s) (major s) (minor s) (modname s).
Definition w_ack s v := mkUbx (prev s) (head s) (start_m s) (end_m s) v (got_ver s) (got_nack s) (st s) (mcls s) (mtyp s) (mlen s) (cka s) (ckb s) (nerr s) (nmsg s) (inbuf s) (major s) (minor s) (modname s).
Definition w_ver s v := mkUbx (prev s) (head s) (start_m s) (end_m s) (got_ack s) v (got_nack s) (st s) (mcls s) (mtyp s) (mlen s) (cka s) (ckb s) (nerr s) (nmsg s) (inbuf s) (major s) (minor s) (modname s).
Definition w_nack s v := mkUbx (prev s) (head s) (start_m s) (end_m s) (got_ack s) (got_ver s) v (st s) (mcls s) (mtyp s) (mlen s) (cka s) (ckb s) (nerr s) (nmsg s) (inbuf s) (major s) (minor s) (modname s).
Definition w_st s v := mkUbx (prev s) (head s) (start_m s) (end_m s) (got_ack s) (got_ver s) (got_nack s) v (mcls s) (mtyp s) (mlen s) (cka s) (ckb s) (nerr s) (nmsg s) (inbuf s) (major s) (minor s) (modname s).
Definition w_mcls s v := mkUbx (prev s) (head s) (start_m s) (end_m s) (got_ack s) (got_ver s) (got_nack s) (st s) v (mtyp s) (mlen s) (cka s) (ckb s) (nerr s) (nmsg s) (inbuf s) (major s) (minor s) (modname s).
Definition w_mtyp s v := mkUbx (prev s) (head s) (start_m s) (end_m s) (got_ack s) (got_ver s) (got_nack s) (st s) (mcls s) v (mlen s) (cka s) (ckb s) (nerr s) (nmsg s) (inbuf s) (major s) (minor s) (modname s).
Definition w_mlen s v := mkUbx (prev s) (head s) (start_m s) (end_m s) (got_ack s) (got_ver s) (got_nack s) (st s) (mcls s) (mtyp s) v (cka s) (ckb s) (nerr s) (nmsg s) (inbuf s) (major s) (minor s) (modname s).
Definition w_cka s v := mkUbx (prev s) (head s) (start_m s) (end_m s) (got_ack s) (got_ver s) (got_nack s) (st s) (mcls s) (mtyp s) (mlen s) v (ckb s) (nerr s) (nmsg s) (inbuf s) (major s) (minor s) (modname s).
Definition w_ckb s v := mkUbx (prev s) (head s) (start_m s) (end_m s) (got_ack s) (got_ver s) (got_nack s) (st s) (mcls s) (mtyp s) (mlen s) (cka s) v (nerr s) (nmsg s) (inbuf s) (major s) (minor s) (modname s).
Definition w_nerr s v := mkUbx (prev s) (head s) (start_m s) (end_m s) (got_ack s) (got_ver s) (got_nack s) (st s) (mcls s) (mtyp s) (mlen s) (cka s) (ckb s) v (nmsg s) (inbuf s) (major s) (minor s) (modname s).
Definition w_nmsg s v := mkUbx (prev s) (head s) (start_m s) (end_m s) (got_ack s) (got_ver s) (got_nack s) (st s) (mcls s) (mtyp s) (mlen s) (cka s) (ckb s) (nerr s) v (inbuf s) (major s) (minor s) (modname s).
Definition w_inbuf s v := mkUbx (prev s) (head s) (start_m s) (end_m s) (got_ack s) (got_ver s) (got_nack s) (st s) (mcls s) (mtyp s) (mlen s) (cka s) (ckb s) (nerr s) (nmsg s) v (major s) (minor s) (modname s).
Definition w_version s a b := mkUbx (prev s) (head s) (start_m s) (end_m s) (got_ack s) (got_ver s) (got_nack s) (st s) (mcls s) (mtyp s) (mlen s) (cka s) (ckb s) (nerr s) (nmsg s) (inbuf s) a b (modname s).
Definition w_modname s v := mkUbx (prev s) (head s) (start_m s) (end_m s) (got_ack s) (got_ver s) (got_nack s) (st s) (mcls s) (mtyp s) (mlen s) (cka s) (ckb s) (nerr s) (nmsg s) (inbuf s) (major s) (minor s) v.

(* What the constructor leaves uninitialised (ubx.cpp:41-53 assigns none of these; ubx.h gives them no
   default member initialiser). *)
Record uninit := mkUninit {
  un_inbuf : list Z; un_major : Z; un_minor : Z; un_modname : list Z }.

(* UBX::UBX ubx.cpp:41-53 with the default member initialisers of ubx.h:121-134 *)
Definition ubx_init (u : uninit) : ubx :=
  mkUbx 0 0 false false false false false START 0 0 0 0 0 0 0
        (un_inbuf u) (un_major u) (un_minor u) (un_modname u).

(* UBX::parsing_message ubx.cpp:55-58 *)
Definition parsing_message (s : ubx) : bool := start_m s && negb (end_m s).

(* UBX::restart ubx.cpp:332-337 *)
Definition restart (s : ubx) : ubx := w_flags (w_st s START) false false.

(* UBX::calculate_checksum ubx.cpp:460-491.  The payload is passed by value (a 2048 byte copy); the
   loop reads payload.buffer[0..len-1].  uint8_t accumulators. *)
Definition ck_step (ab : Z * Z) (x : Z) : Z * Z :=
  let a := u8 (fst ab + x) in (a, u8 (snd ab + a)).
Fixpoint ck_loop (fuel : nat) (buf : list Z) (i : Z) (ab : Z * Z) : outcome (Z * Z) :=
  match fuel with
  | O => Ok ab
  | S f => let* x := aget buf i in ck_loop f buf (i + 1) (ck_step ab x)
  end.
Definition calculate_checksum (cls id len : Z) (buf : list Z) : outcome (Z * Z) :=
  ck_loop (Z.to_nat len) buf 0
    (ck_step (ck_step (ck_step (ck_step (0, 0) cls) id) (Z.land len 255))
             (Z.land (Z.shiftr len 8) 255)).

(* ------------------------------------------------------------ MON-VER, ubx.cpp:532-602 *)
(* MON_VER_t ubx_defs.h:832-837: char swVersion[30]; char hwVersion[10]; char extension[30][10].
   extension[i] therefore starts at byte 40+10*i of the message.  Reads that leave one 10-byte row but
   stay in the 2048-byte message are modelled as ordinary reads (that is what the compiled code does). *)
Definition ext_off (i : Z) : Z := 40 + 10 * i.

(* ubx.cpp:539, 543: strncmp(p, lit, strlen(lit)) == 0 for a literal without NUL: plain comparison, stops at the first
   difference. *)
Fixpoint str_prefix (buf : list Z) (pos : Z) (lit : list Z) : outcome bool :=
  match lit with
  | [] => Ok true
  | c :: r => let* x := aget buf pos in
              if x =? c then str_prefix buf (pos + 1) r else Ok false
  end.

(* "PROTVER=" and "MOD=", ubx.cpp:539, 543 *)
Definition lit_protver : list Z := [80;82;79;84;86;69;82;61].
Definition lit_mod : list Z := [77;79;68;61].

(* atoi on a char[5] array (ubx.cpp:571, 585): white space, one sign, digits; needing a character past the end of the array
   is undefined behaviour.  At most 5 digits, so no overflow. *)
Definition is_space (c : Z) : bool := (c =? 32) || ((9 <=? c) && (c <=? 13)).
Definition is_digit (c : Z) : bool := (48 <=? c) && (c <=? 57).
Fixpoint atoi_digits (l : list Z) (acc : Z) : outcome Z :=
  match l with
  | [] => UB UB_cstring
  | c :: r => if is_digit c then atoi_digits r (10 * acc + (c - 48)) else Ok acc
  end.
Fixpoint atoi (l : list Z) : outcome Z :=
  match l with
  | [] => UB UB_cstring
  | c :: r =>
      if is_space c then atoi r
      else if c =? 45 then let* v := atoi_digits r 0 in Ok (- v)
      else if c =? 43 then atoi_digits r 0
      else atoi_digits l 0
  end.

(* First loop of extract_version_string, ubx.cpp:558-570: copies characters to tmp until '.', which is
   replaced by NUL, at most 5.  Returns the characters written and the read position afterwards.
   Characters after the NUL in tmp are uninitialised but atoi never reads them (it stops at the NUL at the
   latest), so the written prefix is all the model keeps. *)
Fixpoint copy_until_dot (n : nat) (buf : list Z) (pos : Z) : outcome (list Z * Z) :=
  match n with
  | O => Ok ([], pos)
  | S n' =>
      let* c := aget buf pos in
      if c =? 46 then Ok ([0], pos + 1)
      else let* (r, p) := copy_until_dot n' buf (pos + 1) in Ok (c :: r, p)
  end.
(* Second loop, ubx.cpp:574-584: tmp zeroed, characters copied until NUL, at most 5. *)
Fixpoint copy_until_nul (n : nat) (buf : list Z) (pos : Z) : outcome (list Z) :=
  match n with
  | O => Ok []
  | S n' =>
      let* c := aget buf pos in
      if c =? 0 then Ok [0]
      else let* r := copy_until_nul n' buf (pos + 1) in Ok (c :: r)
  end.

(* UBX::extract_version_string ubx.cpp:555-586 *)
Definition extract_version_string (s : ubx) (pos : Z) : outcome ubx :=
  let* (t1, p) := copy_until_dot 5 (inbuf s) (pos + 8) in
  let* ma := atoi t1 in
  let* t2 := copy_until_nul 5 (inbuf s) p in
  let* mi := atoi t2 in
  Ok (w_version s ma mi).

(* UBX::extract_module_name ubx.cpp:588-602: module_name_[10] *)
Fixpoint copy_name (n : nat) (buf : list Z) (pos : Z) (name : list Z) (i : Z) : outcome (list Z) :=
  match n with
  | O => Ok name
  | S n' =>
      let* c := aget buf pos in
      let* name' := aset name i c in
      if c =? 0 then Ok name' else copy_name n' buf (pos + 1) name' (i + 1)
  end.
(* ubx.cpp:588-602 *)
Definition extract_module_name (s : ubx) (pos : Z) : outcome ubx :=
  let* nm := copy_name 10 (inbuf s) (pos + 4) (modname s) 0 in
  Ok (w_modname s nm).

(* Loop of version_cb, ubx.cpp:537-547: i = 0..19 *)
Definition version_slot (s : ubx) (i : Z) : outcome ubx :=
  let* p := str_prefix (inbuf s) (ext_off i) lit_protver in
  let* s1 := (if p then extract_version_string s (ext_off i) else Ok s) in
  let* m := str_prefix (inbuf s1) (ext_off i) lit_mod in
  if m then extract_module_name s1 (ext_off i) else Ok s1.
Fixpoint version_loop (n : nat) (i : Z) (s : ubx) : outcome ubx :=
  match n with
  | O => Ok s
  | S n' => let* s' := version_slot s i in version_loop n' (i + 1) s'
  end.

(* printf("%s", module_name_) ubx.cpp:550 reads until a NUL; none in the 10 chars is an over-read *)
Definition print_name (nm : list Z) : outcome unit :=
  if existsb (Z.eqb 0) nm then Ok tt else UB UB_cstring.

(* UBX::version_cb ubx.cpp:532-553 *)
Definition version_cb (s : ubx) : outcome ubx :=
  let* s1 := version_loop 20 0 s in
  let* _ := print_name (modname s1) in
  Ok (w_ver s1 true).

(* ------------------------------------------------------------ decode_message, ubx.cpp:339-453 *)
(* One got_ubx call (ubx.cpp:449) is a Base.call: listener, class, id, the whole in_message_ union. *)

(* The switch ubx.cpp:355-443; only ACK and MON-VER have effects. *)
Definition decode_switch (s : ubx) : outcome ubx :=
  if mcls s =? 0x05 then
    if mtyp s =? 0x01 then Ok (w_ack s true)
    else if mtyp s =? 0x00 then Ok (w_nack s true)
    else Ok s
  else if mcls s =? 0x0A then
    if mtyp s =? 0x04 then version_cb s else Ok s
  else Ok s.

(* ubx.cpp:446-450 *)
Definition notify (ls : list mlistener) (s : ubx) : list call :=
  map (fun l => mkCall (ml_id l) (mcls s) (mtyp s) (inbuf s))
      (filter (fun l => subscribed l (mcls s) (mtyp s)) ls).

(* UBX::decode_message ubx.cpp:339-453 *)
Definition decode_message (ls : list mlistener) (s : ubx) : outcome (ubx * list call * bool) :=
  let* (a, b) := calculate_checksum (mcls s) (mtyp s) (mlen s) (inbuf s) in
  if negb (a =? cka s) || negb (b =? ckb s) then Ok (s, [], false)
  else
    let s1 := w_nmsg s (u32 (nmsg s + 1)) in
    let* s2 := decode_switch s1 in
    Ok (s2, notify ls s2, true).

(* ------------------------------------------------------------ read_cb, ubx.cpp:236-330 *)
(* the switch: Left = early return (oversized length, ubx.cpp:269-277), Right = fall through *)
Definition read_switch (s : ubx) (b : Z) : outcome (bool * ubx) :=
  match st s with
  | START =>                                                          (* 240-253 *)
      if (b =? START_BYTE_2) && (prev s =? START_BYTE_1)
      then Ok (false, w_flags (w_ckb (w_cka (w_mlen (w_mtyp (w_mcls (w_st (w_head s 0) GOT_START_FRAME) 0) 0) 0) 0) 0) true false)
      else Ok (false, s)
  | GOT_START_FRAME => Ok (false, w_st (w_mcls s b) GOT_CLASS)         (* 254-257 *)
  | GOT_CLASS => Ok (false, w_st (w_mtyp s b) GOT_MSG_ID)              (* 258-261 *)
  | GOT_MSG_ID => Ok (false, w_st (w_mlen s b) GOT_LENGTH1)            (* 262-265 *)
  | GOT_LENGTH1 =>                                                    (* 266-278 *)
      let s1 := w_st (w_mlen s (u16 (Z.lor (mlen s) (Z.shiftl b 8)))) GOT_LENGTH2 in
      if mlen s1 >? BUFFER_SIZE
      then Ok (true, restart (w_prev (w_nerr s1 (u32 (nerr s1 + 1))) b))
      else Ok (false, s1)
  | GOT_LENGTH2 =>                                                    (* 279-290 *)
      if head s <? mlen s then
        let* buf := aset (inbuf s) (head s) b in
        let s1 := w_inbuf s buf in
        let s2 := if head s1 =? mlen s1 - 1 then w_st s1 GOT_PAYLOAD else s1 in
        Ok (false, w_head s2 (u16 (head s2 + 1)))
      else Ok (false, s)
  | GOT_PAYLOAD => Ok (false, w_st (w_cka s b) GOT_CK_A)               (* 291-294 *)
  | GOT_CK_A => Ok (false, w_st (w_ckb s b) GOT_CK_B)                  (* 295-298 *)
  | GOT_CK_B => Ok (false, w_flags (w_st (w_nerr s (u32 (nerr s + 1))) START) false false) (* 299-304 *)
  end.

(* ubx.cpp:308: parse_state_ == GOT_CK_B *)
Definition is_ckb (p : pstate) : bool := match p with GOT_CK_B => true | _ => false end.

(* UBX::read_cb ubx.cpp:236-330.  Returns the new state, the got_ubx calls made, and the boolean result. *)
Definition read_cb (ls : list mlistener) (s : ubx) (b : Z) : outcome (ubx * list call * bool) :=
  let* (early, s1) := read_switch s b in
  if early then Ok (s1, [], false)
  else if is_ckb (st s1) then
    let* (s2, calls, ok) := decode_message ls s1 in
    if ok then Ok (w_prev (w_flags (w_st s2 START) false true) b, calls, true)   (* 310-317 *)
    else Ok (w_prev (w_flags (w_st (w_nerr s2 (u32 (nerr s2 + 1))) START) false false) b, calls, false)
  else Ok (w_prev s1 b, [], false).

(* Feeding a byte string to UBX::read_cb (ubx.cpp:236-330) one byte at a time; one (calls, result) entry per byte. *)
Fixpoint feed (ls : list mlistener) (s : ubx) (bs : list Z) : outcome (ubx * list byte_out) :=
  match bs with
  | [] => Ok (s, [])
  | b :: r =>
      let* (s1, c, ok) := read_cb ls s b in
      let* (s2, outs) := feed ls s1 r in
      Ok (s2, (c, ok) :: outs)
  end.
