(* What the parser prints on the standard output: decodeGalileo and decode_gal_inav (nav.cpp:593, 710), with operator<<(std::ostream&, const Ephemeris&)
   (nav.h:231-273); and the ephemeris callbacks of src/examples/read_log.cpp:75-94.  (DBG messages go to stderr.) *)
From Coq Require Import String.
From Verif Require Import Base UtcModel Dbl NavModel ExShow UtcShow ExSat.
Local Open Scope string_scope.
Local Open Scope Z_scope.

(* ---------------------------------------------------------------- std::ostream << double, default format (%g, precision 6); library *)
Fixpoint digs (k : nat) (v : Z) : string := match k with O => "" | S j => digs j (v / 10) ++ digit (v mod 10) end.
Fixpoint strip (k : nat) (q : Z) : nat * Z := match k with O => (O, q) | S j => if q mod 10 =? 0 then strip j (q / 10) else (k, q) end.
Definition mant (j : nat) (n : Z) : string :=
  let (i, q) := strip j n in
  match i with O => dec q | S _ => dec (q / 10 ^ Z.of_nat i) ++ "." ++ digs i (q mod 10 ^ Z.of_nat i) end.
(* the k with 10^k <= n/q < 10^(k+1) *)
Fixpoint exp_up (f : nat) (n q : Z) : Z := match f with O => 0 | S g => if n <? 10 * q then 0 else 1 + exp_up g n (10 * q) end.
Fixpoint exp_down (f : nat) (n q : Z) : Z := match f with O => 0 | S g => if q <=? n then 0 else exp_down g (10 * n) q - 1 end.
Definition exp10 (n q : Z) : Z := if q <=? n then exp_up (Z.to_nat (Z.log2 n + 1)) n q else exp_down (Z.to_nat (Z.log2 q + 2)) n q.
(* n/q rounded to six digits, and the exponent *)
Definition sixd (n q : Z) : Z * Z :=
  let k := exp10 n q in
  let d := if k <=? 5 then round_div (n * 10 ^ (5 - k)) q else round_div n (q * 10 ^ (k - 5)) in
  if d =? 1000000 then (100000, k + 1) else (d, k).
Definition show_dbl (x : dbl) : string :=
  if dm x =? 0 then "0" else
  let (d, k) := if 0 <=? de x then sixd (Z.abs (dm x) * 2 ^ de x) 1 else sixd (Z.abs (dm x)) (2 ^ (- de x)) in
  (if dm x <? 0 then "-" else "") ++
  (if (-4 <=? k) && (k <? 6) then mant (Z.to_nat (5 - k)) d
   else mant 5 d ++ "e" ++ (if k <? 0 then "-" else "+") ++ (if Z.abs k <? 10 then "0" else "") ++ dec (Z.abs k)).

(* ---------------------------------------------------------------- nav.h:231-273 *)
(* one line: a label, a value *)
Definition li (name : string) (v : Z) : string := name ++ " " ++ dec v ++ nl.
Definition ld (name : string) (d : dbl) : string := name ++ " " ++ show_dbl d ++ nl.
Definition ltm (name : string) (t : utc) : outcome string :=
  let* a := show_utc t in Ok (name ++ " " ++ a ++ " (" ++ dec (sec t) ++ ", " ++ dec (nsec t) ++ ")" ++ nl).
(* (int) casts: the uint32_t members are printed as int *)
Definition show_eph (e : eph) : outcome string :=
  let* a := ltm "toe" (e_toe e) in
  let* b := ltm "toc" (e_toc e) in
  Ok ("Constellation: " ++ Type_name (ei e FgnssID) ++ nl ++ "Sat ID: " ++ dec (ei e Fsat) ++ nl ++ nl ++ a ++ b ++
      li "tow" (i32 (ei e Ftow)) ++ li "iodc" (ei e Fiodc) ++ li "iode" (ei e Fiode) ++ li "week" (ei e Fweek) ++ li "toes" (i32 (ei e Ftoes)) ++ li "tocs" (i32 (ei e Ftocs)) ++
      li "health" (ei e Fhealth) ++ li "alert_flag" (ei e Falert) ++ li "anti_spoof" (ei e Fspoof) ++ li "code_on_L2" (ei e FcodeL2) ++ li "ura" (ei e Fura) ++
      li "L2_P_data_flag" (ei e FL2P) ++ li "fit_interval_flag" (ei e Ffit) ++ li "age_of_data_offset" (ei e Faodo) ++
      ld "tgd[0]" (ed e Ftgd0) ++ ld "tgd[1]" (ed e Ftgd1) ++ ld "tgd[2]" (ed e Ftgd2) ++ ld "tgd[3]" (ed e Ftgd3) ++
      ld "af2" (ed e Faf2) ++ ld "af1" (ed e Faf1) ++ ld "af0" (ed e Faf0) ++ ld "m0" (ed e Fm0) ++ ld "delta_n" (ed e Fdeltan) ++ ld "ecc" (ed e Fecc) ++
      ld "sqrta" (ed e Fsqrta) ++ ld "omega0" (ed e Fomega0) ++ ld "i0" (ed e Fi0) ++ ld "w" (ed e Fw) ++ ld "omegadot" (ed e Fomegadot) ++ ld "idot" (ed e Fidot) ++
      ld "cuc" (ed e Fcuc) ++ ld "cus" (ed e Fcus) ++ ld "crc" (ed e Fcrc) ++ ld "crs" (ed e Fcrs) ++ ld "cic" (ed e Fcic) ++ ld "cis" (ed e Fcis)).
(* nav.cpp:593.  week is at most 4095 + 1 + 1024, so it is what eph->week (uint16_t, nav.cpp:596) holds afterwards *)
Definition week_line (e : eph) : string := "Week = " ++ dec (ei e Fweek) ++ ", toes = " ++ dec (i32 (ei e Ftoes)) ++ nl.
(* the standard output during convertUBX (nav.cpp:73-120): only decodeGalileo prints, nav.cpp:593 and 710, before it calls the callbacks.
   operator<< has no return statement (EvFell FN_PRINT): with GCC at -O0 the register still holds the stream, and std::endl goes to it *)
Definition nav_says (s : nav) (m : sfrbx) : outcome string :=
  if sf_gnss m =? 2 then
    let (l, i) := slot (fun e => ei e Fsat =? sf_sv m) eph_new (n_eph s) in
    let e := seti FgnssID (sf_gnss m) (seti Fsat (sf_sv m) (nth i l eph_new)) in
    let* (_, e, _, r) := decodeGalileo (n_ecb s) (n_rows s) (sf_dw m) e in
    if r then let* t := show_eph e in Ok (week_line e ++ t ++ nl) else Ok ""
  else Ok "".
(* over a history of calls (nav_run): one text per call *)
Fixpoint nav_console (junk : list Z) (s : nav) (h : list nop) : outcome (list string) :=
  match h with
  | [] => Ok []
  | o :: r =>
      let* t := (match o with NMsg m => nav_says s m | _ => Ok "" end) in
      let* (s1, _) := nav_step junk s o in
      let* ts := nav_console junk s1 r in
      Ok (t :: ts)%list
  end.

(* ---------------------------------------------------------------- read_log.cpp *)
(* eph_callback read_log.cpp:75-83; now: the clock.  The word GPS is part of the text *)
Definition log_eph (now : utc) (e : eph) : outcome string :=
  let* a := show_utc now in
  let* b := show_utc (e_toe e) in
  let* c := show_utc (e_toe e) in
  Ok (bar1 ++ "GPS sat: " ++ dec (ei e Fsat) ++ ", now = " ++ a ++ ", toe = " ++ b ++ ", tof = " ++ c ++ nl ++ bar1).
(* geph_callback read_log.cpp:85-93 *)
Definition log_geph (now : utc) (g : geph) : outcome string :=
  let* a := show_utc now in
  let* b := show_utc (g_toe g) in
  let* c := show_utc (g_tof g) in
  Ok (bar2 ++ "Glonass sat:" ++ dec (gi g Gsat) ++ ", now = " ++ a ++ ", toe = " ++ b ++ ", tof = " ++ c ++ nl ++ bar2).
(* registered as numbers ec and gc (read_log.cpp:120-121) *)
Definition log_event (ec gc : Z) (now : utc) (v : nev) : outcome string :=
  match v with
  | EvEph c e => if c =? ec then log_eph now e else Ok ""
  | EvGeph c g => if c =? gc then log_geph now g else Ok ""
  | EvFell _ => Ok ""
  end.
Fixpoint log_run (ec gc : Z) (h : list (utc * nev)) : outcome (list string) :=
  match h with
  | [] => Ok []
  | (now, v) :: r => let* a := log_event ec gc now v in let* b := log_run ec gc r in Ok (a :: b)%list
  end.
