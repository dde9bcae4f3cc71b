(* What a C++ stream prints for a double without further formatting, stated over rational numbers: the nearest number of six significant decimal digits (for C88). *)
From Coq Require Import QArith Qabs Qpower String Ascii.
From Verif Require Import Base TextSpec.
Local Open Scope string_scope.
Local Open Scope Z_scope.

(* the number with the six significant digits n (100000..999999), the first of which stands for tens to the power k *)
Definition six_sig (n k : Z) : Q := (inject_Z n * Qpower (10 # 1) (k - 5))%Q.
Definition six_ok (n : Z) : Prop := 100000 <= n <= 999999.
(* no number of six significant digits is closer to x; if another one is as close, the last digit is even *)
Definition nearest_six (x : Q) (n k : Z) : Prop := six_ok n /\ forall n' k', six_ok n' ->
  (Qabs (x - six_sig n k) <= Qabs (x - six_sig n' k'))%Q /\
  ((Qabs (x - six_sig n k) == Qabs (x - six_sig n' k'))%Q -> (n', k') <> (n, k) -> Z.even n = true).
(* n units of 10^-j, without zeros at the end of the fraction, and without the point if nothing follows it *)
Definition trimmed (j : nat) (n : Z) (t : string) : Prop :=
  exists i q, (i <= j)%nat /\ n = q * 10 ^ Z.of_nat (j - i) /\
    match i with O => t = number q | S _ => q mod 10 <> 0 /\ fixed_point i false q t end.
Definition exponent_text (k : Z) : string := "e" ++ (if k <? 0 then "-" else "+") ++ (if Z.abs k <? 10 then "0" else "") ++ number (Z.abs k).
Definition general_text (x : Q) (t : string) : Prop :=
  ((x == 0)%Q /\ t = "0") \/
  (~ (x == 0)%Q /\ exists n k m, nearest_six (Qabs x) n k /\
     let sign := if Qlt_le_dec x 0 then "-" else "" in
     if (-4 <=? k) && (k <? 6) then trimmed (Z.to_nat (5 - k)) n m /\ t = sign ++ m
     else trimmed 5 n m /\ t = sign ++ m ++ exponent_text k).

(* ---------------------------------------------------------------- the report on an ephemeris *)
From Verif Require Import UtcModel Dbl NavModel Calendar UtcShowThm.
Inductive value := VInt (z : Z) | VReal (q : Q).
Definition value_text (v : value) (t : string) : Prop := match v with VInt z => t = number z | VReal q => general_text q t end.
(* the lines with one number each, in their order; 32-bit members are shown as signed numbers *)
Definition report_lines (e : eph) : list (string * value) :=
  [("tow", VInt (i32 (ei e Ftow))); ("iodc", VInt (ei e Fiodc)); ("iode", VInt (ei e Fiode)); ("week", VInt (ei e Fweek)); ("toes", VInt (i32 (ei e Ftoes)));
   ("tocs", VInt (i32 (ei e Ftocs))); ("health", VInt (ei e Fhealth)); ("alert_flag", VInt (ei e Falert)); ("anti_spoof", VInt (ei e Fspoof));
   ("code_on_L2", VInt (ei e FcodeL2)); ("ura", VInt (ei e Fura)); ("L2_P_data_flag", VInt (ei e FL2P)); ("fit_interval_flag", VInt (ei e Ffit));
   ("age_of_data_offset", VInt (ei e Faodo)); ("tgd[0]", VReal (dQ (ed e Ftgd0))); ("tgd[1]", VReal (dQ (ed e Ftgd1))); ("tgd[2]", VReal (dQ (ed e Ftgd2)));
   ("tgd[3]", VReal (dQ (ed e Ftgd3))); ("af2", VReal (dQ (ed e Faf2))); ("af1", VReal (dQ (ed e Faf1))); ("af0", VReal (dQ (ed e Faf0))); ("m0", VReal (dQ (ed e Fm0)));
   ("delta_n", VReal (dQ (ed e Fdeltan))); ("ecc", VReal (dQ (ed e Fecc))); ("sqrta", VReal (dQ (ed e Fsqrta))); ("omega0", VReal (dQ (ed e Fomega0)));
   ("i0", VReal (dQ (ed e Fi0))); ("w", VReal (dQ (ed e Fw))); ("omegadot", VReal (dQ (ed e Fomegadot))); ("idot", VReal (dQ (ed e Fidot)));
   ("cuc", VReal (dQ (ed e Fcuc))); ("cus", VReal (dQ (ed e Fcus))); ("crc", VReal (dQ (ed e Fcrc))); ("crs", VReal (dQ (ed e Fcrs)));
   ("cic", VReal (dQ (ed e Fcic))); ("cis", VReal (dQ (ed e Fcis)))].
(* a point in time: its date and time of day *)
Definition clock_text (t : utc) (txt : string) : Prop := exists x h m s,
  on_day (sec t / 86400) x /\ 0 <= h < 24 /\ 0 <= m < 60 /\ 0 <= s < 60 /\ 3600 * h + 60 * m + s = sec t mod 86400 /\ txt = stamp x h m s.
(* and the two numbers it consists of *)
Definition time_text (t : utc) (txt : string) : Prop := exists c, clock_text t c /\ txt = c ++ " (" ++ number (sec t) ++ ", " ++ number (nsec t) ++ ")".
Definition galileo_report (e : eph) (txt : string) : Prop :=
  exists a b ts, time_text (e_toe e) a /\ time_text (e_toc e) b /\ Forall2 (fun nv t => value_text (snd nv) t) (report_lines e) ts /\
  txt = line ("Week = " ++ number (ei e Fweek) ++ ", toes = " ++ number (i32 (ei e Ftoes))) ++
        line "Constellation: Galileo" ++ line ("Sat ID: " ++ number (ei e Fsat)) ++ line "" ++ line ("toe " ++ a) ++ line ("toc " ++ b) ++
        String.concat "" (map (fun nt => line (fst nt ++ " " ++ snd nt)) (combine (map fst (report_lines e)) ts)) ++ line "".
(* what the printed text has to do with the events of the same call: a report comes before the callbacks, which get the same ephemeris; else nothing is printed *)
Definition told (ev : list nev) (txt : string) : Prop :=
  (exists d cbs, ev = EvFell FN_PRINT :: map (fun c => EvEph c d) cbs /\ galileo_report d txt) \/ (~ In (EvFell FN_PRINT) ev /\ txt = "").

(* read_log.cpp: the announcement of an ephemeris *)
Definition eph_said (now : utc) (e : eph) (txt : string) : Prop := exists a b, clock_text now a /\ clock_text (e_toe e) b /\
  let rule := line "!!!!!!!!!!!!!!!!!!!!!!!!!!!!!!!!!!!!!!!!!!!!!!!!!!!!!!!!!!" in
  txt = rule ++ line ("GPS sat: " ++ number (ei e Fsat) ++ ", now = " ++ a ++ ", toe = " ++ b ++ ", tof = " ++ b) ++ rule.
Definition geph_said (now : utc) (g : geph) (txt : string) : Prop := exists a b c, clock_text now a /\ clock_text (g_toe g) b /\ clock_text (g_tof g) c /\
  let rule := line "*************************************************************" in
  txt = rule ++ line ("Glonass sat:" ++ number (gi g Gsat) ++ ", now = " ++ a ++ ", toe = " ++ b ++ ", tof = " ++ c) ++ rule.
Definition said_of (ec gc : Z) (now : utc) (v : nev) (txt : string) : Prop :=
  match v with
  | EvEph c e => if c =? ec then eph_said now e txt else txt = ""
  | EvGeph c g => if c =? gc then geph_said now g txt else txt = ""
  | EvFell _ => txt = ""
  end.
