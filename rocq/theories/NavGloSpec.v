(* GLONASS release rule and content of a released record, over histories of calls; independent of the decoder's code. *)
From Coq Require Import QArith.
From Verif Require Import Base UtcModel UtcSpec Dbl NavModel NavSpec NavStrSpec.
Local Open Scope Z_scope.

Definition is_glo (sv : Z) (m : sfrbx) : bool := (sf_gnss m =? 6) && (sf_sv m =? sv).
(* the satellite's messages in a history, each with the parser's clock (what setGPSTime or the last released GPS
   ephemeris left, C40_clock) when it came *)
Fixpoint glog (junk : list Z) (s : nav) (sv : Z) (h : list nop) : list (utc * list Z) :=
  match h with
  | [] => []
  | o :: r =>
      match nav_step junk s o with
      | UB _ => []
      | Ok (s', _) => match o with NMsg m => if is_glo sv m then [(n_time s, sf_dw m)] else [] | _ => [] end ++ glog junk s' sv r
      end
  end.
(* clock values for which the calendar arithmetic is meaningful: normalised, not before 1970 *)
Definition clock_ok (t : utc) : Prop := normal t /\ 0 <= sec t < 2 ^ 40.

(* a string is used if the satellite is known, the clock has been set and the string passes the check *)
Definition g_usable (sv : Z) (t : utc) (dw : list Z) : bool :=
  negb (sv =? 255) && negb ((sec t =? 0) && (nsec t =? 0)) && str_accept (bn dw).
(* start of the GLONASS (Moscow) day of t, in UTC seconds *)
Definition day0 (t : utc) : Z := (sec t + 10800) / 86400 * 86400 - 10800.
(* t moved by one day towards now if it is more than half a day away *)
Definition near_day (now : utc) (t : Z) : Z :=
  if 43200 * 1000000000 <? nanos now - t * 1000000000 then t + 86400
  else if nanos now - t * 1000000000 <? -43200 * 1000000000 then t - 86400 else t.

(* What is held for one satellite: the superframe mark, and the strings 1 to 4 received since it last changed, with the
   instant of string 1 (tk) and string 2 (tb). *)
Record gtrack := mkG { gk_mark : Z; gk1 : option (list Z * Z); gk2 : option (list Z * Z); gk3 : option (list Z); gk4 : option (list Z) }.
Definition g_init : gtrack := mkG 0 None None None None.
Definition g_recv (T : gtrack) (t : utc) (dw : list Z) : gtrack :=
  let T := if str_mark dw =? gk_mark T then T else mkG (str_mark dw) None None None None in
  if str_no dw =? 1 then mkG (gk_mark T) (Some (dw, day0 t + 3600 * sfield dw 9 5 + 60 * sfield dw 14 6 + 30 * sfield dw 20 1)) (gk2 T) (gk3 T) (gk4 T)
  else if str_no dw =? 2 then mkG (gk_mark T) (gk1 T) (Some (dw, day0 t + 900 * sfield dw 9 7)) (gk3 T) (gk4 T)
  else if str_no dw =? 3 then mkG (gk_mark T) (gk1 T) (gk2 T) (Some dw) (gk4 T)
  else if str_no dw =? 4 then mkG (gk_mark T) (gk1 T) (gk2 T) (gk3 T) (Some dw)
  else T.
Definition g_full (T : gtrack) : bool :=
  match gk1 T, gk2 T, gk3 T, gk4 T with Some _, Some _, Some _, Some _ => true | _, _, _, _ => false end.
(* release: a usable string 4 that makes the set complete *)
Definition g_fires (sv : Z) (T : gtrack) (t : utc) (dw : list Z) : bool :=
  g_usable sv t dw && (str_no dw =? 4) && g_full (g_recv T t dw).
(* after a release the strings are kept, with their instants moved to the clock's day *)
Definition g_days (t : utc) (T : gtrack) : gtrack :=
  let f o := match o with Some (m, x) => Some (m, near_day t x) | None => None end in
  mkG (gk_mark T) (f (gk1 T)) (f (gk2 T)) (gk3 T) (gk4 T).
Definition g_step (sv : Z) (T : gtrack) (x : utc * list Z) : gtrack :=
  let (t, dw) := x in
  if g_usable sv t dw then (if g_fires sv T t dw then g_days t (g_recv T t dw) else g_recv T t dw) else T.
Definition g_hist (sv : Z) (L : list (utc * list Z)) : gtrack := fold_left (g_step sv) L g_init.

(* the record carries the values of strings m1..m4 (ICD table 4.5: x, y, z in km * 2^-11, velocities km/s * 2^-20,
   accelerations km/s^2 * 2^-30, converted to metres), and the instants tof, toe *)
Definition glo_content (sv freq : Z) (T : gtrack) (g : geph) : Prop :=
  exists m1 tof m2 toe m3 m4, gk1 T = Some (m1, tof) /\ gk2 T = Some (m2, toe) /\ gk3 T = Some m3 /\ gk4 T = Some m4 /\
  gi g Gsat = sv /\ gi g GgnssID = 6 /\ gi g Gfrq = freq - 7 /\
  g_tof g = mkUtc tof 0 /\ g_toe g = mkUtc toe 0 /\
  gi g Gsvh = sfield m2 5 3 /\ gi g Giode = sfield m2 9 7 /\ gi g Gage = sfield m4 32 5 /\ gi g Gsva = sfield m4 52 4 /\
  exactly (gd g Gvel0) (times2 (1000 * sfield_sm m1 21 24) 20) /\ exactly (gd g Gacc0) (times2 (1000 * sfield_sm m1 45 5) 30) /\
  exactly (gd g Gpos0) (times2 (1000 * sfield_sm m1 50 27) 11) /\
  exactly (gd g Gvel1) (times2 (1000 * sfield_sm m2 21 24) 20) /\ exactly (gd g Gacc1) (times2 (1000 * sfield_sm m2 45 5) 30) /\
  exactly (gd g Gpos1) (times2 (1000 * sfield_sm m2 50 27) 11) /\
  exactly (gd g Gvel2) (times2 (1000 * sfield_sm m3 21 24) 20) /\ exactly (gd g Gacc2) (times2 (1000 * sfield_sm m3 45 5) 30) /\
  exactly (gd g Gpos2) (times2 (1000 * sfield_sm m3 50 27) 11) /\
  nearly (gd g Ggamn) (times2 (sfield_sm m3 6 11) 40) /\
  exactly (gd g Gtaun) (times2 (sfield_sm m4 5 22) 30) /\ exactly (gd g Gdtaun) (times2 (sfield_sm m4 27 5) 30).
