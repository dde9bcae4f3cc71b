(* The ephemeris callbacks of src/examples/read_serial.cpp:38-40, 79-118, and EphBase::Type (nav.h:39-56).
   The UBX handler of that program prints nothing (its body is commented out, :49-55). *)
From Coq Require Import String.
From Verif Require Import Base UtcModel Dbl NavModel ExShow UtcShow.
Local Open Scope string_scope.
Local Open Scope Z_scope.

(* EphBase::Type nav.h:39-56; numbers: ubx_defs.h:905-913 *)
Definition Type_name (gnss : Z) : string :=
  if gnss =? 0 then "GPS" else if gnss =? 2 then "Galileo" else if gnss =? 6 then "Glonass" else if gnss =? 5 then "Qzss" else if gnss =? 3 then "Beidou" else "Unknown".

(* std::set<int>: the elements in the order of iteration *)
Fixpoint set_insert (x : Z) (l : list Z) : list Z :=
  match l with [] => [x] | y :: r => if x <? y then x :: l else if y <? x then y :: set_insert x r else l end.
Definition each (l : list Z) : string := fold_right append "" (map (fun x => dec x ++ ", ") l).
Definition total (name : string) (l : list Z) : string := "Total " ++ name ++ ": " ++ dec (Zlen l) ++ ": " ++ each l ++ nl.

(* found_gps_sats, found_gal_sats, found_glo_sats :38-40 *)
Record found := mkFound { f_gps : list Z; f_gal : list Z; f_glo : list Z }.
Definition f_none : found := mkFound [] [] [].

Definition bar1 : string := "!!!!!!!!!!!!!!!!!!!!!!!!!!!!!!!!!!!!!!!!!!!!!!!!!!!!!!!!!!" ++ nl.
Definition bar2 : string := "*************************************************************" ++ nl.
(* eph_callback :79-104; now: the clock *)
Definition eph_callback (now : utc) (e : eph) (f : found) : outcome (found * string) :=
  let* a := show_utc now in
  let* b := show_utc (e_toe e) in
  let* c := show_utc (e_toe e) in
  let head := bar1 ++ Type_name (ei e FgnssID) ++ " sat: " ++ dec (ei e Fsat) ++ ", now = " ++ a ++ ", toe = " ++ b ++ ", tof = " ++ c ++ nl ++ bar1 in
  if ei e FgnssID =? 0 then let l := set_insert (ei e Fsat) (f_gps f) in Ok (mkFound l (f_gal f) (f_glo f), head ++ total "GPS" l)
  else if ei e FgnssID =? 2 then let l := set_insert (ei e Fsat) (f_gal f) in Ok (mkFound (f_gps f) l (f_glo f), head ++ total "GAL" l)
  else Ok (f, head).
(* geph_callback :106-118 *)
Definition geph_callback (now : utc) (g : geph) (f : found) : outcome (found * string) :=
  let* a := show_utc now in
  let* b := show_utc (g_toe g) in
  let* c := show_utc (g_tof g) in
  let head := bar2 ++ "Glonass sat:" ++ dec (gi g Gsat) ++ ", now = " ++ a ++ ", toe = " ++ b ++ ", tof = " ++ c ++ nl ++ bar2 in
  let l := set_insert (gi g Gsat) (f_glo f) in Ok (mkFound (f_gps f) (f_gal f) l, head ++ total "GLONASS" l).

(* the callbacks, registered as numbers ec and gc (:152-153), over the events of the parser; each event comes with the clock read during it *)
Definition on_event (ec gc : Z) (now : utc) (v : nev) (f : found) : outcome (found * string) :=
  match v with
  | EvEph c e => if c =? ec then eph_callback now e f else Ok (f, "")
  | EvGeph c g => if c =? gc then geph_callback now g f else Ok (f, "")
  | EvFell _ => Ok (f, "")
  end.
Fixpoint serial_run (ec gc : Z) (f : found) (h : list (utc * nev)) : outcome (found * list string) :=
  match h with
  | [] => Ok (f, [])
  | (now, v) :: r =>
      let* (f1, a) := on_event ec gc now v f in
      let* (f2, b) := serial_run ec gc f1 r in Ok (f2, (a :: b)%list)
  end.
