(* Model of class NMEA: src/parsers/nmea.cpp, include/UBLOX/parsers/nmea.h. *)
From Verif Require Import Base.

(* nmea.h:32 *)
Definition N_SIZE : Z := 82.
(* nmea.h:33-39 *)
Definition N_START1 : Z := 36.   (* '$' *)
Definition N_START2 : Z := 71.   (* 'G' *)
Definition N_END1 : Z := 13.     (* CR *)
Definition N_END2 : Z := 10.     (* LF *)

(* nmea.h:46-52; new_data_ is never assigned except by new_data() itself (nmea.cpp:39-44); see NmeaErr.v *)
Record nmea := mkNmea { n_len : Z; n_start : bool; n_end : bool; n_prev : Z; n_buf : list Z }.

(* NMEA::NMEA nmea.cpp:26-30; the buffer is not initialised *)
Definition nmea_init (buf : list Z) : nmea := mkNmea 0 false false 0 buf.
(* NMEA::restart nmea.cpp:32-37 *)
Definition nmea_restart (s : nmea) : nmea := mkNmea 0 false false (n_prev s) (n_buf s).
(* NMEA::parsing_message nmea.cpp:46 *)
Definition nmea_parsing (s : nmea) : bool := n_start s && negb (n_end s).

(* the text printf's %s takes from the buffer; no NUL in the buffer is an over-read *)
Fixpoint cstr (l : list Z) : outcome (list Z) :=
  match l with
  | [] => UB UB_cstring
  | c :: r => if c =? 0 then Ok [] else let* t := cstr r in Ok (c :: t)
  end.

(* NMEA::read_cb nmea.cpp:48-86: new state, result, text printed *)
Definition nmea_read (s : nmea) (b : Z) : outcome (nmea * bool * option (list Z)) :=
  let* buf := aset (n_buf s) (n_len s) b in
  let s1 := mkNmea (u64 (n_len s + 1)) (n_start s) (n_end s) (n_prev s) buf in
  let* s2 :=
    (if (b =? N_START2) && (n_prev s1 =? N_START1) then
       let* b1 := aset (n_buf s1) 0 N_START1 in
       let* b2 := aset b1 1 N_START2 in
       Ok (mkNmea 2 true false (n_prev s1) b2)
     else Ok s1) in
  if (b =? N_END2) && (n_prev s2 =? N_END1) then
    let* t := cstr (n_buf s2) in
    Ok (mkNmea 0 false true b (repeat 0 (Z.to_nat N_SIZE)), true, Some t)
  else
    let s3 := if N_SIZE <=? n_len s2 then mkNmea 0 false false (n_prev s2) (n_buf s2) else s2 in
    Ok (mkNmea (n_len s3) (n_start s3) (n_end s3) b (n_buf s3), false, None).

Fixpoint nmea_feed (s : nmea) (bs : list Z) : outcome (nmea * list (bool * option (list Z))) :=
  match bs with
  | [] => Ok (s, [])
  | b :: r =>
      let* (s1, ok, t) := nmea_read s b in
      let* (s2, o) := nmea_feed s1 r in
      Ok (s2, (ok, t) :: o)
  end.

(* states of a reader: construction with any memory, then read_cb and restart() calls *)
Inductive NReach (buf0 : list Z) : nmea -> Prop :=
| NR_init : NReach buf0 (nmea_init buf0)
| NR_read s b s' ok t : NReach buf0 s -> byte_ok b -> nmea_read s b = Ok (s', ok, t) -> NReach buf0 s'
| NR_restart s : NReach buf0 s -> NReach buf0 (nmea_restart s).
