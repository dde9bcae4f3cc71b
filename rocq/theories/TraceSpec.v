(* Specification of the text the navigation parser writes to standard error (C93); over the page and string formats of NavStrSpec, NavGloSpec,
   NavGalSpec. *)
From Coq Require Import String.
From Verif Require Import Base UtcModel NavModel NavSpec NavStrSpec NavGloSpec NavGalSpec TextSpec.
Local Open Scope string_scope.
Local Open Scope list_scope.
Local Open Scope Z_scope.

(* a satellite number in a field of width 2 *)
Definition two (n : Z) : string := ((if (n <? 10)%Z then " " else "") ++ number n)%string.
(* GLONASS: one line per used string 1 to 4 *)
Definition glonass_trace (sv : Z) (t : utc) (dw : list Z) : string :=
  if g_usable sv t dw && (1 <=? str_no dw) && (str_no dw <=? 4) then line ("GLO Sat " ++ number sv ++ ", frm " ++ number (str_no dw)) else "".
(* Galileo: what became of the page.  H: the words held for the satellite before *)
Definition galileo_trace (sv : Z) (H : held) (dw : list Z) : string :=
  if sbit dw 1 || sbit dw 129 then "Skipping alert page"
  else if sbit dw 0 || negb (sbit dw 128) then line ("gal page even/odd error: sat=" ++ two sv)
  else if negb (page_crc dw) then line ("GAL CRC Error: sat=" ++ two sv)
  else if 6 <? wtype (inav dw) then ""
  else
    let H' := l_recv H (inav dw) in
    match H' 0, H' 1, H' 2, H' 3, H' 4, H' 5, H' 6 with
    | Some w0, Some w1, Some w2, Some w3, Some w4, Some _, Some _ =>
        if negb (wfield w0 6 2 =? 2) then line ("decode_gal_inav error: word0-time=" ++ number (wfield w0 6 2))
        else if negb ((wiod w1 =? wiod w2) && (wiod w1 =? wiod w3) && (wiod w1 =? wiod w4))
        then line ("decode_gal_inav error: ionav=" ++ number (wiod w1) ++ " " ++ number (wiod w2) ++ " " ++ number (wiod w3) ++ " " ++ number (wiod w4))
        else line "GAL Success"
    | _, _, _, _, _, _, _ => line "GAL waiting for other subframes"
    end.
