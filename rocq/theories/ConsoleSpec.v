(* Specification of the text the library prints (C86), independent of the model of printf in Console. *)
From Coq Require Import String Ascii.
From Verif Require Import Base TextSpec UbxSpec UbxModel RtcmSpec UbloxModel UbloxSpec.
Local Open Scope string_scope.
Local Open Scope list_scope.
Local Open Scope Z_scope.

(* the text of a C string: its characters up to, and without, the first NUL; no text if there is none *)
Definition name_text (l : list Z) (t : string) : Prop :=
  exists a r, l = a ++ 0 :: r /\ ~ In 0 a /\ t = string_of_list_ascii (map (fun c => ascii_of_nat (Z.to_nat c)) a).
(* the connection banner *)
Definition banner (ma mi : Z) (name : list Z) (t : string) : Prop :=
  exists x, name_text name x /\
    t = (line "Connected:" ++ line ("Module: " ++ x) ++ line ("Protocol Version: " ++ number ma ++ "." ++ number mi) ++ line "")%string.
Definition bad_crc_line : string := line "RTCM not pass CRC check".
Definition second_try_line : string := line "Unable to query version.  Trying again (2 out of 3)".
Definition third_try_line : string := line "Unable to query version.  Trying again (3 out of 3)".

(* the text t of a frame, s: the object after the frame *)
Definition said (d : ditem) (s : ublox) (t : string) : Prop :=
  match d with
  | DUbx (Good cls id _) =>
      if (cls =? 0x0A) && (id =? 0x04) then banner (major (u_ubx s)) (minor (u_ubx s)) (modname (u_ubx s)) t else t = ""
  | DRtcm (RBad _) => t = bad_crc_line
  | _ => t = ""
  end.
(* the text for a sequence of frames received one after the other *)
Inductive tells : ublox -> list ditem -> string -> Prop :=
| tells_nil s : tells s [] ""
| tells_cons s d ds s1 ev x t : ublox_read s (ditem_bytes d) = Ok (s1, ev) -> said d s1 x -> tells s1 ds t -> tells s (d :: ds) (x ++ t)%string.

(* pieces of text one after the other *)
Definition joined (ts : list string) : string := fold_right append "" ts.
(* n banners *)
Definition banners (n : nat) (t : string) : Prop :=
  exists ts, length ts = n /\ Forall (fun x => exists ma mi name, banner ma mi name x) ts /\ t = joined ts.
Definition correction_text (it : ritem) : string := match it with RBad _ => bad_crc_line | _ => "" end.
