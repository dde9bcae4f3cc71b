(* Galileo I/NAV pages as transmitted (Galileo OS SIS ICD 4.3), the release rule and the content of a released record;
   independent of the decoder. *)
From Coq Require Import QArith.
From Verif Require Import Base UtcModel UtcSpec Dbl NavModel NavSpec NavStrSpec CrcSpec.
Local Open Scope Z_scope.

(* A message holds an even page part in words 0-3 and an odd one in words 4-7, first transmitted bit in the top bit of
   the word: sbit dw k, k = 0..127 and 128..255.  Even part: even/odd flag (0), page type (0: nominal), 112 data bits.
   Odd part: even/odd flag (1), page type, 16 data bits, 64 bits reserved etc., 24 CRC bits. *)
Definition page_form (dw : list Z) : bool := negb (sbit dw 0) && negb (sbit dw 1) && sbit dw 128 && negb (sbit dw 129).
(* the 196 protected bits and the CRC as one polynomial; the page is correct if the generator divides it *)
Definition page_poly (dw : list Z) : Z := (sfield dw 0 114 * 2 ^ 82 + sfield dw 128 82) * 2 ^ 24 + sfield dw 210 24.
(* remainder by long division: clear the bits n+23, ..., 24 from the top *)
Fixpoint prem (n : nat) (x : Z) : Z :=
  match n with O => x | S k => prem k (if Z.testbit x (24 + Z.of_nat k) then Z.lxor x (crc24q_poly * 2 ^ Z.of_nat k) else x) end.
Definition page_crc (dw : list Z) : bool := prem 196 (page_poly dw) =? 0.
Definition page_valid (dw : list Z) : bool := page_form dw && page_crc dw.

(* the 128-bit data word: as a number, first bit most significant; its fields *)
Definition inav (dw : list Z) : Z := sfield dw 2 112 * 2 ^ 16 + sfield dw 130 16.
Definition wfield (w pos len : Z) : Z := (w / 2 ^ (128 - pos - len)) mod 2 ^ len.
Definition wfieldS (w pos len : Z) : Z := if wfield w pos 1 =? 1 then wfield w pos len - 2 ^ len else wfield w pos len.
Definition wtype (w : Z) : Z := wfield w 0 6.
Definition wiod (w : Z) : Z := wfield w 6 10.

Definition is_gal (sv : Z) (m : sfrbx) : bool := (sf_gnss m =? 2) && (sf_sv m =? sv).
(* a page is used if it is valid and of word type 0..6 *)
Definition l_usable (dw : list Z) : bool := page_valid dw && (wtype (inav dw) <=? 6).
(* the words held for a satellite, by type; a word of type 2 discards all others *)
Definition held := Z -> option Z.
Definition l_none : held := fun _ => None.
Definition l_recv (H : held) (w : Z) : held :=
  fun k => if k =? wtype w then Some w else if wtype w =? 2 then None else H k.
Definition l_step (H : held) (dw : list Z) : held := if l_usable dw then l_recv H (inav dw) else H.
Definition l_op (sv : Z) (H : held) (o : nop) : held :=
  match o with NMsg m => if is_gal sv m then l_step H (sf_dw m) else H | _ => H end.
Definition l_hist (sv : Z) (H : held) (h : list nop) : held := fold_left (l_op sv) h H.

(* all seven held, GST valid in word 0 (time field 2), the issue of data of words 1 to 4 the same *)
Definition l_ready (H : held) : bool :=
  match H 0, H 1, H 2, H 3, H 4, H 5, H 6 with
  | Some w0, Some w1, Some w2, Some w3, Some w4, Some _, Some _ =>
      (wfield w0 6 2 =? 2) && (wiod w1 =? wiod w2) && (wiod w1 =? wiod w3) && (wiod w1 =? wiod w4)
  | _, _, _, _, _, _, _ => false
  end.
(* the satellite's week: that of the time stamp in word 0, moved by one if the reference time is more than half a week
   away; counted from the GPS epoch *)
Definition l_week (w0 w1 : Z) : Z :=
  let d := 60 * wfield w1 16 14 - wfield w0 108 20 in
  wfield w0 96 12 + (if 302400 <? d then -1 else if d <? -302400 then 1 else 0) + 1024.
Definition l_late (w0 w1 w4 : Z) : bool :=
  2 ^ 31 <=? l_week w0 w1 * 604800 + 60 * Z.max (wfield w1 16 14) (wfield w4 54 14).

(* the words the release combines give a time that does not fit (in seconds, 2^31 from the GPS epoch on) *)
Definition l_toolate (H : held) : bool :=
  match H 0, H 1, H 4 with Some w0, Some w1, Some w4 => l_late w0 w1 w4 | _, _, _ => false end.

(* the record carries the values of words w0..w5 *)
Definition gal_content (sv : Z) (w0 w1 w2 w3 w4 w5 : Z) (d : eph) : Prop :=
  ei d Fsat = sv /\ ei d FgnssID = 2 /\ ei d Fiodc = wiod w1 /\ ei d Fiode = wiod w1 mod 256 /\
  ei d Fweek = l_week w0 w1 /\ ei d Ftoes = 60 * wfield w1 16 14 /\
  nanos (e_toe d) = (315964818 + l_week w0 w1 * 604800 + 60 * wfield w1 16 14) * 1000000000 /\
  nanos (e_toc d) = (315964818 + l_week w0 w1 * 604800 + 60 * wfield w4 54 14) * 1000000000 /\
  nearly (ed d Fm0) (semi (wfieldS w1 30 32) 31) /\ nearly (ed d Fecc) (times2 (wfield w1 62 32) 33) /\
  exactly (ed d Fsqrta) (times2 (wfield w1 94 32) 19) /\
  nearly (ed d Fomega0) (semi (wfieldS w2 16 32) 31) /\ nearly (ed d Fi0) (semi (wfieldS w2 48 32) 31) /\
  nearly (ed d Fw) (semi (wfieldS w2 80 32) 31) /\ nearly (ed d Fidot) (semi (wfieldS w2 112 14) 43) /\
  nearly (ed d Fomegadot) (semi (wfieldS w3 16 24) 43) /\ nearly (ed d Fdeltan) (semi (wfieldS w3 40 16) 43) /\
  exactly (ed d Fcuc) (times2 (wfieldS w3 56 16) 29) /\ exactly (ed d Fcus) (times2 (wfieldS w3 72 16) 29) /\
  exactly (ed d Fcrc) (times2 (wfieldS w3 88 16) 5) /\ exactly (ed d Fcrs) (times2 (wfieldS w3 104 16) 5) /\
  exactly (ed d Fcic) (times2 (wfieldS w4 22 16) 29) /\ exactly (ed d Fcis) (times2 (wfieldS w4 38 16) 29) /\
  nearly (ed d Faf0) (times2 (wfieldS w4 68 31) 34) /\ nearly (ed d Faf1) (times2 (wfieldS w4 99 21) 46) /\
  within 48 (ed d Faf2) (times2 (wfieldS w4 120 6) 59) /\
  nearly (ed d Ftgd0) (times2 (wfieldS w5 47 10) 32) /\ nearly (ed d Ftgd1) (times2 (wfieldS w5 57 10) 32).

Definition gal_release (sv : Z) (H : held) (d : eph) : Prop :=
  exists w0 w1 w2 w3 w4 w5, H 0 = Some w0 /\ H 1 = Some w1 /\ H 2 = Some w2 /\ H 3 = Some w3 /\ H 4 = Some w4 /\ H 5 = Some w5 /\
    gal_content sv w0 w1 w2 w3 w4 w5 d.

(* the protected bits of a page: those of the even part without the six tail bits etc., and of the odd part up to the CRC *)
Definition pbit (dw : list Z) (i : Z) : bool := sbit dw (if i <? 114 then i else i + 14).
Definition perrs (dw dw' : list Z) : list Z := filter (fun i => xorb (pbit dw i) (pbit dw' i)) (map Z.of_nat (seq 0 220)).

(* what a satellite's row of the decoder's store (static, shared by all parser objects of the process) holds *)
Definition row_word (row : list Z) (k : Z) : Z := poly_of (firstn 16 (skipn (Z.to_nat (16 * k)) row)).
Definition row_held (row : list Z) : held :=
  fun k => if (0 <=? k) && (k <=? 6) && Z.testbit (nth 112 row 0) k then Some (row_word row k) else None.
(* rows the decoder can leave behind: zero at program start, else flags for types 0..6 and words of their own type *)
Definition row_ok (row : list Z) : Prop :=
  length row = 380%nat /\ bytes_ok row /\ nth 112 row 0 < 128 /\
  (forall k, 0 <= k <= 6 -> Z.testbit (nth 112 row 0) k = true -> wtype (row_word row k) = k).
