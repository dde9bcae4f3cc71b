(* C93: the DBG messages of nav.cpp (line 26: fprintf(stderr, ...)): decodeGlonassString 355-367, decode_gal_inav 563-575, decodeGalileo 630-709. *)
From Coq Require Import String Ascii.
From Verif Require Import Base ZBits BitSpec BitModel BitProofs CrcModel CrcSpec CrcProofs UtcModel UtcSpec UtcProofs Dbl NavModel NavSpec NavGpsSpec NavAcc NavStrSpec NavStr NavGloSpec NavGlo NavDay NavObj NavGalSpec NavPage NavGal NavGpsThm NavGloThm NavGalThm
  TextSpec TraceSpec ExShow.
Local Open Scope string_scope.
Local Open Scope list_scope.
Local Open Scope Z_scope.

(* ---------------------------------------------------------------- model *)
(* %2d *)
Definition dec2 (n : Z) : string := let t := dec n in if (String.length t <? 2)%nat then (" " ++ t)%string else t.
(* decodeGlonassString nav.cpp:342-368: the message comes before the string is decoded *)
Definition glo_string_err (buf : list Z) (g : geph) : outcome string :=
  let* f := getBit 4 buf 1 in
  if (f <? 1) || (4 <? f) then Ok "" else Ok ("GLO Sat " ++ dec (gi g Gsat) ++ ", frm " ++ dec f ++ nl)%string.
(* decodeGlonass nav.cpp:395-443 (the flags and the mark it sets on the record before do not matter for the text) *)
Definition glo_err (now : utc) (sv : Z) (dw : list Z) (g : geph) : outcome string :=
  if sv =? 255 then Ok ""
  else if utc_eq now (mkUtc 0 0) then Ok ""
  else
    let buf := swap_words 4 dw in
    let* ok := gloTest buf in
    if negb ok then Ok "" else glo_string_err buf g.
(* decode_gal_inav nav.cpp:467-577 *)
Definition inav_err (buff : list Z) : outcome string :=
  let* type0 := getBitRt buff 0 6 in
  let* time_f := getBitRt buff 6 2 in
  let* type1 := getBitRt buff 128 6 in
  let* iod0 := getBitRt buff 134 10 in
  let* type2 := getBitRt buff 256 6 in
  let* iod1 := getBitRt buff 262 10 in
  let* type3 := getBitRt buff 384 6 in
  let* iod2 := getBitRt buff 390 10 in
  let* type4 := getBitRt buff 512 6 in
  let* iod3 := getBitRt buff 518 10 in
  if negb (type0 =? 0) || negb (type1 =? 1) || negb (type2 =? 2) || negb (type3 =? 3) || negb (type4 =? 4)
  then Ok ("decode_gal_inav error: type=" ++ dec type0 ++ " " ++ dec type1 ++ " " ++ dec type2 ++ " " ++ dec type3 ++ " " ++ dec type4 ++ nl)%string
  else if negb (time_f =? 2) then Ok ("decode_gal_inav error: word0-time=" ++ dec time_f ++ nl)%string
  else if negb (iod0 =? iod1) || negb (iod0 =? iod2) || negb (iod0 =? iod3)
  then Ok ("decode_gal_inav error: ionav=" ++ dec iod0 ++ " " ++ dec iod1 ++ " " ++ dec iod2 ++ " " ++ dec iod3 ++ nl)%string
  else Ok "".
(* decodeGalileo nav.cpp:604-709 *)
Definition gal_err (st : rows) (dw : list Z) (e : eph) : outcome string :=
  let sat := ei e Fsat in
  let buff := swap_words 8 dw in
  let* part1 := getBit 1 buff 0 in
  let* page1 := getBit 1 buff 1 in
  let* part2 := getBit 1 (skipn 16 buff) 0 in
  let* page2 := getBit 1 (skipn 16 buff) 1 in
  if (page1 =? 1) || (page2 =? 1) then Ok "Skipping alert page"
  else if negb (part1 =? 0) || negb (part2 =? 1) then Ok ("gal page even/odd error: sat=" ++ dec2 sat ++ nl)%string
  else
    let* ok := gal_crc_ok buff in
    if negb ok then Ok ("GAL CRC Error: sat=" ++ dec2 sat ++ nl)%string
    else
      let* type := getBit 6 buff 2 in
      if 6 <? type then Ok ""
      else if negb ((0 <=? sat - 1) && (sat - 1 <? 255)) then UB UB_oob_write
      else
        let row := st (sat - 1) in
        let row := if type =? 2 then splice row 112 [0] else row in
        let* w1 := gal_take 14 buff 2 in
        let* w2 := gal_take 2 (skipn 16 buff) 2 in
        let row := splice row (type * 16) (w1 ++ w2) in
        let flags := u8 (Z.lor (nth 112 row 0) (Z.shiftl 1 type)) in
        let row := splice row 112 [flags] in
        if negb (flags =? 0x7F) then Ok ("GAL waiting for other subframes" ++ nl)%string
        else
          let* t := inav_err row in
          let* (e', ok) := gal_inav row e in
          if negb ok then Ok t
          else if negb (ei e' Fsat =? sat) then Ok (t ++ "ubx rawsfrbx gal svid error: sat=" ++ dec2 sat ++ " " ++ dec2 (ei e' Fsat) ++ nl)%string
          else Ok (t ++ "GAL Success" ++ nl)%string.
(* convertUBX nav.cpp:73-120: the decoders for the other systems have no DBG message *)
Definition nav_err (s : nav) (m : sfrbx) : outcome string :=
  if sf_gnss m =? 6 then
    let (l, i) := slot (fun g => gi g Gsat =? sf_sv m) (gseti Gsat (sf_sv m) geph_new) (n_geph s) in
    glo_err (n_time s) (sf_sv m) (sf_dw m) (nth i l geph_new)
  else if sf_gnss m =? 2 then
    let (l, i) := slot (fun e => ei e Fsat =? sf_sv m) eph_new (n_eph s) in
    gal_err (n_rows s) (sf_dw m) (seti FgnssID (sf_gnss m) (seti Fsat (sf_sv m) (nth i l eph_new)))
  else Ok "".

(* ---------------------------------------------------------------- proofs *)
Lemma sapp3 (a b c : string) : (a ++ (b ++ c))%string = ((a ++ b) ++ c)%string.
Proof. induction a as [|x a IH]; [reflexivity|]. cbn. rewrite IH. reflexivity. Qed.
Lemma line_eq t : line t = (t ++ nl)%string. Proof. reflexivity. Qed.
Lemma dec2_two n : 0 <= n < 256 -> dec2 n = two n.
Proof.
  intros H. assert (X : forallb (fun k => String.eqb (dec2 (Z.of_nat k)) (two (Z.of_nat k))) (List.seq 0 256) = true) by (vm_compute; reflexivity).
  rewrite forallb_forall in X. specialize (X (Z.to_nat n)). rewrite Z2Nat.id in X by lia. apply String.eqb_eq, X. apply in_seq. lia.
Qed.
Lemma glo_err_ok now sv dw g : dw_ok dw -> gi g Gsat = sv -> glo_err now sv dw g = Ok (glonass_trace sv now dw).
Proof.
  intros [HB HL] HS. unfold glo_err, glonass_trace, g_usable. destruct (sv =? 255); [reflexivity|]. cbn [negb andb].
  change (utc_eq now (mkUtc 0 0)) with ((sec now =? 0) && (nsec now =? 0)). destruct ((sec now =? 0) && (nsec now =? 0)); [reflexivity|]. cbn [negb andb]. cbv zeta.
  rewrite gloTest_ok by exact HB. cbn [bind]. destruct (str_accept (bn dw)); [|reflexivity]. cbn [negb andb]. unfold glo_string_err.
  rewrite gget by (assumption || lia). cbn [bind]. change (sfield dw 1 (Z.to_nat 4)) with (str_no dw).
  destruct ((1 <=? str_no dw) && (str_no dw <=? 4)) eqn:E.
  - replace ((str_no dw <? 1) || (4 <? str_no dw)) with false by lia. rewrite HS, line_eq. rewrite !sapp3. reflexivity.
  - replace ((str_no dw <? 1) || (4 <? str_no dw)) with true by lia. reflexivity.
Qed.
Lemma inav_err_ok row : row_ok row -> nth 112 row 0 = 127 -> let W := row_word row in
  inav_err row = Ok (if negb (wfield (W 0) 6 2 =? 2) then line ("decode_gal_inav error: word0-time=" ++ number (wfield (W 0) 6 2))
    else if negb ((wiod (W 1) =? wiod (W 2)) && (wiod (W 1) =? wiod (W 3)) && (wiod (W 1) =? wiod (W 4)))
    then line ("decode_gal_inav error: ionav=" ++ number (wiod (W 1)) ++ " " ++ number (wiod (W 2)) ++ " " ++ number (wiod (W 3)) ++ " " ++ number (wiod (W 4))) else "").
Proof.
  intros (HL & HB & _ & HT) HF W.
  assert (TT : forall k, 0 <= k <= 6 -> wfield (W k) 0 6 = k).
  { intros k Hk. apply HT; [exact Hk|]. rewrite HF. assert (C : k = 0 \/ k = 1 \/ k = 2 \/ k = 3 \/ k = 4 \/ k = 5 \/ k = 6) by lia.
    intuition (subst k; reflexivity). }
  assert (G : forall k pos len n, n = 128 * k + pos -> 0 <= k <= 6 -> 0 <= pos -> 1 <= len <= 32 -> pos + len <= 128 -> getBitRt row n len = Ok (wfield (W k) pos len)).
  { intros k pos len n -> H1 H2 H3 H4. apply row_get; (assumption || lia). }
  clearbody W. unfold inav_err.
  eapply bind_rw; [apply (G 0 0 6 0 eq_refl); lia|cbv beta zeta].
  eapply bind_rw; [apply (G 0 6 2 6 eq_refl); lia|cbv beta zeta].
  eapply bind_rw; [apply (G 1 0 6 128 eq_refl); lia|cbv beta zeta].
  eapply bind_rw; [apply (G 1 6 10 134 eq_refl); lia|cbv beta zeta].
  eapply bind_rw; [apply (G 2 0 6 256 eq_refl); lia|cbv beta zeta].
  eapply bind_rw; [apply (G 2 6 10 262 eq_refl); lia|cbv beta zeta].
  eapply bind_rw; [apply (G 3 0 6 384 eq_refl); lia|cbv beta zeta].
  eapply bind_rw; [apply (G 3 6 10 390 eq_refl); lia|cbv beta zeta].
  eapply bind_rw; [apply (G 4 0 6 512 eq_refl); lia|cbv beta zeta].
  eapply bind_rw; [apply (G 4 6 10 518 eq_refl); lia|cbv beta zeta].
  rewrite (TT 0), (TT 1), (TT 2), (TT 3), (TT 4) by lia. cbn [Z.eqb Pos.eqb negb orb]. unfold wiod.
  destruct (wfield (W 0) 6 2 =? 2); cbn [negb]; [|reflexivity].
  set (i1 := wfield (W 1) 6 10). set (i2 := wfield (W 2) 6 10). set (i3 := wfield (W 3) 6 10). set (i4 := wfield (W 4) 6 10).
  assert (X : Ok ("decode_gal_inav error: ionav=" ++ dec i1 ++ " " ++ dec i2 ++ " " ++ dec i3 ++ " " ++ dec i4 ++ nl)%string =
    Ok (line ("decode_gal_inav error: ionav=" ++ number i1 ++ " " ++ number i2 ++ " " ++ number i3 ++ " " ++ number i4))).
  { rewrite line_eq, !sapp3. reflexivity. }
  destruct (i1 =? i2); cbn [negb andb orb]; [|exact X]. destruct (i1 =? i3); cbn [negb andb orb]; [|exact X].
  destruct (i1 =? i4); cbn [negb andb orb]; [reflexivity|exact X].
Qed.
Lemma gal_err_shape st dw e sv w1 w2 (a b c d pc : bool) ty : ei e Fsat = sv -> 0 <= sv < 256 -> (sv <> 0 -> row_ok (st (sv - 1))) ->
  let buff := swap_words 8 dw in
  getBit 1 buff 0 = Ok (Z.b2z a) -> getBit 1 buff 1 = Ok (Z.b2z b) -> getBit 1 (skipn 16 buff) 0 = Ok (Z.b2z c) -> getBit 1 (skipn 16 buff) 1 = Ok (Z.b2z d) ->
  gal_crc_ok buff = Ok pc -> getBit 6 buff 2 = Ok ty -> 0 <= ty ->
  gal_take 14 buff 2 = Ok w1 -> gal_take 2 (skipn 16 buff) 2 = Ok w2 -> length (w1 ++ w2) = 16%nat ->
  gal_err st dw e =
    if b || d then Ok "Skipping alert page"
    else if a || negb c then Ok (line ("gal page even/odd error: sat=" ++ two sv))
    else if negb pc then Ok (line ("GAL CRC Error: sat=" ++ two sv))
    else if 6 <? ty then Ok ""
    else if sv =? 0 then UB UB_oob_write
    else let row := row_put (st (sv - 1)) ty (w1 ++ w2) in
      if negb (nth 112 row 0 =? 0x7F) then Ok (line "GAL waiting for other subframes")
      else
        let* t := inav_err row in
        let* (e', ok) := gal_inav row e in
        if negb ok then Ok t
        else if negb (ei e' Fsat =? sv) then Ok (t ++ "ubx rawsfrbx gal svid error: sat=" ++ dec2 sv ++ " " ++ dec2 (ei e' Fsat) ++ nl)%string
        else Ok (t ++ "GAL Success" ++ nl)%string.
Proof.
  intros HS Hsv HR buff Ga Gb Gc Gd GC GT RT E1 E2 LW. unfold gal_err. rewrite HS. cbv zeta. fold buff. clearbody buff.
  eapply bind_rw; [exact Ga|]. eapply bind_rw; [exact Gb|]. eapply bind_rw; [exact Gc|]. eapply bind_rw; [exact Gd|].
  rewrite !b2z_1. destruct (b || d); [reflexivity|].
  replace (negb (Z.b2z a =? 0) || negb c) with (a || negb c) by (destruct a; reflexivity).
  destruct (a || negb c); [rewrite line_eq, dec2_two by lia; rewrite !sapp3; reflexivity|].
  eapply bind_rw; [exact GC|]. destruct pc; cbn [negb]; [|rewrite line_eq, dec2_two by lia; rewrite !sapp3; reflexivity].
  eapply bind_rw; [exact GT|]. destruct (6 <? ty) eqn:C; [reflexivity|].
  replace (negb ((0 <=? sv - 1) && (sv - 1 <? 255))) with (sv =? 0) by (destruct (Z.eqb_spec sv 0); lia).
  destruct (Z.eqb_spec sv 0) as [|NZ]; [reflexivity|]. specialize (HR NZ). destruct HR as (RL & _).
  eapply bind_rw; [exact E1|]. eapply bind_rw; [exact E2|].
  unfold row_put. cbv zeta.
  set (r1 := if ty =? 2 then _ else _).
  assert (L1 : length r1 = 380%nat) by (unfold r1; destruct (ty =? 2); [rewrite splice_len by (change (Zlen [0]) with 1; unfold Zlen; lia)|]; exact RL).
  clearbody r1. set (r2 := splice r1 (ty * 16) (w1 ++ w2)).
  assert (L2 : length r2 = 380%nat) by (unfold r2; rewrite splice_len by (unfold Zlen; lia); exact L1).
  clearbody r2. set (f := u8 _).
  replace (nth 112 (splice r2 112 [f]) 0) with f by (rewrite splice_nth by (change (Zlen [f]) with 1; unfold Zlen; lia); reflexivity).
  reflexivity.
Qed.
Definition words_trace (H' : held) : string :=
  match H' 0, H' 1, H' 2, H' 3, H' 4, H' 5, H' 6 with
  | Some w0, Some w1, Some w2, Some w3, Some w4, Some _, Some _ =>
      if negb (wfield w0 6 2 =? 2) then line ("decode_gal_inav error: word0-time=" ++ number (wfield w0 6 2))
      else if negb ((wiod w1 =? wiod w2) && (wiod w1 =? wiod w3) && (wiod w1 =? wiod w4))
      then line ("decode_gal_inav error: ionav=" ++ number (wiod w1) ++ " " ++ number (wiod w2) ++ " " ++ number (wiod w3) ++ " " ++ number (wiod w4))
      else line "GAL Success"
  | _, _, _, _, _, _, _ => line "GAL waiting for other subframes"
  end.
Lemma trace_words sv H dw : galileo_trace sv H dw =
  if sbit dw 1 || sbit dw 129 then "Skipping alert page"
  else if sbit dw 0 || negb (sbit dw 128) then line ("gal page even/odd error: sat=" ++ two sv)
  else if negb (page_crc dw) then line ("GAL CRC Error: sat=" ++ two sv)
  else if 6 <? wtype (inav dw) then "" else words_trace (l_recv H (inav dw)).
Proof. unfold galileo_trace, words_trace. cbv zeta. reflexivity. Qed.
Definition tail_err (sv : Z) (row : list Z) (e : eph) : outcome string :=
  if negb (nth 112 row 0 =? 0x7F) then Ok (line "GAL waiting for other subframes")
  else
    let* t := inav_err row in
    let* (e', ok) := gal_inav row e in
    if negb ok then Ok t
    else if negb (ei e' Fsat =? sv) then Ok (t ++ "ubx rawsfrbx gal svid error: sat=" ++ dec2 sv ++ " " ++ dec2 (ei e' Fsat) ++ nl)%string
    else Ok (t ++ "GAL Success" ++ nl)%string.
Lemma sat_done w0 w1 w2 w3 w4 w5 e : ei (ldone w0 w1 w4 (lfill w1 w2 w3 w4 w5 e)) Fsat = ei e Fsat.
Proof. reflexivity. Qed.
Lemma words_full H W : (forall k, 0 <= k <= 6 -> H k = Some (W k)) ->
  words_trace H = (if negb (wfield (W 0) 6 2 =? 2) then line ("decode_gal_inav error: word0-time=" ++ number (wfield (W 0) 6 2))
      else if negb ((wiod (W 1) =? wiod (W 2)) && (wiod (W 1) =? wiod (W 3)) && (wiod (W 1) =? wiod (W 4)))
      then line ("decode_gal_inav error: ionav=" ++ number (wiod (W 1)) ++ " " ++ number (wiod (W 2)) ++ " " ++ number (wiod (W 3)) ++ " " ++ number (wiod (W 4)))
      else line "GAL Success") /\
  l_ready H = (wfield (W 0) 6 2 =? 2) && (wiod (W 1) =? wiod (W 2)) && (wiod (W 1) =? wiod (W 3)) && (wiod (W 1) =? wiod (W 4)) /\
  l_toolate H = l_late (W 0) (W 1) (W 4).
Proof.
  intros HH. unfold words_trace, l_ready, l_toolate. rewrite (HH 0), (HH 1), (HH 2), (HH 3), (HH 4), (HH 5), (HH 6) by lia.
  split; [reflexivity|split; reflexivity].
Qed.
Lemma words_part r : row_ok r -> nth 112 r 0 <> 127 -> words_trace (row_held r) = line "GAL waiting for other subframes".
Proof.
  intros (_ & RB & RF & _) NF. unfold words_trace, row_held. cbn [Z.leb Z.compare Pos.compare Pos.compare_cont andb].
  set (f := nth 112 r 0) in *. pose proof (nth_byte r 112 RB) as B. fold f in B. unfold byte_ok in B. clearbody f.
  destruct (Z.testbit f 0) eqn:T0; [|reflexivity]. destruct (Z.testbit f 1) eqn:T1; [|reflexivity]. destruct (Z.testbit f 2) eqn:T2; [|reflexivity].
  destruct (Z.testbit f 3) eqn:T3; [|reflexivity]. destruct (Z.testbit f 4) eqn:T4; [|reflexivity]. destruct (Z.testbit f 5) eqn:T5; [|reflexivity].
  destruct (Z.testbit f 6) eqn:T6; [|reflexivity]. exfalso. apply NF. apply full_flags; [lia|]. intros k Hk.
  assert (C7 : k = 0 \/ k = 1 \/ k = 2 \/ k = 3 \/ k = 4 \/ k = 5 \/ k = 6) by lia. intuition (subst k; assumption).
Qed.
Lemma tail_ok sv r e : row_ok r -> ei e Fsat = sv ->
  tail_err sv r e = if l_ready (row_held r) && l_toolate (row_held r) then UB UB_overflow else Ok (words_trace (row_held r)).
Proof.
  intros RO HS. unfold tail_err. destruct (Z.eqb_spec (nth 112 r 0) 127) as [EF|NF]; cbn [negb].
  - assert (HH : forall k, 0 <= k <= 6 -> row_held r k = Some (row_word r k)).
    { intros k Hk. unfold row_held. rewrite EF. replace ((0 <=? k) && (k <=? 6)) with true by lia.
      assert (C7 : k = 0 \/ k = 1 \/ k = 2 \/ k = 3 \/ k = 4 \/ k = 5 \/ k = 6) by lia. intuition (subst k; reflexivity). }
    pose proof (inav_ok r e RO EF) as IO. pose proof (inav_err_ok r RO EF) as IE. cbv zeta in IO, IE. rewrite IO, IE. cbn [bind]. clear IO IE.
    destruct (words_full (row_held r) (row_word r) HH) as (X1 & X2 & X3). rewrite X1, X2, X3. clear X1 X2 X3 HH. set (W := row_word r). clearbody W.
    pose proof (sat_done (W 0) (W 1) (W 2) (W 3) (W 4) (W 5) e) as SD. rewrite HS in SD.
    set (d := ldone _ _ _ _) in *. clearbody d. set (e1 := lfill _ _ _ _ _ _). clearbody e1.
    destruct (wfield (W 0) 6 2 =? 2); cbn [negb andb]; [|reflexivity].
    destruct (wiod (W 1) =? wiod (W 2)); cbn [negb andb]; [|reflexivity].
    destruct (wiod (W 1) =? wiod (W 3)); cbn [negb andb]; [|reflexivity].
    destruct (wiod (W 1) =? wiod (W 4)); cbn [negb andb]; [|reflexivity].
    destruct (l_late (W 0) (W 1) (W 4)); cbn [bind negb]; [reflexivity|]. rewrite SD, Z.eqb_refl. reflexivity.
  - rewrite (not_ready r RO NF), (words_part r RO NF). reflexivity.
Qed.
Lemma gal_err_form st dw e sv w1 w2 : bytes_ok dw -> ei e Fsat = sv -> 0 <= sv < 256 -> (sv <> 0 -> row_ok (st (sv - 1))) ->
  gal_take 14 (swap_words 8 dw) 2 = Ok w1 -> gal_take 2 (skipn 16 (swap_words 8 dw)) 2 = Ok w2 -> length (w1 ++ w2) = 16%nat ->
  gal_err st dw e =
    if sbit dw 1 || sbit dw 129 then Ok "Skipping alert page"
    else if sbit dw 0 || negb (sbit dw 128) then Ok (line ("gal page even/odd error: sat=" ++ two sv))
    else if negb (page_crc dw) then Ok (line ("GAL CRC Error: sat=" ++ two sv))
    else if 6 <? wtype (inav dw) then Ok ""
    else if sv =? 0 then UB UB_oob_write
    else tail_err sv (row_put (st (sv - 1)) (wtype (inav dw)) (w1 ++ w2)) e.
Proof.
  intros HB HS Hsv HR E1 E2 LW. unfold tail_err.
  apply gal_err_shape; [exact HS|exact Hsv|exact HR| | | | |apply gal_crc_ok_spec; exact HB| |exact (proj1 (wfield_range (inav dw) 0 6 ltac:(lia)))|exact E1|exact E2|exact LW].
  - rewrite (gget 1 8) by (try exact HB; lia). change (Z.to_nat 1) with 1%nat. rewrite sf1. reflexivity.
  - rewrite (gget 1 8) by (try exact HB; lia). change (Z.to_nat 1) with 1%nat. rewrite sf1. reflexivity.
  - rewrite (skip_get 1) by (try exact HB; lia). change (Z.to_nat 1) with 1%nat. rewrite sf1. reflexivity.
  - rewrite (skip_get 1) by (try exact HB; lia). change (Z.to_nat 1) with 1%nat. rewrite sf1. reflexivity.
  - rewrite (gget 6 8) by (try exact HB; lia). rewrite wtype_sfield. reflexivity.
Qed.
Lemma words_ext H1 H2 : (forall k, H1 k = H2 k) -> words_trace H1 = words_trace H2.
Proof. intros E. unfold words_trace. rewrite !E. reflexivity. Qed.
Lemma gal_err_ok st dw e sv : dw_ok dw -> ei e Fsat = sv -> byte_ok sv -> (sv <> 0 -> row_ok (st (sv - 1))) ->
  let H := row_held (st (sv - 1)) in
  gal_err st dw e = if l_usable dw && (sv =? 0) then UB UB_oob_write
    else if l_usable dw && l_ready (l_recv H (inav dw)) && l_toolate (l_recv H (inav dw)) then UB UB_overflow
    else Ok (galileo_trace sv H dw).
Proof.
  intros [HB HL] HS Hsv HR H. unfold byte_ok in Hsv.
  destruct (take_word dw HB) as (w1 & w2 & E1 & E2 & LW & BW & PW).
  rewrite (gal_err_form st dw e sv w1 w2 HB HS Hsv HR E1 E2 LW), trace_words. unfold l_usable, page_valid, page_form.
  destruct (sbit dw 1); cbn [orb negb andb]; [rewrite !andb_false_r; reflexivity|]. destruct (sbit dw 129); cbn [orb negb andb]; [rewrite !andb_false_r; reflexivity|].
  destruct (sbit dw 0); cbn [orb negb andb]; [reflexivity|]. destruct (sbit dw 128); cbn [orb negb andb]; [|reflexivity].
  destruct (page_crc dw); cbn [negb andb]; [|reflexivity].
  destruct (Z.ltb_spec 6 (wtype (inav dw))) as [C|C].
  { replace (wtype (inav dw) <=? 6) with false by lia. reflexivity. }
  replace (wtype (inav dw) <=? 6) with true by lia. cbn [andb]. destruct (Z.eqb_spec sv 0) as [|NZ]; [reflexivity|]. specialize (HR NZ).
  assert (HT : wtype (poly_of (w1 ++ w2)) <= 6) by (rewrite PW; exact C).
  destruct (row_put_ok _ _ HR LW BW HT) as [RO RH]. rewrite PW in RO, RH. fold H in RH.
  set (r := row_put _ _ _) in *. clearbody r. rewrite (tail_ok sv r e RO HS).
  destruct (ready_ext' _ _ RH) as (X1 & X2 & _). rewrite X1, X2, (words_ext _ _ RH). reflexivity.
Qed.

(* one message, in any parser state whose store is in order *)
Lemma nav_err_gal s m : msg_ok m -> sf_gnss m = 2 -> (sf_sv m <> 0 -> row_ok (n_rows s (sf_sv m - 1))) ->
  let H := row_held (n_rows s (sf_sv m - 1)) in let dw := sf_dw m in
  nav_err s m = if l_usable dw && (sf_sv m =? 0) then UB UB_oob_write
    else if l_usable dw && l_ready (l_recv H (inav dw)) && l_toolate (l_recv H (inav dw)) then UB UB_overflow
    else Ok (galileo_trace (sf_sv m) H dw).
Proof.
  intros (Hdw & _ & Hsv & _) G HR H dw. unfold nav_err. rewrite G. cbn [Z.eqb Pos.eqb].
  destruct (slot_spec (fun e => ei e Fsat =? sf_sv m) eph_new eph_new (n_eph s)) as (l & i & ES & EN & _). rewrite ES.
  exact (gal_err_ok (n_rows s) dw (seti FgnssID 2 (seti Fsat (sf_sv m) (nth i l eph_new))) (sf_sv m) Hdw eq_refl Hsv HR).
Qed.
Lemma nav_err_glo s m : msg_ok m -> sf_gnss m = 6 -> nav_err s m = Ok (glonass_trace (sf_sv m) (n_time s) (sf_dw m)).
Proof.
  intros (Hdw & _) G. unfold nav_err. rewrite G. cbn [Z.eqb Pos.eqb].
  destruct (slot_spec (fun g => gi g Gsat =? sf_sv m) (gseti Gsat (sf_sv m) geph_new) geph_new (n_geph s)) as (l & i & ES & EN & _). rewrite ES, EN.
  fold (geph_of s (sf_sv m)). apply glo_err_ok; [exact Hdw|apply geph_of_sat].
Qed.
Lemma nav_err_other s m : sf_gnss m <> 6 -> sf_gnss m <> 2 -> nav_err s m = Ok "".
Proof. intros H1 H2. unfold nav_err. replace (sf_gnss m =? 6) with false by lia. replace (sf_gnss m =? 2) with false by lia. reflexivity. Qed.
Lemma trace_ext sv H1 H2 dw : (forall k, H1 k = H2 k) -> galileo_trace sv H1 dw = galileo_trace sv H2 dw.
Proof. intros E. rewrite !trace_words. rewrite (words_ext (l_recv H1 (inav dw)) (l_recv H2 (inav dw))); [reflexivity|]. apply l_recv_ext. exact E. Qed.
(* over a history *)
Lemma galileo_text junk s0 sv h s ev m : row_ok (n_rows s0 (sv - 1)) -> msgs_ok h -> msg_ok m -> is_gal sv m = true -> sv <> 0 -> nav_run junk s0 h = Ok (s, ev) ->
  let H := l_hist sv (row_held (n_rows s0 (sv - 1))) h in
  nav_err s m = if l_usable (sf_dw m) && l_ready (l_recv H (inav (sf_dw m))) && l_toolate (l_recv H (inav (sf_dw m))) then UB UB_overflow
    else Ok (galileo_trace sv H (sf_dw m)).
Proof.
  intros R0 HM Hm HG NZ HR H. destruct (gal_hist junk s0 sv NZ R0 h s ev HM HR) as [I1 I2]. fold H in I2.
  unfold is_gal in HG. assert (G : sf_gnss m = 2) by lia. assert (SV : sf_sv m = sv) by lia.
  pose proof (nav_err_gal s m Hm G) as X. rewrite SV in X. specialize (X (fun _ => I1)). cbv zeta in X. rewrite X.
  replace (sv =? 0) with false by lia. rewrite andb_false_r. rewrite (trace_ext sv _ H (sf_dw m) I2).
  destruct (ready_ext' _ _ (l_recv_ext _ _ (inav (sf_dw m)) I2)) as (X1 & X2 & _). rewrite X1, X2. reflexivity.
Qed.
Lemma success_words H : words_trace H = line "GAL Success" <-> l_ready H = true.
Proof.
  unfold words_trace, l_ready.
  destruct (H 0) as [w0|]; [|split; intros X; [vm_compute in X; discriminate X|discriminate X]].
  destruct (H 1) as [w1|]; [|split; intros X; [vm_compute in X; discriminate X|discriminate X]].
  destruct (H 2) as [w2|]; [|split; intros X; [vm_compute in X; discriminate X|discriminate X]].
  destruct (H 3) as [w3|]; [|split; intros X; [vm_compute in X; discriminate X|discriminate X]].
  destruct (H 4) as [w4|]; [|split; intros X; [vm_compute in X; discriminate X|discriminate X]].
  destruct (H 5) as [w5|]; [|split; intros X; [vm_compute in X; discriminate X|discriminate X]].
  destruct (H 6) as [w6|]; [|split; intros X; [vm_compute in X; discriminate X|discriminate X]].
  set (x := wfield w0 6 2). clearbody x.
  destruct (x =? 2); cbn [negb andb]; [|split; intros X; [unfold line in X; cbn [append] in X; discriminate X|discriminate X]].
  destruct ((wiod w1 =? wiod w2) && (wiod w1 =? wiod w3) && (wiod w1 =? wiod w4)); cbn [negb]; [split; reflexivity|].
  split; intros X; [unfold line in X; cbn [append] in X; discriminate X|discriminate X].
Qed.
Lemma success_ready sv H dw : galileo_trace sv H dw = line "GAL Success" <-> l_usable dw && l_ready (l_recv H (inav dw)) = true.
Proof.
  rewrite trace_words. unfold l_usable, page_valid, page_form.
  assert (N : forall t, (match t with String c _ => negb (Ascii.eqb c "G"%char) | EmptyString => true end) = true -> t <> line "GAL Success").
  { intros t Ht X. subst t. discriminate Ht. }
  assert (F : forall t (b : bool), t <> line "GAL Success" -> b = false -> t = line "GAL Success" <-> b = true) by (intros t b H1 ->; split; [contradiction|discriminate]).
  destruct (sbit dw 1); cbn [orb negb andb]; [apply F; [apply N; reflexivity|rewrite !andb_false_r; reflexivity]|].
  destruct (sbit dw 129); cbn [orb negb andb]; [apply F; [apply N; reflexivity|rewrite !andb_false_r; reflexivity]|].
  destruct (sbit dw 0); cbn [orb negb andb]; [apply F; [apply N; reflexivity|reflexivity]|].
  destruct (sbit dw 128); cbn [orb negb andb]; [|apply F; [apply N; reflexivity|reflexivity]].
  destruct (page_crc dw); cbn [negb andb]; [|apply F; [unfold line; cbn [append]; discriminate|reflexivity]].
  destruct (Z.ltb_spec 6 (wtype (inav dw))) as [C|C].
  - replace (wtype (inav dw) <=? 6) with false by lia. apply F; [discriminate|reflexivity].
  - replace (wtype (inav dw) <=? 6) with true by lia. cbn [andb]. apply success_words.
Qed.

Definition good_line : string := line "GAL Success".
Lemma success_logic (u rdy late : bool) (E : outcome string) (t : string) (X : outcome (nav * list nev * option bool)) cbs s' v r :
  E = (if u && rdy && late then UB UB_overflow else Ok t) -> (t = good_line <-> u && rdy = true) ->
  (u && rdy = true -> late = true -> X = UB UB_overflow) ->
  (u && rdy = false \/ late = false -> exists s1 (d : eph), X = Ok (s1, (if u && rdy then EvFell FN_PRINT :: map (fun c => EvEph c d) cbs else []), Some (u && rdy))) ->
  X = Ok (s', v, r) -> exists t', E = Ok t' /\ (t' = good_line <-> r = Some true) /\ (t' = good_line <-> v <> []).
Proof.
  intros HE HT A B HX. exists t. generalize good_line, HT. clear HT. intros gl HT. destruct (u && rdy).
  - destruct late; [rewrite (A eq_refl eq_refl) in HX; discriminate HX|]. destruct (B (or_intror eq_refl)) as (s1 & d & EC).
    rewrite EC in HX. assert (r = Some true) by congruence. assert (EV : v = EvFell FN_PRINT :: map (fun c => EvEph c d) cbs) by congruence.
    split; [exact HE|]. split; (split; intros Y; [|apply HT; reflexivity]); [assumption|rewrite EV; discriminate].
  - destruct (B (or_introl eq_refl)) as (s1 & d & EC). rewrite EC in HX. assert (r = Some false) by congruence. assert (v = []) by congruence. subst r v.
    split; [exact HE|]. split; (split; intros Y; [apply HT in Y; discriminate Y|congruence]).
Qed.

Lemma step_flags (H : held) dw : l_usable dw && l_ready (l_step H dw) = l_usable dw && l_ready (l_recv H (inav dw)) /\
  l_usable dw && l_ready (l_step H dw) && l_toolate (l_step H dw) = l_usable dw && l_ready (l_recv H (inav dw)) && l_toolate (l_recv H (inav dw)).
Proof. unfold l_step. destruct (l_usable dw); split; reflexivity. Qed.
Lemma success_text junk s0 sv h s ev m s' v r : row_ok (n_rows s0 (sv - 1)) -> msgs_ok h -> msg_ok m -> is_gal sv m = true -> sv <> 0 -> nav_run junk s0 h = Ok (s, ev) ->
  convertUBX junk s m = Ok (s', v, r) -> exists t, nav_err s m = Ok t /\ (t = good_line <-> r = Some true) /\ (t = good_line <-> v <> []).
Proof.
  intros R0 HM Hm HG NZ HR HC. pose proof (galileo_text junk s0 sv h s ev m R0 HM Hm HG NZ HR) as X. cbv zeta in X.
  pose proof (galileo_release junk s0 sv h s ev m R0 HM Hm HG NZ HR) as Y. cbv zeta in Y. destruct Y as [A B].
  set (H := l_hist sv (row_held (n_rows s0 (sv - 1))) h) in *. clearbody H. pose proof (success_ready sv H (sf_dw m)) as SR.
  destruct (step_flags H (sf_dw m)) as [F1 F2]. rewrite <- F2 in X. rewrite <- F1 in SR. clear F1 F2.
  set (rdy := l_ready (l_step H (sf_dw m))) in *. set (late := l_toolate (l_step H (sf_dw m))) in *. set (u := l_usable (sf_dw m)) in *. set (t := galileo_trace sv H (sf_dw m)) in *.
  set (X0 := convertUBX junk s m) in *. set (E0 := nav_err s m) in *. clearbody rdy late u t X0 E0.
  refine (success_logic u rdy late E0 t X0 (n_ecb s) s' v r X SR A _ HC).
  intros C. destruct (B C) as (s1 & d & EC & _). exists s1, d. exact EC.
Qed.
