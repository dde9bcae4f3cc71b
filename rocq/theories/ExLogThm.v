(* Proofs about ExLog.v, and what its lines should say. *)
From Coq Require Import String.
From Verif Require Import Base UbxSpec UbxModel UtcModel Dbl NavModel RosModel RosSpec RosProofs UbxProofs UbxStream UbxMain UbxMore UbxHist UbxApi RtcmModel RtcmApi UbloxModel UbloxSpec UbloxProofs UbloxApi UbloxThm TextSpec ExShow ExShowThm ExLog.
Local Open Scope string_scope.
Local Open Scope Z_scope.

(* ---------------------------------------------------------------- specification *)
(* an IEEE number with mw fraction bits and ew exponent bits: finite (sign, m * 2^e), infinite, or not a number *)
Inductive ieee := Fin (neg : bool) (m e : Z) | Inf (neg : bool) | NaN (neg : bool).
Definition ieee_of (mw ew b : Z) : ieee :=
  let neg := Z.testbit b (mw + ew) in
  let ex := b / 2 ^ mw mod 2 ^ ew in
  let fr := b mod 2 ^ mw in
  let least := 2 - 2 ^ (ew - 1) - mw in                     (* exponent of the smallest number *)
  if ex =? 2 ^ ew - 1 then (if fr =? 0 then Inf neg else NaN neg)
  else if ex =? 0 then Fin neg fr least else Fin neg (2 ^ mw + fr) (least + ex - 1).
(* q thousandths are nearest to m * 2^e; of two equally near the even one *)
Definition nearest3 (m e q : Z) : Prop :=
  let up := 2 ^ Z.max e 0 in let dn := 2 ^ Z.max (- e) 0 in
  2 * Z.abs (1000 * m * up - q * dn) <= dn /\ (2 * Z.abs (1000 * m * up - q * dn) = dn -> Z.even q = true).
(* the text of an IEEE number: the nearest thousandth, or inf, or nan *)
Definition prints (x : ieee) (t : string) : Prop :=
  match x with
  | Fin neg m e => exists q, nearest3 m e q /\ fixed_point 3 neg q t
  | Inf neg => t = (if neg then "-" else "") ++ "inf"
  | NaN neg => t = (if neg then "-" else "") ++ "nan"
  end.
Definition prints64 (b : Z) (t : string) : Prop := prints (ieee_of 52 11 b) t.
Definition prints32 (b : Z) (t : string) : Prop := prints (ieee_of 23 8 b) t.
(* v units of 10^-7 degrees, to the nearest thousandth of a degree *)
Definition degrees (v : Z) (t : string) : Prop := exists q, fixed_point 3 (v <? 0) q t /\ 2 * Z.abs (10000 * q - Z.abs v) <= 10000.
(* v millimetres in metres *)
Definition mm (v : Z) (t : string) : Prop := fixed_point 3 (v <? 0) (Z.abs v) t.

(* UBX-RXM-RAWX as sent: numbers as IEEE bit patterns; rest: the ten bytes of a measurement that are not printed *)
Record meas := mkMeas { q_pr : Z; q_cp : Z; q_do : Z; q_gnss : Z; q_sv : Z; q_rest : list Z }.
Record raw := mkRaw { w_tow : Z; w_week : Z; w_leap : Z; w_stat : Z; w_ver : Z; w_r1 : Z; w_r2 : Z; w_meas : list meas }.
Definition le64 (v : Z) : list Z := (le32 (v mod 2 ^ 32) ++ le32 (v / 2 ^ 32))%list.
Definition meas_ok (q : meas) : Prop := 0 <= q_pr q < 2 ^ 64 /\ 0 <= q_cp q < 2 ^ 64 /\ 0 <= q_do q < 2 ^ 32 /\ length (q_rest q) = 10%nat.
Definition raw_ok (x : raw) : Prop := 0 <= w_tow x < 2 ^ 64 /\ 0 <= w_week x < 2 ^ 16 /\ Forall meas_ok (w_meas x).
Definition meas_bytes (q : meas) : list Z := (le64 (q_pr q) ++ le64 (q_cp q) ++ le32 (q_do q) ++ [q_gnss q; q_sv q] ++ q_rest q)%list.
Definition raw_bytes (x : raw) : list Z :=
  (le64 (w_tow x) ++ le16 (w_week x) ++ [w_leap x; Zlen (w_meas x); w_stat x; w_ver x; w_r1 x; w_r2 x] ++ concat (map meas_bytes (w_meas x)))%list.

(* the lines *)
Definition pvt_says (x : pvt) (t : string) : Prop := exists la lo h vn ve vd, degrees (v_lat x) la /\ degrees (v_lon x) lo /\
  mm (v_height x) h /\ mm (v_veln x) vn /\ mm (v_vele x) ve /\ mm (v_veld x) vd /\
  t = "GOT UBX MESSAGE" ++ newline ++
      "t: " ++ number (v_year x) ++ " " ++ number (v_month x) ++ "/" ++ number (v_day x) ++ ", " ++ number (v_hour x) ++ ":" ++ number (v_min x) ++ ":" ++ number (v_sec x) ++
      "." ++ number (Z.sgn (v_nano x) * (Z.abs (v_nano x) / 1000000)) ++
      ", lla: " ++ la ++ ", " ++ lo ++ ", " ++ h ++ ", vel: " ++ vn ++ ", " ++ ve ++ ", " ++ vd ++ newline ++
      "tow: " ++ number (if v_itow x <? 2 ^ 31 then v_itow x else v_itow x - 2 ^ 32) ++ newline.
Definition meas_says (x : raw) (q : meas) (t : string) : Prop := exists tw p l d, prints64 (w_tow x) tw /\ prints64 (q_pr q) p /\ prints64 (q_cp q) l /\ prints32 (q_do q) d /\
  t = "week: " ++ number (w_week x) ++ ", tow: " ++ tw ++ " gnss_id: " ++ number (q_gnss q) ++ ", sat_id: " ++ number (q_sv q) ++ ", P " ++ p ++ ", L " ++ l ++ ", D " ++ d ++ newline.
Definition raw_says (x : raw) (t : string) : Prop := exists ts, Forall2 (meas_says x) (w_meas x) ts /\ t = "GOT UBX MESSAGE" ++ newline ++ texts ts.

(* ---------------------------------------------------------------- numbers *)
Lemma round_div_bound n d : 0 < d -> 2 * Z.abs (n - round_div n d * d) <= d /\ (2 * Z.abs (n - round_div n d * d) = d -> Z.even (round_div n d) = true).
Proof.
  intros Hd. unfold round_div. pose proof (Z.div_mod n d ltac:(lia)) as E. pose proof (Z.mod_pos_bound n d Hd) as B.
  set (a := n / d) in *. set (r := n mod d) in *. clearbody a r.
  destruct (Z.ltb_spec (2 * r) d); [split; [nia|intros; exfalso; nia]|]. destruct (Z.ltb_spec d (2 * r)); [split; [nia|intros; exfalso; nia]|].
  destruct (Z.even a) eqn:EV; (split; [nia|intros _]); [exact EV|]. rewrite Z.even_add, EV. reflexivity.
Qed.
Lemma rnd3_nearest3 m e : nearest3 m e (rnd3 m e).
Proof.
  unfold nearest3, rnd3. cbv zeta. destruct (Z.leb_spec 0 e) as [He|He].
  - rewrite Z.max_l, Z.max_r by lia. change (2 ^ 0) with 1. replace (1000 * m * 2 ^ e - m * 1000 * 2 ^ e * 1) with 0 by ring. cbn. lia.
  - rewrite Z.max_r, Z.max_l by lia. change (2 ^ 0) with 1. replace (1000 * m * 1) with (m * 1000) by ring. apply round_div_bound. apply Z.pow_pos_nonneg; lia.
Qed.
Lemma nearest3_unique m e q q' : nearest3 m e q -> nearest3 m e q' -> q = q'.
Proof.
  unfold nearest3. cbv zeta. assert (HD : 0 < 2 ^ Z.max (- e) 0) by (apply Z.pow_pos_nonneg; lia). set (d := 2 ^ Z.max (- e) 0) in *. generalize (1000 * m * 2 ^ Z.max e 0). intros n. clearbody d.
  intros [A1 A2] [B1 B2]. assert (C : q = q' \/ q' = q + 1 \/ q = q' + 1) by nia. destruct C as [C|[->| ->]]; [exact C| |]; exfalso.
  - assert (X : 2 * Z.abs (n - q * d) = d) by nia. assert (Y : 2 * Z.abs (n - (q + 1) * d) = d) by nia. specialize (A2 X). specialize (B2 Y). rewrite Z.even_add, A2 in B2. discriminate.
  - assert (X : 2 * Z.abs (n - q' * d) = d) by nia. assert (Y : 2 * Z.abs (n - (q' + 1) * d) = d) by nia. specialize (A2 Y). specialize (B2 X). rewrite Z.even_add, B2 in A2. discriminate.
Qed.
Lemma rnd3_pos m e : 0 <= m -> 0 <= rnd3 m e.
Proof.
  intros Hm. pose proof (rnd3_nearest3 m e) as [H _]. revert H. cbv zeta.
  assert (H1 : 0 < 2 ^ Z.max e 0) by (apply Z.pow_pos_nonneg; lia). assert (H2 : 0 < 2 ^ Z.max (- e) 0) by (apply Z.pow_pos_nonneg; lia).
  generalize dependent (2 ^ Z.max e 0). generalize dependent (2 ^ Z.max (- e) 0). generalize (rnd3 m e). intros q d Hd u Hu H. nia.
Qed.
Lemma thousandths_text neg q : 0 <= q -> fixed_point 3 neg q (thousandths neg q).
Proof.
  intros Hq. exists (three (q mod 1000)). split; [|reflexivity]. change (10 ^ Z.of_nat 3) with 1000. set (r := q mod 1000).
  exists [r / 100 mod 10; r / 10 mod 10; r mod 10]. split; [reflexivity|]. split; [repeat (apply Forall_cons; [apply digit_ok|]); constructor|].
  split; [cbn [fold_left]; assert (0 <= r < 1000) by (apply Z.mod_pos_bound; lia); clearbody r; lia|]. rewrite digits_list. reflexivity.
Qed.
Lemma show64_prints b : prints64 b (show64 b).
Proof.
  unfold prints64, prints, ieee_of, show64. change (52 + 11) with 63. change (2 ^ 11) with 2048. change (2048 - 1) with 2047. change (2 - 2 ^ (11 - 1) - 52) with (-1074). cbv zeta.
  destruct (b / 2 ^ 52 mod 2048 =? 2047); [destruct (b mod 2 ^ 52 =? 0); reflexivity|].
  assert (HF : 0 <= b mod 2 ^ 52) by (apply Z.mod_pos_bound; lia). assert (HP : 0 < 2 ^ 52) by lia.
  destruct (b / 2 ^ 52 mod 2048 =? 0); (eexists; split; [|apply thousandths_text, rnd3_pos; lia]); [apply rnd3_nearest3|]. replace (-1074 + b / 2 ^ 52 mod 2048 - 1) with (b / 2 ^ 52 mod 2048 - 1075) by lia. apply rnd3_nearest3.
Qed.
Lemma show32_prints b : prints32 b (show32 b).
Proof.
  unfold prints32, prints, ieee_of, show32. change (23 + 8) with 31. change (2 ^ 8) with 256. change (256 - 1) with 255. change (2 - 2 ^ (8 - 1) - 23) with (-149). cbv zeta.
  destruct (b / 2 ^ 23 mod 256 =? 255); [destruct (b mod 2 ^ 23 =? 0); reflexivity|].
  assert (HF : 0 <= b mod 2 ^ 23) by (apply Z.mod_pos_bound; lia). assert (HP : 0 < 2 ^ 23) by lia.
  destruct (b / 2 ^ 23 mod 256 =? 0); (eexists; split; [|apply thousandths_text, rnd3_pos; lia]); [apply rnd3_nearest3|]. replace (-149 + b / 2 ^ 23 mod 256 - 1) with (b / 2 ^ 23 mod 256 - 150) by lia. apply rnd3_nearest3.
Qed.
(* scaled integers *)
Lemma rnd53_sign z : (rnd53 z <? 0) = (z <? 0).
Proof. pose proof (rnd53_err z) as H. change (2 ^ 53) with 9007199254740992 in H. destruct (Z.ltb_spec (rnd53 z) 0), (Z.ltb_spec z 0); try reflexivity; exfalso; lia. Qed.
Lemma mm_text v : sl_ok v -> mm v (fixed3 (sc v D_1EM3)).
Proof.
  intros Hv. unfold sl_ok in Hv. change (2 ^ 31) with 2147483648 in Hv.
  assert (E : sc v D_1EM3 = mkD (rnd53 (v * 4611686018427388)) (-62)).
  { unfold sc, dmul, d_of_int. rewrite (rnd53_id v) by (change (2 ^ 53) with 9007199254740992; lia). reflexivity. }
  rewrite E. unfold fixed3, mm. cbn [dm de]. rewrite rnd53_sign. replace (v * 4611686018427388 <? 0) with (v <? 0) by (destruct (Z.ltb_spec v 0), (Z.ltb_spec (v * 4611686018427388) 0); lia).
  match goal with |- fixed_point _ _ _ (thousandths _ ?x) => assert (ER : x = Z.abs v) end; [|rewrite ER; apply thousandths_text, Z.abs_nonneg].
  unfold rnd3. change (0 <=? -62) with false. cbv iota. apply round_div_near; [reflexivity|]. change (2 ^ (- -62)) with 4611686018427387904.
  pose proof (rnd_near (v * 4611686018427388)) as HA. clear E. set (a := rnd53 (v * 4611686018427388)) in *. clearbody a. lia.
Qed.
Lemma degrees_text v : sl_ok v -> degrees v (fixed3 (sc v D_1EM7)).
Proof.
  intros Hv. unfold sl_ok in Hv. change (2 ^ 31) with 2147483648 in Hv.
  assert (E : sc v D_1EM7 = mkD (rnd53 (v * 7555786372591432)) (-76)).
  { unfold sc, dmul, d_of_int. rewrite (rnd53_id v) by (change (2 ^ 53) with 9007199254740992; lia). reflexivity. }
  rewrite E. unfold degrees, fixed3. cbn [dm de]. rewrite rnd53_sign. replace (v * 7555786372591432 <? 0) with (v <? 0) by (destruct (Z.ltb_spec v 0), (Z.ltb_spec (v * 7555786372591432) 0); lia).
  eexists. split; [apply thousandths_text, rnd3_pos, Z.abs_nonneg|]. unfold rnd3. change (0 <=? -76) with false. cbv iota. change (2 ^ (- -76)) with 75557863725914323419136.
  pose proof (rnd_near (v * 7555786372591432)) as HA. clear E. set (a := rnd53 (v * 7555786372591432)) in *. clearbody a.
  destruct (round_div_bound (Z.abs a * 1000) 75557863725914323419136 eq_refl) as [HB _]. set (q := round_div (Z.abs a * 1000) 75557863725914323419136) in *. clearbody q.
  lia.
Qed.

(* ---------------------------------------------------------------- the lines *)
Lemma quot_sgn n : Z.quot n 1000000 = Z.sgn n * (Z.abs n / 1000000).
Proof. rewrite Z.quot_div by lia. change (Z.sgn 1000000) with 1. change (Z.abs 1000000) with 1000000. lia. Qed.
Lemma show_pvt_says x r0 r1 r2 r3 r4 r5 rest : pvt_ok x -> pvt_says x ("GOT UBX MESSAGE" ++ nl ++ show_pvt (pvt_bytes x r0 r1 r2 r3 r4 r5 ++ rest)%list).
Proof.
  intros (H1 & H2 & H3 & H4 & H5 & H6 & H7 & H8 & H9 & H10 & H11 & H12 & H13 & H14 & H15 & H16 & H17 & H18 & H19).
  set (m := (pvt_bytes x r0 r1 r2 r3 r4 r5 ++ rest)%list). exists (fixed3 (sc (v_lat x) D_1EM7)), (fixed3 (sc (v_lon x) D_1EM7)),
    (fixed3 (sc (v_height x) D_1EM3)), (fixed3 (sc (v_veln x) D_1EM3)), (fixed3 (sc (v_vele x) D_1EM3)), (fixed3 (sc (v_veld x) D_1EM3)).
  split; [apply degrees_text; assumption|]. split; [apply degrees_text; assumption|]. do 4 (split; [apply mm_text; assumption|]). unfold show_pvt.
  assert (E0 : i32_at m 0 = if v_itow x <? 2 ^ 31 then v_itow x else v_itow x - 2 ^ 32).
  { unfold i32_at. rewrite (at32 m 0 (v_itow x)) by (assumption || reflexivity). unfold l_ok in H1. unfold i32, sgn. rewrite Z.mod_small by lia. change (2 ^ (32 - 1)) with (2 ^ 31).
    reflexivity. }
  rewrite E0, (at16 m 4 (v_year x)), (at32s m 16 (v_nano x)), (at32s m 28 (v_lat x)), (at32s m 24 (v_lon x)), (at32s m 32 (v_height x)),
    (at32s m 48 (v_veln x)), (at32s m 52 (v_vele x)), (at32s m 56 (v_veld x)) by (assumption || reflexivity).
  change (u8_at m 6) with (v_month x). change (u8_at m 7) with (v_day x). change (u8_at m 8) with (v_hour x). change (u8_at m 9) with (v_min x). change (u8_at m 10) with (v_sec x).
  rewrite quot_sgn. reflexivity.
Qed.

Lemma u64_le64 v m o : 0 <= v < 2 ^ 64 -> holds m o (le64 v) -> u64_at m o = v.
Proof.
  intros Hv H. unfold u64_at. unfold holds in H. change (length (le64 v)) with 8%nat in H. rewrite H. unfold le64.
  assert (E : of_le (le32 (v mod 2 ^ 32) ++ le32 (v / 2 ^ 32))%list = of_le (le32 (v mod 2 ^ 32)) + 2 ^ 32 * of_le (le32 (v / 2 ^ 32))).
  { assert (G : forall a b c d e f g h, of_le [a; b; c; d; e; f; g; h] = of_le [a; b; c; d] + 2 ^ 32 * of_le [e; f; g; h]) by (intros; unfold of_le; cbn [fold_right]; change (2 ^ 32) with 4294967296; ring).
    apply G. }
  rewrite E, !le32_inv; [change (2 ^ 32) with 4294967296; lia| |]; unfold l_ok; change (2 ^ 64) with (4294967296 * 4294967296) in Hv; change (2 ^ 32) with 4294967296; [split; [apply Z.div_pos; lia|apply Z.div_lt_upper_bound; lia]|apply Z.mod_pos_bound; lia].
Qed.
Lemma meas_len q : meas_ok q -> length (meas_bytes q) = 32%nat.
Proof. intros (_ & _ & _ & H). unfold meas_bytes. rewrite !app_length, H. reflexivity. Qed.
Lemma group_at (f : meas -> list Z) qs : forall i q, (forall q, In q qs -> length (f q) = 32%nat) -> nth_error qs i = Some q -> exists a b, concat (map f qs) = (a ++ f q ++ b)%list /\ length a = (32 * i)%nat.
Proof.
  induction qs as [|p qs IH]; intros i q HL H; [destruct i; discriminate|]. destruct i as [|i]; cbn [nth_error] in H.
  - assert (p = q) as -> by congruence. exists [], (concat (map f qs)). split; [reflexivity|reflexivity].
  - destruct (IH i q (fun y Hy => HL y (or_intror Hy)) H) as (a & b & E & L). exists (f p ++ a)%list, b. cbn [map concat]. rewrite E, <- !app_assoc. split; [reflexivity|].
    rewrite app_length, L, (HL p (or_introl eq_refl)). lia.
Qed.
Lemma holds_app (a f b : list Z) o : length a = o -> forall k (x y z : list Z), f = (x ++ y ++ z)%list -> length x = k -> holds (a ++ f ++ b) (o + k) y.
Proof.
  intros Ha k x y z -> Hx. unfold holds. rewrite skipn_app, Ha. replace (skipn (o + k) a) with (@nil Z) by (symmetry; apply skipn_all2; lia).
  replace (o + k - o)%nat with k by lia. cbn [app]. rewrite <- !app_assoc, skipn_app, Hx, Nat.sub_diag. replace (skipn k x) with (@nil Z) by (symmetry; apply skipn_all2; lia).
  cbn [app skipn]. rewrite firstn_app, Nat.sub_diag, firstn_O, app_nil_r, firstn_all. reflexivity.
Qed.
Lemma u8_app (a f b : list Z) o : length a = o -> forall k v, nth_error f k = Some v -> u8_at (a ++ f ++ b) (o + k) = v.
Proof.
  intros Ha k v H. unfold u8_at. rewrite app_nth2 by lia. replace (o + k - length a)%nat with k by lia. rewrite app_nth1 by (apply nth_error_Some; congruence). apply nth_error_nth. exact H.
Qed.
Lemma show_meas_says x rest i q : raw_ok x -> nth_error (w_meas x) i = Some q -> meas_says x q (show_meas (raw_bytes x ++ rest)%list i).
Proof.
  intros (HT & HW & HM) Hi. set (m := (raw_bytes x ++ rest)%list).
  assert (HQ : meas_ok q) by (rewrite Forall_forall in HM; apply HM; apply nth_error_In with i; exact Hi).
  assert (HL : forall q, In q (w_meas x) -> length (meas_bytes q) = 32%nat) by (intros y Hy; apply meas_len; rewrite Forall_forall in HM; auto).
  destruct (group_at meas_bytes (w_meas x) i q HL Hi) as (a & b & E & La).
  pose (hd := (le64 (w_tow x) ++ le16 (w_week x) ++ [w_leap x; Zlen (w_meas x); w_stat x; w_ver x; w_r1 x; w_r2 x])%list).
  assert (EM : m = ((hd ++ a) ++ meas_bytes q ++ (b ++ rest))%list).
  { unfold m, raw_bytes, hd. rewrite E, <- !app_assoc. reflexivity. }
  assert (LH : length (hd ++ a) = (16 + 32 * i)%nat) by (rewrite app_length, La; reflexivity).
  destruct HQ as (Q1 & Q2 & Q3 & Q4).
  exists (show64 (w_tow x)), (show64 (q_pr q)), (show64 (q_cp q)), (show32 (q_do q)).
  split; [apply show64_prints|]. split; [apply show64_prints|]. split; [apply show64_prints|]. split; [apply show32_prints|].
  unfold show_meas. cbv zeta. set (o := (16 + 32 * i)%nat) in *.
  assert (A1 : u64_at m o = q_pr q).
  { apply u64_le64; [exact Q1|]. rewrite EM. rewrite <- (Nat.add_0_r o). eapply holds_app with (x := []); [exact LH| |reflexivity]. reflexivity. }
  assert (A2 : u64_at m (o + 8) = q_cp q).
  { apply u64_le64; [exact Q2|]. rewrite EM. eapply holds_app with (x := le64 (q_pr q)); [exact LH| |reflexivity]. reflexivity. }
  assert (A3 : u32_at m (o + 16) = q_do q).
  { apply at32; [exact Q3|]. rewrite EM. eapply holds_app with (x := (le64 (q_pr q) ++ le64 (q_cp q))%list); [exact LH| |reflexivity]. unfold meas_bytes. rewrite <- app_assoc. reflexivity. }
  assert (A4 : u8_at m (o + 20) = q_gnss q) by (rewrite EM; apply u8_app; [exact LH|reflexivity]).
  assert (A5 : u8_at m (o + 21) = q_sv q) by (rewrite EM; apply u8_app; [exact LH|reflexivity]).
  assert (A6 : u64_at m 0 = w_tow x) by (apply u64_le64; [exact HT|reflexivity]).
  assert (A7 : u16_at m 8 = w_week x) by (apply at16; [exact HW|reflexivity]).
  rewrite A1, A2, A3, A4, A5, A6, A7. reflexivity.
Qed.
Lemma raw_loop_ok m : forall n i, (i + n <= 30)%nat -> raw_loop n m i = Ok (texts (map (show_meas m) (seq i n))).
Proof.
  induction n as [|n IH]; intros i H; [reflexivity|]. cbn [raw_loop seq map texts fold_right]. destruct (Nat.ltb_spec i 30); [|lia]. rewrite IH by lia. reflexivity.
Qed.
Lemma raw_loop_ub m : forall n i, (i <= 30)%nat -> (30 < i + n)%nat -> raw_loop n m i = UB UB_oob_read.
Proof.
  induction n as [|n IH]; intros i Hi H; [lia|]. cbn [raw_loop]. destruct (Nat.ltb_spec i 30); [|reflexivity]. rewrite IH by lia. reflexivity.
Qed.
Lemma num_of x rest : Zlen (w_meas x) < 128 -> i8_at (raw_bytes x ++ rest)%list 11 = Zlen (w_meas x).
Proof.
  intros H. unfold i8_at. change (u8_at (raw_bytes x ++ rest)%list 11) with (Zlen (w_meas x)). pose proof (Zlen_nonneg (w_meas x)). unfold i8, sgn. rewrite Z.mod_small by lia.
  cbv zeta. change (2 ^ (8 - 1)) with 128. destruct (Z.ltb_spec (Zlen (w_meas x)) 128); lia.
Qed.
Lemma show_raw_says x rest : raw_ok x -> Zlen (w_meas x) <= 30 -> exists t, log_handler 0x02 0x15 (raw_bytes x ++ rest)%list = Ok t /\ raw_says x t.
Proof.
  intros HO HN. unfold log_handler. change ((0x02 =? 0x01) && (0x15 =? 0x07)) with false. change ((0x02 =? 0x02) && (0x15 =? 0x15)) with true. cbv iota zeta. unfold show_raw. rewrite num_of by lia.
  unfold Zlen in *. rewrite Nat2Z.id. rewrite raw_loop_ok by lia. cbn [bind]. eexists. split; [reflexivity|].
  exists (map (show_meas (raw_bytes x ++ rest)%list) (seq 0 (length (w_meas x)))). split; [|rewrite sapp_assoc; reflexivity].
  assert (G : forall k n, (k + n = length (w_meas x))%nat -> Forall2 (meas_says x) (skipn k (w_meas x)) (map (show_meas (raw_bytes x ++ rest)%list) (seq k n))).
  { intros k n. revert k. induction n as [|n IH]; intros k Hk.
    - rewrite skipn_all2 by lia. constructor.
    - destruct (nth_error (w_meas x) k) as [q|] eqn:Eq; [|apply nth_error_None in Eq; lia].
      assert (ES : skipn k (w_meas x) = q :: skipn (S k) (w_meas x)).
      { clear - Eq. revert k Eq. generalize (w_meas x). intros l. induction l as [|y l IHl]; intros k Eq; [destruct k; discriminate|]. destruct k as [|k]; cbn [nth_error] in Eq; [cbn; congruence|]. cbn [skipn]. rewrite (IHl k Eq). reflexivity. }
      rewrite ES. cbn [seq map]. constructor; [apply show_meas_says; assumption|]. apply IH. lia. }
  exact (G 0%nat (length (w_meas x)) eq_refl).
Qed.

(* ---------------------------------------------------------------- over a byte stream *)
Definition shown_frame (c i : Z) : bool := (c =? 0x01) && (i =? 0x07) || (c =? 0x02) && (i =? 0x15).
(* the valid PVT and RAWX frames of a stream *)
Definition log_frames (its : list item) : list (Z * Z * list Z) :=
  flat_map (fun it => match it with Good c i pl => if shown_frame c i then [(c, i, pl)] else [] | _ => [] end) its.
Inductive logmsg := LPvt (x : pvt) | LRaw (x : raw).
Definition log_carries (f : Z * Z * list Z) (x : logmsg) : Prop :=
  match x with
  | LPvt p => pvt_ok p /\ exists r0 r1 r2 r3 r4 r5 more, f = (0x01, 0x07, (pvt_bytes p r0 r1 r2 r3 r4 r5 ++ more)%list)
  | LRaw w => raw_ok w /\ Zlen (w_meas w) <= 30 /\ f = (0x02, 0x15, raw_bytes w)
  end.
Definition log_says (x : logmsg) (t : string) : Prop := match x with LPvt p => pvt_says p t | LRaw w => raw_says w t end.
(* a RAWX frame that announces 31 to 127 measurements *)
Definition too_many (f : Z * Z * list Z) : Prop := exists pl, f = (0x02, 0x15, pl) /\ exists n, nth_error pl 11 = Some n /\ 31 <= n <= 127.

(* the handler over a list of messages *)
Fixpoint handle_all (l : list (Z * Z * list Z)) : outcome string :=
  match l with [] => Ok "" | (c, i, m) :: r => let* a := log_handler c i m in let* b := handle_all r in Ok (a ++ b) end.
Lemma handle_all_app a b : handle_all (a ++ b)%list = let* x := handle_all a in let* y := handle_all b in Ok (x ++ y).
Proof.
  induction a as [|[[c i] m] a IH]; cbn [handle_all app bind].
  - destruct (handle_all b) as [y|k]; reflexivity.
  - destruct (log_handler c i m) as [t|k]; [|reflexivity]. cbn [bind]. rewrite IH. destruct (handle_all a) as [t'|k]; [|reflexivity]. cbn [bind].
    destruct (handle_all b) as [t2|k]; [|reflexivity]. cbn [bind]. rewrite sapp_assoc. reflexivity.
Qed.
Definition heard (hid : Z) (cs : list call) : list (Z * Z * list Z) :=
  flat_map (fun c => if c_lid c =? hid then [(c_cls c, c_id c, c_msg c)] else []) cs.
Lemma log_console_heard hid cs : log_console hid (map EvUbx cs) = handle_all (heard hid cs).
Proof.
  induction cs as [|c cs IH]; [reflexivity|]. cbn [map log_console]. rewrite IH. unfold heard. cbn [flat_map].
  destruct (c_lid c =? hid); cbn [app handle_all]; [reflexivity|]. cbn [bind]. fold (heard hid cs). destruct (handle_all (heard hid cs)) as [t|k]; reflexivity.
Qed.
Lemma heard_app hid a b : heard hid (a ++ b)%list = (heard hid a ++ heard hid b)%list.
Proof. unfold heard. apply flat_map_app. Qed.
Lemma heard_calls hid ls c i m : (forall l, In l ls -> lid l = hid -> wants l c i = shown_frame c i) -> NoDup (map lid ls) -> In hid (map lid ls) ->
  heard hid (calls_for ls c i m) = if shown_frame c i then [(c, i, m)] else [].
Proof.
  unfold calls_for. induction ls as [|l ls IH]; intros HW HN HI; [destruct HI|]. cbn [map] in HN, HI. inversion HN as [|? ? HN1 HN2]. subst.
  assert (Q : forall k, ~ In hid (map lid k) -> heard hid (map (fun l0 => mkCall (lid l0) c i m) (filter (fun l0 => wants l0 c i) k)) = []).
  { clear. induction k as [|x k IH]; intros HK; [reflexivity|]. cbn [filter]. cbn [map] in HK. destruct (wants x c i); [|apply IH; intros X; apply HK; right; exact X].
    cbn [map]. unfold heard. cbn [flat_map c_lid]. destruct (Z.eqb_spec (lid x) hid); [exfalso; apply HK; left; assumption|]. cbn [app]. apply IH. intros X; apply HK; right; exact X. }
  cbn [filter]. destruct (Z.eq_dec (lid l) hid) as [E|E].
  - rewrite (HW l (or_introl eq_refl) E). destruct (shown_frame c i) eqn:S.
    + cbn [map]. unfold heard. cbn [flat_map c_lid c_cls c_id c_msg]. rewrite E, Z.eqb_refl. cbn [app]. f_equal. apply Q. rewrite <- E. exact HN1.
    + apply Q. rewrite <- E. exact HN1.
  - destruct HI as [HI|HI]; [congruence|]. specialize (IH (fun x Hx => HW x (or_intror Hx)) HN2 HI).
    destruct (wants l c i); [|exact IH]. cbn [map]. unfold heard. cbn [flat_map c_lid]. destruct (Z.eqb_spec (lid l) hid); [congruence|]. exact IH.
Qed.
Definition same_frame (f g : Z * Z * list Z) : Prop := fst f = fst g /\ prefixed (snd f) (snd g).
Lemma heard_items hid ls : (forall l c i, In l ls -> lid l = hid -> wants l c i = shown_frame c i) -> NoDup (map lid ls) -> In hid (map lid ls) -> forall its mem,
  Forall2 same_frame (log_frames its) (heard hid (flat_map fst (items_outs ls mem its))).
Proof.
  intros HW HN HI. induction its as [|it its IH]; intros mem; [constructor|]. specialize (IH (item_mem mem it)). cbn [items_outs].
  assert (EA : flat_map fst (item_outs ls mem it ++ items_outs ls (item_mem mem it) its)%list = (flat_map fst (item_outs ls mem it) ++ flat_map fst (items_outs ls (item_mem mem it) its))%list) by apply flat_map_app.
  rewrite EA, heard_app. clear EA. unfold log_frames in *. cbn [flat_map]. apply Forall2_app; [|exact IH].
  destruct it as [b|cls id pl|cls id pl ka kb|cls id n]; cbn [item_outs]; try (rewrite quiet_calls; constructor).
  match goal with |- context [flat_map fst (?a ++ ?b)%list] => assert (EB : flat_map fst (a ++ b)%list = calls_for ls cls id (item_mem mem (Good cls id pl))) end.
  { etransitivity; [apply flat_map_app|]. rewrite quiet_calls. cbn [flat_map fst app]. apply app_nil_r. }
  rewrite EB, heard_calls by auto. destruct (shown_frame cls id); constructor; [|constructor]. split; [reflexivity|]. eexists. reflexivity.
Qed.
Lemma wants_log hid c i : wants (mkListener hid [(0x01, 0x07); (0x02, 0x15)]) c i = shown_frame c i.
Proof.
  unfold wants, shown_frame, pair_eqb. cbn [subs existsb fst snd]. rewrite orb_false_r. reflexivity.
Qed.
Lemma log_events u ru n s ls hid its s' ev :
  uninit_ok u -> runinit_ok ru -> UReach u ru n s -> u_type s <> T_BASE -> Forall listener_ok ls -> u_ls s = map build ls ->
  NoDup (map lid ls) -> In (mkListener hid [(0x01, 0x07); (0x02, 0x15)]) ls ->
  parsing_message (u_ubx s) = false -> items_ok (prev (u_ubx s)) its -> bytes_ok (items_bytes its) ->
  ublox_read s (items_bytes its) = Ok (s', ev) ->
  exists ms, log_console hid ev = handle_all ms /\ Forall2 same_frame (log_frames its) ms.
Proof.
  intros Hu Hru HR HT Hls HL HN HIn HP Hok Hb E.
  destruct (nonbase_reach u ru n s (items_bytes its) Hu Hru HR HT Hb) as [(s1 & outs & E1 & E2)|[[E1 _]|E1]]; rewrite E in E1; try discriminate.
  assert (ev = map EvUbx (flat_map fst outs)) by congruence. subst ev. rewrite HL in E2.
  destruct (ureach_inv u ru n s Hu Hru HR) as (HI & _).
  destruct HI as (HI & _). pose proof (inv_idle (u_ubx s) HI HP) as HId. assert (HSm : small_counters (u_ubx s)) by apply HI.
  destruct (exec_items ls its (u_ubx s) Hls HId HSm Hok Hb) as [(s2 & E3 & _)|[_ E3]]; rewrite E3 in E2; [|discriminate].
  assert (outs = items_outs ls (inbuf (u_ubx s)) its) by congruence. subst outs.
  eexists. split; [apply log_console_heard|]. apply heard_items; [|exact HN|].
  - intros l c i Hl El. assert (l = mkListener hid [(0x01, 0x07); (0x02, 0x15)]) as -> by (apply (NoDup_map_inj lid ls); assumption). apply wants_log.
  - apply in_map_iff. exists (mkListener hid [(0x01, 0x07); (0x02, 0x15)]). split; [reflexivity|exact HIn].
Qed.
Lemma handle_one f g x : log_carries f x -> same_frame f g -> exists t, log_handler (fst (fst g)) (snd (fst g)) (snd g) = Ok t /\ log_says x t.
Proof.
  intros HC [E (rest & EP)]. destruct g as [[c i] m]. destruct f as [[c0 i0] pl]. cbn [fst snd] in *. injection E as -> ->. subst m. destruct x as [p|w]; cbn [log_carries log_says] in *.
  - destruct HC as (HO & r0 & r1 & r2 & r3 & r4 & r5 & more & EF). assert (EL : pl = (pvt_bytes p r0 r1 r2 r3 r4 r5 ++ more)%list) by congruence. assert (c = 0x01) as -> by congruence. assert (i = 0x07) as -> by congruence. rewrite EL. clear EF EL.
    eexists. split; [reflexivity|]. rewrite sapp_assoc, <- app_assoc. apply show_pvt_says. exact HO.
  - destruct HC as (HO & HN & EF). assert (EL : pl = raw_bytes w) by congruence. assert (c = 0x02) as -> by congruence. assert (i = 0x15) as -> by congruence. rewrite EL. apply show_raw_says; assumption.
Qed.
Lemma log_prints u ru n s ls hid its s' ev xs :
  uninit_ok u -> runinit_ok ru -> UReach u ru n s -> u_type s <> T_BASE -> Forall listener_ok ls -> u_ls s = map build ls ->
  NoDup (map lid ls) -> In (mkListener hid [(0x01, 0x07); (0x02, 0x15)]) ls ->
  parsing_message (u_ubx s) = false -> items_ok (prev (u_ubx s)) its -> bytes_ok (items_bytes its) ->
  ublox_read s (items_bytes its) = Ok (s', ev) -> Forall2 log_carries (log_frames its) xs ->
  exists ts, log_console hid ev = Ok (texts ts) /\ Forall2 log_says xs ts.
Proof.
  intros Hu Hru HR HT Hls HL HN HIn HP Hok Hb E HX.
  destruct (log_events u ru n s ls hid its s' ev Hu Hru HR HT Hls HL HN HIn HP Hok Hb E) as (ms & EC & F). rewrite EC. clear EC E. revert xs HX.
  induction F as [|f g fs gs Hfg F IH]; intros xs HX; inversion HX as [|? x ? xs' H1 H2]; subst; [exists []; split; [reflexivity|constructor]|].
  destruct (IH xs' H2) as (ts & ET & FT). destruct (handle_one f g x H1 Hfg) as (t & EH & HS). destruct g as [[c i] m]. cbn [fst snd] in EH.
  exists (t :: ts)%list. cbn [handle_all]. rewrite EH, ET. split; [reflexivity|constructor; assumption].
Qed.
Lemma handler_total c i m : (exists t, log_handler c i m = Ok t) \/ log_handler c i m = UB UB_oob_read.
Proof.
  unfold log_handler. cbv zeta. destruct ((c =? 0x01) && (i =? 0x07)); [left; eexists; reflexivity|]. destruct ((c =? 0x02) && (i =? 0x15)); [|left; eexists; reflexivity].
  unfold show_raw. destruct (Nat.le_gt_cases (Z.to_nat (i8_at m 11)) 30) as [H|H]; [rewrite raw_loop_ok by lia; left; eexists; reflexivity|rewrite raw_loop_ub by lia; right; reflexivity].
Qed.
Lemma handle_all_total ms : (exists t, handle_all ms = Ok t) \/ handle_all ms = UB UB_oob_read.
Proof.
  induction ms as [|[[c i] m] ms IH]; [left; eexists; reflexivity|]. cbn [handle_all]. destruct (handler_total c i m) as [(t & E)|E]; rewrite E; [|right; reflexivity].
  destruct IH as [(t' & E')|E']; rewrite E'; [left; eexists; reflexivity|right; reflexivity].
Qed.
Lemma handler_fails g f : same_frame f g -> (12 <= length (snd f))%nat -> bytes_ok (snd f) ->
  (log_handler (fst (fst g)) (snd (fst g)) (snd g) = UB UB_oob_read <-> too_many f).
Proof.
  intros [E (rest & EP)] HL HB. destruct g as [[c i] m]. destruct f as [[c0 i0] pl]. cbn [fst snd] in *. injection E as -> ->. subst m.
  destruct (nth_error pl 11) as [v|] eqn:EV; [|apply nth_error_None in EV; lia].
  assert (EI : i8_at (pl ++ rest)%list 11 = if v <? 128 then v else v - 256).
  { unfold i8_at, u8_at. rewrite app_nth1 by lia. rewrite (nth_error_nth _ _ _ EV). assert (BV : byte_ok v) by (unfold bytes_ok in HB; rewrite Forall_forall in HB; apply HB; apply nth_error_In with 11%nat; exact EV).
    unfold byte_ok in BV. unfold i8, sgn. cbv zeta. change (2 ^ (8 - 1)) with 128. change (2 ^ 8) with 256. rewrite Z.mod_small by lia. reflexivity. }
  assert (BV : byte_ok v) by (unfold bytes_ok in HB; rewrite Forall_forall in HB; apply HB; apply nth_error_In with 11%nat; exact EV). unfold byte_ok in BV.
  unfold log_handler. cbv zeta. split.
  - destruct ((c =? 0x01) && (i =? 0x07)); [discriminate|]. destruct ((c =? 0x02) && (i =? 0x15)) eqn:S; [|discriminate].
    apply andb_true_iff in S. destruct S as [S1 S2]. apply Z.eqb_eq in S1, S2. subst c i. unfold show_raw. rewrite EI. intros H.
    exists pl. split; [reflexivity|]. exists v. split; [exact EV|].
    destruct (Nat.le_gt_cases (Z.to_nat (if v <? 128 then v else v - 256)) 30) as [X|X]; [rewrite raw_loop_ok in H by lia; discriminate|].
    destruct (Z.ltb_spec v 128); lia.
  - intros (pl' & EF & k & EK & HK). injection EF as -> -> <-. assert (k = v) as -> by congruence. change ((0x02 =? 0x01) && (0x15 =? 0x07)) with false. change ((0x02 =? 0x02) && (0x15 =? 0x15)) with true. cbv iota.
    unfold show_raw. rewrite EI. destruct (Z.ltb_spec v 128); [|lia]. rewrite raw_loop_ub by lia. reflexivity.
Qed.
Lemma log_fails u ru n s ls hid its s' ev :
  uninit_ok u -> runinit_ok ru -> UReach u ru n s -> u_type s <> T_BASE -> Forall listener_ok ls -> u_ls s = map build ls ->
  NoDup (map lid ls) -> In (mkListener hid [(0x01, 0x07); (0x02, 0x15)]) ls ->
  parsing_message (u_ubx s) = false -> items_ok (prev (u_ubx s)) its -> bytes_ok (items_bytes its) ->
  ublox_read s (items_bytes its) = Ok (s', ev) -> Forall (fun f => (12 <= length (snd f))%nat /\ bytes_ok (snd f)) (log_frames its) ->
  (Exists too_many (log_frames its) -> log_console hid ev = UB UB_oob_read) /\
  (~ Exists too_many (log_frames its) -> exists t, log_console hid ev = Ok t).
Proof.
  intros Hu Hru HR HT Hls HL HN HIn HP Hok Hb E HF.
  destruct (log_events u ru n s ls hid its s' ev Hu Hru HR HT Hls HL HN HIn HP Hok Hb E) as (ms & EC & F). rewrite EC. clear EC E. split; intros HX.
  - induction F as [|f g fs gs Hfg F IH]; [inversion HX|]. inversion HF as [|? ? [H1 H2] H3]; subst. destruct g as [[c i] m]. cbn [handle_all].
    destruct (handler_total c i m) as [(t & EH)|EH]; rewrite EH; [|reflexivity]. cbn [bind].
    inversion HX as [? ? H4|? ? H4]; subst; [|rewrite (IH H3 H4); reflexivity].
    apply (handler_fails (c, i, m) f Hfg H1 H2) in H4. cbn [fst snd] in H4. congruence.
  - induction F as [|f g fs gs Hfg F IH]; [eexists; reflexivity|]. inversion HF as [|? ? [H1 H2] H3]; subst. destruct g as [[c i] m]. cbn [handle_all].
    destruct (handler_total c i m) as [(t & EH)|EH].
    + rewrite EH. cbn [bind]. destruct IH as (t' & ->); [exact H3|intros X; apply HX; right; exact X|]. eexists. reflexivity.
    + exfalso. apply HX. left. apply (handler_fails (c, i, m) f Hfg H1 H2). exact EH.
Qed.
