(* Proofs about ExShow.v. *)
From Coq Require Import String Ascii Decimal DecimalString DecimalZ.
From Verif Require Import Base UbxSpec UbxModel UtcModel Dbl NavModel RosModel RosSpec RosProofs UbxProofs UbxStream UbxMain UbxMore UbxHist UbxApi RtcmModel RtcmApi UbloxModel UbloxSpec UbloxProofs UbloxApi UbloxThm TextSpec ExShow.
Local Open Scope string_scope.
Local Open Scope Z_scope.

(* ---------------------------------------------------------------- specification *)
(* v tenths of a millimetre, written in metres with six decimals *)
Definition four (v : Z) : string := digit (v / 1000 mod 10) ++ digit (v / 100 mod 10) ++ digit (v / 10 mod 10) ++ digit (v mod 10).
Definition metres (v : Z) : string :=
  (if v <? 0 then "-" else "") ++ number (Z.abs v / 10000) ++ "." ++ four (Z.abs v mod 10000) ++ "00".
(* lines *)
Definition rel_line (x : relpos) : string :=
  "tow: " ++ number (p_itow x / 1000) ++ " relNED: " ++ number (p_n x) ++ ", " ++ number (p_e x) ++ ", " ++ number (p_d x) ++ ", Distance: " ++ number (p_len x) ++ newline.
Definition rel_text (x : relpos) : string :=
  if p_flags x =? 0 then "No RTK " ++ newline
  else "RTK, Moving Base , Floating " ++ newline ++ "valid relative position components " ++ newline ++ rel_line x.
Definition svin_text (x : svin) (px py pz : Z) : string :=
  "t: " ++ number (i32 (s_itow x)) ++ ", " ++ (if s_active x =? 0 then "INACTIVE" else "ACTIVE") ++ ", dur: " ++ number (i32 (s_dur x)) ++
  ", pos: [" ++ metres px ++ ", " ++ metres py ++ ", " ++ metres pz ++ "], acc: " ++ metres (s_acc x) ++ newline.

(* ---------------------------------------------------------------- numbers *)
Lemma round_div_near n d q : 0 < d -> 2 * Z.abs (n - q * d) < d -> round_div n d = q.
Proof.
  intros Hd H. unfold round_div. pose proof (Z.div_mod n d ltac:(lia)) as E. pose proof (Z.mod_pos_bound n d Hd) as B.
  set (a := n / d) in *. set (r := n mod d) in *. clearbody a r.
  assert (C : a = q \/ a = q - 1) by nia. destruct C as [-> | ->].
  - assert (2 * r < d) by nia. destruct (Z.ltb_spec (2 * r) d); [reflexivity|lia].
  - assert (d < 2 * r) by nia. destruct (Z.ltb_spec (2 * r) d); [lia|]. destruct (Z.ltb_spec d (2 * r)); lia.
Qed.
Lemma sapp_assoc a b c : ((a ++ b) ++ c) = (a ++ (b ++ c)).
Proof. induction a as [|x a IH]; [reflexivity|]. cbn. rewrite IH. reflexivity. Qed.
Lemma sapp_nil a : a ++ "" = a. Proof. induction a as [|x a IH]; [reflexivity|]. cbn. rewrite IH. reflexivity. Qed.
Lemma six_four w : 0 <= w -> dec (100 * w / 10 ^ 6) ++ "." ++ six (100 * w mod 10 ^ 6) = dec (w / 10000) ++ "." ++ four (w mod 10000) ++ "00".
Proof.
  intros Hw. change (10 ^ 6) with 1000000. replace (100 * w / 1000000) with (w / 10000) by (symmetry; change 1000000 with (100 * 10000); apply Z.div_mul_cancel_l; lia).
  replace (100 * w mod 1000000) with (100 * (w mod 10000)) by (change 1000000 with (100 * 10000); rewrite Z.mul_mod_distr_l by lia; reflexivity).
  pose proof (Z.mod_pos_bound w 10000 ltac:(lia)) as B. set (r := w mod 10000) in *. clearbody r. clear Hw. do 2 f_equal. unfold six, four. rewrite !sapp_assoc.
  replace (100 * r / 100000 mod 10) with (r / 1000 mod 10) by lia.
  replace (100 * r / 10000 mod 10) with (r / 100 mod 10) by lia.
  replace (100 * r / 1000 mod 10) with (r / 10 mod 10) by lia.
  replace (100 * r / 100 mod 10) with (r mod 10) by lia.
  replace (100 * r / 10 mod 10) with 0 by lia. replace (100 * r mod 10) with 0 by lia. reflexivity.
Qed.
Lemma fixed6_metres d w : de d = -66 -> 0 <= w -> 0 <= dm d -> 2 * Z.abs (dm d * 1000000 - 100 * w * 73786976294838206464) < 73786976294838206464 -> fixed6 d = metres w.
Proof.
  intros He Hw Hm H. unfold fixed6, metres. rewrite He. change (0 <=? -66) with false. cbv iota. change (2 ^ (- -66)) with 73786976294838206464. change (10 ^ 6) with 1000000.
  rewrite (Z.abs_eq (dm d)) by lia. rewrite (round_div_near _ _ (100 * w)) by lia. destruct (Z.ltb_spec (dm d) 0); [lia|]. destruct (Z.ltb_spec w 0); [lia|].
  rewrite (Z.abs_eq w) by lia. exact (six_four w Hw).
Qed.
Lemma rnd_near z : 9007199254740992 * Z.abs (rnd53 z - z) <= Z.abs z.
Proof. pose proof (rnd53_err z) as H. change (2 ^ 53) with 9007199254740992 in H. exact H. Qed.
Lemma coord_text u h : 0 <= u < 4294967296 -> 0 <= h < 256 -> fixed6 (dadd (sc u D_1EM2) (sc h D_1EM4)) = metres (100 * u + h).
Proof.
  intros Hu Hh.
  assert (E : dadd (sc u D_1EM2) (sc h D_1EM4) = mkD (rnd53 (rnd53 (u * 5764607523034235) * 128 + rnd53 (h * 7378697629483821))) (-66)).
  { unfold dadd, sc, dmul, d_of_int. rewrite (rnd53_id u), (rnd53_id h) by (change (2 ^ 53) with 9007199254740992; lia). unfold D_1EM2, D_1EM4. cbn [dm de].
    change (Z.min (0 + -59) (0 + -66)) with (-66). change (2 ^ (0 + -59 - -66)) with 128. change (2 ^ (0 + -66 - -66)) with 1. rewrite Z.mul_1_r. reflexivity. }
  rewrite E. pose proof (rnd_near (u * 5764607523034235)) as HA. pose proof (rnd_near (h * 7378697629483821)) as HB.
  set (a := rnd53 (u * 5764607523034235)) in *. set (b := rnd53 (h * 7378697629483821)) in *. clearbody a b.
  pose proof (rnd_near (a * 128 + b)) as HC. set (c := rnd53 (a * 128 + b)) in *. clearbody c. clear E.
  assert (0 <= a) by lia. assert (0 <= b) by lia. assert (0 <= c) by lia. apply fixed6_metres; cbn [dm de]; lia.
Qed.
Lemma acc_text a : 0 <= a < 4294967296 -> fixed6 (sc a D_1EM4) = metres a.
Proof.
  intros Ha. assert (E : sc a D_1EM4 = mkD (rnd53 (a * 7378697629483821)) (-66)).
  { unfold sc, dmul, d_of_int. rewrite (rnd53_id a) by (change (2 ^ 53) with 9007199254740992; lia). reflexivity. }
  rewrite E. pose proof (rnd_near (a * 7378697629483821)) as HA. set (b := rnd53 (a * 7378697629483821)) in *. clearbody b. clear E.
  assert (0 <= b) by lia. apply fixed6_metres; cbn [dm de]; lia.
Qed.

(* metres, said with TextSpec *)
Lemma digit_ok a : 0 <= a mod 10 <= 9.
Proof. pose proof (Z.mod_pos_bound a 10). lia. Qed.
Lemma metres_text v : exists t, fixed_point 4 (v <? 0) (Z.abs v) t /\ metres v = t ++ "00".
Proof.
  set (w := Z.abs v). assert (Hw : 0 <= w) by apply Z.abs_nonneg.
  exists ((if v <? 0 then "-" else "") ++ dec (w / 10000) ++ "." ++ four (w mod 10000)). split.
  - exists (four (w mod 10000)). split; [|reflexivity]. change (10 ^ Z.of_nat 4) with 10000. set (r := w mod 10000).
    exists [r / 1000 mod 10; r / 100 mod 10; r / 10 mod 10; r mod 10]. split; [reflexivity|]. split; [repeat (apply Forall_cons; [apply digit_ok|]); constructor|].
    split; [cbn [fold_left]; assert (0 <= r < 10000) by (apply Z.mod_pos_bound; lia); clearbody r; lia|]. rewrite digits_list. reflexivity.
  - unfold metres. fold w. rewrite !sapp_assoc. reflexivity.
Qed.

(* ---------------------------------------------------------------- the lines *)
Lemma show_rel_text x ver r0 r1 r2 r3 r4 q1 q2 q3 q4 rest : relpos_ok x ->
  show_rel (relpos_bytes x ver r0 r1 r2 r3 r4 q1 q2 q3 q4 ++ rest)%list = rel_text x.
Proof.
  intros (H1 & H2 & H3 & H4 & H5 & H6 & H7 & H8 & H9 & H10 & H11 & H12 & H13 & H14 & H15 & H16 & H17).
  set (m := (relpos_bytes x ver r0 r1 r2 r3 r4 q1 q2 q3 q4 ++ rest)%list). unfold show_rel, rel_text, rel_line.
  rewrite (at32 m 60 (p_flags x)), (at32 m 4 (p_itow x)), (at32s m 8 (p_n x)), (at32s m 12 (p_e x)), (at32s m 16 (p_d x)), (at32s m 20 (p_len x)) by (assumption || reflexivity).
  destruct (p_flags x =? 0); [rewrite sapp_nil; reflexivity|]. reflexivity.
Qed.
Lemma show_svin_text x ver r0 r1 r2 q rest : svin_ok x ->
  show_svin (svin_bytes x ver r0 r1 r2 q ++ rest)%list =
  svin_text x (100 * (s_x x mod 2 ^ 32) + s_hx x mod 256) (100 * (s_y x mod 2 ^ 32) + s_hy x mod 256) (100 * (s_z x mod 2 ^ 32) + s_hz x mod 256).
Proof.
  intros (H1 & H2 & H3 & H4 & H5 & H6 & H7 & H8 & H9 & H10). set (m := (svin_bytes x ver r0 r1 r2 q ++ rest)%list). unfold show_svin, svin_text, coord, i32_at.
  rewrite (at32 m 4 (s_itow x)), (at32 m 8 (s_dur x)), (at32 m 28 (s_acc x)), (at32u m 12 (s_x x)), (at32u m 16 (s_y x)), (at32u m 20 (s_z x)) by (assumption || reflexivity).
  change (u8_at m 24) with (s_hx x mod 256). change (u8_at m 25) with (s_hy x mod 256). change (u8_at m 26) with (s_hz x mod 256). change (u8_at m 37) with (s_active x).
  assert (M : forall v, 0 <= v mod 2 ^ 32 < 4294967296) by (intros v; apply Z.mod_pos_bound; lia).
  assert (M8 : forall v, 0 <= v mod 256 < 256) by (intros v; apply Z.mod_pos_bound; lia).
  rewrite !coord_text by auto. rewrite acc_text by exact H9. reflexivity.
Qed.
(* ---------------------------------------------------------------- reading back *)
Lemma sapp_inv a : forall b c d, String.length b = String.length d -> a ++ b = c ++ d -> a = c /\ b = d.
Proof.
  induction a as [|x a IH]; intros b c d HL E.
  - destruct c as [|y c]; [auto|]. exfalso. cbn in E. subst b. cbn in HL. assert (L : forall u v, String.length (u ++ v) = (String.length u + String.length v)%nat) by (intros u v; induction u as [|z u IHu]; cbn; congruence). rewrite L in HL. lia.
  - destruct c as [|y c].
    + exfalso. cbn in E. subst d. cbn in HL. assert (L : forall u v, String.length (u ++ v) = (String.length u + String.length v)%nat) by (intros u v; induction u as [|z u IHu]; cbn; congruence). rewrite L in HL. lia.
    + cbn in E. assert (x = y /\ a ++ b = c ++ d) as [-> E'] by (split; congruence). destruct (IH b c d HL E') as [-> ->]. auto.
Qed.
Lemma soi_inj a b : NilEmpty.string_of_int a = NilEmpty.string_of_int b -> a = b.
Proof. intros H. pose proof (NilEmpty.isi a) as A. pose proof (NilEmpty.isi b) as B. rewrite H in A. congruence. Qed.
Lemma signed_dec s a b : 0 <= a -> 0 <= b -> (if s : bool then "-" else "") ++ dec a = dec b -> s = false /\ a = b.
Proof.
  intros Ha Hb H. destruct s.
  - exfalso. unfold dec in H. destruct (Z.to_int b) as [v|v] eqn:EB.
    + assert (EA : exists v', Z.to_int a = Pos v') by (destruct a; [eexists; reflexivity|eexists; reflexivity|lia]). destruct EA as [v' EA]. rewrite EA in H. cbn [NilEmpty.string_of_int] in H.
      change ("-" ++ NilEmpty.string_of_uint v') with (NilEmpty.string_of_int (Neg v')) in H. change (NilEmpty.string_of_uint v) with (NilEmpty.string_of_int (Pos v)) in H. apply soi_inj in H. discriminate.
    + destruct b; try discriminate EB. lia.
  - split; [reflexivity|]. cbn [append] in H. unfold dec in H. apply soi_inj in H. rewrite <- (of_to a), <- (of_to b), H. reflexivity.
Qed.
Lemma digit_inj a b : 0 <= a < 10 -> 0 <= b < 10 -> digit a = digit b -> a = b.
Proof.
  intros Ha Hb H. unfold digit in H. assert (E : ascii_of_N (Z.to_N (48 + a)) = ascii_of_N (Z.to_N (48 + b))) by congruence.
  apply (f_equal N_of_ascii) in E. rewrite !N_ascii_embedding in E by lia. lia.
Qed.
Lemma four_inj a b : 0 <= a < 10000 -> 0 <= b < 10000 -> four a = four b -> a = b.
Proof.
  intros Ha Hb H. unfold four in H. apply sapp_inv in H; [|reflexivity]. destruct H as [H1 H]. apply sapp_inv in H; [|reflexivity]. destruct H as [H2 H].
  apply sapp_inv in H; [|reflexivity]. destruct H as [H3 H4]. apply digit_inj in H1, H2, H3, H4; lia.
Qed.
Lemma metres_inj v w : 0 <= w -> metres v = metres w -> v = w.
Proof.
  intros Hw H. unfold metres in H. destruct (Z.ltb_spec w 0); [lia|]. match type of H with _ = ("" ++ ?b) => change ("" ++ b) with b in H end. rewrite <- (sapp_assoc (if v <? 0 then "-" else "")) in H.
  apply sapp_inv in H; [|reflexivity]. destruct H as [H1 H2]. apply sapp_inv in H2; [|reflexivity]. destruct H2 as [_ H2]. apply sapp_inv in H2; [|reflexivity]. destruct H2 as [H2 _].
  apply signed_dec in H1; [|apply Z.div_pos; lia|apply Z.div_pos; lia]. destruct H1 as [HS H1].
  apply four_inj in H2; [|apply Z.mod_pos_bound; lia|apply Z.mod_pos_bound; lia].
  destruct (Z.ltb_spec v 0); [discriminate|]. lia.
Qed.
Lemma coordinate_right c h : sl_ok c -> sb_ok h -> (metres (100 * (c mod 2 ^ 32) + h mod 256) = metres (100 * c + h) <-> 0 <= c /\ 0 <= h).
Proof.
  intros Hc Hh. unfold sl_ok, sb_ok in *. change (2 ^ 31) with 2147483648 in Hc. change (2 ^ 7) with 128 in Hh. change (2 ^ 32) with 4294967296. split.
  - intros H. symmetry in H. apply metres_inj in H; [|pose proof (Z.mod_pos_bound c 4294967296); pose proof (Z.mod_pos_bound h 256); lia]. lia.
  - intros [H1 H2]. rewrite !Z.mod_small by lia. reflexivity.
Qed.

(* ---------------------------------------------------------------- what a handler prints over a byte stream *)
Definition texts (l : list string) : string := fold_right append "" l.
(* payloads of the valid frames of class c and id i *)
Definition frames_of (c i : Z) (its : list item) : list (list Z) :=
  flat_map (fun it => match it with Good cls id pl => if (cls =? c) && (id =? i) then [pl] else [] | _ => [] end) its.
Definition dframes_of (c i : Z) (ds : list ditem) : list (list Z) :=
  flat_map (fun d => match d with DUbx (Good cls id pl) => if (cls =? c) && (id =? i) then [pl] else [] | _ => [] end) ds.
Definition only (c i : Z) (show : list Z -> string) (cls id : Z) (m : list Z) : string := if (cls =? c) && (id =? i) then show m else "".

Lemma texts_app a b : texts (a ++ b)%list = texts a ++ texts b.
Proof. unfold texts. induction a as [|x a IH]; [reflexivity|]. cbn [app fold_right]. rewrite IH, sapp_assoc. reflexivity. Qed.
Lemma console_app h hid a b : console h hid (a ++ b)%list = console h hid a ++ console h hid b.
Proof. unfold console. rewrite map_app. exact (texts_app _ _). Qed.
Lemma console_calls h hid ls c i m : (forall l, In l ls -> lid l = hid -> wants l c i = true) -> NoDup (map lid ls) -> In hid (map lid ls) ->
  console h hid (map EvUbx (calls_for ls c i m)) = h c i m.
Proof.
  unfold calls_for. induction ls as [|l ls IH]; intros HW HN HI; [destruct HI|]. cbn [map] in HN, HI. inversion HN as [|? ? HN1 HN2]. subst.
  assert (Q : forall k, ~ In hid (map lid k) -> console h hid (map EvUbx (map (fun l0 => mkCall (lid l0) c i m) (filter (fun l0 => wants l0 c i) k))) = "").
  { clear. induction k as [|x k IH]; intros HK; [reflexivity|]. cbn [filter]. cbn [map] in HK. destruct (wants x c i); [|apply IH; intros X; apply HK; right; exact X].
    cbn [map]. change (console h hid (EvUbx (mkCall (lid x) c i m) :: ?r)) with ((if lid x =? hid then h c i m else "") ++ console h hid r). destruct (Z.eqb_spec (lid x) hid); [exfalso; apply HK; left; assumption|].
    cbn [append]. apply IH. intros X; apply HK; right; exact X. }
  cbn [filter]. destruct (Z.eq_dec (lid l) hid) as [E|E].
  - rewrite (HW l (or_introl eq_refl) E). cbn [map]. change (console h hid (EvUbx (mkCall (lid l) c i m) :: ?r)) with ((if lid l =? hid then h c i m else "") ++ console h hid r).
    rewrite E, Z.eqb_refl, Q by (rewrite <- E; exact HN1). apply sapp_nil.
  - destruct HI as [HI|HI]; [congruence|]. specialize (IH (fun x Hx => HW x (or_intror Hx)) HN2 HI).
    destruct (wants l c i); [|exact IH]. cbn [map]. change (console h hid (EvUbx (mkCall (lid l) c i m) :: ?r)) with ((if lid l =? hid then h c i m else "") ++ console h hid r).
    destruct (Z.eqb_spec (lid l) hid); [congruence|]. exact IH.
Qed.
(* frames the handler does not print *)
Lemma console_other c i show hid ls cls id m : (cls =? c) && (id =? i) = false -> console (only c i show) hid (map EvUbx (calls_for ls cls id m)) = "".
Proof.
  intros H. unfold calls_for. induction (filter (fun l => wants l cls id) ls) as [|l k IH]; [reflexivity|]. cbn [map].
  change (console (only c i show) hid (EvUbx (mkCall (lid l) cls id m) :: ?r)) with ((if lid l =? hid then only c i show cls id m else "") ++ console (only c i show) hid r).
  rewrite IH, sapp_nil. unfold only. rewrite H. destruct (lid l =? hid); reflexivity.
Qed.
Lemma console_frame c i show hid ls cls id m : (forall l, In l ls -> lid l = hid -> wants l c i = true) -> NoDup (map lid ls) -> In hid (map lid ls) ->
  console (only c i show) hid (map EvUbx (calls_for ls cls id m)) = texts (if (cls =? c) && (id =? i) then [show m] else []).
Proof.
  intros HW HN HI. destruct ((cls =? c) && (id =? i)) eqn:E; [|apply console_other; exact E]. apply andb_true_iff in E. destruct E as [E1 E2]. apply Z.eqb_eq in E1, E2. subst cls id.
  rewrite console_calls by assumption. unfold only. rewrite !Z.eqb_refl. cbn [andb texts fold_right]. symmetry. apply sapp_nil.
Qed.
Definition prefixed (pl m : list Z) : Prop := exists rest, m = (pl ++ rest)%list.
Lemma quiet_calls n : flat_map fst (UbxSpec.quiet n) = ([] : list call).
Proof. induction n as [|n IH]; [reflexivity|]. exact IH. Qed.
Lemma console_items c i show hid ls : (forall l, In l ls -> lid l = hid -> wants l c i = true) -> NoDup (map lid ls) -> In hid (map lid ls) -> forall its mem,
  exists ms, Forall2 prefixed (frames_of c i its) ms /\ console (only c i show) hid (map EvUbx (flat_map fst (items_outs ls mem its))) = texts (map show ms).
Proof.
  intros HW HN HI. induction its as [|it its IH]; intros mem; [exists []; split; [constructor|reflexivity]|].
  destruct (IH (item_mem mem it)) as (ms & F & E). cbn [items_outs].
  assert (EA : flat_map fst (item_outs ls mem it ++ items_outs ls (item_mem mem it) its)%list = (flat_map fst (item_outs ls mem it) ++ flat_map fst (items_outs ls (item_mem mem it) its))%list) by apply flat_map_app.
  rewrite EA, map_app, console_app, E. clear EA. unfold frames_of in *. cbn [flat_map].
  destruct it as [b|cls id pl|cls id pl ka kb|cls id n]; cbn [item_outs]; try (rewrite quiet_calls; exists ms; split; [exact F|reflexivity]).
  match goal with |- context [flat_map fst (?a ++ ?b)%list] => assert (EB : flat_map fst (a ++ b)%list = calls_for ls cls id (item_mem mem (Good cls id pl))) end.
  { etransitivity; [apply flat_map_app|]. rewrite quiet_calls. cbn [flat_map fst app]. apply app_nil_r. }
  rewrite EB, console_frame by assumption. clear EB.
  destruct ((cls =? c) && (id =? i)); cbn [app]; [|exists ms; split; [exact F|reflexivity]].
  exists (item_mem mem (Good cls id pl) :: ms)%list. split; [constructor; [exists (skipn (length pl) mem); reflexivity|exact F]|]. cbn [map texts fold_right]. rewrite sapp_nil. reflexivity.
Qed.
Lemma console_ditems c i show hid ls n rtk : (forall l, In l ls -> lid l = hid -> wants l c i = true) -> NoDup (map lid ls) -> In hid (map lid ls) -> forall ds mem,
  exists ms, Forall2 prefixed (dframes_of c i ds) ms /\ console (only c i show) hid (ditems_events ls n rtk mem ds) = texts (map show ms).
Proof.
  intros HW HN HI. induction ds as [|d ds IH]; intros mem; [exists []; split; [constructor|reflexivity]|].
  destruct (IH (ditem_mem mem d)) as (ms & F & E). cbn [ditems_events]. rewrite console_app, E. unfold dframes_of in *. cbn [flat_map].
  assert (Q : forall f k, console (only c i show) hid (repeat (EvRtk rtk f) k) = "") by (intros f k; induction k as [|k IHk]; [reflexivity|exact IHk]).
  destruct d as [b|it|it]; cbn [ditem_events].
  - exists ms. split; [exact F|reflexivity].
  - destruct it as [b|cls id pl|cls id pl ka kb|cls id k]; try (exists ms; split; [exact F|reflexivity]).
    rewrite console_frame by assumption. destruct ((cls =? c) && (id =? i)); cbn [app]; [|exists ms; split; [exact F|reflexivity]].
    exists ((pl ++ skipn (length pl) mem) :: ms)%list. split; [constructor; [eexists; reflexivity|exact F]|]. cbn [map texts fold_right]. rewrite sapp_nil. reflexivity.
  - destruct it as [b|f|f|b]; try (exists ms; split; [exact F|reflexivity]). rewrite Q. exists ms. split; [exact F|reflexivity].
Qed.
Definition rel_payload (pl : list Z) (x : relpos) : Prop :=
  relpos_ok x /\ exists ver r0 r1 r2 r3 r4 q1 q2 q3 q4, pl = relpos_bytes x ver r0 r1 r2 r3 r4 q1 q2 q3 q4.
Definition svin_payload (pl : list Z) (x : svin) : Prop := svin_ok x /\ exists ver r0 r1 r2 q r3 r4, pl = (svin_bytes x ver r0 r1 r2 q ++ [r3; r4])%list.
Lemma texts_show {A} (show : list Z -> string) (text : A -> string) (P : list Z -> A -> Prop) :
  (forall pl x rest, P pl x -> show (pl ++ rest)%list = text x) -> forall pls ms, Forall2 prefixed pls ms -> forall xs, Forall2 P pls xs -> map show ms = map text xs.
Proof.
  intros HS pls ms H. induction H as [|pl m pls ms (rest & ->) _ IH]; intros xs HX; inversion HX as [|? x ? xs' H1 H2]; subst; [reflexivity|].
  cbn [map]. rewrite (HS pl x rest H1), (IH xs' H2). reflexivity.
Qed.
Lemma NoDup_map_inj {A B} (f : A -> B) l a b : NoDup (map f l) -> In a l -> In b l -> f a = f b -> a = b.
Proof.
  induction l as [|x l IH]; intros HN Ha Hb E; [destruct Ha|]. cbn [map] in HN. inversion HN as [|? ? H1 H2]. subst.
  destruct Ha as [->|Ha], Hb as [->|Hb]; [reflexivity| | |exact (IH H2 Ha Hb E)].
  - exfalso. apply H1. rewrite E. apply in_map. exact Hb.
  - exfalso. apply H1. rewrite <- E. apply in_map. exact Ha.
Qed.
Lemma rover_console u ru n s ls hid its s' ev xs :
  uninit_ok u -> runinit_ok ru -> UReach u ru n s -> u_type s <> T_BASE -> Forall listener_ok ls -> u_ls s = map build ls ->
  NoDup (map lid ls) -> In (mkListener hid [(0x01, 0x3C)]) ls ->
  parsing_message (u_ubx s) = false -> items_ok (prev (u_ubx s)) its -> bytes_ok (items_bytes its) ->
  ublox_read s (items_bytes its) = Ok (s', ev) -> Forall2 rel_payload (frames_of 0x01 0x3C its) xs ->
  console rover_handler hid ev = texts (map rel_text xs).
Proof.
  intros Hu Hru HR HT Hls HL HN HIn HP Hok Hb E HX.
  destruct (nonbase_reach u ru n s (items_bytes its) Hu Hru HR HT Hb) as [(s1 & outs & E1 & E2)|[[E1 _]|E1]]; rewrite E in E1; try discriminate.
  assert (ev = map EvUbx (flat_map fst outs)) by congruence. subst ev. rewrite HL in E2.
  destruct (ureach_inv u ru n s Hu Hru HR) as (HI & _).
  destruct HI as (HI & _). pose proof (inv_idle (u_ubx s) HI HP) as HId. assert (HSm : small_counters (u_ubx s)) by apply HI.
  destruct (exec_items ls its (u_ubx s) Hls HId HSm Hok Hb) as [(s2 & E3 & _)|[_ E3]]; rewrite E3 in E2; [|discriminate].
  assert (outs = items_outs ls (inbuf (u_ubx s)) its) by congruence. subst outs.
  assert (HW : forall l, In l ls -> lid l = hid -> wants l 0x01 0x3C = true).
  { intros l Hl El. assert (l = mkListener hid [(0x01, 0x3C)]) as ->; [|reflexivity]. apply (NoDup_map_inj lid ls); try assumption. }
  destruct (console_items 0x01 0x3C show_rel hid ls HW HN) with (its := its) (mem := inbuf (u_ubx s)) as (ms & F & EC).
  { apply in_map_iff. exists (mkListener hid [(0x01, 0x3C)]). split; [reflexivity|exact HIn]. }
  change (console rover_handler hid) with (console (only 0x01 0x3C show_rel) hid). rewrite EC. f_equal.
  apply (texts_show show_rel rel_text rel_payload) with (pls := frames_of 0x01 0x3C its); [|exact F|exact HX].
  intros pl x rest (HO & ver & r0 & r1 & r2 & r3 & r4 & q1 & q2 & q3 & q4 & ->). apply show_rel_text. exact HO.
Qed.
Lemma base_console u ru n s ls hid ds s' ev xs :
  uninit_ok u -> runinit_ok ru -> UReach u ru n s -> u_type s = T_BASE -> Forall listener_ok ls -> u_ls s = map build ls ->
  NoDup (map lid ls) -> In (mkListener hid [(0x01, 0x07); (0x01, 0x3B)]) ls ->
  parsing_message (u_ubx s) = false -> rtcm_parsing (u_rtcm s) = false -> ditems_ok (prev (u_ubx s)) ds -> bytes_ok (ditems_bytes ds) ->
  ublox_read s (ditems_bytes ds) = Ok (s', ev) -> Forall2 svin_payload (dframes_of 0x01 0x3B ds) xs ->
  console base_handler hid ev =
  texts (map (fun x => svin_text x (100 * (s_x x mod 2 ^ 32) + s_hx x mod 256) (100 * (s_y x mod 2 ^ 32) + s_hy x mod 256) (100 * (s_z x mod 2 ^ 32) + s_hz x mod 256)) xs).
Proof.
  intros Hu Hru HR HT Hls HL HN HIn HP HP2 Hok Hb E HX.
  destruct (demux_reach u ru n s ls ds Hu Hru HR HT Hls HL HP HP2 Hok Hb) as [(s1 & E1 & _)|[_ E1]]; rewrite E in E1; [|discriminate].
  assert (EV : ev = ditems_events ls n (u_rtk s) (inbuf (u_ubx s)) ds) by congruence. rewrite EV.
  assert (HW : forall l, In l ls -> lid l = hid -> wants l 0x01 0x3B = true).
  { intros l Hl El. assert (l = mkListener hid [(0x01, 0x07); (0x01, 0x3B)]) as ->; [|reflexivity]. apply (NoDup_map_inj lid ls); try assumption. }
  destruct (console_ditems 0x01 0x3B show_svin hid ls n (u_rtk s) HW HN) with (ds := ds) (mem := inbuf (u_ubx s)) as (ms & F & EC).
  { apply in_map_iff. exists (mkListener hid [(0x01, 0x07); (0x01, 0x3B)]). split; [reflexivity|exact HIn]. }
  change (console base_handler hid) with (console (only 0x01 0x3B show_svin) hid). rewrite EC. f_equal.
  apply (texts_show show_svin _ svin_payload) with (pls := dframes_of 0x01 0x3B ds); [|exact F|exact HX].
  intros pl x rest (HO & ver & r0 & r1 & r2 & q & r3 & r4 & ->). rewrite <- app_assoc. apply show_svin_text. exact HO.
Qed.

(* ---------------------------------------------------------------- the status words of rover.cpp *)
Fixpoint has (c : ascii) (s : string) : bool := match s with EmptyString => false | String d r => Ascii.eqb c d || has c r end.
Lemma has_app c a b : has c (a ++ b) = has c a || has c b.
Proof. induction a as [|x a IH]; [reflexivity|]. cbn [append has]. rewrite IH, orb_assoc. reflexivity. Qed.
Lemma uint_no_x v : has "x" (NilEmpty.string_of_uint v) = false.
Proof. induction v as [|v IH|v IH|v IH|v IH|v IH|v IH|v IH|v IH|v IH|v IH]; [reflexivity|..]; exact IH. Qed.
Lemma dec_no_x z : has "x" (dec z) = false.
Proof. unfold dec. destruct (Z.to_int z) as [v|v]; [apply uint_no_x|]. cbn [NilEmpty.string_of_int has]. apply uint_no_x. Qed.
Lemma rel_no_x x : has "x" (rel_text x) = false.
Proof. unfold rel_text, rel_line. destruct (p_flags x =? 0); [reflexivity|]. rewrite !has_app, !dec_no_x. reflexivity. Qed.
Definition says (word text : string) : Prop := exists a b, text = a ++ word ++ b.
Lemma never_fixed x : ~ says "Fixed" (rel_text x).
Proof. intros (a & b & E). pose proof (rel_no_x x) as H. rewrite E, !has_app in H. change (has "x" "Fixed") with true in H. rewrite orb_true_r in H. discriminate. Qed.
Lemma says_floating x : says "Floating" (rel_text x) <-> p_flags x <> 0.
Proof.
  unfold rel_text. destruct (Z.eqb_spec (p_flags x) 0) as [E|E]; split; try contradiction; try tauto.
  - intros (a & b & H). assert (HF : has "F" ("No RTK " ++ newline) = true) by (rewrite H, !has_app; change (has "F" "Floating") with true; rewrite orb_true_r; reflexivity). discriminate HF.
  - intros _. exists "RTK, Moving Base , ", (" " ++ newline ++ "valid relative position components " ++ newline ++ rel_line x). reflexivity.
Qed.
Lemma says_moving x : says "Moving Base" (rel_text x) <-> p_flags x <> 0.
Proof.
  unfold rel_text. destruct (Z.eqb_spec (p_flags x) 0) as [E|E]; split; try contradiction; try tauto.
  - intros (a & b & H). assert (HF : has "M" ("No RTK " ++ newline) = true) by (rewrite H, !has_app; change (has "M" "Moving Base") with true; rewrite orb_true_r; reflexivity). discriminate HF.
  - intros _. exists "RTK, ", (" , Floating " ++ newline ++ "valid relative position components " ++ newline ++ rel_line x). reflexivity.
Qed.
Lemma says_no_rtk x : says "No RTK" (rel_text x) <-> p_flags x = 0.
Proof.
  unfold rel_text. destruct (Z.eqb_spec (p_flags x) 0) as [E|E]; split; try contradiction; try tauto.
  - intros _. exists "", (" " ++ newline). reflexivity.
  - intros (a & b & H). exfalso.
    (* the only N is in relNED, followed by E *)
    assert (D : forall z, has "N" (dec z) = false).
    { intros z. unfold dec. assert (U : forall v, has "N" (NilEmpty.string_of_uint v) = false) by (intros v; induction v as [|v IH|v IH|v IH|v IH|v IH|v IH|v IH|v IH|v IH|v IH]; [reflexivity|..]; exact IH).
      destruct (Z.to_int z) as [v|v]; [apply U|]. cbn [NilEmpty.string_of_int has]. apply U. }
    assert (C : forall p q, has "N" p = false -> forall r a, p ++ String "N" (String "E" q) = a ++ String "N" (String "o" r) -> has "N" q = true).
    { induction p as [|x0 p IH]; intros q Hp r a0 EQ.
      - destruct a0 as [|y a0]; [cbn in EQ; congruence|]. cbn [append] in EQ. assert (ET : String "E" q = a0 ++ String "N" (String "o" r)) by congruence.
        destruct a0 as [|z a0]; [cbn in ET; discriminate|]. cbn [append] in ET. assert (EU : q = a0 ++ String "N" (String "o" r)) by congruence.
        rewrite EU, has_app. cbn [has]. apply orb_true_r.
      - cbn [has] in Hp. apply orb_false_iff in Hp. destruct Hp as [Hx Hp]. destruct a0 as [|y a0]; cbn [append] in EQ.
        + assert (x0 = "N"%char) as -> by congruence. discriminate Hx.
        + apply (IH q Hp r a0). congruence. }
    unfold rel_line in H.
    pose (p := "RTK, Moving Base , Floating " ++ newline ++ "valid relative position components " ++ newline ++ "tow: " ++ dec (p_itow x / 1000) ++ " rel").
    pose (q := "D: " ++ dec (p_n x) ++ ", " ++ dec (p_e x) ++ ", " ++ dec (p_d x) ++ ", Distance: " ++ dec (p_len x) ++ newline).
    assert (HQ : has "N" q = true).
    { apply (C p q) with (r := (" RTK" ++ b)) (a := a); [unfold p; rewrite !has_app, D; reflexivity|].
      unfold p, q. rewrite !sapp_assoc. exact H. }
    unfold q in HQ. rewrite !has_app, !D in HQ. discriminate HQ.
Qed.
