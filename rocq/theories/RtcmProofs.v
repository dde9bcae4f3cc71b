From Verif Require Import Base ZBits BitSpec BitModel BitProofs CrcSpec CrcModel CrcProofs CrcErr RtcmModel RtcmSpec.

(* ------------------------------------------------ which bytes are pending *)
Inductive Rstage : Z -> list Z -> rstate -> Prop :=
| RG1 n : Rstage n [0xD3] R_GOT_START_FRAME
| RG2 n h1 : Rstage n [0xD3; h1] R_GOT_LENGTH1
| RG3 h1 h2 q : 1 <= rtcm_len h1 h2 -> Zlen q < rtcm_len h1 h2 -> Rstage (rtcm_len h1 h2) (0xD3 :: h1 :: h2 :: q) R_GOT_LENGTH2
| RG4 h1 h2 q : 1 <= rtcm_len h1 h2 -> Zlen q = rtcm_len h1 h2 -> Rstage (rtcm_len h1 h2) (0xD3 :: h1 :: h2 :: q) R_GOT_PAYLOAD
| RG5 h1 h2 q : 1 <= rtcm_len h1 h2 -> Zlen q = rtcm_len h1 h2 + 1 -> Rstage (rtcm_len h1 h2) (0xD3 :: h1 :: h2 :: q) R_GOT_CK_A
| RG6 h1 h2 q : 1 <= rtcm_len h1 h2 -> Zlen q = rtcm_len h1 h2 + 2 -> Rstage (rtcm_len h1 h2) (0xD3 :: h1 :: h2 :: q) R_GOT_CK_B.
Inductive RSt (s : rtcm) : list Z -> Prop :=
| RS_idle : length (r_buf s) = 1024%nat -> bytes_ok (r_buf s) -> r_st s = R_START -> r_start s = false -> RSt s []
| RS_part p rest stg : r_buf s = p ++ rest -> Zlen p + Zlen rest = 1024 -> bytes_ok (r_buf s) ->
    r_head s = Zlen p -> r_start s = true -> r_end s = false -> r_prev s = last p 0 -> r_st s = stg -> Rstage (r_plen s) p stg -> RSt s p.

Lemma lor_len h1 h2 : byte_ok h1 -> byte_ok h2 -> Z.lor (Z.shiftl (Z.land h1 3) 8) h2 = rtcm_len h1 h2.
Proof.
  unfold byte_ok. intros H1 H2. unfold rtcm_len. change 3 with (Z.ones 2). rewrite Z.land_ones by lia.
  rewrite lor_shiftl_low by (change (2 ^ 8) with 256; lia). change (2 ^ 2) with 4. change (2 ^ 8) with 256. lia.
Qed.
Lemma rtcm_len_range h1 h2 : byte_ok h2 -> 0 <= rtcm_len h1 h2 <= 1023.
Proof. unfold byte_ok, rtcm_len. lia. Qed.

Lemma u64_id x : 0 <= x < 2 ^ 64 -> u64 x = x.
Proof. intros H. unfold u64. apply Z.mod_small. exact H. Qed.

Lemma rpush_ok s p rest b : r_buf s = p ++ rest -> r_head s = Zlen p -> Zlen p + Zlen rest = 1024 -> bytes_ok (r_buf s) -> byte_ok b ->
  (Zlen p < 1024 -> exists rest', Zlen (p ++ [b]) + Zlen rest' = 1024 /\ bytes_ok ((p ++ [b]) ++ rest') /\
     rpush s b = Ok (rw_head (rw_buf s ((p ++ [b]) ++ rest')) (Zlen (p ++ [b])))) /\
  (1024 <= Zlen p -> rpush s b = UB UB_oob_write).
Proof.
  intros E1 E2 E3 Hb Hb0. unfold rpush. rewrite E1, E2. rewrite E1 in Hb. pose proof (Zlen_nonneg p). pose proof (Zlen_nonneg rest). split; intros H1.
  - destruct rest as [|x rest]; [change (@Zlen Z []) with 0 in E3; lia|]. rewrite aset_app. cbn [bind].
    exists rest. rewrite Zlen_app. change (Zlen [b]) with 1. rewrite Zlen_cons in E3.
    split; [lia|]. rewrite <- app_assoc. cbn [app]. split.
    + apply bytes_ok_app in Hb. destruct Hb as [Hb1 Hb2]. apply bytes_ok_app. split; [exact Hb1|].
      inversion Hb2; subst. constructor; assumption.
    + rewrite u64_id by (split; [lia|]; change (2 ^ 64) with 18446744073709551616; lia). reflexivity.
  - unfold aset. rewrite Zlen_app. replace ((0 <=? Zlen p) && (Zlen p <? Zlen p + Zlen rest)) with false by lia. reflexivity.
Qed.

(* the CRC comparison of check_crc is block_check *)
Lemma poly_field pre c rest : bytes_ok c -> poly_of c = field (pre ++ c ++ rest) (8 * Zlen pre) (8 * length c).
Proof.
  intros Hc. apply field_unique.
  - replace (Z.of_nat (8 * length c)) with (8 * Zlen c) by (unfold Zlen; lia). apply (be_range c Hc).
  - intros j Hj. replace (Z.of_nat (8 * length c)) with (8 * Zlen c) in * by (unfold Zlen; lia).
    change (poly_of c) with (be c). rewrite be_bit by (assumption || lia).
    replace (8 * Zlen pre + 8 * Zlen c - 1 - j) with (8 * Zlen pre + (8 * Zlen c - 1 - j)) by lia.
    rewrite bit_mid by lia. reflexivity.
Qed.

Lemma check_crc_ok s f rest n : r_buf s = f ++ rest -> bytes_ok (r_buf s) -> r_head s = Zlen f -> r_plen s = n -> Zlen f = n + 6 -> 0 <= n <= 1023 ->
  exists ok : bool, check_crc s = Ok ok /\ (ok = true <-> block_ok f).
Proof.
  intros E1 Hb E2 E3 E4 Hn. unfold check_crc. rewrite E1, E2, E3. rewrite E1 in Hb.
  pose proof (Zlen_nonneg rest).
  assert (Hf : bytes_ok f) by (apply bytes_ok_app in Hb; tauto).
  rewrite u64_id by (change (2 ^ 64) with 18446744073709551616; lia).
  rewrite getBit_ok by (assumption || lia). rewrite Zlen_app.
  replace ((Zlen f - 3) * 8 + 24 <=? 8 * (Zlen f + Zlen rest)) with true by lia. cbn [bind].
  set (m := firstn (length f - 3) f). set (c := skipn (length f - 3) f).
  assert (Ef : f = m ++ c) by (symmetry; apply firstn_skipn).
  assert (Hc3 : length c = 3%nat) by (unfold c; rewrite skipn_length; unfold Zlen in E4; lia).
  assert (Hm : Zlen m = n + 3) by (pose proof (f_equal Zlen Ef) as HH; rewrite Zlen_app in HH; unfold Zlen in HH at 3; rewrite Hc3 in HH; lia).
  assert (Hbm : bytes_ok m /\ bytes_ok c) by (apply bytes_ok_app; rewrite <- Ef; exact Hf).
  destruct Hbm as [Hbm Hbc].
  assert (HF : field (f ++ rest) ((Zlen f - 3) * 8) (Z.to_nat 24) = poly_of c).
  { rewrite (poly_field m c rest Hbc). rewrite app_assoc, <- Ef. rewrite Hc3. change (8 * 3)%nat with (Z.to_nat 24).
    f_equal. lia. }
  rewrite HF. destruct (crc24_spec m (c ++ rest) Hbm) as (r & EC & HC).
  rewrite app_assoc, <- Ef, Hm in EC. rewrite EC. cbn [bind].
  eexists. split; [reflexivity|]. rewrite <- block_check_iff by (assumption || (unfold Zlen in E4; lia)).
  unfold block_check. fold c. replace (Zlen f - 3) with (Zlen m) by lia.
  assert (EC' : crc24 f (Zlen m) = Ok r).
  { apply (crc24_iff m c r Hbm) in HC. rewrite <- Ef in HC. exact HC. }
  rewrite EC'. split.
  - intros H1. exists r. split; [reflexivity|]. lia.
  - intros (r' & H1 & H2). injection H1 as <-. lia.
Qed.

(* one byte from a known pending prefix *)
Inductive rstep_res (ls : list Z) (s : rtcm) (p : list Z) (b : Z) : Prop :=
| RR_more s' : rtcm_byte ls s b = Ok (s', []) -> RSt s' (p ++ [b]) -> r_new s' = r_new s -> rstep_res ls s p b
| RR_item s' it cs : rtcm_byte ls s b = Ok (s', cs) -> RSt s' [] -> ritem_ok it -> ritem_bytes it = p ++ [b] ->
    ritem_outs ls it = rquiet (length p) ++ [cs] -> r_new s' = r_new s || ritem_complete it -> rstep_res ls s p b
| RR_over : rtcm_byte ls s b = UB UB_oob_write -> 1024 <= Zlen p -> rstep_res ls s p b.

Lemma last_app1 {A} (l : list A) x d : last (l ++ [x]) d = x.
Proof. apply last_last. Qed.

Lemma shape_intro h1 h2 q : Zlen q = rtcm_len h1 h2 + 3 -> 0 <= rtcm_len h1 h2 -> rtcm_shape (rtcm_len h1 h2) (0xD3 :: h1 :: h2 :: q).
Proof.
  intros Hq Hn. exists h1, h2, (firstn (Z.to_nat (rtcm_len h1 h2)) q), (skipn (Z.to_nat (rtcm_len h1 h2)) q).
  split; [cbn [app]; rewrite firstn_skipn; reflexivity|]. split; [|split; [reflexivity|]].
  - unfold Zlen. rewrite firstn_length. unfold Zlen in Hq. lia.
  - rewrite skipn_length. unfold Zlen in Hq. lia.
Qed.

Ltac proj := cbn [rw_buf rw_new rw_mlen rw_head rw_plen rw_flags rw_prev rw_nerr rw_st rtcm_restart
  r_buf r_new r_mlen r_head r_plen r_start r_end r_prev r_nerr r_st is_ckc].

Lemma rstep ls s p b : RSt s p -> byte_ok b -> bytes_ok p -> rstep_res ls s p b.
Proof.
  intros HS Hb Hp. destruct HS as [Hlen Hby Hst Hstart | p rest stg EB EL Hby EH ES EE EP Est G].
  - destruct (Z.eqb_spec b 0xD3) as [->|Hne].
    + apply (RR_more _ _ _ _ (mkRtcm (0xD3 :: skipn 1 (r_buf s)) (r_new s) (r_mlen s) 1 0 true false 0xD3 (r_nerr s) R_GOT_START_FRAME)); [| |reflexivity].
      * unfold rtcm_byte, rtcm_switch. rewrite Hst. change (0xD3 =? R_START_BYTE) with true. cbv iota zeta.
        unfold rpush. proj. destruct (r_buf s) as [|x l] eqn:E; [discriminate|].
        change (aset (x :: l) 0 211) with (aset ([] ++ x :: l) (Zlen (@nil Z)) 211). rewrite aset_app. reflexivity.
      * destruct (r_buf s) as [|x l] eqn:E; [discriminate|]. inversion Hby; subst.
        apply (RS_part _ ([] ++ [0xD3]) l R_GOT_START_FRAME); try reflexivity; proj; cbn [skipn app].
        -- rewrite Zlen_cons. unfold Zlen. cbn [length] in *. lia.
        -- constructor; assumption.
        -- constructor.
    + apply (RR_item _ _ _ _ (rw_prev (rw_head s 0) b) (RNoise b) []).
      * unfold rtcm_byte, rtcm_switch. rewrite Hst. replace (b =? R_START_BYTE) with false by (symmetry; apply Z.eqb_neq; exact Hne).
        cbv zeta. cbn [bind]. proj. rewrite Hst. reflexivity.
      * constructor; proj; assumption.
      * exact Hne.
      * reflexivity.
      * reflexivity.
      * proj. cbn [ritem_complete]. rewrite orb_false_r. reflexivity.
  - rewrite <- Est in G; clear Est stg. destruct (rpush_ok s p rest b EB EH EL Hby Hb) as [P1 P2].
    destruct (Z.ltb_spec (Zlen p) 1024) as [Hlt|Hge].
    2:{ apply RR_over; [|lia]. unfold rtcm_byte, rtcm_switch. pose proof (P2 Hge) as E.
        inversion G; rewrite E; reflexivity. }
    destruct (P1 Hlt) as (rest' & EL' & Hby' & EPU). clear P1 P2.
    inversion G; subst p; match goal with H : _ = r_st s |- _ => symmetry in H; rename H into Est end; clear G; pose proof (Zlen_nonneg rest').
    + apply (RR_more _ _ _ _ (rw_prev (rw_st (rw_head (rw_buf s (([0xD3] ++ [b]) ++ rest')) (Zlen ([0xD3] ++ [b]))) R_GOT_LENGTH1) b)).
      * unfold rtcm_byte, rtcm_switch. rewrite Est, EPU. reflexivity.
      * eapply RS_part with (rest := rest'); try reflexivity; proj; try assumption. constructor.
      * reflexivity.
    + inversion Hp as [|? ? _ Hp1]; subst. inversion Hp1 as [|? ? Hh1 _]; subst.
      assert (EL2 : Z.lor (Z.shiftl (Z.land (r_prev s) 3) 8) b = rtcm_len h1 b).
      { rewrite EP. cbn [last]. apply lor_len; assumption. }
      pose proof (rtcm_len_range h1 b Hb).
      destruct (Z.eqb_spec (rtcm_len h1 b) 0) as [Hz|Hnz].
      * assert (b = 0 /\ h1 mod 4 = 0) as [Hb0 Hm] by (unfold rtcm_len, byte_ok in *; lia). 
        eapply (RR_item _ _ _ _ _ (REmpty h1) []).
        -- unfold rtcm_byte, rtcm_switch. rewrite Est, EPU. cbn [bind]. cbv zeta. proj. rewrite EL2, Hz.
           change ((R_BUFFER_SIZE <? 0) || (0 =? 0)) with true. cbn [bind]. proj. reflexivity.
        -- constructor; proj; try reflexivity; [unfold Zlen in EL'; rewrite app_length; lia|exact Hby'].
        -- exact Hm.
        -- subst b. reflexivity.
        -- reflexivity.
        -- proj. cbn [ritem_complete]. rewrite orb_false_r. reflexivity.
      * eapply RR_more.
        -- unfold rtcm_byte, rtcm_switch. rewrite Est, EPU. cbn [bind]. cbv zeta. proj. rewrite EL2.
           replace ((R_BUFFER_SIZE <? rtcm_len h1 b) || (rtcm_len h1 b =? 0)) with false by (unfold R_BUFFER_SIZE; lia).
           cbn [bind]. proj. reflexivity.
        -- eapply RS_part with (rest := rest'); try reflexivity; proj; try assumption.
           apply (RG3 h1 b []); [lia|change (@Zlen Z []) with 0; lia].
        -- reflexivity.
    + (* payload *)
      inversion Hp as [|? ? _ Hp1]; subst. inversion Hp1 as [|? ? Hh1 Hp2]; subst. inversion Hp2 as [|? ? Hh2 Hp3]; subst.
      pose proof (rtcm_len_range h1 h2 Hh2).
      rename H0 into Hn. pose proof (Zlen_nonneg q).
      assert (EZ : Zlen ((0xD3 :: h1 :: h2 :: q) ++ [b]) - 3 = Zlen q + 1).
      { rewrite Zlen_app, !Zlen_cons. change (@Zlen Z []) with 0. lia. }
      assert (EU : u64 (Zlen ((0xD3 :: h1 :: h2 :: q) ++ [b]) - 3) = Zlen q + 1).
      { rewrite EZ. apply u64_id. change (2 ^ 64) with 18446744073709551616. lia. }
      assert (EQ : Zlen (q ++ [b]) = Zlen q + 1) by (rewrite Zlen_app; reflexivity).
      destruct (Z.eqb_spec (Zlen q + 1) (rtcm_len h1 h2)) as [Heq|Hneq].
      * eapply RR_more.
        -- unfold rtcm_byte, rtcm_switch. rewrite Est, EPU. cbn [bind]. cbv zeta. proj. rewrite EU. rewrite <- H.
           replace (Zlen q + 1 =? rtcm_len h1 h2) with true by lia. proj. rewrite EU.
           replace (r_plen s <? Zlen q + 1) with false by lia. cbn [bind]. proj. reflexivity.
        -- eapply RS_part with (rest := rest'); try reflexivity; proj; try assumption; [symmetry; apply last_app1|].
           rewrite <- H. apply (RG4 h1 h2 (q ++ [b])); lia.
        -- reflexivity.
      * eapply RR_more.
        -- unfold rtcm_byte, rtcm_switch. rewrite Est, EPU. cbn [bind]. cbv zeta. proj. rewrite EU. rewrite <- H.
           replace (Zlen q + 1 =? rtcm_len h1 h2) with false by lia. proj. rewrite EU.
           replace (r_plen s <? Zlen q + 1) with false by lia. cbn [bind]. proj. rewrite Est. reflexivity.
        -- eapply RS_part with (rest := rest'); try reflexivity; proj; try assumption; [symmetry; apply last_app1|].
           rewrite <- H, Est. apply (RG3 h1 h2 (q ++ [b])); lia.
        -- reflexivity.
    + eapply RR_more.
      * unfold rtcm_byte, rtcm_switch. rewrite Est, EPU. reflexivity.
      * eapply RS_part with (rest := rest'); try reflexivity; proj; try assumption; [symmetry; apply last_app1|].
        rewrite <- H. apply (RG5 h1 h2 (q ++ [b])); [lia|]. rewrite Zlen_app. change (Zlen [b]) with 1. lia.
      * reflexivity.
    + eapply RR_more.
      * unfold rtcm_byte, rtcm_switch. rewrite Est, EPU. reflexivity.
      * eapply RS_part with (rest := rest'); try reflexivity; proj; try assumption; [symmetry; apply last_app1|].
        rewrite <- H. apply (RG6 h1 h2 (q ++ [b])); [lia|]. rewrite Zlen_app. change (Zlen [b]) with 1. lia.
      * reflexivity.
    + inversion Hp as [|? ? _ Hp1]; subst. inversion Hp1 as [|? ? Hh1 Hp2]; subst. inversion Hp2 as [|? ? Hh2 Hp3]; subst.
      set (f := (0xD3 :: h1 :: h2 :: q) ++ [b]) in *.
      assert (Ef : f = 0xD3 :: h1 :: h2 :: (q ++ [b])) by reflexivity.
      assert (EF : Zlen f = rtcm_len h1 h2 + 6).
      { rewrite Ef, !Zlen_cons, Zlen_app. change (Zlen [b]) with 1. lia. }
      assert (Hsh : rtcm_shape (rtcm_len h1 h2) f).
      { rewrite Ef. apply shape_intro; [|lia]. rewrite Zlen_app. change (Zlen [b]) with 1. lia. }
      set (s1 := rw_flags (rw_st (rw_st (rw_head (rw_buf s (f ++ rest')) (Zlen f)) R_GOT_CK_C) R_START) false true).
      set (s2 := rw_mlen (rw_new s1 true) (r_head s1)).
      destruct (check_crc_ok s2 f rest' (rtcm_len h1 h2)) as (ok & EK & HK); try reflexivity; try assumption; [symmetry; assumption|lia|].
      assert (ES1 : rtcm_byte ls s b = Ok (rw_prev s2 b, if ok then map (fun l => (l, f)) ls else [])).
      { unfold rtcm_byte, rtcm_switch. rewrite Est, EPU. cbn [bind]. proj.
        replace (R_BUFFER_SIZE <? Zlen f) with false by (unfold R_BUFFER_SIZE; lia). cbn [bind]. proj.
        unfold rtcm_decode. fold s1. cbv zeta. fold s2. rewrite EK. cbn [bind].
        replace (firstn (Z.to_nat (r_head s2)) (r_buf s2)) with f; [reflexivity|].
        unfold s2, s1. proj. unfold Zlen. rewrite Nat2Z.id, firstn_app, firstn_all, Nat.sub_diag.
        cbn [firstn]. rewrite app_nil_r. reflexivity. }
      assert (HI : RSt (rw_prev s2 b) []).
      { constructor; unfold s2, s1; proj; try reflexivity; [unfold Zlen in EL'; rewrite app_length; lia|exact Hby']. }
      assert (Hlf : (length f - 1)%nat = length (0xD3 :: h1 :: h2 :: q)) by (unfold f; rewrite app_length; cbn [length]; lia).
      destruct ok.
      * apply (RR_item _ _ _ _ _ (RGood f) _ ES1 HI).
        -- exists (rtcm_len h1 h2). split; [lia|]. split; [exact Hsh|]. apply HK. reflexivity.
        -- reflexivity.
        -- cbn [ritem_outs]. rewrite Hlf. reflexivity.
        -- cbn [ritem_complete]. rewrite orb_true_r. reflexivity.
      * apply (RR_item _ _ _ _ _ (RBad f) _ ES1 HI).
        -- exists (rtcm_len h1 h2). split; [lia|]. split; [exact Hsh|]. intros HB. apply HK in HB. discriminate.
        -- reflexivity.
        -- cbn [ritem_outs ritem_bytes]. unfold rquiet. rewrite <- Hlf.
           replace (length f) with ((length f - 1) + 1)%nat at 1 by (unfold Zlen in EF; lia). apply repeat_app.
        -- cbn [ritem_complete]. rewrite orb_true_r. reflexivity.
Qed.

Lemma rst_tail s p : RSt s p -> rtail_ok p.
Proof.
  intros H. destruct H as [|p rest stg EB EL Hby EH ES EE EP Est G]; [left; reflexivity|]. right.
  inversion G; subst; eexists; (split; [reflexivity|]);
    [left; reflexivity|left; reflexivity|right..]; exists h1, h2, q; (split; [reflexivity|]); lia.
Qed.
Lemma rst_over_tail s p r : RSt s p -> bytes_ok p -> 1024 <= Zlen p -> rtail_ok (p ++ r).
Proof.
  intros H Hb HL. destruct H as [|p rest stg EB EL Hby EH ES EE EP Est G]; [change (@Zlen Z []) with 0 in HL; lia|]. right.
  inversion G; subst; rewrite ?Zlen_cons in HL; change (@Zlen Z []) with 0 in HL; try lia;
    (eexists; split; [cbn [app]; reflexivity|right; exists h1, h2, (q ++ r); split; [reflexivity|]; lia]).
Qed.

Lemma rquiet_S n o : rquiet n ++ [] :: o = rquiet (S n) ++ o.
Proof. induction n as [|n IH]; [reflexivity|]. cbn [rquiet repeat app]. f_equal. exact IH. Qed.

(* the reader computes the segmentation *)
Lemma rsegment ls : forall bs s p, RSt s p -> bytes_ok p -> bytes_ok bs ->
  exists its t, p ++ bs = ritems_bytes its ++ t /\ Forall ritem_ok its /\ rtail_ok t /\
    ((exists s' outs, rtcm_feed ls s bs = Ok (s', outs) /\ RSt s' t /\
       rquiet (length p) ++ outs = ritems_outs ls its ++ rquiet (length t) /\
       r_new s' = r_new s || existsb ritem_complete its)
     \/ (1024 < Zlen t /\ rtcm_feed ls s bs = UB UB_oob_write)).
Proof.
  induction bs as [|b r IH]; intros s p HS Hp Hbs.
  - exists [], p. rewrite app_nil_r. split; [reflexivity|]. split; [constructor|]. split; [eapply rst_tail; eassumption|].
    left. exists s, []. split; [reflexivity|]. split; [exact HS|]. split; [rewrite app_nil_r; reflexivity|]. cbn. rewrite orb_false_r. reflexivity.
  - inversion Hbs as [|? ? Hb Hr]; subst. destruct (rstep ls s p b HS Hb Hp) as [s1 E1 HS1 HN1|s1 it cs E1 HS1 Hit EB EO HN1|E1 HL].
    + destruct (IH s1 (p ++ [b]) HS1) as (its & t & E & Hok & Ht & HC); [apply bytes_ok_app; split; [exact Hp|constructor; [exact Hb|constructor]]|exact Hr|].
      exists its, t. rewrite <- app_assoc in E. split; [exact E|]. split; [exact Hok|]. split; [exact Ht|].
      destruct HC as [(s' & outs & EF & HS' & EO & HN)|[HL EF]].
      * left. exists s', ([] :: outs). cbn [rtcm_feed]. rewrite E1. cbn [bind]. rewrite EF. cbn [bind].
        split; [reflexivity|]. split; [exact HS'|]. split.
        -- rewrite rquiet_S. rewrite app_length in EO. cbn [length] in EO. rewrite Nat.add_1_r in EO. exact EO.
        -- rewrite HN, HN1. reflexivity.
      * right. split; [exact HL|]. cbn [rtcm_feed]. rewrite E1. cbn [bind]. rewrite EF. reflexivity.
    + destruct (IH s1 [] HS1) as (its & t & E & Hok & Ht & HC); [constructor|exact Hr|].
      exists (it :: its), t. split; [cbn [ritems_bytes flat_map]; rewrite EB, <- !app_assoc; cbn [app] in *; fold (ritems_bytes its); rewrite <- E; reflexivity|].
      split; [constructor; assumption|]. split; [exact Ht|].
      destruct HC as [(s' & outs & EF & HS' & EO' & HN)|[HL EF]].
      * left. exists s', (cs :: outs). cbn [rtcm_feed]. rewrite E1. cbn [bind]. rewrite EF. cbn [bind].
        split; [reflexivity|]. split; [exact HS'|]. split.
        -- cbn [ritems_outs flat_map]. rewrite EO, <- !app_assoc. cbn [app] in *. fold (ritems_outs ls its).
           cbn [length rquiet repeat app] in EO'. rewrite <- EO'. reflexivity.
        -- rewrite HN, HN1. cbn [existsb]. rewrite orb_assoc. reflexivity.
      * right. split; [exact HL|]. cbn [rtcm_feed]. rewrite E1. cbn [bind]. rewrite EF. reflexivity.
    + exists [], (p ++ b :: r). split; [reflexivity|]. split; [constructor|]. split; [eapply rst_over_tail; eassumption|].
      right. split; [rewrite Zlen_app, Zlen_cons; pose proof (Zlen_nonneg r); lia|]. cbn [rtcm_feed]. rewrite E1. reflexivity.
Qed.
