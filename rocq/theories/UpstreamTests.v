(* Model validation, not properties: the unit tests of the repository (src/test/test_time.cpp, test_bit_tools.cpp, test_eph.cpp),
   replayed on the model.  Every EXPECT of those files is one conjunct here, with the same literals; EXPECT_NEAR compares exact rational values.
   (This file is generated from the test sources.) *)
From Coq Require Import QArith Qabs.
From Verif Require Import Base BitModel UtcModel Dbl UtcDouble NavModel.
Local Open Scope Z_scope.

Definition ok {A} (o : outcome A) (p : A -> bool) : bool := match o with Ok a => p a | UB _ => false end.
(* |x - n/10^k| <= tn/10^tk *)
Definition near (x : dbl) (n k tn tk : Z) : bool :=
  Qle_bool (Qabs (Qminus (dQ x) (Qdiv (inject_Z n) (inject_Z (10 ^ k))))) (Qdiv (inject_Z tn) (inject_Z (10 ^ tk))).
(* the uint32_t words of a test, as the bytes in memory *)
Definition words (l : list Z) : list Z := flat_map le32 l.


(* ---------------------------------------------------------------- test_time.cpp *)
Definition cmp6 (t1 t2 : utc) : list bool := [utc_gt t2 t1; utc_lt t1 t2; utc_lt t2 t1; utc_gt t1 t2; utc_eq t2 t1; utc_eq t1 t2].
(* CompareSec, CompareNsec, Equal: test_time.cpp:28-65 *)
Example t_CompareSec : cmp6 (mkUtc 1564005746 0) (mkUtc 1564005748 0) = [true; true; false; false; false; false].
Proof. reflexivity. Qed.
Example t_CompareNsec : cmp6 (mkUtc 1564005746 1234) (mkUtc 1564005746 1235) = [true; true; false; false; false; false].
Proof. reflexivity. Qed.
Example t_Equal : cmp6 (mkUtc 1564005746 1234) (mkUtc 1564005746 1234) = [false; false; false; false; true; true].
Proof. reflexivity. Qed.
(* the doubles nearest to 0.1, 3.6, 18.0, 17.0 *)
Definition d_01 : dbl := (mkD 7205759403792794 (-56)).  Definition d_36 : dbl := (mkD 8106479329266893 (-51)).
Definition d_18 : dbl := (mkD 5066549580791808 (-48)).  Definition d_17 : dbl := (mkD 4785074604081152 (-48)).
Definition both (f g : utc -> dbl -> outcome utc) (t : utc) (x : dbl) (s n : Z) : bool :=
  ok (f t x) (fun t2 => ok (g t x) (fun t => (sec t2 =? s) && (nsec t2 =? n) && utc_eq t2 t)).
(* Plus, PlusWrap, Minus, MinusWrap: test_time.cpp:67-109 *)
Example t_Plus : both utc_plus_d utc_pluseq_d (mkUtc 1564005746 1234) d_01 1564005746 100001234 = true.
Proof. vm_compute. reflexivity. Qed.
Example t_PlusWrap : both utc_plus_d utc_pluseq_d (mkUtc 1564005746 500000000) d_36 1564005750 100000000 = true.
Proof. vm_compute. reflexivity. Qed.
Example t_Minus : both utc_minus_d utc_minuseq_d (mkUtc 1564005746 500000000) d_01 1564005746 400000000 = true.
Proof. vm_compute. reflexivity. Qed.
Example t_MinusWrap : both utc_minus_d utc_minuseq_d (mkUtc 1564005746 500000000) d_36 1564005742 900000000 = true.
Proof. vm_compute. reflexivity. Qed.
(* AddWrap, SubtractWrap: test_time.cpp:111-133 *)
Example t_AddWrap : utc_add (mkUtc 1564005746 500000000) (mkUtc 3 600000000) = Ok (mkUtc 1564005750 100000000).
Proof. reflexivity. Qed.
Example t_SubtractWrap : utc_sub (mkUtc 1564005746 500000000) (mkUtc 3 600000000) = Ok (mkUtc 1564005742 900000000).
Proof. reflexivity. Qed.
(* getGPSWeek, getGlonassWeek, getGlonassDayOfWeek: test_time.cpp:135-158 *)
Example t_getGPSWeek :
  (let* t := utc_plus_d (mkUtc 1563667200 0) d_18 in GpsWeek t) = Ok 2063 /\
  (let* t := utc_plus_d (mkUtc 1563667200 0) d_17 in GpsWeek t) = Ok 2062.
Proof. vm_compute. split; reflexivity. Qed.
Example t_getGlonassWeek : (let* t := utc_minus_int (mkUtc 1564012800 0) (3 * 3600) in GlonassWeek t) = Ok 2586.
Proof. vm_compute. reflexivity. Qed.
Example t_getGlonassDayOfWeek : (let* t := utc_minus_int (mkUtc 1563667200 0) (3 * 3600) in GlonassDayOfWeek t) = Ok 3.
Proof. vm_compute. reflexivity. Qed.
(* GPSvsUTC: test_time.cpp:160-180 *)
Example t_GPSvsUTC :
  (let* t := utc_pluseq_d (mkUtc 1563667200 0) d_18 in GpsWeek t) = Ok 2063 /\
  fromGPS 2063 0 = utc_pluseq_d (mkUtc 1563667200 0) d_18 /\
  fromGPS 2063 ((SEC_IN_WEEK - 1) * 1000) = utc_pluseq_d (mkUtc 1564271999 0) d_18.
Proof. vm_compute. repeat split; reflexivity. Qed.
(* GlonassvsUTC: test_time.cpp:182-205 *)
Example t_GlonassvsUTC :
  (let* t := utc_minus_int (mkUtc 1564012800 0) (3 * 3600) in GlonassWeek t) = Ok 2586 /\
  fromGlonass 2586 0 = utc_minus_int (mkUtc 1564012800 0) (3 * 3600) /\
  (let* t := utc_minus_int (mkUtc 1564012799 0) (3 * 3600) in GlonassWeek t) = Ok 2585 /\
  fromGlonass 2585 ((SEC_IN_WEEK - 1) * 1000) = utc_minus_int (mkUtc 1564012799 0) (3 * 3600).
Proof. vm_compute. repeat split; reflexivity. Qed.
(* GlonassFromTOD: test_time.cpp:207-230 *)
Example t_GlonassFromTOD :
  fromGlonassTimeOfDay (mkUtc 1563885000 0) ((15 * 3600 + 1800) * 1000) = Ok (mkUtc 1563885000 0) /\
  (let* t2 := utc_minus_int (mkUtc 1564012800 0) (3 * 3600) in
   let* r := utc_minus_int t2 10 in
   let* g := fromGlonassTimeOfDay r (24 * 3600 * 1000) in Ok (utc_eq g t2)) = Ok true /\
  (let* t2 := utc_minus_int (mkUtc 1564012799 0) (3 * 3600) in
   let* g := fromGlonassTimeOfDay t2 ((24 * 3600 - 1) * 1000) in Ok (utc_eq g t2)) = Ok true.
Proof. vm_compute. repeat split; reflexivity. Qed.


(* ---------------------------------------------------------------- test_bit_tools.cpp *)
(* GetBits.Aligned: test_bit_tools.cpp:5 *)
Example b_GetBits_Aligned : (let* b := getBit 16 [18; 52; 69; 86; 103; 120; 137; 154; 171; 188; 205; 222; 239] 0 in Ok (u16 b)) = Ok (4660).
Proof. vm_compute. reflexivity. Qed.
(* GetBits.HalfAlignedEnd: test_bit_tools.cpp:12 *)
Example b_GetBits_HalfAlignedEnd : (let* b := getBit 12 [18; 52; 86; 120; 154; 188; 205; 239] 0 in Ok (u16 b)) = Ok (291).
Proof. vm_compute. reflexivity. Qed.
(* GetBits.HalfAlignedStart: test_bit_tools.cpp:20 *)
Example b_GetBits_HalfAlignedStart : (let* b := getBit 12 [18; 52; 86; 120; 154; 188; 205; 239] 4 in Ok (u16 b)) = Ok (564).
Proof. vm_compute. reflexivity. Qed.
(* GetBits.HalfAlignedBoth: test_bit_tools.cpp:28 *)
Example b_GetBits_HalfAlignedBoth : (let* b := getBit 16 [18; 52; 86; 120; 154; 188; 205; 239] 4 in Ok (u16 b)) = Ok (9029).
Proof. vm_compute. reflexivity. Qed.
(* GetBits.MisAlignedEnd: test_bit_tools.cpp:36 *)
Example b_GetBits_MisAlignedEnd : (let* b := getBit 13 [18; 52; 86; 120; 154; 188; 205; 239] 24 in Ok (u16 b)) = Ok (3859).
Proof. vm_compute. reflexivity. Qed.
(* GetBits.MisAlignedStart: test_bit_tools.cpp:44 *)
Example b_GetBits_MisAlignedStart : (let* b := getBit 17 [18; 52; 86; 120; 154; 188; 239] 39 in Ok (u16 b)) = Ok (48367).
Proof. vm_compute. reflexivity. Qed.
(* GetBits.MisAlignedEndLong: test_bit_tools.cpp:52 *)
Example b_GetBits_MisAlignedEndLong : (let* b := getBit 17 [18; 52; 86; 120; 154; 188; 239] 32 in Ok (u16 b)) = Ok (13689).
Proof. vm_compute. reflexivity. Qed.
(* GetBits.MisAlignedStartEnd: test_bit_tools.cpp:60 *)
Example b_GetBits_MisAlignedStartEnd : (let* b := getBit 17 [18; 52; 86; 120; 154; 188; 239] 29 in Ok (u16 b)) = Ok (9903).
Proof. vm_compute. reflexivity. Qed.
(* SetBits.Aligned: test_bit_tools.cpp:68 *)
Example b_SetBits_Aligned : (let* b := setBit 16 [0; 0; 0; 0; 0; 0; 0; 0] 0 61733 in Ok (of_le (firstn 4 b))) = Ok 9713.
Proof. vm_compute. reflexivity. Qed.
(* SetBits.HalfAlignedStart: test_bit_tools.cpp:79 *)
Example b_SetBits_HalfAlignedStart : (let* b := setBit 16 [0; 0; 0; 0; 0; 0; 0; 0] 4 61733 in Ok (of_le (firstn 4 b))) = Ok 5247503.
Proof. vm_compute. reflexivity. Qed.
(* SetBits.HalfAlignedEnd: test_bit_tools.cpp:90 *)
Example b_SetBits_HalfAlignedEnd : (let* b := setBit 20 [0; 0; 0; 0; 0; 0; 0; 0] 0 15803831 in Ok (of_le (firstn 4 b))) = Ok 7363346.
Proof. vm_compute. reflexivity. Qed.
(* SetBits.HalfAlignedBoth: test_bit_tools.cpp:101 *)
Example b_SetBits_HalfAlignedBoth : (let* b := setBit 32 [0; 0; 0; 0; 0; 0; 0; 0] 4 4045780942 in Ok (of_le (firstn 4 b))) = Ok 2086343183.
Proof. vm_compute. reflexivity. Qed.
(* SetBits.UnalignedBoth: test_bit_tools.cpp:112 *)
Example b_SetBits_UnalignedBoth : (let* b := setBit 32 [0; 0; 0; 0; 0; 0; 0; 0] 3 4045780942 in Ok (of_le (firstn 4 b))) = Ok 4189463582.
Proof. vm_compute. reflexivity. Qed.
(* GetBitsSigned.Aligned: test_bit_tools.cpp:123 *)
Example b_GetBitsSigned_Aligned : (let* b := getBitS 16 [18; 52; 69; 86; 103; 120; 137; 154; 171; 188; 205; 222; 239] 48 in Ok (i16 b)) = Ok (-30310).
Proof. vm_compute. reflexivity. Qed.
(* GetBitsSigned.HalfAlignedStart: test_bit_tools.cpp:130 *)
Example b_GetBitsSigned_HalfAlignedStart : (let* b := getBitS 20 [18; 52; 69; 86; 103; 120; 137; 154; 171; 188; 205; 222; 239] 44 in Ok (i32 b)) = Ok (-489062).
Proof. vm_compute. reflexivity. Qed.
(* GetBitsSigned.HalfAlignedEnd: test_bit_tools.cpp:137 *)
Example b_GetBitsSigned_HalfAlignedEnd : (let* b := getBitS 20 [18; 52; 69; 86; 103; 120; 137; 154; 171; 188; 205; 222; 239] 48 in Ok (i32 b)) = Ok (-484950).
Proof. vm_compute. reflexivity. Qed.
(* GetBitsSigned.MisalignedBoth: test_bit_tools.cpp:144 *)
Example b_GetBitsSigned_MisalignedBoth : (let* b := getBitS 31 [18; 52; 69; 86; 103; 120; 137; 154; 171; 188; 205; 222; 239] 41 in Ok (i32 b)) = Ok (-125199701).
Proof. vm_compute. reflexivity. Qed.
(* GetBitsSigned.RealData: test_bit_tools.cpp:151 *)
Example b_GetBitsSigned_RealData : (let* b := getBitS 32 [139; 0; 56; 193; 43; 175; 0; 183; 96; 28; 94; 143; 255; 202; 38; 172; 50; 50; 42; 159; 197; 211; 122; 1; 255; 167; 76; 78; 251; 104] 160 in Ok (i32 b)) = Ok (-975996415).
Proof. vm_compute. reflexivity. Qed.

(* ---------------------------------------------------------------- test_eph.cpp *)
(* ParseGPS: test_eph.cpp:42-105.  junk: decodeGPS's uninitialised buffer *)
Definition gps_msgs : list (list Z) :=
  [[583011889; 2957700083; 3004426; 2266473447; 1072859527; 722242703; 178778479; 886997070; 3219772201; 2478758435];
   [583011889; 2957708491; 510110662; 3026190047; 183760411; 188664213; 2945178565; 2825224581; 2170189887; 341339356];
   [583011889; 2957716803; 293790027; 151352722; 3209789447; 675489101; 2539627560; 889641953; 2458290798; 3221220992];
   [583011889; 2957723975; 14942248; 385665670; 2591562458; 2397657115; 940833450; 2477029773; 2147487570; 3138187288];
   [583011889; 2957732399; 331306075; 227530679; 174075878; 3209872151; 590281469; 2161354861; 2204470556; 611950563];
   [583011889; 2957740819; 3004426; 2266473447; 1072859527; 722242703; 178778479; 886997070; 3219772201; 2478758435]].
Definition gps_expect (e : eph) : bool :=
  (ei e Fsat =? 21) &&
  (ei e FgnssID =? 0) &&
  (ei e Fiode =? 78) &&
  (ei e Fiodc =? 78) &&
  (ei e Fura =? 0) &&
  (ei e Fhealth =? 0) &&
  (ei e Fweek =? 2062) &&
  (ei e FcodeL2 =? 1) &&
  (ei e Falert =? 0) &&
  (sec (e_toe e) =? 1563660018) &&
  (nsec (e_toe e) =? 0) &&
  (sec (e_toc e) =? 1563660018) &&
  (nsec (e_toc e) =? 0) &&
  near (ed e Fsqrta) (515369834136962269294599) 20 1 6 &&
  near (ed e Fecc) (24511) 6 1 6 &&
  near (ed e Fi0) (949169) 6 1 6 &&
  near (ed e Fomega0) (2358914) 6 1 6 &&
  near (ed e Fw) (-1427803) 6 1 6 &&
  near (ed e Fw) (-1427803) 6 1 6 &&
  near (ed e Fm0) (2311086) 6 1 6 &&
  near (ed e Fdeltan) (0) 6 1 6 &&
  near (ed e Fomegadot) (0) 6 1 6 &&
  near (ed e Fidot) (0) 6 1 6 &&
  near (ed e Fcrc) (340968750) 6 1 6 &&
  near (ed e Fcrs) (-21468750) 6 1 6 &&
  near (ed e Fcuc) (-1) 6 1 6 &&
  near (ed e Fcus) (2) 6 1 6 &&
  near (ed e Fcic) (0) 6 1 6 &&
  near (ed e Fcis) (0) 6 1 6 &&
  near (d_of_int (ei e Ftoes)) (597600000000) 6 1 6 &&
  (ei e Ffit =? 4) &&
  near (ed e Faf0) (-151) 6 1 6 &&
  near (ed e Faf1) (0) 6 1 6 &&
  near (ed e Faf2) (0) 6 1 6 &&
  near (ed e Ftgd0) (0) 6 1 6 &&
  near (ed e Ftgd1) (0) 6 1 6 &&
  near (ed e Ftgd2) (0) 6 1 6 &&
  near (ed e Ftgd3) (0) 6 1 6.
Fixpoint gps_feed (ms : list (list Z)) (e : eph) (out : list eph) : outcome (list eph) :=
  match ms with
  | [] => Ok out
  | m :: r => let* x := decodeGPS (repeat 170 30) (words m) e in
              let '(e, c, _) := x in gps_feed r e (out ++ match c with Some k => [k] | None => [] end)
  end.
(* finished, and every call of the callback met the expectations *)
Example e_ParseGPS : ok (gps_feed gps_msgs (seti Fsat 21 eph_new) []) (fun out => negb (Nat.eqb (length out) 0) && forallb gps_expect out) = true.
Proof. vm_compute. reflexivity. Qed.

(* ParseGLONASS: test_eph.cpp:107-236; 86 rows of five words, laid out contiguously (the fourth data word of a message is the next row's first). *)
Definition glo_msgs : list (list Z) :=
  [[218104838; 133892; 2055018725; 701502215; 2894356480];
   [218104838; 133892; 283050207; 1231369442; 2068672512];
   [218104838; 133892; 469807484; 1416105076; 1295837184];
   [218104838; 133892; 614787763; 4916; 1150134272];
   [218104838; 133892; 756088832; 6144; 41160704];
   [218104838; 133892; 889985252; 2533387800; 256262144];
   [218104838; 133892; 1016361740; 3811885150; 370204672];
   [218104838; 133892; 1158989506; 3991967952; 1003102208];
   [218104838; 133892; 1321368518; 1572126684; 365207552];
   [218104838; 133892; 1587909731; 2998190052; 374802432];
   [218104838; 133892; 1696900489; 1535150916; 422082560];
   [218104838; 133892; 1853216787; 2058665936; 174548992];
   [218104838; 133892; 1965822373; 3609241552; 334145536];
   [218104838; 133892; 2126940329; 1941225476; 168992768];
   [218104838; 133892; 140454924; 2075411836; 50718720];
   [218104838; 133892; 469807484; 1416105076; 1295837184];
   [218104838; 133892; 756088832; 6144; 41160704];
   [218104838; 133892; 892621767; 4215303284; 266336256];
   [218104838; 1040321284; 997615957; 1869922256; 331401216];
   [218104838; 133892; 1161301475; 2718992948; 848902144];
   [218104838; 133892; 1318851054; 4210343891; 307658752];
   [218104838; 133892; 1430522111; 3026225892; 1090314240];
   [218104838; 133892; 1578230405; 2964635639; 308353024];
   [218104838; 133892; 1699490670; 1865441016; 868597760];
   [218104838; 133892; 1968446855; 1361101156; 1044064256];
   [218104838; 133892; 2073670544; 938786859; 93724672];
   [218104838; 133892; 140456972; 2075411836; 50731008];
   [218104838; 133892; 283050207; 1231369442; 2068672512];
   [218104838; 133892; 469807484; 1416105076; 1295837184];
   [218104838; 133892; 756088832; 6144; 41160704];
   [218104838; 133892; 894969767; 2590012208; 678209536];
   [218104838; 2483161860; 1062734900; 4277452780; 67313664];
   [218104838; 133892; 1164187588; 901816812; 616988672];
   [218104838; 133892; 1301630154; 2876555231; 100081664];
   [218104838; 133892; 1432882188; 3176176828; 287569920];
   [218104838; 133892; 1517652091; 3375677522; 266645504];
   [218104838; 133892; 1702106383; 3880814692; 351510528];
   [218104838; 133892; 1859041559; 3837050867; 227708928];
   [218104838; 133892; 1971074861; 2075171768; 455972864];
   [218104838; 133892; 2115377587; 2843000814; 134553600];
   [218104838; 133892; 140459020; 2075411836; 50585600];
   [218104838; 133892; 469807484; 1416105076; 1295837184];
   [218104838; 133892; 897844045; 2095085656; 1353746432];
   [218104838; 133892; 945343059; 1316274054; 133197824];
   [218104838; 133892; 1166835788; 2372982720; 419606528];
   [218104838; 133892; 1340197556; 70565876; 2521225216];
   [218104838; 133892; 1704465940; 3998286656; 127219712];
   [218104838; 133892; 2080662670; 2830417941; 2552557568];
   [218104838; 133892; 140461068; 2075411836; 50599936];
   [218104838; 133892; 283050207; 1231369442; 2068672512];
   [218104838; 133892; 402698620; 1416105076; 1295945728];
   [218104838; 133892; 900210371; 3863013812; 310382592];
   [218104838; 133892; 1208613099; 464830336; 2547351552];
   [218104838; 133892; 1707105895; 3998284292; 640264192];
   [218104838; 133892; 1772685862; 1651818366; 2518697984];
   [218104838; 133892; 1957235275; 802697271; 1874364416];
   [218104838; 133892; 2055018725; 701502215; 2894356480];
   [218104838; 1929513732; 140463116; 2075411836; 50454528];
   [218104838; 133892; 283050207; 1231369442; 2068672512];
   [218104838; 133892; 469807484; 1416105076; 1295837184];
   [218104838; 133892; 614787763; 4916; 1150134272];
   [218104838; 133892; 756088832; 6144; 41160704];
   [218104838; 133892; 889985252; 2533387800; 256262144];
   [218104838; 133892; 1016361740; 3811885150; 370204672];
   [218104838; 133892; 1158989506; 3991967952; 1003102208];
   [218104838; 133892; 1321368518; 1572126684; 365207552];
   [218104838; 133892; 1427636388; 3139471744; 979226624];
   [218104838; 133892; 1587909731; 2998190052; 374802432];
   [218104838; 133892; 1696900489; 1535150916; 422082560];
   [218104838; 133892; 1965822373; 3609241552; 334145536];
   [218104838; 133892; 2126940329; 1941225476; 168992768];
   [218104838; 133892; 140465164; 2075411836; 50466816];
   [218104838; 133892; 283050207; 1231369442; 2068672512];
   [218104838; 133892; 469807484; 1416105076; 1295837184];
   [218104838; 133892; 614787763; 4916; 1150134272];
   [218104838; 133892; 756088832; 6144; 41160704];
   [218104838; 133892; 892621767; 4215303284; 266336256];
   [218104838; 133892; 1161301475; 2718992948; 848902144];
   [218104838; 133892; 1318851054; 4210343891; 307658752];
   [218104838; 133892; 1699490670; 1865441016; 868597760];
   [218104838; 133892; 1871375112; 2356461267; 98932736];
   [218104838; 133892; 2073670544; 938786859; 93724672];
   [218104838; 133892; 140467212; 2075411836; 50849792];
   [218104838; 133892; 283050207; 1231369442; 2068672512];
   [218104838; 133892; 469807484; 1416105076; 1295837184];
   [218104838; 133892; 894969767; 2590012208; 678209536]].
Definition glo_expect (e : geph) : bool :=
  (gi e Gsat =? 4) &&
  (gi e GgnssID =? 6) &&
  (gi e Giode =? 95) &&
  (gi e Gfrq =? 6) &&
  (gi e Gsvh =? 0) &&
  (gi e Gsva =? 3) &&
  (gi e Gage =? 0) &&
  (sec (g_toe e) =? 1563655500) &&
  (nsec (g_toe e) =? 0) &&
  (sec (g_tof e) =? 1563655950) &&
  (nsec (g_tof e) =? 0) &&
  near (gd e Gpos0) (5616046875) 3 1 3 &&
  near (gd e Gpos1) (-2138592626953125) 8 1 8 &&
  near (gd e Gpos2) (1275320654296875) 8 1 8 &&
  near (gd e Gvel0) (-9752464294433594) 14 1 14 &&
  near (gd e Gvel1) (17444267272949219) 13 1 13 &&
  near (gd e Gvel2) (29713258743286133) 13 1 13 &&
  near (gd e Gacc0) (-9313225746154785) 22 1 21 &&
  near (gd e Gacc1) (-3725290298461914) 21 1 20 &&
  near (gd e Gacc2) (0) 1 1 25 &&
  near (gd e Gtaun) (-314553268254) 15 1 15 &&
  near (gd e Ggamn) (909494701773) 24 1 25 &&
  near (gd e Gdtaun) (-279396772385) 20 1 20.
Fixpoint glo_feed (n : nat) (mem : list Z) (g : geph) (out : list nev) : outcome (list nev) :=
  match n with
  | O => Ok out
  | S n => let m := sfrbx_of (firstn 48 mem) in
           let* x := decodeGlonass [1] (mkUtc 1563660018 0) (sf_gnss m) (sf_sv m) (sf_freq m) (sf_dw m) g in
           let '(g, ev, _) := x in glo_feed n (skipn 20 mem) g (out ++ ev)
  end.
Definition glo_calls (evs : list nev) : list geph := flat_map (fun e => match e with EvGeph _ g => [g] | _ => [] end) evs.
Example e_ParseGLONASS : ok (glo_feed 61 (words (concat glo_msgs)) geph_new [])
  (fun evs => negb (Nat.eqb (length (glo_calls evs)) 0) && forallb glo_expect (glo_calls evs)) = true.
Proof. vm_compute. reflexivity. Qed.

(* Galileo: test_eph.cpp:238-321; the page store is static and starts zeroed *)
Definition gal_msgs : list (list Z) :=
  [[84779244; 143686911; 805846150; 3360325632; 2863300608; 42; 2863316518; 2583642112; 1];
   [100663296; 33554431; 306716297; 3796385792; 2894495744; 42; 2863297399; 3359588352; 3219733161];
   [162122325; 1431655765; 1428029536; 625967104; 3054469120; 42; 2863306007; 1728004096; 1];
   [162122325; 1431655765; 1430388800; 492699648; 2718924800; 42; 2863299461; 658456576; 3219733161];
   [178273359; 3808003075; 2751463679; 3942678528; 3028779008; 42; 2863312243; 1925136384; 1];
   [178273359; 3794480638; 301990143; 3942678528; 3028779008; 42; 2863299718; 1241464832; 3219733161];
   [9786709; 1431655765; 1431655765; 1350107136; 2375155712; 42; 2863302831; 721371136; 1];
   [9786709; 1431655765; 1431655765; 1350107136; 2375172096; 42; 2863297750; 3565109248; 3219733161];
   [9786709; 1431655765; 1431655765; 1350107136; 2375188480; 42; 2863306627; 306135040; 1];
   [9786709; 1431655765; 1431655765; 1350107136; 2375204864; 42; 2863295482; 3971956736; 3219733161];
   [9786709; 1431655765; 1431655765; 1350107136; 2375221248; 42; 2863314679; 1535066112; 1];
   [9786709; 1431655765; 1431655765; 1350107136; 2375237632; 42; 2863286926; 2784968704; 3219733161];
   [9786709; 1431655765; 1431655765; 1350107136; 2375254016; 42; 2863311323; 1673478144; 1];
   [9786709; 1431655765; 1431655765; 1350107136; 2375270400; 42; 2863289762; 2638168064; 3219733161];
   [9786709; 1431655765; 1431655765; 1350107136; 2375286784; 42; 2863312843; 1287602176; 1];
   [9786709; 1431655765; 1431655765; 1350107136; 2375303168; 42; 2863289266; 2990489600; 3219733161];
   [34772585; 2920008132; 1574556602; 3186835456; 2164211712; 42; 2863311054; 3879682048; 1];
   [17994212; 586558149; 680744; 2852438016; 3054747648; 42; 2863297814; 3636412416; 3219733161];
   [68326144; 134224711; 2483026333; 134217728; 2206220288; 42; 2863315966; 50282496; 1];
   [51560433; 256386878; 3813038210; 1883144192; 2296037376; 42; 2863296144; 931086336; 3219733161];
   [100663296; 33554431; 306716297; 3796385792; 2896986112; 42; 2863304076; 947863552; 1];
   [84779244; 143686911; 805846150; 3404365824; 2863300608; 42; 2863300127; 1602174976; 3219733161];
   [9786709; 1431655765; 1431655765; 1350107136; 2375417856; 42; 2863313640; 2441035776; 1]].
Definition gal_expect (e : eph) : list bool :=
  [(ei e FgnssID =? 2);
  (ei e Fsat =? 19);
  (sec (e_toe e) =? 1573014018);
  (sec (e_toc e) =? 1573014018);
  (nsec (e_toe e) =? 0);
  (nsec (e_toc e) =? 0);
  (ei e Fiodc =? 74);
  (ei e Fiode =? 74);
  (ei e Fweek =? 2078);
  (ei e Ftoes =? 274800);
  (ei e Ftocs =? 0);
  (ei e Fhealth =? 0);
  (ei e Falert =? 0);
  (ei e Fspoof =? 0);
  (ei e FcodeL2 =? 0);
  (ei e Fura =? 0);
  (ei e FL2P =? 0);
  (ei e Ffit =? 0);
  (ei e Faodo =? 0);
  near (ed e Ftgd0) (-582077) 14 1 15;
  near (ed e Ftgd1) (-60536) 13 1 15;
  near (ed e Ftgd2) (0) 0 1 15;
  near (ed e Ftgd3) (0) 0 1 15;
  near (ed e Faf2) (0) 0 1 9;
  near (ed e Faf1) (198952) 18 1 17;
  near (ed e Faf0) (-304537) 11 1 12;
  near (ed e Fm0) (858087) 6 1 6;
  near (ed e Fdeltan) (298155) 14 1 15;
  near (ed e Fecc) (79249) 9 1 9;
  near (ed e Fsqrta) (544062) 2 1 2;
  near (ed e Fomega0) (220037) 5 1 5;
  near (ed e Fi0) (958879) 6 1 6;
  near (ed e Fw) (193694) 5 1 6;
  near (ed e Fomegadot) (-546416) 14 1 15;
  near (ed e Fidot) (910752) 16 1 17;
  near (ed e Fcuc) (-212155) 11 1 12;
  near (ed e Fcus) (121035) 10 1 11;
  near (ed e Fcrc) (78) 0 1 4;
  near (ed e Fcrs) (-469062) 4 1 4;
  near (ed e Fcic) (149012) 13 1 14;
  near (ed e Fcis) (502914) 13 1 14].
(* the literals with half a unit of their last digit as tolerance *)
Definition gal_six_digits (e : eph) : list bool :=
  [near (ed e Ftgd0) (-582077) 14 5 15;
  near (ed e Ftgd1) (-60536) 13 5 14;
  near (ed e Faf0) (-304537) 11 5 12;
  near (ed e Fdeltan) (298155) 14 5 15;
  near (ed e Fw) (193694) 5 5 6;
  near (ed e Fomegadot) (-546416) 14 5 15;
  near (ed e Fidot) (910752) 16 5 17;
  near (ed e Fcuc) (-212155) 11 5 12;
  near (ed e Fcus) (121035) 10 5 11;
  near (ed e Fcic) (149012) 13 5 14;
  near (ed e Fcis) (502914) 13 5 14].
Fixpoint gal_feed (ms : list (list Z)) (st : rows) (e : eph) : outcome eph :=
  match ms with
  | [] => Ok e
  | m :: r => let* x := decodeGalileo [] st (words m) e in let '(st, e, _, _) := x in gal_feed r st e
  end.
(* Eleven of the test's expectations fail: they give six-digit literals tolerances smaller than the rounding of the literal
   (tgd[0] is -25/2^32 = -5.820766e-09, expected -5.82077e-09 within 1e-15).  The values agree in all the digits written. *)
Example e_Galileo : ok (gal_feed gal_msgs (fun _ => repeat 0 113) (seti Fsat 19 (seti FgnssID 2 eph_new)))
  (fun e => forallb (fun x => x) (gal_six_digits e) && forallb (fun p => Bool.eqb (fst p) (snd p)) (combine (gal_expect e)
    [true; true; true; true; true; true; true; true; true; true; true; true; true; true; true; true; true; true; true; false; false; true; true; true; true; false; true; false; true; true; true; true; false; false; false; false; false; true; true; false; false])) = true.
Proof. vm_compute. reflexivity. Qed.
Example e_Galileo_counts : length (filter negb [true; true; true; true; true; true; true; true; true; true; true; true; true; true; true; true; true; true; true; false; false; true; true; true; true; false; true; false; true; true; true; true; false; false; false; false; false; true; true; false; false]) = 11%nat /\ length [true; true; true; true; true; true; true; true; true; true; true; true; true; true; true; true; true; true; true; false; false; true; true; true; true; false; true; false; true; true; true; true; false; false; false; false; false; true; true; false; false] = 41%nat.
Proof. split; reflexivity. Qed.
