(* C35, C36, C37, C38, C43: GPS navigation data and the record store. *)
From Coq Require Import QArith Permutation.
From Verif Require Import Base UtcModel UtcSpec Dbl NavModel NavSpec NavGpsSpec NavObj NavGpsThm NavGpsApi NavIso.
Local Open Scope Z_scope.

(* C35.  Subframes 1, 2, 3 of one issue i for satellite sv, in any order, with any other traffic between them and any
   history before them that left nothing pending.  If subframe 3 is not the first of the three, every registered callback
   is called once on the last one, with a record that carries exactly the transmitted values (gps_content).  If
   subframe 3 comes first, that happens only if the issue held from before it equals i; otherwise nothing is delivered. *)
Theorem C35_gps_ephemeris : forall junk st sv i h x y a b c ka kb kc s ev,
  junk_ok junk -> msgs_ok (h ++ [NMsg a] ++ x ++ [NMsg b] ++ y) -> no_galileo sv h -> quiet_for sv x -> quiet_for sv y ->
  no_pending sv h -> Permutation [ka; kb; kc] [1; 2; 3] ->
  gps_msg sv ka i a -> gps_msg sv kb i b -> gps_msg sv kc i c ->
  nav_run junk (nav_init st) (h ++ [NMsg a] ++ x ++ [NMsg b] ++ y) = Ok (s, ev) ->
  exists s' ev' r, convertUBX junk s c = Ok (s', ev', r) /\
    (ka = 3 -> cur (t_hist sv h) <> i -> ev' = []) /\
    (ka <> 3 \/ cur (t_hist sv h) = i -> exists d m1 m2 m3, ev' = map (fun n => EvEph n d) (ecbs (h ++ x ++ y)) /\ gps_content sv m1 m2 m3 d /\
       Permutation [(ka, sf_dw a); (kb, sf_dw b); (kc, sf_dw c)] [(1, m1); (2, m2); (3, m3)]).
Proof. exact gps_set. Qed.
Print Assumptions C35_gps_ephemeris.

(* C36.  Exactly when a GPS message makes a delivery, what is delivered, and that a subframe 3's own content (hence its
   issue number) has no influence on it. *)
Theorem C36_gps_release : forall junk st sv h s ev m, junk_ok junk -> msgs_ok h -> no_galileo sv h -> msg_ok m ->
  nav_run junk (nav_init st) h = Ok (s, ev) -> sf_gnss m = 0 -> sf_sv m = sv ->
  exists s' ev' r, convertUBX junk s m = Ok (s', ev', r) /\
    (t_full (t_recv (t_hist sv h) (sf_dw m)) = false -> ev' = []) /\
    (t_full (t_recv (t_hist sv h) (sf_dw m)) = true ->
      exists d m1 m2 m3, ev' = map (fun c => EvEph c d) (ecbs h) /\
        last_sf sv 1 (h ++ [NMsg m]) = Some m1 /\ last_sf sv 2 (h ++ [NMsg m]) = Some m2 /\
        last_sf sv 3 (h ++ [NMsg m]) = Some m3 /\ gps_content sv m1 m2 m3 d).
Proof. exact gps_release. Qed.
Print Assumptions C36_gps_release.
Theorem C36_subframe3_issue_not_examined : forall junk st sv h s ev m m', junk_ok junk -> msgs_ok h -> no_galileo sv h -> msg_ok m -> msg_ok m' ->
  nav_run junk (nav_init st) h = Ok (s, ev) -> sf_gnss m = 0 -> sf_sv m = sv -> sf_gnss m' = 0 -> sf_sv m' = sv ->
  gps_id (sf_dw m) = 3 -> gps_id (sf_dw m') = 3 ->
  exists s1 ev1 r1 s2 ev2 r2, convertUBX junk s m = Ok (s1, ev1, r1) /\ convertUBX junk s m' = Ok (s2, ev2, r2) /\ length ev1 = length ev2.
Proof. exact sf3_not_examined. Qed.
Print Assumptions C36_subframe3_issue_not_examined.

(* C37.  Messages whose words agree in bits 6..29 are treated identically, in every state. *)
Theorem C37_parity_ignored : forall junk junk' s m dw', junk_ok junk -> junk_ok junk' -> dw_ok (sf_dw m) -> dw_ok dw' ->
  sf_gnss m = 0 -> same_data (sf_dw m) dw' ->
  convertUBX junk s m = convertUBX junk' s (mkSf (sf_gnss m) (sf_sv m) (sf_freq m) dw').
Proof. exact parity_ignored. Qed.
Print Assumptions C37_parity_ignored.

(* C38.  The deliveries for satellite number sv (GPS and Galileo) are those the parser would make had it received only
   the messages with that number of all constellations but GLONASS. *)
Theorem C38_one_record_per_number : forall junk st sv h s ev, nav_run junk (nav_init st) h = Ok (s, ev) ->
  exists s' ev', nav_run junk (nav_init st) (filter (mine sv) h) = Ok (s', ev') /\ filter (ev_for sv) ev = filter (ev_for sv) ev'.
Proof. exact isolation. Qed.
Print Assumptions C38_one_record_per_number.

(* C43.  Other constellations: no callback, no value returned, and only the record of that number is touched. *)
Theorem C43_unsupported : forall junk s m, sf_gnss m <> 0 -> sf_gnss m <> 2 -> sf_gnss m <> 6 ->
  exists s', convertUBX junk s m = Ok (s', [EvFell (if sf_gnss m =? 3 then FN_BEIDOU else FN_CONVERT)], None) /\
    eph_of s' (sf_sv m) = start_rec s m /\ same_but s s' (sf_sv m) /\ n_rows s' = n_rows s /\ n_time s' = n_time s.
Proof. exact convert_other. Qed.
Print Assumptions C43_unsupported.

(* ---------------------------------------------------------------- examples *)
Definition msg (gnss sv : Z) (ws : list Z) : sfrbx := mkSf gnss sv 0 (flat_map le32 ws).
(* test/test_eph.cpp: five subframes of satellite 21 *)
Definition v1 := [0x22c00e31; 0xb04b4947; 0xe40028; 0x16fcca86; 0x9a781ada; 0x8ee9581b; 0x3813faaa; 0x93a4798d; 0x80000f52; 0xbb0cf018].
Definition w0 := [0x22c00e31; 0xb04aebf3; 0x2dd80a; 0x8717a3e7; 0x3ff28987; 0x2b0c8c8f; 0xaa7f16f; 0x34de804e; 0xbfe9d329; 0x93beda23].
Definition w1 := [0x22c00e31; 0xb04b0ccb; 0x1e67abc6; 0xb45ffedf; 0xaf3f61b; 0xb3ec995; 0xaf8bdbc5; 0xa8658185; 0x815a783f; 0x14586cdc].
Definition w2 := [0x22c00e31; 0xb04b2d43; 0x1182e14b; 0x9057592; 0xbf518007; 0x2843254d; 0x975fa428; 0x3506dbe1; 0x92868a6e; 0xbfffee80].
Definition w4 := [0x22c00e31; 0xb04b6a2f; 0x13bf545b; 0xd8fd7b7; 0xa602fe6; 0xbf52c317; 0x232efafd; 0x80d3a86d; 0x83658d1c; 0x24799fe3].
Definition junk0 : list Z := repeat 0 30.
Definition st0 : rows := fun _ => repeat 0 380.
Lemma junk0_ok : junk_ok junk0.
Proof. split; [|reflexivity]. apply Forall_forall. intros x Hx. apply repeat_spec in Hx. subst x. unfold byte_ok. lia. Qed.
(* callback number, satellite, constellation, week, toe, toc, eccentricity of each delivery *)
Definition show (e : nev) : Z * list Z * option dbl :=
  match e with
  | EvEph c d => (c, [ei d Fsat; ei d FgnssID; ei d Fweek; ei d Fiodc; sec (e_toe d); sec (e_toc d)], Some (ed d Fecc))
  | EvGeph c g => (c, [gi g Gsat], None)
  | EvFell f => (f, [], None)
  end.
Definition shown (h : list nop) : option (list (Z * list Z * option dbl)) :=
  match nav_run junk0 (nav_init st0) h with Ok (_, ev) => Some (map show ev) | UB _ => None end.
Lemma words_ok g sv ws : byte_ok g -> byte_ok sv -> length ws = 10%nat -> msg_ok (msg g sv ws).
Proof.
  intros Hg Hs Hl. unfold msg_ok, msg, dw_ok; cbn [sf_gnss sf_sv sf_freq sf_dw]. split; [split|].
  - unfold bytes_ok. apply Forall_forall. intros x Hx. apply in_flat_map in Hx. destruct Hx as (w & _ & Hw).
    cbn [le32 In] in Hw. unfold byte_ok, u8 in *. intuition (subst x; apply Z.mod_pos_bound; lia).
  - do 10 (destruct ws as [|? ws]; [discriminate|]). destruct ws; [reflexivity|discriminate].
  - unfold byte_ok in *; lia.
Qed.
Definition sf1m := msg 0 21 v1. Definition sf2m := msg 0 21 w4. Definition sf3m := msg 0 21 w0.
(* the hypotheses of C35 hold for: one callback registered; subframe 1, another satellite, subframe 2, another satellite, a
   subframe 4 or 5 of this one, a BeiDou message, subframe 3 *)
Definition ex_h : list nop := [NEcb 7].
Definition ex_x : list nop := [NMsg (msg 0 20 w4)].
Definition ex_y : list nop := [NMsg (msg 0 20 w0); NMsg (msg 0 21 w1); NMsg (msg 3 21 w0)].
Example C35_hypotheses : msgs_ok (ex_h ++ [NMsg sf1m] ++ ex_x ++ [NMsg sf2m] ++ ex_y) /\ no_galileo 21 ex_h /\ quiet_for 21 ex_x /\
  quiet_for 21 ex_y /\ no_pending 21 ex_h /\ gps_msg 21 1 78 sf1m /\ gps_msg 21 2 78 sf2m /\ gps_msg 21 3 78 sf3m.
Proof.
  assert (Hm : forall g sv ws, byte_ok g -> byte_ok sv -> length ws = 10%nat -> msg_ok (msg g sv ws)) by exact words_ok.
  assert (B : forall z, 0 <= z < 256 -> byte_ok z) by (intros z Hz; exact Hz).
  split; [|split; [|split; [|split; [|split]]]].
  - intros m Hin. cbn in Hin. intuition (try discriminate); match goal with H : NMsg _ = NMsg _ |- _ => injection H as <- end;
      apply Hm; (reflexivity || (apply B; lia)).
  - intros m [H|[]]. discriminate.
  - intros m [H|[]] Hs. injection H as <-. discriminate.
  - intros m [H|[H|[H|[]]]] Hs; injection H as <-; [discriminate| |].
    + split; [discriminate|]. intros _. vm_compute. repeat split; discriminate.
    + split; discriminate.
  - unfold no_pending. repeat split.
  - assert (E : forall k ws, length ws = 10%nat -> gps_id (flat_map le32 ws) = k -> gps_issue (flat_map le32 ws) = 78 -> gps_msg 21 k 78 (msg 0 21 ws)).
    { intros k ws Hl Hk Hi. unfold gps_msg. split; [apply Hm; [apply B; lia|apply B; lia|exact Hl]|]. repeat split; assumption. }
    split; [|split]; apply E; vm_compute; reflexivity.
Qed.
(* the delivery on the third subframe, in the order 1, 2, 3 *)
Example C35_case : shown (ex_h ++ [NMsg sf1m] ++ ex_x ++ [NMsg sf2m] ++ ex_y) = Some [(FN_BEIDOU, [], None)] /\
  exists d, shown (ex_h ++ [NMsg sf1m] ++ ex_x ++ [NMsg sf2m] ++ ex_y ++ [NMsg sf3m]) =
    Some [(FN_BEIDOU, [], None); (7, [21; 0; 2062; 78; 1563660018; 1563660018], Some d)].
Proof. split; [vm_compute; reflexivity|]. eexists. vm_compute. reflexivity. Qed.
(* subframe 3 first: nothing is delivered *)
Example C35_sf3_first : shown [NEcb 7; NMsg sf3m; NMsg sf1m; NMsg sf2m] = Some [].
Proof. vm_compute. reflexivity. Qed.
(* C36: subframe 3 with another issue number (word 9 bit 29 flipped: issue 78 + 128) is released all the same *)
Definition w0' := [0x22c00e31; 0xb04aebf3; 0x2dd80a; 0x8717a3e7; 0x3ff28987; 0x2b0c8c8f; 0xaa7f16f; 0x34de804e; 0xbfe9d329; 0xb3beda23].
Example C36_case : gps_issue (flat_map le32 w0) = 78 /\ gps_issue (flat_map le32 w0') = 206 /\
  exists d, shown [NEcb 7; NMsg sf1m; NMsg sf2m; NMsg (msg 0 21 w0')] = Some [(7, [21; 0; 2062; 78; 1563660018; 1563660018], Some d)].
Proof. split; [vm_compute; reflexivity|]. split; [vm_compute; reflexivity|]. eexists. vm_compute. reflexivity. Qed.
(* subframes 1 and 2 of different issues are not combined *)
Definition w4' := [0x22c00e31; 0xb04b6a2f; 0x33bf545b; 0xd8fd7b7; 0xa602fe6; 0xbf52c317; 0x232efafd; 0x80d3a86d; 0x83658d1c; 0x24799fe3].
Example C36_no_mix : gps_issue (flat_map le32 w4') <> 78 /\ shown [NEcb 7; NMsg sf1m; NMsg (msg 0 21 w4'); NMsg sf3m] = Some [].
Proof. split; vm_compute; congruence. Qed.
(* C37: all six parity bits of word 9 and its two top bits inverted: the data agree, and so does the message delivered *)
Definition w0p := [0x22c00e31; 0xb04aebf3; 0x2dd80a; 0x8717a3e7; 0x3ff28987; 0x2b0c8c8f; 0xaa7f16f; 0x34de804e; 0xbfe9d329; 0x53beda1c].
Example C37_case : same_data (flat_map le32 w0) (flat_map le32 w0p) /\ flat_map le32 w0 <> flat_map le32 w0p.
Proof.
  split; [|vm_compute; congruence]. intros i Hi.
  assert (E : forall j, In j [0;1;2;3;4;5;6;7;8;9] -> dword (flat_map le32 w0) j / 64 mod 2 ^ 24 = dword (flat_map le32 w0p) j / 64 mod 2 ^ 24).
  { apply Forall_forall. repeat constructor. } apply E. cbn [In]. lia.
Qed.
(* C38: the record of a number is shared by GPS and Galileo: with the seven Galileo pages (all zero but for types, time
   flag and CRC) of the same number between subframes 2 and 3, the GPS delivery carries the Galileo eccentricity, 0 *)
Definition gal_pages : list (list Z) :=
  [[33554432; 0; 0; 0; 2147483648; 0; 7043; 1157627904; 0; 0]; [0; 0; 0; 0; 2147483648; 0; 15252; 2508193792; 0; 0];
   [16777216; 0; 0; 0; 2147483648; 0; 11167; 2109734912; 0; 0]; [50331648; 0; 0; 0; 2147483648; 0; 2952; 2906652672; 0; 0];
   [67108864; 0; 0; 0; 2147483648; 0; 6696; 171966464; 0; 0]; [83886080; 0; 0; 0; 2147483648; 0; 2595; 3791650816; 0; 0];
   [100663296; 0; 0; 0; 2147483648; 0; 14911; 3670016000; 0; 0]].
Definition ecc_of (l : option (list (Z * list Z * option dbl))) : list Z :=
  match l with Some l => map (fun x => match x with (_, _, Some d) => dm d | _ => -1 end) l | None => [] end.
Example C38_mix :
  ecc_of (shown ([NEcb 7; NMsg sf1m; NMsg sf2m] ++ map (fun w => NMsg (msg 2 21 w)) gal_pages ++ [NMsg sf3m])) = [0] /\
  ecc_of (shown ([NEcb 7; NMsg sf1m; NMsg sf2m] ++ map (fun w => NMsg (msg 2 22 w)) gal_pages ++ [NMsg sf3m])) <> [0] /\
  length (ecc_of (shown ([NEcb 7; NMsg sf1m; NMsg sf2m] ++ map (fun w => NMsg (msg 2 22 w)) gal_pages ++ [NMsg sf3m]))) = 1%nat.
Proof. split; [vm_compute; reflexivity|]. split; [vm_compute; congruence|vm_compute; reflexivity]. Qed.
Example C43_case : shown [NEcb 7; NMsg (msg 3 21 v1); NMsg (msg 1 21 w0); NMsg (msg 5 21 w4)] =
  Some [(FN_BEIDOU, [], None); (FN_CONVERT, [], None); (FN_CONVERT, [], None)].
Proof. vm_compute. reflexivity. Qed.
