(* The GLONASS string check (nav.cpp:247-281) against the ICD sums. *)
From Verif Require Import Base ZBits BitSpec BitModel BitProofs UtcModel Dbl NavModel NavSpec NavGpsSpec NavBits NavStrSpec.

(* ------------------------------------------------ the swapped buffer *)
Lemma nth_byte dw n : bytes_ok dw -> byte_ok (nth n dw 0).
Proof.
  intros HB. destruct (Nat.lt_ge_cases n (length dw)).
  - unfold bytes_ok in HB. rewrite Forall_forall in HB. apply HB. apply nth_In. assumption.
  - rewrite nth_overflow by assumption. unfold byte_ok. lia.
Qed.
Lemma swap_len n dw : length (swap_words n dw) = (4 * n)%nat.
Proof.
  unfold swap_words. assert (H : forall l : list nat, length (flat_map (fun i => [nth (4 * i + 3) dw 0; nth (4 * i + 2) dw 0; nth (4 * i + 1) dw 0; nth (4 * i) dw 0]) l) = (4 * length l)%nat).
  { induction l; cbn [flat_map app length]; lia. }
  rewrite H, seq_length. reflexivity.
Qed.
Lemma swap_bytes n dw : bytes_ok dw -> bytes_ok (swap_words n dw).
Proof.
  intros H. unfold bytes_ok. apply Forall_forall. intros x Hx. unfold swap_words in Hx. apply in_flat_map in Hx.
  destruct Hx as (i & _ & Hi). cbn [In] in Hi. intuition (subst x; apply nth_byte; assumption).
Qed.
Lemma swap_nth n dw : forall i j, (i < n)%nat -> (j < 4)%nat -> nth (4 * i + j) (swap_words n dw) 0 = nth (4 * i + (3 - j)) dw 0.
Proof.
  unfold swap_words. set (f := fun i : nat => _). 
  assert (H : forall m a i j, (i < m)%nat -> (j < 4)%nat -> nth (4 * i + j) (flat_map f (List.seq a m)) 0 = nth (4 * (a + i) + (3 - j)) dw 0).
  { induction m as [|m IH]; intros a i j Hi Hj; [lia|]. cbn [List.seq flat_map]. destruct i as [|i].
    - rewrite app_nth1 by (cbn [f length]; lia). replace (4 * 0 + j)%nat with j by lia. replace (a + 0)%nat with a by lia.
      unfold f. destruct j as [|[|[|[|j]]]]; cbn [nth Nat.sub]; try lia; f_equal; lia.
    - replace (4 * S i + j)%nat with (4 + (4 * i + j))%nat by lia. rewrite app_nth2 by (cbn [f length]; lia).
      replace (4 + (4 * i + j) - length (f a))%nat with (4 * i + j)%nat by (cbn [f length]; lia).
      rewrite IH by lia. f_equal. lia. }
  intros i j Hi Hj. apply (H n 0%nat i j Hi Hj).
Qed.
Lemma dword_byte dw i j : bytes_ok dw -> 0 <= i -> 0 <= j < 32 -> Z.testbit (dword dw i) j = Z.testbit (nth (Z.to_nat (4 * i + j / 8)) dw 0) (j mod 8).
Proof.
  intros HB Hi Hj. unfold dword. cbv zeta.
  pose proof (nth_byte dw (Z.to_nat (4 * i + 0)) HB) as A0. pose proof (nth_byte dw (Z.to_nat (4 * i + 1)) HB) as A1.
  pose proof (nth_byte dw (Z.to_nat (4 * i + 2)) HB) as A2. pose proof (nth_byte dw (Z.to_nat (4 * i + 3)) HB) as A3.
  set (b0 := nth (Z.to_nat (4 * i + 0)) dw 0) in *. set (b1 := nth (Z.to_nat (4 * i + 1)) dw 0) in *.
  set (b2 := nth (Z.to_nat (4 * i + 2)) dw 0) in *. set (b3 := nth (Z.to_nat (4 * i + 3)) dw 0) in *.
  replace (b0 + 256 * b1 + 65536 * b2 + 16777216 * b3) with (((b3 * 256 + b2) * 256 + b1) * 256 + b0) by lia.
  rewrite testbit_cat8 by (assumption || lia). destruct (Z.ltb_spec j 8).
  { replace (j / 8) with 0 by lia. replace (j mod 8) with j by lia. reflexivity. }
  rewrite testbit_cat8 by (assumption || lia). destruct (Z.ltb_spec (j - 8) 8).
  { replace (j / 8) with 1 by lia. replace (j mod 8) with (j - 8) by lia. reflexivity. }
  rewrite testbit_cat8 by (assumption || lia). destruct (Z.ltb_spec (j - 8 - 8) 8).
  { replace (j / 8) with 2 by lia. replace (j mod 8) with (j - 8 - 8) by lia. reflexivity. }
  replace (j / 8) with 3 by lia. replace (j mod 8) with (j - 8 - 8 - 8) by lia. reflexivity.
Qed.
Lemma swap_bit n dw k : bytes_ok dw -> 0 <= k < 32 * Z.of_nat n -> bit (swap_words n dw) k = sbit dw k.
Proof.
  intros HB Hk. unfold bit, sbit. rewrite dword_byte by (assumption || lia).
  replace (Z.to_nat (k / 8)) with (4 * Z.to_nat (k / 32) + Z.to_nat (k / 8 mod 4))%nat by lia.
  rewrite swap_nth by lia. f_equal; [|lia]. f_equal. lia.
Qed.
Lemma field_sfield n dw : bytes_ok dw -> forall len pos, 0 <= pos -> pos + Z.of_nat len <= 32 * Z.of_nat n ->
  field (swap_words n dw) pos len = sfield dw pos len.
Proof.
  intros HB. induction len as [|len IH]; intros pos Hp Hl; [reflexivity|]. cbn [field sfield].
  rewrite IH by lia. rewrite swap_bit by (assumption || lia). reflexivity.
Qed.

(* ------------------------------------------------ sums *)
Definition kpar (mask buf : list Z) (ks : list Z) : bool := fold_right (fun k a => xorb (bit mask k && bit buf k) a) false ks.
Definition bitpar (x : Z) : bool := fold_right (fun j a => xorb (Z.testbit x j) a) false [7; 6; 5; 4; 3; 2; 1; 0].
Lemma xor8_ok x : byte_ok x -> aget xor8 x = Ok (Z.b2z (bitpar x)).
Proof.
  intros H.
  assert (S : forallb (fun n => match aget xor8 (Z.of_nat n) with Ok v => v =? Z.b2z (bitpar (Z.of_nat n)) | UB _ => false end) (List.seq 0 256) = true)
    by (vm_compute; reflexivity).
  rewrite forallb_forall in S. specialize (S (Z.to_nat x)). unfold byte_ok in H. rewrite in_seq in S. specialize (S ltac:(lia)).
  rewrite Z2Nat.id in S by lia. destruct (aget xor8 x) as [v|]; [|discriminate]. f_equal. lia.
Qed.
Lemma glo_crc_ok : forall mask buf c, bytes_ok buf -> (length mask <= length buf)%nat ->
  glo_crc buf mask (Z.b2z c) = Ok (Z.b2z (xorb c (fold_right (fun (p : Z * Z) a => xorb (bitpar (Z.land (snd p) (fst p))) a) false (combine mask buf)))).
Proof.
  induction mask as [|m mask IH]; intros buf c HB HL.
  - destruct buf; cbn; destruct c; reflexivity.
  - destruct buf as [|b buf]; [cbn in HL; lia|]. cbn [glo_crc combine fold_right fst snd].
    assert (Hb : byte_ok b) by (inversion HB; assumption). assert (HB' : bytes_ok buf) by (inversion HB; assumption).
    rewrite xor8_ok.
    2:{ unfold byte_ok in *. replace b with (b mod 256) by (apply Z.mod_small; lia). change 256 with (2 ^ 8). rewrite <- Z.land_ones by lia.
        rewrite <- Z.land_assoc, (Z.land_comm (Z.ones 8)), Z.land_assoc, Z.land_ones by lia. change (2 ^ 8) with 256. apply Z.mod_pos_bound. lia. }
    cbn [bind]. replace (Z.lxor (Z.b2z c) (Z.b2z (bitpar (Z.land b m)))) with (Z.b2z (xorb c (bitpar (Z.land b m)))) by (destruct c, (bitpar (Z.land b m)); reflexivity).
    rewrite IH by (assumption || (cbn in HL; lia)). rewrite xorb_assoc. reflexivity.
Qed.

(* byte-wise parity of the masked buffer = parity of the selected bits *)
Lemma bitpar_land b m buf mask i : nth i buf 0 = b -> nth i mask 0 = m ->
  bitpar (Z.land b m) = kpar mask buf (map (fun j => 8 * Z.of_nat i + j) [0; 1; 2; 3; 4; 5; 6; 7]).
Proof.
  intros Hb Hm. unfold bitpar, kpar. cbn [map fold_right].
  assert (E : forall j, 0 <= j < 8 -> bit mask (8 * Z.of_nat i + j) && bit buf (8 * Z.of_nat i + j) = Z.testbit (Z.land b m) (7 - j)).
  { intros j Hj. unfold bit. replace ((8 * Z.of_nat i + j) / 8) with (Z.of_nat i) by lia. replace ((8 * Z.of_nat i + j) mod 8) with j by lia.
    rewrite Nat2Z.id, Hb, Hm, Z.land_spec. apply andb_comm. }
  rewrite !E by lia. reflexivity.
Qed.
Lemma kpar_app mask buf a b : kpar mask buf (a ++ b) = xorb (kpar mask buf a) (kpar mask buf b).
Proof. induction a as [|x a IH]; cbn [kpar fold_right app]; [symmetry; apply xorb_false_l|]. fold (kpar mask buf (a ++ b)). rewrite IH, xorb_assoc. reflexivity. Qed.
Lemma bytewise : forall mask buf, (length mask <= length buf)%nat ->
  fold_right (fun (p : Z * Z) a => xorb (bitpar (Z.land (snd p) (fst p))) a) false (combine mask buf) =
  kpar mask buf (flat_map (fun i => map (fun j => 8 * Z.of_nat i + j) [0; 1; 2; 3; 4; 5; 6; 7]) (List.seq 0 (length mask))).
Proof.
  intros mask0 buf0.
  assert (H : forall mask buf a, (length mask <= length buf)%nat -> (forall i, (i < length mask)%nat -> nth (a + i) mask0 0 = nth i mask 0 /\ nth (a + i) buf0 0 = nth i buf 0) ->
    fold_right (fun (p : Z * Z) a => xorb (bitpar (Z.land (snd p) (fst p))) a) false (combine mask buf) =
    kpar mask0 buf0 (flat_map (fun i => map (fun j => 8 * Z.of_nat i + j) [0; 1; 2; 3; 4; 5; 6; 7]) (List.seq a (length mask)))).
  { induction mask as [|m mask IH]; intros buf a HL HN; [reflexivity|]. destruct buf as [|b buf]; [cbn in HL; lia|].
    cbn [combine fold_right length List.seq flat_map fst snd]. rewrite kpar_app. f_equal.
    - destruct (HN 0%nat ltac:(cbn; lia)) as [N1 N2]. replace (a + 0)%nat with a in * by lia. cbn [nth] in *. apply bitpar_land; assumption.
    - apply IH; [cbn in HL; lia|]. intros i Hi. specialize (HN (S i) ltac:(cbn; lia)). replace (S a + i)%nat with (a + S i)%nat by lia. exact HN. }
  intros HL. apply (H mask0 buf0 0%nat HL). intros i _. split; reflexivity.
Qed.
Definition bits88 : list Z := flat_map (fun i => map (fun j => 8 * Z.of_nat i + j) [0; 1; 2; 3; 4; 5; 6; 7]) (List.seq 0 11).
Lemma kpar_filter mask buf ks : kpar mask buf ks = odd_sum (bit buf) (filter (bit mask) ks).
Proof.
  induction ks as [|k ks IH]; [reflexivity|]. cbn [kpar fold_right filter]. fold (kpar mask buf ks). rewrite IH.
  destruct (bit mask k); cbn [odd_sum fold_right andb]; [reflexivity|]. apply xorb_false_l.
Qed.
Lemma odd_sum_app b x y : odd_sum b (x ++ y) = xorb (odd_sum b x) (odd_sum b y).
Proof. induction x as [|n x IH]; cbn [app odd_sum fold_right]; [symmetry; apply xorb_false_l|]. fold (odd_sum b (x ++ y)). rewrite IH, xorb_assoc. reflexivity. Qed.
Lemma odd_sum_rev b x : odd_sum b (rev x) = odd_sum b x.
Proof.
  induction x as [|n x IH]; [reflexivity|]. cbn [rev]. rewrite odd_sum_app, IH. cbn [odd_sum fold_right]. fold (odd_sum b x).
  rewrite xorb_false_r. apply xorb_comm.
Qed.
Lemma odd_sum_map b f x : odd_sum b (map f x) = odd_sum (fun n => b (f n)) x.
Proof. induction x as [|n x IH]; [reflexivity|]. cbn [map odd_sum fold_right]. fold (odd_sum b (map f x)). rewrite IH. reflexivity. Qed.
Lemma odd_sum_ext b b' x : (forall n, In n x -> b n = b' n) -> odd_sum b x = odd_sum b' x.
Proof.
  induction x as [|n x IH]; intros H; [reflexivity|]. cbn [odd_sum fold_right]. fold (odd_sum b x). fold (odd_sum b' x).
  rewrite IH by (intros; apply H; right; assumption). rewrite H by (left; reflexivity). reflexivity.
Qed.

(* the masks select the ICD's positions *)
Definition mask_sel (mask : list Z) (l : list Z) : Prop := length mask = 11%nat /\ filter (bit mask) bits88 = rev (map (fun n => 85 - n) l).
Lemma masks_sel : Forall2 mask_sel hamming_mask (sums7 ++ [sum_all]).
Proof. repeat constructor; vm_compute; reflexivity. Qed.
Lemma in_range_sums l n : In l (sums7 ++ [sum_all]) -> In n l -> 1 <= n <= 85.
Proof.
  assert (S : forallb (forallb (fun n => (1 <=? n) && (n <=? 85))) (sums7 ++ [sum_all]) = true) by (vm_compute; reflexivity).
  rewrite forallb_forall in S. intros H1 H2. specialize (S l H1). rewrite forallb_forall in S. specialize (S n H2). lia.
Qed.
Lemma mask_sum dw mask l : bytes_ok dw -> In l (sums7 ++ [sum_all]) -> mask_sel mask l ->
  glo_crc (swap_words 4 dw) mask 0 = Ok (Z.b2z (odd_sum (bn dw) l)).
Proof.
  intros HB HI [HL HS]. change 0 with (Z.b2z false) at 1. rewrite glo_crc_ok; [|apply swap_bytes; assumption|rewrite swap_len, HL; lia].
  rewrite xorb_false_l, bytewise by (rewrite swap_len, HL; lia). rewrite HL. fold bits88. rewrite kpar_filter, HS, odd_sum_rev, odd_sum_map.
  do 2 f_equal. apply odd_sum_ext. intros n Hn. pose proof (in_range_sums l n HI Hn). rewrite swap_bit by (assumption || lia). reflexivity.
Qed.
Lemma last_dflt (x d d' : Z) l : last (x :: l) d = last (x :: l) d'.
Proof. revert x. induction l as [|y l IH]; intros x; [reflexivity|]. exact (IH y). Qed.
Lemma glo_count_ok dw : bytes_ok dw -> forall masks ls, Forall2 mask_sel masks ls -> (forall l, In l ls -> In l (sums7 ++ [sum_all])) ->
  forall n c, glo_count (swap_words 4 dw) masks n c =
    Ok (n + Z.of_nat (length (filter (odd_sum (bn dw)) ls)), last (map (fun l => Z.b2z (odd_sum (bn dw) l)) ls) c).
Proof.
  intros HB masks ls F. induction F as [|m l masks ls HM F IH]; intros HI n c.
  - cbn. f_equal. f_equal. lia.
  - cbn [glo_count]. rewrite (mask_sum dw m l HB); [|apply HI; left; reflexivity|exact HM]. cbn [bind].
    rewrite IH by (intros; apply HI; right; assumption). cbn [filter]. f_equal. f_equal.
    + destruct (odd_sum (bn dw) l); cbn [Z.b2z Z.eqb length]; lia.
    + cbn [map]. destruct ls as [|l' ls']; [reflexivity|]. cbn [map]. rewrite (last_dflt _ (Z.b2z (odd_sum (bn dw) l)) c). reflexivity.
Qed.
Lemma gloTest_ok dw : bytes_ok dw -> gloTest (swap_words 4 dw) = Ok (str_accept (bn dw)).
Proof.
  intros HB. unfold gloTest. rewrite (glo_count_ok dw HB hamming_mask _ masks_sel) by auto. cbn [bind]. f_equal.
  rewrite filter_app, app_length, map_app. cbn [map]. rewrite last_last. unfold str_accept. cbn [filter map app].
  set (n := length (filter (odd_sum (bn dw)) sums7)). destruct (odd_sum (bn dw) sum_all); cbn [length Z.b2z].
  - destruct (Nat.eqb_spec n 1); [subst n; lia|]. lia.
  - destruct (Nat.eqb_spec n 0); lia.
Qed.

(* ------------------------------------------------ errors *)
Lemma odd_sum_flip l b x : NoDup l -> odd_sum (flip l b) x = xorb (odd_sum b x) (odd_sum (fun n => existsb (Z.eqb n) l) x).
Proof.
  intros _. induction x as [|n x IH]; [reflexivity|]. cbn [odd_sum fold_right]. fold (odd_sum (flip l b) x). fold (odd_sum b x).
  fold (odd_sum (fun n => existsb (Z.eqb n) l) x). rewrite IH. unfold flip at 1.
  destruct (b n), (existsb (Z.eqb n) l), (odd_sum b x), (odd_sum (fun m => existsb (Z.eqb m) l) x); reflexivity.
Qed.
Lemma accept_flip l b : NoDup l -> str_valid b -> str_accept (flip l b) = str_accept (fun n => existsb (Z.eqb n) l).
Proof.
  intros HN [H7 HA]. unfold str_accept. cbv zeta.
  assert (E : forall x, In x (sums7 ++ [sum_all]) -> odd_sum (flip l b) x = odd_sum (fun n => existsb (Z.eqb n) l) x).
  { intros x Hx. rewrite odd_sum_flip by assumption. apply in_app_iff in Hx. rewrite Forall_forall in H7.
    destruct Hx as [Hx|[<-|[]]]; [rewrite (H7 x Hx)|rewrite HA]; apply xorb_false_l. }
  rewrite (E sum_all) by (apply in_or_app; right; left; reflexivity).
  assert (F : filter (odd_sum (flip l b)) sums7 = filter (odd_sum (fun n => existsb (Z.eqb n) l)) sums7).
  { apply filter_ext_in. intros x Hx. apply E. apply in_or_app. left. exact Hx. }
  rewrite F. reflexivity.
Qed.
Lemma valid_accepted b : str_valid b -> str_accept b = true.
Proof.
  intros [H7 HA]. unfold str_accept. rewrite HA. rewrite (filter_ext_in _ (fun _ => false)).
  - reflexivity.
  - rewrite Forall_forall in H7. exact H7.
Qed.
Lemma in_to a b n : In n (to a b) <-> a <= n <= b.
Proof.
  unfold to. rewrite in_map_iff. split.
  - intros (i & <- & Hi). apply in_seq in Hi. lia.
  - intros H. exists (Z.to_nat (n - a)). split; [lia|]. apply in_seq. lia.
Qed.
Lemma single_sweep n : 1 <= n <= 85 -> str_accept (fun k => existsb (Z.eqb k) [n]) = (n <=? 7).
Proof.
  assert (S : forallb (fun n => Bool.eqb (str_accept (fun k => existsb (Z.eqb k) [n])) (n <=? 7)) (to 1 85) = true) by (vm_compute; reflexivity).
  rewrite forallb_forall in S. intros H. apply eqb_prop. apply S. apply in_to. lia.
Qed.
Lemma double_sweep n m : 1 <= n <= 85 -> 1 <= m <= 85 -> n <> m -> str_accept (fun k => existsb (Z.eqb k) [n; m]) = false.
Proof.
  assert (S : forallb (fun n => forallb (fun m => (n =? m) || negb (str_accept (fun k => existsb (Z.eqb k) [n; m]))) (to 1 85)) (to 1 85) = true) by (vm_compute; reflexivity).
  intros Hn Hm HE. rewrite forallb_forall in S. specialize (S n (proj2 (in_to 1 85 n) Hn)). rewrite forallb_forall in S.
  specialize (S m (proj2 (in_to 1 85 m) Hm)). replace (n =? m) with false in S by lia. destruct (str_accept _); [discriminate|reflexivity].
Qed.
Lemma single_error b n : str_valid b -> 1 <= n <= 85 -> str_accept (flip [n] b) = (n <=? 7).
Proof. intros V H. rewrite accept_flip by (assumption || (constructor; [auto|constructor])). apply single_sweep. exact H. Qed.
Lemma double_error b n m : str_valid b -> 1 <= n <= 85 -> 1 <= m <= 85 -> n <> m -> str_accept (flip [n; m] b) = false.
Proof.
  intros V Hn Hm HE. rewrite accept_flip; [apply double_sweep; assumption| |assumption].
  constructor; [intros [X|[]]; congruence|]. constructor; [auto|constructor].
Qed.
