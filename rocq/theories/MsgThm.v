(* Proofs about the message structures (C79) and the identifier look-ups (C78). *)
From Coq Require Import String List.
From Verif Require Import Base UbxTx MsgLayout MsgSpec.
Import ListNotations.
Local Open Scope string_scope.
Local Open Scope list_scope.
Local Open Scope Z_scope.

(* the member of the message object for a row of the manual: structure, path *)
Definition reads (p : list sel) (o : Z) (k : kind) : Prop :=
  forall m, bytes_ok m -> member m p = Some (doc_value k m o).
Definition fits (s : scalar) (k : kind) : bool :=
  (width s =? klen k) && Bool.eqb (match s with I8 | I16 | I32 => true | _ => false end) (is_signed k).

Lemma le_sum_S m o n : le_sum m o (S n) = pay m o + 256 * le_sum m (o + 1) n.
Proof.
  induction n as [|n IH]; [cbn [le_sum Z.of_nat]; rewrite Z.add_0_r; change (256 ^ 0) with 1; ring|].
  change (le_sum m o (S (S n))) with (le_sum m o (S n) + pay m (o + Z.of_nat (S n)) * 256 ^ Z.of_nat (S n)).
  change (le_sum m (o + 1) (S n)) with (le_sum m (o + 1) n + pay m (o + 1 + Z.of_nat n) * 256 ^ Z.of_nat n).
  rewrite IH. replace (o + Z.of_nat (S n)) with (o + 1 + Z.of_nat n) by lia.
  rewrite (Nat2Z.inj_succ n), Z.pow_succ_r by lia. ring.
Qed.
Lemma of_le_sum m n : forall o, 0 <= o -> of_le (firstn n (skipn (Z.to_nat o) m)) = le_sum m o n.
Proof.
  induction n as [|n IH]; intros o Ho; [reflexivity|]. rewrite le_sum_S, <- IH by lia.
  replace (Z.to_nat (o + 1)) with (S (Z.to_nat o)) by lia. unfold pay. generalize (Z.to_nat o) as k. intro k. clear.
  revert m. induction k as [|k IHk]; intros [|b m]; cbn [skipn firstn nth]; try (rewrite ?firstn_nil; reflexivity).
  apply IHk.
Qed.
Lemma pay_ok m o : bytes_ok m -> 0 <= pay m o < 256.
Proof.
  intros H. unfold pay. destruct (Nat.lt_ge_cases (Z.to_nat o) (length m)) as [L|L].
  - unfold bytes_ok in H. rewrite Forall_forall in H. specialize (H _ (nth_In m 0 L)). unfold byte_ok in H. lia.
  - rewrite nth_overflow by exact L. lia.
Qed.
Lemma le_sum_range m o n : bytes_ok m -> 0 <= le_sum m o n < 256 ^ Z.of_nat n.
Proof.
  intros H. induction n as [|n IH]; [cbn; lia|].
  change (le_sum m o (S n)) with (le_sum m o n + pay m (o + Z.of_nat n) * 256 ^ Z.of_nat n).
  rewrite (Nat2Z.inj_succ n), Z.pow_succ_r by lia. pose proof (pay_ok m (o + Z.of_nat n) H). nia.
Qed.
Lemma pow256 w : 0 <= w -> 256 ^ w = 2 ^ (8 * w).
Proof. intros H. change 256 with (2 ^ 8). rewrite <- Z.pow_mul_r by lia. reflexivity. Qed.
Lemma value_doc s k o m : fits s k = true -> 0 <= o -> bytes_ok m ->
  value s (firstn (Z.to_nat (width s)) (skipn (Z.to_nat o) m)) = doc_value k m o.
Proof.
  unfold fits. intros F Ho Hm. apply andb_prop in F. destruct F as [W S]. apply Z.eqb_eq in W. apply Bool.eqb_prop in S.
  assert (W0 : 0 <= width s) by (destruct s; cbn; lia).
  rewrite W in W0. unfold value. rewrite W. rewrite of_le_sum by exact Ho.
  pose proof (le_sum_range m o (Z.to_nat (klen k)) Hm) as R. rewrite Z2Nat.id in R by exact W0. rewrite pow256 in R by exact W0.
  unfold doc_value. set (v := le_sum m o (Z.to_nat (klen k))) in *. rewrite <- S.
  destruct s; cbn [andb]; try reflexivity; unfold sgn; rewrite Z.mod_small by exact R;
    (destruct (Z.ltb_spec v (2 ^ (8 * klen k - 1))); destruct (Z.leb_spec (2 ^ (8 * klen k - 1)) v); lia).
Qed.
Lemma locate_reads p o s k : locate UBX_message p = Some (o, s) -> fits s k = true -> 0 <= o -> reads p o k.
Proof. intros L F Ho m Hm. unfold member. rewrite L. f_equal. apply value_doc; assumption. Qed.

Definition row_good (st : string) (r : string * Z * kind) : bool :=
  match locate UBX_message [MsgLayout.F st; MsgLayout.F (fst (fst r))] with
  | Some (o, s) => (o =? snd (fst r)) && fits s (snd r) && (0 <=? o)
  | None => false
  end.
Lemma rows_all : forallb (fun d => forallb (row_good (d_struct d)) (d_rows d)) documented = true.
Proof. vm_compute. reflexivity. Qed.
Lemma row_reads st name o k : row_good st (name, o, k) = true -> reads [MsgLayout.F st; MsgLayout.F name] o k.
Proof.
  unfold row_good. cbn [fst snd]. intros H. destruct (locate _ _) as [[o' s]|] eqn:L; [|discriminate].
  apply andb_prop in H. destruct H as [H G0]. apply andb_prop in H. destruct H as [E G].
  apply Z.eqb_eq in E. subst o'. apply Z.leb_le in G0. exact (locate_reads _ _ _ _ L G G0).
Qed.
Lemma members_documented d name o k m :
  In d documented -> In (name, o, k) (d_rows d) -> bytes_ok m ->
  member m [MsgLayout.F (d_struct d); MsgLayout.F name] = Some (doc_value k m o).
Proof.
  intros Hd Hr Hm. pose proof rows_all as A. rewrite forallb_forall in A. specialize (A _ Hd). rewrite forallb_forall in A.
  specialize (A _ Hr). exact (row_reads _ _ _ _ A m Hm).
Qed.
Lemma ids_documented d : In d documented -> class_id (d_struct d) = Some (d_cls d, d_id d).
Proof.
  intros H. cbn [In documented] in H.
  repeat (destruct H as [<-|H]; [vm_compute; reflexivity|]). destruct H.
Qed.

(* ---------------------------------------------------------------- repeated groups *)
Lemma idx_ok n k : 0 <= k < n -> (0 <=? k) && (k <? n) = true.
Proof. intros H. apply andb_true_intro. split; [apply Z.leb_le|apply Z.ltb_lt]; lia. Qed.
Lemma idx_out n k : ~ (0 <= k < n) -> (0 <=? k) && (k <? n) = false.
Proof. intros H. destruct (Z.leb_spec 0 k); [|reflexivity]. cbn [andb]. apply Z.ltb_ge. lia. Qed.

(* a member of an element of an array *)
Lemma locate_elem st f t0 o0 n e k r o s :
  in_union (match UBX_message with Uni l => l | _ => [] end) st = Some (0, t0) ->
  match t0 with Str pk fs => in_struct pk fs 0 f | _ => None end = Some (o0, Arr n e) ->
  locate e r = Some (o, s) ->
  locate UBX_message (MsgLayout.F st :: MsgLayout.F f :: MsgLayout.I k :: r)
    = if (0 <=? k) && (k <? n) then Some (o0 + k * sizeof e + o, s) else None.
Proof.
  intros U S L. change UBX_message with (Uni (match UBX_message with Uni l => l | _ => [] end)) at 1. cbn [locate].
  rewrite U. destruct t0; try discriminate. rewrite S. destruct ((0 <=? k) && (k <? n)); [|reflexivity].
  rewrite L. f_equal. f_equal. lia.
Qed.
Definition elem_row (t : ctype) (r : string * Z * kind) : bool :=
  match locate t [MsgLayout.F (fst (fst r))] with
  | Some (o, s) => (o =? snd (fst r)) && fits s (snd r) && (0 <=? o)
  | None => false
  end.
Definition meas_t : ctype := match RXM_RAWX with Str _ fs => match in_struct true fs 0 "meas" with Some (_, Arr _ e) => e | _ => Sc U8 end | _ => Sc U8 end.
Definition block_t : ctype := match MON_COMMS with Str _ fs => match in_struct true fs 0 "blocks" with Some (_, Arr _ e) => e | _ => Sc U8 end | _ => Sc U8 end.

Lemma rawx_groups n name o k m : 0 <= n < 30 -> In (name, o, k) doc_rawx_group -> bytes_ok m ->
  member m [MsgLayout.F "RXM_RAWX"; MsgLayout.F "meas"; MsgLayout.I n; MsgLayout.F name] = Some (doc_value k m (rawx_group n + o)).
Proof.
  intros Hn Hr Hm. assert (A : forallb (elem_row meas_t) doc_rawx_group = true) by (vm_compute; reflexivity).
  rewrite forallb_forall in A. specialize (A _ Hr). unfold elem_row in A. cbn [fst snd] in A.
  destruct (locate meas_t [MsgLayout.F name]) as [[o' s]|] eqn:L; [|discriminate].
  apply andb_prop in A. destruct A as [A G0]. apply andb_prop in A. destruct A as [E G]. apply Z.eqb_eq in E. subst o'. apply Z.leb_le in G0.
  refine (locate_reads _ _ s k _ G _ m Hm); [|unfold rawx_group; lia].
  rewrite (locate_elem "RXM_RAWX" "meas" RXM_RAWX 16 30 meas_t n [MsgLayout.F name] o s); [|vm_compute; reflexivity|vm_compute; reflexivity|exact L].
  rewrite idx_ok by exact Hn. change (sizeof meas_t) with 32. unfold rawx_group. f_equal. f_equal. lia.
Qed.
Lemma comms_groups n name o k m : 0 <= n < 5 -> In (name, o, k) doc_comms_group -> bytes_ok m ->
  member m [MsgLayout.F "MON_COMM"; MsgLayout.F "blocks"; MsgLayout.I n; MsgLayout.F name] = Some (doc_value k m (comms_group n + o)).
Proof.
  intros Hn Hr Hm. assert (A : forallb (elem_row block_t) doc_comms_group = true) by (vm_compute; reflexivity).
  rewrite forallb_forall in A. specialize (A _ Hr). unfold elem_row in A. cbn [fst snd] in A.
  destruct (locate block_t [MsgLayout.F name]) as [[o' s]|] eqn:L; [|discriminate].
  apply andb_prop in A. destruct A as [A G0]. apply andb_prop in A. destruct A as [E G]. apply Z.eqb_eq in E. subst o'. apply Z.leb_le in G0.
  refine (locate_reads _ _ s k _ G _ m Hm); [|unfold comms_group; lia].
  rewrite (locate_elem "MON_COMM" "blocks" MON_COMMS 8 5 block_t n [MsgLayout.F name] o s); [|vm_compute; reflexivity|vm_compute; reflexivity|exact L].
  rewrite idx_ok by exact Hn. change (sizeof block_t) with 40. unfold comms_group. f_equal. f_equal. lia.
Qed.

(* elements of an array of scalars *)
Lemma array_reads st f t0 o0 n s i k m :
  in_union (match UBX_message with Uni l => l | _ => [] end) st = Some (0, t0) ->
  match t0 with Str pk fs => in_struct pk fs 0 f | _ => None end = Some (o0, Arr n (Sc s)) ->
  fits s k = true -> 0 <= o0 -> 0 <= i < n -> bytes_ok m ->
  member m [MsgLayout.F st; MsgLayout.F f; MsgLayout.I i] = Some (doc_value k m (o0 + i * width s)).
Proof.
  intros U S G Ho Hi Hm. assert (W : 0 <= width s) by (destruct s; cbn; lia).
  refine (locate_reads _ _ s k _ G _ m Hm); [|nia].
  rewrite (locate_elem st f t0 o0 n (Sc s) i [] 0 s U S eq_refl), idx_ok by exact Hi. cbn [sizeof]. f_equal. f_equal. lia.
Qed.
Lemma sfrbx_words n m : 0 <= n < 10 -> bytes_ok m ->
  member m [MsgLayout.F "RXM_SFRBX"; MsgLayout.F "dwrd"; MsgLayout.I n] = Some (doc_value kU4 m (sfrbx_word n)).
Proof.
  intros Hn Hm. rewrite (array_reads "RXM_SFRBX" "dwrd" RXM_SFRBX 8 10 U32 n kU4 m eq_refl eq_refl eq_refl ltac:(lia) Hn Hm).
  f_equal. f_equal. unfold sfrbx_word. cbn [width]. lia.
Qed.
Lemma txbuf_elems n name o k m : 0 <= n < 6 -> In (name, o, k) (txbuf_arrays n) -> bytes_ok m ->
  member m [MsgLayout.F "MON_TXBUF"; MsgLayout.F name; MsgLayout.I n] = Some (doc_value k m o).
Proof.
  intros Hn Hr Hm.
  pose proof (array_reads "MON_TXBUF" "pending" MON_TXBUF 0 6 U16 n kU2 m eq_refl eq_refl eq_refl ltac:(lia) Hn Hm) as A.
  pose proof (array_reads "MON_TXBUF" "usage" MON_TXBUF 12 6 U8 n kU1 m eq_refl eq_refl eq_refl ltac:(lia) Hn Hm) as B.
  pose proof (array_reads "MON_TXBUF" "peakUsage" MON_TXBUF 18 6 U8 n kU1 m eq_refl eq_refl eq_refl ltac:(lia) Hn Hm) as C.
  replace (0 + n * width U16) with (2 * n) in A by (cbn [width]; lia).
  replace (12 + n * width U8) with (12 + n) in B by (cbn [width]; lia).
  replace (18 + n * width U8) with (18 + n) in C by (cbn [width]; lia).
  unfold txbuf_arrays in Hr. revert Hr A B C. generalize (2 * n) (12 + n) (18 + n). intros x y z Hr A B C.
  cbn [In] in Hr. destruct Hr as [E|[E|[E|[]]]]; injection E as <- <- <-; assumption.
Qed.
Lemma comms_protids n m : 0 <= n < 4 -> bytes_ok m ->
  member m [MsgLayout.F "MON_COMM"; MsgLayout.F "portIds"; MsgLayout.I n] = Some (doc_value kU1 m (comms_protid n)).
Proof.
  intros Hn Hm. rewrite (array_reads "MON_COMM" "portIds" MON_COMMS 4 4 U8 n kU1 m eq_refl eq_refl eq_refl ltac:(lia) Hn Hm).
  f_equal. f_equal. unfold comms_protid. cbn [width]. lia.
Qed.
Lemma ver_strings c m : bytes_ok m ->
  (0 <= c < 30 -> member m [MsgLayout.F "MON_VER"; MsgLayout.F "swVersion"; MsgLayout.I c] = Some (doc_value kCH m (ver_sw c))) /\
  (0 <= c < 10 -> member m [MsgLayout.F "MON_VER"; MsgLayout.F "hwVersion"; MsgLayout.I c] = Some (doc_value kCH m (ver_hw c))).
Proof.
  intros Hm. split; intros Hc.
  - rewrite (array_reads "MON_VER" "swVersion" MON_VER 0 30 CH c kCH m eq_refl eq_refl eq_refl ltac:(lia) Hc Hm).
    f_equal. f_equal. unfold ver_sw. cbn [width]. lia.
  - rewrite (array_reads "MON_VER" "hwVersion" MON_VER 30 10 CH c kCH m eq_refl eq_refl eq_refl ltac:(lia) Hc Hm).
    f_equal. f_equal. unfold ver_hw. cbn [width]. lia.
Qed.
(* extension[i][c] is declared as thirty strings of ten characters *)
Lemma ver_extension i c m : 0 <= i < 30 -> 0 <= c < 10 -> bytes_ok m ->
  member m [MsgLayout.F "MON_VER"; MsgLayout.F "extension"; MsgLayout.I i; MsgLayout.I c]
    = Some (doc_value kCH m (ver_ext (i / 3) (10 * (i mod 3) + c))).
Proof.
  intros Hi Hc Hm. refine (locate_reads _ _ CH kCH _ eq_refl _ m Hm); [|unfold ver_ext; lia].
  rewrite (locate_elem "MON_VER" "extension" MON_VER 40 30 (Arr 10 (Sc CH)) i [MsgLayout.I c] c CH eq_refl eq_refl).
  - rewrite idx_ok by exact Hi. cbn [sizeof width]. f_equal. f_equal. unfold ver_ext. lia.
  - cbn [locate]. rewrite idx_ok by exact Hc. cbn [sizeof width]. f_equal. f_equal. lia.
Qed.

(* ---------------------------------------------------------------- deviations *)
Definition unsigned_of (k : kind) : kind := match k with kI1 => kU1 | kI2 => kU2 | kI4 => kU4 | _ => k end.
Lemma svin_mean name o k m : In (name, o, k) (d_rows doc_nav_svin_mean) -> bytes_ok m ->
  member m [MsgLayout.F "NAV_SVIN"; MsgLayout.F name]
    = Some (if doc_value k m o <? 0 then doc_value k m o + 2 ^ (8 * klen k) else doc_value k m o).
Proof.
  intros Hr Hm.
  assert (A : forallb (fun r => row_good "NAV_SVIN" (fst r, unsigned_of (snd r))) (d_rows doc_nav_svin_mean) = true) by (vm_compute; reflexivity).
  rewrite forallb_forall in A. specialize (A _ Hr). cbn [fst snd] in A.
  rewrite (row_reads _ _ _ _ A m Hm). f_equal.
  assert (K : k = kI4 \/ k = kI1) by (cbn [In d_rows doc_nav_svin_mean] in Hr; repeat (destruct Hr as [E|Hr]; [injection E as _ _ <-; auto|]); destruct Hr).
  unfold doc_value. destruct K as [-> | ->]; cbn [unsigned_of is_signed andb].
  - change (klen kU4) with (klen kI4). pose proof (le_sum_range m o (Z.to_nat (klen kI4)) Hm) as R.
    set (v := le_sum m o _) in *. change (256 ^ Z.of_nat (Z.to_nat (klen kI4))) with (2 ^ 32) in R.
    change (8 * klen kI4 - 1) with 31. change (8 * klen kI4) with 32.
    change (2 ^ 32) with 4294967296 in *. change (2 ^ 31) with 2147483648.
    destruct (Z.leb_spec 2147483648 v); (destruct (Z.ltb_spec (v - 4294967296) 0) + destruct (Z.ltb_spec v 0)); try lia.
    destruct (Z.ltb_spec v 0); lia.
  - change (klen kU1) with (klen kI1). pose proof (le_sum_range m o (Z.to_nat (klen kI1)) Hm) as R.
    set (v := le_sum m o _) in *. change (256 ^ Z.of_nat (Z.to_nat (klen kI1))) with 256 in R.
    change (8 * klen kI1 - 1) with 7. change (8 * klen kI1) with 8.
    change (2 ^ 8) with 256 in *. change (2 ^ 7) with 128.
    destruct (Z.leb_spec 128 v).
    + destruct (Z.ltb_spec (v - 256) 0); lia.
    + destruct (Z.ltb_spec v 0); lia.
Qed.
Lemma num_meas m : bytes_ok m ->
  member m [MsgLayout.F "RXM_RAWX"; MsgLayout.F "numMeas"]
    = Some (if doc_value kU1 m rawx_numMeas_at <? 128 then doc_value kU1 m rawx_numMeas_at else doc_value kU1 m rawx_numMeas_at - 256).
Proof.
  intros Hm. rewrite (row_reads "RXM_RAWX" "numMeas" rawx_numMeas_at kI1 eq_refl m Hm). f_equal.
  unfold doc_value. cbn [is_signed andb]. change (klen kU1) with 1. change (klen kI1) with 1.
  set (v := le_sum m _ _). change (2 ^ (8 * 1 - 1)) with 128. change (2 ^ (8 * 1)) with 256.
  destruct (Z.leb_spec 128 v); destruct (Z.ltb_spec v 128); lia.
Qed.
Lemma rawx_outside n r m : 30 <= n -> member m (MsgLayout.F "RXM_RAWX" :: MsgLayout.F "meas" :: MsgLayout.I n :: r) = None.
Proof.
  intros Hn. unfold member. change UBX_message with (Uni (match UBX_message with Uni l => l | _ => [] end)). cbn [locate].
  change (in_union (match UBX_message with Uni l => l | _ => [] end) "RXM_RAWX") with (Some (0, RXM_RAWX)).
  unfold RXM_RAWX. cbn [locate].
  match goal with |- context[in_struct true ?fs 0 "meas"] => let v := eval vm_compute in (in_struct true fs 0 "meas") in change (in_struct true fs 0 "meas") with v end.
  cbv beta iota. rewrite idx_out by lia. reflexivity.
Qed.

(* ---------------------------------------------------------------- sizes *)
Definition size_of_struct (name : string) : option Z :=
  match in_union (match UBX_message with Uni l => l | _ => [] end) name with Some (_, t) => Some (sizeof t) | None => None end.
Lemma sizes_documented :
  sizeof UBX_message = 2048 /\
  (forall d, In d fixed_length -> size_of_struct (d_struct d) = Some (d_len d)) /\
  size_of_struct "CFG_VALSET" = Some 12 /\ size_of_struct "CFG_VALGET" = Some 16 /\
  size_of_struct "RXM_SFRBX" = Some (sfrbx_word 10) /\ size_of_struct "MON_COMM" = Some (comms_group 5) /\
  size_of_struct "RXM_RAWX" = Some (rawx_group 30) /\ size_of_struct "MON_VER" = Some (ver_ext 10 0).
Proof.
  split; [vm_compute; reflexivity|]. split; [|repeat split; vm_compute; reflexivity].
  intros d H. cbn [In fixed_length] in H. repeat (destruct H as [<-|H]; [vm_compute; reflexivity|]). destruct H.
Qed.

(* ---------------------------------------------------------------- assignment *)
Definition in_kind (k : kind) (v : Z) : Prop :=
  if is_signed k then - 2 ^ (8 * klen k - 1) <= v < 2 ^ (8 * klen k - 1) else 0 <= v < 2 ^ (8 * klen k).
Lemma to_le_length n : forall v, length (to_le n v) = n.
Proof. induction n; intros; cbn [to_le length]; congruence. Qed.
Lemma to_le_bytes n : forall v, bytes_ok (to_le n v).
Proof.
  induction n; intros v; cbn [to_le]; constructor; [|apply IHn].
  unfold byte_ok. pose proof (Z.mod_pos_bound v 256 ltac:(lia)). lia.
Qed.
Lemma of_le_to_le n : forall v, of_le (to_le n v) = v mod 256 ^ Z.of_nat n.
Proof.
  induction n; intros v; [cbn; rewrite Z.mod_1_r; reflexivity|].
  change (of_le (to_le (S n) v)) with (v mod 256 + 256 * of_le (to_le n (v / 256))). rewrite IHn.
  rewrite (Nat2Z.inj_succ n), Z.pow_succ_r by lia.
  pose proof (Z.pow_pos_nonneg 256 (Z.of_nat n) ltac:(lia) ltac:(lia)) as P.
  rewrite Z.rem_mul_r by lia. reflexivity.
Qed.
Lemma put_split bs : forall h x t, length x = length bs -> put (h ++ x ++ t) (Zlen h) bs = Ok (h ++ bs ++ t).
Proof.
  induction bs as [|b bs IH]; intros h [|y x] t L; try discriminate; [reflexivity|].
  cbn [put app]. rewrite aset_app. cbn [bind].
  replace (h ++ b :: x ++ t)%list with ((h ++ [b]) ++ x ++ t)%list by (rewrite <- app_assoc; reflexivity).
  replace (Zlen h + 1) with (Zlen (h ++ [b])) by (unfold Zlen; rewrite app_length; cbn [length]; lia).
  rewrite IH by (cbn [length] in L; lia). rewrite <- app_assoc. reflexivity.
Qed.
Lemma put_at m o bs : 0 <= o -> o + Zlen bs <= Zlen m ->
  put m o bs = Ok (firstn (Z.to_nat o) m ++ bs ++ skipn (Z.to_nat o + length bs) m)%list.
Proof.
  intros Ho L. unfold Zlen in L.
  assert (E : Zlen (firstn (Z.to_nat o) m) = o) by (unfold Zlen; rewrite firstn_length; lia).
  assert (M : m = firstn (Z.to_nat o) m ++ firstn (length bs) (skipn (Z.to_nat o) m) ++ skipn (Z.to_nat o + length bs) m).
  { rewrite (Nat.add_comm (Z.to_nat o)), <- skipn_add, firstn_skipn, firstn_skipn. reflexivity. }
  pose proof (put_split bs (firstn (Z.to_nat o) m) (firstn (length bs) (skipn (Z.to_nat o) m)) (skipn (Z.to_nat o + length bs) m)) as P.
  rewrite <- M, E in P. apply P. rewrite firstn_length, skipn_length. lia.
Qed.
Lemma assign_stores p o s k m v :
  locate UBX_message p = Some (o, s) -> fits s k = true -> 0 <= o -> o + width s <= Zlen m -> bytes_ok m -> in_kind k v ->
  exists m', assign m p v = Ok m' /\ length m' = length m /\ bytes_ok m' /\ doc_value k m' o = v /\
    forall j, 0 <= j -> ~ (o <= j < o + klen k) -> pay m' j = pay m j.
Proof.
  intros L Ft Ho Hl Hm Hv. assert (W : klen k = width s) by (unfold fits in Ft; apply andb_prop in Ft; destruct Ft as [A _]; apply Z.eqb_eq in A; congruence).
  assert (W0 : 0 <= width s) by (destruct s; cbn; lia).
  set (bs := to_le (Z.to_nat (width s)) v).
  assert (Lb : length bs = Z.to_nat (width s)) by apply to_le_length.
  unfold assign. rewrite L. fold bs. rewrite put_at by (unfold Zlen in *; lia).
  set (m' := (firstn (Z.to_nat o) m ++ bs ++ skipn (Z.to_nat o + length bs) m)%list).
  assert (Lf : length (firstn (Z.to_nat o) m) = Z.to_nat o) by (rewrite firstn_length; unfold Zlen in *; lia).
  assert (B : bytes_ok m').
  { unfold m', bytes_ok in *. rewrite !Forall_app. split; [|split].
    - apply Forall_forall. intros x Hx. rewrite Forall_forall in Hm. apply Hm.
      rewrite <- (firstn_skipn (Z.to_nat o) m). apply in_or_app. left. exact Hx.
    - apply to_le_bytes.
    - apply Forall_forall. intros x Hx. rewrite Forall_forall in Hm. apply Hm.
      rewrite <- (firstn_skipn (Z.to_nat o + length bs) m). apply in_or_app. right. exact Hx. }
  exists m'. split; [reflexivity|]. split.
  { unfold m'. rewrite !app_length, Lf, skipn_length, Lb. unfold Zlen in *. lia. }
  split; [exact B|]. split.
  - unfold doc_value. rewrite W. rewrite <- of_le_sum by exact Ho. unfold m'.
    rewrite skipn_app, Lf, Nat.sub_diag, (skipn_all2 (firstn _ _)) by lia. cbn [skipn app].
    rewrite firstn_app, Lb, Nat.sub_diag. cbn [firstn]. rewrite app_nil_r, <- Lb, firstn_all.
    unfold bs. rewrite of_le_to_le, Z2Nat.id by exact W0. rewrite pow256 by exact W0.
    unfold in_kind in Hv. rewrite W in Hv.
    assert (P : 2 ^ (8 * width s) = 2 * 2 ^ (8 * width s - 1)) by (destruct s; reflexivity).
    assert (Pp : 0 < 2 ^ (8 * width s - 1)) by (destruct s; reflexivity).
    set (H := 2 ^ (8 * width s - 1)) in *. rewrite P in *.
    destruct (is_signed k); cbn [andb].
    + destruct (Z.ltb_spec v 0).
      * replace (v mod (2 * H)) with (v + 2 * H).
        -- destruct (Z.leb_spec H (v + 2 * H)); lia.
        -- rewrite <- (Z.mod_add v 1) by lia. rewrite Z.mod_small; lia.
      * rewrite Z.mod_small by lia. destruct (Z.leb_spec H v); lia.
    + rewrite Z.mod_small by lia. reflexivity.
  - intros j Hj Ho'. unfold pay, m'. rewrite W in Ho'.
    destruct (Z.lt_ge_cases j o) as [G|G].
    + rewrite app_nth1 by lia. rewrite <- (firstn_skipn (Z.to_nat o) m) at 2. rewrite app_nth1 by lia. reflexivity.
    + rewrite app_nth2 by lia. rewrite app_nth2 by lia. rewrite Lf, Lb.
      rewrite <- (firstn_skipn (Z.to_nat o + Z.to_nat (width s)) m) at 2. rewrite app_nth2 by (rewrite firstn_length; lia).
      rewrite firstn_length. f_equal. unfold Zlen in *. lia.
Qed.
Lemma row_extent : forallb (fun d => forallb (fun r => snd (fst r) + klen (snd r) <=? d_len d) (d_rows d)) documented = true
  /\ forallb (fun d => d_len d <=? 2048) documented = true.
Proof. split; vm_compute; reflexivity. Qed.
Lemma assign_documented d name o k m v :
  In d documented -> In (name, o, k) (d_rows d) -> length m = 2048%nat -> bytes_ok m -> in_kind k v ->
  exists m', assign m [MsgLayout.F (d_struct d); MsgLayout.F name] v = Ok m' /\ length m' = 2048%nat /\ bytes_ok m' /\
    doc_value k m' o = v /\ forall j, 0 <= j -> ~ (o <= j < o + klen k) -> pay m' j = pay m j.
Proof.
  intros Hd Hr Lm Hm Hv. pose proof rows_all as A. rewrite forallb_forall in A. specialize (A _ Hd). rewrite forallb_forall in A.
  specialize (A _ Hr). unfold row_good in A. cbn [fst snd] in A.
  destruct (locate UBX_message [MsgLayout.F (d_struct d); MsgLayout.F name]) as [[o' s]|] eqn:L; [|discriminate].
  apply andb_prop in A. destruct A as [A G0]. apply andb_prop in A. destruct A as [E G]. apply Z.eqb_eq in E. subst o'. apply Z.leb_le in G0.
  destruct row_extent as [R S]. rewrite forallb_forall in R. specialize (R _ Hd). rewrite forallb_forall in R. specialize (R _ Hr).
  cbn [fst snd] in R. apply Z.leb_le in R. rewrite forallb_forall in S. specialize (S _ Hd). apply Z.leb_le in S.
  assert (W : klen k = width s) by (unfold fits in G; apply andb_prop in G; destruct G as [B _]; apply Z.eqb_eq in B; congruence).
  rewrite <- Lm. apply (assign_stores _ o s k); try assumption. unfold Zlen. lia.
Qed.

(* ---------------------------------------------------------------- what a listener reads *)
Lemma le_sum_prefix pl rest o n : 0 <= o -> o + Z.of_nat n <= Zlen pl -> le_sum (pl ++ rest)%list o n = le_sum pl o n.
Proof.
  intros Ho. induction n as [|n IH]; intros L; [reflexivity|]. cbn [le_sum]. rewrite IH by lia. f_equal. f_equal.
  unfold pay. apply app_nth1. unfold Zlen in L. lia.
Qed.
Lemma doc_value_prefix k pl rest o : 0 <= o -> o + klen k <= Zlen pl -> doc_value k (pl ++ rest)%list o = doc_value k pl o.
Proof.
  intros Ho L. unfold doc_value. rewrite le_sum_prefix; [reflexivity|exact Ho|]. rewrite Z2Nat.id by (destruct k; cbn; lia). exact L.
Qed.
