(* MON-VER decoding: specification vocabulary and the lemmas behind C13. *)
From Verif Require Import Base ZBits UbxSpec UbxModel UbxProofs.

(* ------------------------------------------------ specification vocabulary *)
(* the n characters found at byte position pos of the message *)
Definition window (buf : list Z) (pos : Z) (n : nat) : list Z := firstn n (skipn (Z.to_nat pos) buf).
(* "PROTVER=" / "MOD=" *)
Definition PROTVER : list Z := [80;82;79;84;86;69;82;61].
Definition MOD : list Z := [77;79;68;61].
(* slot i of the message starts at byte 40+10*i *)
Definition slot (i : Z) : Z := 40 + 10 * i.
Definition has_protver (buf : list Z) (i : Z) : Prop := window buf (slot i) 8 = PROTVER.
Definition has_mod (buf : list Z) (i : Z) : Prop := window buf (slot i) 4 = MOD.

(* decimal numerals *)
Definition digits (ds : list Z) : Prop := Forall (fun d => 0 <= d <= 9) ds.
Definition ascii (ds : list Z) : list Z := map (fun d => 48 + d) ds.
Definition decimal (ds : list Z) : Z := fold_left (fun acc d => 10 * acc + d) ds 0.
Definition digit_char (c : Z) : Prop := 48 <= c <= 57.
Definition space_char (c : Z) : Prop := c = 32 \/ 9 <= c <= 13.
Definition signs (sg : list Z) (k : Z) : Prop :=
  (sg = [] /\ k = 1) \/ (sg = [43] /\ k = 1) \/ (sg = [45] /\ k = -1).
(* What atoi reads: white space, an optional sign, digits, then a character that is not a digit. *)
Definition numeral (txt : list Z) (v : Z) : Prop :=
  exists sp sg k ds c rest,
    txt = sp ++ sg ++ ascii ds ++ c :: rest /\ Forall space_char sp /\ signs sg k /\ digits ds /\
    ~ digit_char c /\ (sg = [] -> ds = [] -> ~ space_char c /\ c <> 43 /\ c <> 45) /\
    v = k * decimal ds.
(* ... and the text that has no such terminating character *)
Definition unterminated (txt : list Z) : Prop :=
  exists sp sg k ds, txt = sp ++ sg ++ ascii ds /\ Forall space_char sp /\ signs sg k /\ digits ds.

(* The text of the major version: the (at most five) characters up to the first '.', which becomes a
   NUL; the text of the minor version starts after the '.', or after five characters. *)
Definition until_dot (w : list Z) (t : list Z) (used : Z) : Prop :=
  (exists a r, w = a ++ 46 :: r /\ ~ In 46 a /\ t = a ++ [0] /\ used = Zlen a + 1) \/
  (~ In 46 w /\ t = w /\ used = Zlen w).
Definition until_nul (w : list Z) (t : list Z) : Prop :=
  (exists a r, w = a ++ 0 :: r /\ ~ In 0 a /\ t = a ++ [0]) \/ (~ In 0 w /\ t = w).
Definition version_texts (buf : list Z) (i : Z) (t1 t2 : list Z) : Prop :=
  exists used, until_dot (window buf (slot i + 8) 5) t1 used /\
               until_nul (window buf (slot i + 8 + used) 5) t2.

(* ------------------------------------------------ windows *)
Lemma window_S buf pos n : 0 <= pos < Zlen buf ->
  exists x, aget buf pos = Ok x /\ window buf pos (S n) = x :: window buf (pos + 1) n.
Proof.
  intros H. unfold window. exists (nth (Z.to_nat pos) buf 0). split; [apply aget_in; exact H|].
  replace (Z.to_nat (pos + 1)) with (S (Z.to_nat pos)) by lia.
  unfold Zlen in H. assert (HL : (Z.to_nat pos < length buf)%nat) by lia.
  remember (Z.to_nat pos) as k. clear - HL. revert k HL.
  induction buf as [|y buf IH]; intros k HL; [cbn in HL; lia|].
  destruct k as [|k]; [reflexivity|]. cbn [skipn nth]. apply IH. cbn in HL. lia.
Qed.
Lemma window_length buf pos n : 0 <= pos -> pos + Z.of_nat n <= Zlen buf -> length (window buf pos n) = n.
Proof. intros H1 H2. unfold window, Zlen in *. rewrite firstn_length, skipn_length. lia. Qed.

Lemma str_prefix_window buf lit : forall pos, 0 <= pos -> pos + Zlen lit <= Zlen buf ->
  str_prefix buf pos lit = Ok (if list_eq_dec Z.eq_dec (window buf pos (length lit)) lit then true else false).
Proof.
  induction lit as [|c lit IH]; intros pos H1 H2; [reflexivity|].
  rewrite Zlen_cons in H2. pose proof (Zlen_nonneg lit).
  destruct (window_S buf pos (length lit)) as (x & E1 & E2); [lia|].
  cbn [str_prefix length]. rewrite E1, E2. cbn [bind].
  destruct (Z.eqb_spec x c) as [->|Hne].
  - rewrite IH by lia. destruct (list_eq_dec Z.eq_dec (window buf (pos + 1) (length lit)) lit) as [->|Hn].
    + destruct (list_eq_dec Z.eq_dec (c :: lit) (c :: lit)); [reflexivity|congruence].
    + destruct (list_eq_dec Z.eq_dec (c :: window buf (pos + 1) (length lit)) (c :: lit)); [congruence|reflexivity].
  - destruct (list_eq_dec Z.eq_dec (x :: window buf (pos + 1) (length lit)) (c :: lit)); [congruence|reflexivity].
Qed.

Lemma copy_until_dot_spec buf n : forall pos, 0 <= pos -> pos + Z.of_nat n <= Zlen buf ->
  exists t used, copy_until_dot n buf pos = Ok (t, pos + used) /\ until_dot (window buf pos n) t used
    /\ 0 <= used <= Z.of_nat n.
Proof.
  induction n as [|n IH]; intros pos H1 H2.
  - exists [], 0. cbn [copy_until_dot]. split; [do 2 f_equal; lia|]. split; [|lia]. right. cbn. auto.
  - destruct (window_S buf pos n) as (x & E1 & E2); [lia|]. cbn [copy_until_dot]. rewrite E1, E2. cbn [bind].
    destruct (Z.eqb_spec x 46) as [->|Hne].
    + exists [0], 1. split; [reflexivity|]. split; [|lia]. left. exists [], (window buf (pos + 1) n). repeat split. intros [].
    + destruct (IH (pos + 1)) as (t & used & E & HU & Hr); [lia|lia|]. rewrite E. cbn [bind].
      exists (x :: t), (1 + used). split; [do 2 f_equal; lia|]. split; [|lia].
      destruct HU as [(a & r & Ew & Hn & Et & Eu)|(Hn & Et & Eu)].
      * left. exists (x :: a), r. rewrite Ew. repeat split; [|rewrite Et; reflexivity|rewrite Zlen_cons; lia].
        intros [H|H]; [lia|contradiction].
      * right. repeat split; [|rewrite Et; reflexivity|rewrite Zlen_cons; lia].
        intros [H|H]; [lia|contradiction].
Qed.

Lemma copy_until_nul_spec buf n : forall pos, 0 <= pos -> pos + Z.of_nat n <= Zlen buf ->
  exists t, copy_until_nul n buf pos = Ok t /\ until_nul (window buf pos n) t.
Proof.
  induction n as [|n IH]; intros pos H1 H2.
  - exists []. split; [reflexivity|]. right. cbn. auto.
  - destruct (window_S buf pos n) as (x & E1 & E2); [lia|]. cbn [copy_until_nul]. rewrite E1, E2. cbn [bind].
    destruct (Z.eqb_spec x 0) as [->|Hne].
    + exists [0]. split; [reflexivity|]. left. exists [], (window buf (pos + 1) n). repeat split. intros [].
    + destruct (IH (pos + 1)) as (t & E & HU); [lia|lia|]. rewrite E. cbn [bind].
      exists (x :: t). split; [reflexivity|].
      destruct HU as [(a & r & Ew & Hn & Et)|(Hn & Et)].
      * left. exists (x :: a), r. rewrite Ew. repeat split; [|rewrite Et; reflexivity].
        intros [H|H]; [lia|contradiction].
      * right. repeat split; [|rewrite Et; reflexivity]. intros [H|H]; [lia|contradiction].
Qed.

Lemma until_dot_fun w t u t' u' : until_dot w t u -> until_dot w t' u' -> t = t' /\ u = u'.
Proof.
  assert (HX : forall (a a' r r' : list Z), a ++ 46 :: r = a' ++ 46 :: r' -> ~ In 46 a -> ~ In 46 a' -> a = a').
  { induction a as [|x a IH]; intros [|x' a'] r r' E H H'; cbn in E.
    - reflexivity.
    - injection E as E _. exfalso. apply H'. left. auto.
    - injection E as E _. exfalso. apply H. left. auto.
    - injection E as -> E. f_equal. eapply IH; [exact E| |]; intros HI; [apply H|apply H']; right; exact HI. }
  intros [(a & r & E & Hn & -> & ->)|(Hn & -> & ->)] [(a' & r' & E' & Hn' & -> & ->)|(Hn' & -> & ->)].
  - rewrite E in E'. pose proof (HX _ _ _ _ E' Hn Hn'). subst. auto.
  - exfalso. apply Hn'. rewrite E. apply in_or_app. right. left. reflexivity.
  - exfalso. apply Hn. rewrite E'. apply in_or_app. right. left. reflexivity.
  - auto.
Qed.
Lemma until_nul_fun w t t' : until_nul w t -> until_nul w t' -> t = t'.
Proof.
  assert (HX : forall (a a' r r' : list Z), a ++ 0 :: r = a' ++ 0 :: r' -> ~ In 0 a -> ~ In 0 a' -> a = a').
  { induction a as [|x a IH]; intros [|x' a'] r r' E H H'; cbn in E.
    - reflexivity.
    - injection E as E _. exfalso. apply H'. left. auto.
    - injection E as E _. exfalso. apply H. left. auto.
    - injection E as -> E. f_equal. eapply IH; [exact E| |]; intros HI; [apply H|apply H']; right; exact HI. }
  intros [(a & r & E & Hn & ->)|(Hn & ->)] [(a' & r' & E' & Hn' & ->)|(Hn' & ->)].
  - rewrite E in E'. pose proof (HX _ _ _ _ E' Hn Hn'). subst. auto.
  - exfalso. apply Hn'. rewrite E. apply in_or_app. right. left. reflexivity.
  - exfalso. apply Hn. rewrite E'. apply in_or_app. right. left. reflexivity.
  - auto.
Qed.

(* ------------------------------------------------ atoi *)
Lemma is_digit_true c : is_digit c = true <-> digit_char c.
Proof. unfold is_digit, digit_char. lia. Qed.
Lemma is_space_true c : is_space c = true <-> space_char c.
Proof. unfold is_space, space_char. lia. Qed.

Lemma atoi_digits_spec l : forall acc,
  (exists ds c rest, l = ascii ds ++ c :: rest /\ digits ds /\ ~ digit_char c /\
     atoi_digits l acc = Ok (fold_left (fun a d => 10 * a + d) ds acc))
  \/ (exists ds, l = ascii ds /\ digits ds /\ atoi_digits l acc = UB UB_cstring).
Proof.
  induction l as [|c l IH]; intros acc.
  - right. exists []. repeat split. constructor.
  - cbn [atoi_digits]. destruct (is_digit c) eqn:E.
    + apply is_digit_true in E. unfold digit_char in E.
      destruct (IH (10 * acc + (c - 48))) as [(ds & c' & rest & -> & Hd & Hc & Er)|(ds & -> & Hd & Er)].
      * left. exists ((c - 48) :: ds), c', rest. unfold ascii. cbn [map app fold_left].
        split; [f_equal; lia|]. split; [constructor; [lia|exact Hd]|]. split; [exact Hc|exact Er].
      * right. exists ((c - 48) :: ds). unfold ascii. cbn [map].
        split; [f_equal; lia|]. split; [constructor; [lia|exact Hd]|exact Er].
    + left. exists [], c, l. split; [reflexivity|]. split; [constructor|]. split; [|reflexivity].
      intros H. apply is_digit_true in H. congruence.
Qed.

Lemma atoi_spec l :
  (exists v, atoi l = Ok v /\ numeral l v) \/ (atoi l = UB UB_cstring /\ unterminated l).
Proof.
  induction l as [|c l IH].
  - right. split; [reflexivity|]. exists [], [], 1, []. repeat split; try constructor; auto.
  - cbn [atoi]. destruct (is_space c) eqn:Es.
    + apply is_space_true in Es. destruct IH as [(v & E & sp & sg & k & ds & c' & rest & -> & H1 & H2)|(E & sp & sg & k & ds & -> & H1 & H2)].
      * left. exists v. split; [exact E|]. exists (c :: sp), sg, k, ds, c', rest.
        split; [reflexivity|]. split; [constructor; assumption|exact H2].
      * right. split; [exact E|]. exists (c :: sp), sg, k, ds.
        split; [reflexivity|]. split; [constructor; assumption|exact H2].
    + assert (Hs : ~ space_char c) by (intros H; apply is_space_true in H; congruence).
      destruct (Z.eqb_spec c 45) as [->|Hn].
      { destruct (atoi_digits_spec l 0) as [(ds & c' & rest & -> & Hd & Hc & Er)|(ds & -> & Hd & Er)]; rewrite Er; cbn [bind].
        - left. eexists. split; [reflexivity|]. exists [], [45], (-1), ds, c', rest.
          split; [reflexivity|]. split; [constructor|]. split; [right; right; auto|]. split; [exact Hd|].
          split; [exact Hc|]. split; [discriminate|]. unfold decimal. lia.
        - right. split; [reflexivity|]. exists [], [45], (-1), ds. split; [reflexivity|].
          split; [constructor|]. split; [right; right; auto|exact Hd]. }
      destruct (Z.eqb_spec c 43) as [->|Hp].
      { destruct (atoi_digits_spec l 0) as [(ds & c' & rest & -> & Hd & Hc & Er)|(ds & -> & Hd & Er)]; rewrite Er.
        - left. eexists. split; [reflexivity|]. exists [], [43], 1, ds, c', rest.
          split; [reflexivity|]. split; [constructor|]. split; [right; left; auto|]. split; [exact Hd|].
          split; [exact Hc|]. split; [discriminate|]. unfold decimal. lia.
        - right. split; [reflexivity|]. exists [], [43], 1, ds. split; [reflexivity|].
          split; [constructor|]. split; [right; left; auto|exact Hd]. }
      destruct (atoi_digits_spec (c :: l) 0) as [(ds & c' & rest & E & Hd & Hc & Er)|(ds & E & Hd & Er)]; rewrite Er.
      * left. eexists. split; [reflexivity|]. exists [], [], 1, ds, c', rest.
        split; [exact E|]. split; [constructor|]. split; [left; auto|]. split; [exact Hd|].
        split; [exact Hc|]. split; [|unfold decimal; lia].
        intros _ ->. cbn in E. injection E as <- _. auto.
      * right. split; [reflexivity|]. exists [], [], 1, ds. split; [exact E|].
        split; [constructor|]. split; [left; auto|exact Hd].
Qed.

(* the two are exclusive and the value is determined *)
Lemma atoi_numeral l v : numeral l v -> atoi l = Ok v.
Proof.
  intros (sp & sg & k & ds & c & rest & -> & Hsp & Hsg & Hd & Hc & Hnil & ->).
  assert (HD : forall ds acc, digits ds ->
    atoi_digits (ascii ds ++ c :: rest) acc = Ok (fold_left (fun a d => 10 * a + d) ds acc)).
  { clear - Hc. induction ds as [|d ds IH]; intros acc Hd; unfold ascii; cbn [map app atoi_digits fold_left].
    - destruct (is_digit c) eqn:E; [|reflexivity]. apply is_digit_true in E. contradiction.
    - inversion Hd as [|? ? H1 H2]; subst. replace (is_digit (48 + d)) with true by (unfold is_digit; lia).
      replace (48 + d - 48) with d by lia. apply IH. exact H2. }
  induction sp as [|s sp IH].
  - cbn [app]. destruct Hsg as [[-> ->]|[[-> ->]|[-> ->]]]; cbn [app atoi].
    + destruct ds as [|d ds]; cbn [ascii map app atoi].
      * destruct (Hnil eq_refl eq_refl) as (H1 & H2 & H3).
        replace (is_space c) with false by (destruct (is_space c) eqn:E; [apply is_space_true in E; contradiction|reflexivity]).
        replace (c =? 45) with false by lia. replace (c =? 43) with false by lia.
        apply (HD [] 0 Hd).
      * inversion Hd as [|? ? H1 H2]; subst.
        replace (is_space (48 + d)) with false by (unfold is_space; lia).
        replace (48 + d =? 45) with false by lia. replace (48 + d =? 43) with false by lia.
        change ((48 + d) :: map (fun d0 => 48 + d0) ds ++ c :: rest) with (ascii (d :: ds) ++ c :: rest).
        rewrite HD by exact Hd. unfold decimal. f_equal; lia.
    + change (is_space 43) with false. cbv iota. change (43 =? 45) with false. change (43 =? 43) with true.
      cbv iota. rewrite HD by exact Hd. unfold decimal. f_equal; lia.
    + change (is_space 45) with false. cbv iota. change (45 =? 45) with true.
      cbv iota. rewrite HD by exact Hd. unfold decimal. cbn [bind]. f_equal; lia.
  - inversion Hsp as [|? ? H1 H2]; subst. cbn [app atoi]. apply is_space_true in H1. rewrite H1. apply IH. exact H2.
Qed.
Lemma atoi_unterminated l : unterminated l -> atoi l = UB UB_cstring.
Proof.
  intros (sp & sg & k & ds & -> & Hsp & Hsg & Hd).
  assert (HD : forall ds acc, digits ds -> atoi_digits (ascii ds) acc = UB UB_cstring).
  { clear. induction ds as [|d ds IH]; intros acc Hd; unfold ascii; cbn [map atoi_digits]; [reflexivity|].
    inversion Hd as [|? ? H1 H2]; subst. replace (is_digit (48 + d)) with true by (unfold is_digit; lia).
    apply IH. exact H2. }
  induction sp as [|s sp IH].
  - cbn [app]. destruct Hsg as [[-> ->]|[[-> ->]|[-> ->]]]; cbn [app atoi].
    + destruct ds as [|d ds]; cbn [ascii map atoi]; [reflexivity|].
      inversion Hd as [|? ? H1 H2]; subst.
      replace (is_space (48 + d)) with false by (unfold is_space; lia).
      replace (48 + d =? 45) with false by lia. replace (48 + d =? 43) with false by lia.
      apply (HD (d :: ds) 0 Hd).
    + apply HD. exact Hd.
    + change (is_space 45) with false. cbv iota. change (45 =? 45) with true. cbv iota.
      rewrite HD by exact Hd. reflexivity.
  - inversion Hsp as [|? ? H1 H2]; subst. cbn [app atoi]. apply is_space_true in H1. rewrite H1. apply IH. exact H2.
Qed.

(* ------------------------------------------------ module name *)
Lemma copy_name_spec buf n : forall pos nm i,
  0 <= pos -> pos + Z.of_nat n <= Zlen buf -> 0 <= i -> Zlen nm = i + Z.of_nat n ->
  exists nm', copy_name n buf pos nm i = Ok nm' /\ length nm' = length nm /\
    (~ In 0 (firstn (Z.to_nat i) nm) ->
     (In 0 nm' <-> In 0 (window buf pos n))) /\
    (forall a r, window buf pos n = a ++ 0 :: r -> ~ In 0 a ->
       exists z, nm' = firstn (Z.to_nat i) nm ++ a ++ 0 :: z).
Proof.
  induction n as [|n IH]; intros pos nm i H1 H2 H3 H4.
  - exists nm. cbn [copy_name]. split; [reflexivity|]. split; [reflexivity|]. split.
    + intros H. unfold window. cbn [firstn In].
      rewrite firstn_all2 in H by (unfold Zlen in H4; lia). tauto.
    + intros a r E. destruct a; discriminate.
  - destruct (window_S buf pos n) as (x & E1 & E2); [lia|]. cbn [copy_name]. rewrite E1, E2. cbn [bind].
    unfold aset. replace ((0 <=? i) && (i <? Zlen nm)) with true by lia. cbn [bind].
    set (nm1 := firstn (Z.to_nat i) nm ++ x :: skipn (S (Z.to_nat i)) nm).
    assert (HL : length nm1 = length nm).
    { unfold nm1. rewrite app_length, firstn_length. cbn [length]. rewrite skipn_length. unfold Zlen in H4. lia. }
    assert (HF : firstn (Z.to_nat (i + 1)) nm1 = firstn (Z.to_nat i) nm ++ [x]).
    { unfold nm1. rewrite firstn_app, firstn_firstn, firstn_length.
      replace (Nat.min (Z.to_nat (i + 1)) (Z.to_nat i)) with (Z.to_nat i) by lia.
      replace (Z.to_nat (i + 1) - Nat.min (Z.to_nat i) (length nm))%nat with 1%nat by (unfold Zlen in H4; lia).
      reflexivity. }
    destruct (Z.eqb_spec x 0) as [->|Hne].
    + exists nm1. split; [reflexivity|]. split; [exact HL|]. split.
      * intros _. split; intros _; [left; reflexivity|]. unfold nm1. apply in_or_app. right. left. reflexivity.
      * intros a r E Ha. destruct a as [|y a]; [|exfalso; apply Ha; cbn in E; injection E as -> _; left; reflexivity].
        exists (skipn (S (Z.to_nat i)) nm). reflexivity.
    + destruct (IH (pos + 1) nm1 (i + 1)) as (nm' & E & EL & EZ & EN); [lia|lia|lia|unfold Zlen in *; lia|].
      exists nm'. split; [exact E|]. split; [lia|]. split.
      * intros Hz. rewrite EZ.
        -- cbn [In]. split; [auto|]. intros [H|H]; [lia|exact H].
        -- rewrite HF. intros H. apply in_app_or in H. destruct H as [H|[H|[]]]; [contradiction|lia].
      * intros a r Ea Ha. destruct a as [|y a]; [cbn in Ea; injection Ea as Ea _; lia|].
        cbn [app] in Ea. injection Ea as -> Ea.
        destruct (EN a r Ea) as (z & Ez); [intros H; apply Ha; right; exact H|].
        exists z. rewrite Ez, HF, <- app_assoc. reflexivity.
Qed.

(* ------------------------------------------------ one slot *)
(* The slot's version digits run off the scratch array. *)
Definition slot_overread (buf : list Z) (i : Z) : Prop :=
  has_protver buf i /\ exists t1 t2, version_texts buf i t1 t2 /\ (unterminated t1 \/ unterminated t2).

Lemma protver_mod_excl buf i : has_protver buf i -> ~ has_mod buf i.
Proof.
  unfold has_protver, has_mod, window. intros H1 H2.
  apply (f_equal (firstn 4)) in H1. rewrite firstn_firstn in H1. change (Nat.min 4 8) with 4%nat in H1.
  rewrite H2 in H1. discriminate.
Qed.

Lemma numeral_not_unterminated l v : numeral l v -> ~ unterminated l.
Proof. intros H1 H2. apply atoi_numeral in H1. apply atoi_unterminated in H2. congruence. Qed.
Lemma numeral_fun l v v' : numeral l v -> numeral l v' -> v = v'.
Proof. intros H1 H2. apply atoi_numeral in H1. apply atoi_numeral in H2. congruence. Qed.

Definition slot_effect (buf : list Z) (i : Z) (s s' : ubx) : Prop :=
  (has_protver buf i ->
     modname s' = modname s /\
     exists t1 t2, version_texts buf i t1 t2 /\ numeral t1 (major s') /\ numeral t2 (minor s')) /\
  (~ has_protver buf i -> major s' = major s /\ minor s' = minor s) /\
  (has_mod buf i ->
     (In 0 (modname s') <-> In 0 (window buf (slot i + 4) 10)) /\
     (forall a r, window buf (slot i + 4) 10 = a ++ 0 :: r -> ~ In 0 a ->
        exists z, modname s' = a ++ 0 :: z)) /\
  (~ has_mod buf i -> modname s' = modname s).

Lemma version_slot_spec s i :
  Zlen (inbuf s) = 2048 -> length (modname s) = 10%nat -> 0 <= i < 20 ->
  (exists s', version_slot s i = Ok s' /\ ~ slot_overread (inbuf s) i /\
      inbuf s' = inbuf s /\ length (modname s') = 10%nat /\ slot_effect (inbuf s) i s s')
  \/ (version_slot s i = UB UB_cstring /\ slot_overread (inbuf s) i).
Proof.
  intros HB HM Hi. unfold version_slot.
  change (ext_off i) with (slot i). assert (Hs : 0 <= slot i <= 230) by (unfold slot; lia).
  rewrite str_prefix_window by (change (Zlen lit_protver) with 8; lia). cbn [bind].
  change (length lit_protver) with 8%nat. change lit_protver with PROTVER.
  destruct (list_eq_dec Z.eq_dec (window (inbuf s) (slot i) 8) PROTVER) as [HP|HP].
  - unfold extract_version_string.
    destruct (copy_until_dot_spec (inbuf s) 5 (slot i + 8)) as (t1 & used & E1 & HU1 & Hr); [lia|lia|].
    rewrite E1. cbn [bind].
    destruct (copy_until_nul_spec (inbuf s) 5 (slot i + 8 + used)) as (t2 & E2 & HU2); [lia|lia|].
    assert (HT : version_texts (inbuf s) i t1 t2) by (exists used; auto).
    destruct (atoi_spec t1) as [(ma & Ea & Na)|(Ea & Ua)]; rewrite Ea; cbn [bind].
    2:{ right. split; [reflexivity|]. split; [exact HP|]. exists t1, t2. auto. }
    rewrite E2. cbn [bind].
    destruct (atoi_spec t2) as [(mi & Eb & Nb)|(Eb & Ub)]; rewrite Eb; cbn [bind].
    2:{ right. split; [reflexivity|]. split; [exact HP|]. exists t1, t2. auto. }
    left. change (inbuf (w_version s ma mi)) with (inbuf s).
    rewrite str_prefix_window by (change (Zlen lit_mod) with 4; lia). cbn [bind].
    change (length lit_mod) with 4%nat. change lit_mod with MOD.
    pose proof (protver_mod_excl _ _ HP) as HnM.
    destruct (list_eq_dec Z.eq_dec (window (inbuf s) (slot i) 4) MOD) as [HMo|HMo]; [contradiction|].
    exists (w_version s ma mi). split; [reflexivity|]. split.
    { intros (_ & t1' & t2' & (used' & V1 & V2) & HUn).
      destruct (until_dot_fun _ _ _ _ _ HU1 V1) as [<- <-].
      pose proof (until_nul_fun _ _ _ HU2 V2) as <-.
      destruct HUn as [HUn|HUn]; [apply (numeral_not_unterminated _ _ Na HUn)|apply (numeral_not_unterminated _ _ Nb HUn)]. }
    split; [reflexivity|]. split; [exact HM|].
    split; [intros _; split; [reflexivity|]; exists t1, t2; auto|].
    split; [intros H; contradiction|]. split; [intros H; contradiction|reflexivity].
  - cbn [bind]. left.
    rewrite str_prefix_window by (change (Zlen lit_mod) with 4; lia). cbn [bind].
    change (length lit_mod) with 4%nat. change lit_mod with MOD.
    assert (Hno : ~ slot_overread (inbuf s) i) by (intros [H _]; contradiction).
    destruct (list_eq_dec Z.eq_dec (window (inbuf s) (slot i) 4) MOD) as [HMo|HMo].
    + unfold extract_module_name.
      destruct (copy_name_spec (inbuf s) 10 (slot i + 4) (modname s) 0) as (nm & En & EL & EZ & EN);
        [lia|lia|lia|unfold Zlen; lia|].
      rewrite En. cbn [bind]. eexists. split; [reflexivity|]. split; [exact Hno|].
      split; [reflexivity|]. split; [cbn; lia|].
      split; [intros H; contradiction|]. split; [intros _; split; reflexivity|].
      split; [|intros H; contradiction]. intros _. split; [apply EZ; cbn; tauto|exact EN].
    + exists s. split; [reflexivity|]. split; [exact Hno|]. split; [reflexivity|]. split; [exact HM|].
      split; [intros H; contradiction|]. split; [auto|]. split; [intros H; contradiction|reflexivity].
Qed.

(* ------------------------------------------------ the loop *)
(* i is the last slot below n for which P holds *)
Definition last_slot (P : Z -> Prop) (n i : Z) : Prop := 0 <= i < n /\ P i /\ forall j, i < j < n -> ~ P j.
Definition no_slot (P : Z -> Prop) (n : Z) : Prop := forall j, 0 <= j < n -> ~ P j.

Definition loop_effect (buf : list Z) (n : Z) (s s' : ubx) : Prop :=
  (forall i, last_slot (has_protver buf) n i ->
     exists t1 t2, version_texts buf i t1 t2 /\ numeral t1 (major s') /\ numeral t2 (minor s')) /\
  (no_slot (has_protver buf) n -> major s' = major s /\ minor s' = minor s) /\
  (forall i, last_slot (has_mod buf) n i ->
     (In 0 (modname s') <-> In 0 (window buf (slot i + 4) 10)) /\
     (forall a r, window buf (slot i + 4) 10 = a ++ 0 :: r -> ~ In 0 a ->
        exists z, modname s' = a ++ 0 :: z)) /\
  (no_slot (has_mod buf) n -> modname s' = modname s).

Lemma version_loop_snoc n : forall i s,
  version_loop (S n) i s = let* s1 := version_loop n i s in version_slot s1 (i + Z.of_nat n).
Proof.
  induction n as [|n IH]; intros i s.
  - cbn [version_loop bind]. rewrite Z.add_0_r. destruct (version_slot s i); reflexivity.
  - change (version_loop (S (S n)) i s) with (let* s1 := version_slot s i in version_loop (S n) (i + 1) s1).
    change (version_loop (S n) i s) with (let* s1 := version_slot s i in version_loop n (i + 1) s1).
    destruct (version_slot s i) as [s1|k]; cbn [bind]; [|reflexivity]. rewrite IH.
    replace (i + Z.of_nat (S n)) with (i + 1 + Z.of_nat n) by lia. reflexivity.
Qed.

Lemma has_protver_dec buf i : {has_protver buf i} + {~ has_protver buf i}.
Proof. apply list_eq_dec, Z.eq_dec. Qed.
Lemma has_mod_dec buf i : {has_mod buf i} + {~ has_mod buf i}.
Proof. apply list_eq_dec, Z.eq_dec. Qed.

Lemma version_loop_spec n : forall s, (n <= 20)%nat ->
  Zlen (inbuf s) = 2048 -> length (modname s) = 10%nat ->
  (exists s', version_loop n 0 s = Ok s' /\ no_slot (slot_overread (inbuf s)) (Z.of_nat n) /\
      inbuf s' = inbuf s /\ length (modname s') = 10%nat /\ loop_effect (inbuf s) (Z.of_nat n) s s')
  \/ (version_loop n 0 s = UB UB_cstring /\ exists i, 0 <= i < Z.of_nat n /\ slot_overread (inbuf s) i).
Proof.
  induction n as [|n IH]; intros s Hn HB HM.
  - left. exists s. split; [reflexivity|]. split; [intros j Hj; lia|]. split; [reflexivity|]. split; [exact HM|].
    split; [intros i [Hi _]; lia|]. split; [auto|]. split; [intros i [Hi _]; lia|auto].
  - rewrite version_loop_snoc. rewrite Z.add_0_l.
    destruct (IH s) as [(s1 & E1 & N1 & B1 & L1 & F1)|(E1 & i & Hi & Ho)]; [lia|exact HB|exact HM| |].
    2:{ right. rewrite E1. split; [reflexivity|]. exists i. split; [lia|exact Ho]. }
    rewrite E1. cbn [bind].
    destruct (version_slot_spec s1 (Z.of_nat n)) as [(s2 & E2 & N2 & B2 & L2 & F2)|(E2 & Ho)];
      [rewrite B1; exact HB|exact L1|lia| |].
    2:{ right. split; [exact E2|]. rewrite B1 in Ho. exists (Z.of_nat n). split; [lia|exact Ho]. }
    rewrite B1 in N2, B2, F2. left. exists s2. split; [exact E2|].
    split. { intros j Hj. destruct (Z.eq_dec j (Z.of_nat n)) as [->|]; [exact N2|apply N1; lia]. }
    split; [exact B2|]. split; [exact L2|].
    destruct F1 as (A1 & A2 & A3 & A4). destruct F2 as (C1 & C2 & C3 & C4).
    split; [|split; [|split]].
    + intros i (Hi & HPi & Hlast). destruct (Z.eq_dec i (Z.of_nat n)) as [->|Hne]; [apply C1; exact HPi|].
      destruct (C2 (Hlast (Z.of_nat n) ltac:(lia))) as [-> ->].
      apply A1. split; [lia|]. split; [exact HPi|]. intros j Hj. apply Hlast. lia.
    + intros HN. destruct (C2 (HN (Z.of_nat n) ltac:(lia))) as [-> ->]. apply A2. intros j Hj. apply HN. lia.
    + intros i (Hi & HPi & Hlast). destruct (Z.eq_dec i (Z.of_nat n)) as [->|Hne]; [apply C3; exact HPi|].
      rewrite (C4 (Hlast (Z.of_nat n) ltac:(lia))).
      apply A3. split; [lia|]. split; [exact HPi|]. intros j Hj. apply Hlast. lia.
    + intros HN. rewrite (C4 (HN (Z.of_nat n) ltac:(lia))). apply A4. intros j Hj. apply HN. lia.
Qed.

Lemma slot_search (P : Z -> Prop) (dec : forall i, {P i} + {~ P i}) n :
  (exists i, last_slot P (Z.of_nat n) i) \/ no_slot P (Z.of_nat n).
Proof.
  induction n as [|n IH]; [right; intros j Hj; lia|].
  destruct (dec (Z.of_nat n)) as [H|H].
  - left. exists (Z.of_nat n). split; [lia|]. split; [exact H|]. intros j Hj. lia.
  - destruct IH as [(i & Hi & HP & HL)|HN].
    + left. exists i. split; [lia|]. split; [exact HP|]. intros j Hj.
      destruct (Z.eq_dec j (Z.of_nat n)) as [->|]; [exact H|apply HL; lia].
    + right. intros j Hj. destruct (Z.eq_dec j (Z.of_nat n)) as [->|]; [exact H|apply HN; lia].
Qed.

(* The name printed after the loop is not terminated. *)
Definition name_unterminated (buf old : list Z) : Prop :=
  (exists i, last_slot (has_mod buf) 20 i /\ ~ In 0 (window buf (slot i + 4) 10)) \/
  (no_slot (has_mod buf) 20 /\ ~ In 0 old).

Lemma version_cb_spec s :
  Zlen (inbuf s) = 2048 -> length (modname s) = 10%nat ->
  (exists s', version_cb s = Ok s' /\ got_ver s' = true /\ loop_effect (inbuf s) 20 s s' /\
     no_slot (slot_overread (inbuf s)) 20 /\ ~ name_unterminated (inbuf s) (modname s))
  \/ (version_cb s = UB UB_cstring /\
      ((exists i, 0 <= i < 20 /\ slot_overread (inbuf s) i) \/ name_unterminated (inbuf s) (modname s))).
Proof.
  intros HB HM. unfold version_cb.
  destruct (version_loop_spec 20 s) as [(s1 & E1 & N1 & B1 & L1 & F1)|(E1 & Hex)]; [lia|exact HB|exact HM| |];
    change (Z.of_nat 20) with 20 in *; rewrite E1; cbn [bind].
  2:{ right. auto. }
  pose proof F1 as F1'. destruct F1' as (_ & _ & A3 & A4).
  assert (HN : name_unterminated (inbuf s) (modname s) <-> ~ In 0 (modname s1)).
  { destruct (slot_search _ (has_mod_dec (inbuf s)) 20) as [(i & Hi)|HN]; change (Z.of_nat 20) with 20 in *.
    - destruct (A3 i Hi) as [Hz _]. rewrite Hz. split.
      + intros [(i' & Hi' & H)|[HNo _]].
        * assert (i' = i) as ->; [|exact H].
          destruct Hi as (H1 & H2 & H3), Hi' as (H1' & H2' & H3').
          destruct (Z.lt_trichotomy i i') as [HL|[HL|HL]]; [|auto|].
          -- exfalso. apply (H3 i'); [lia|exact H2'].
          -- exfalso. apply (H3' i); [lia|exact H2].
        * exfalso. destruct Hi as (H1 & H2 & H3). apply (HNo i H1 H2).
      + intros H. left. exists i. auto.
    - rewrite (A4 HN). split.
      + intros [(i' & (Hi' & HM' & _) & _)|[_ H]]; [|exact H]. exfalso. apply (HN i' Hi' HM').
      + intros H. right. auto. }
  unfold print_name. destruct (existsb (Z.eqb 0) (modname s1)) eqn:E.
  - left. cbn [bind]. eexists. split; [reflexivity|]. split; [reflexivity|]. split; [exact F1|].
    split; [exact N1|]. rewrite HN. intros H. apply H.
    apply existsb_exists in E. destruct E as (x & HI & Hx). replace x with 0 in HI by lia. exact HI.
  - right. cbn [bind]. split; [reflexivity|]. right. apply HN. intros HI.
    assert (existsb (Z.eqb 0) (modname s1) = true) by (apply existsb_exists; exists 0; split; [exact HI|reflexivity]).
    congruence.
Qed.
