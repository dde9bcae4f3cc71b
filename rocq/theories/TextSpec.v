(* Text, for the specifications of what is printed (C75-C77, C84, C86): independent of the models of printf. *)
From Coq Require Import String Ascii DecimalString.
From Verif Require Import Base.
Local Open Scope string_scope.
Local Open Scope Z_scope.

Definition newline : string := String (ascii_of_nat 10) "".
Definition line (t : string) : string := t ++ String (ascii_of_nat 10) "".  (* t ++ newline *)
(* a signed decimal number, as the standard library writes it *)
Definition number (z : Z) : string := NilEmpty.string_of_int (Z.to_int z).
(* exactly k decimal digits of value v *)
Definition digits_text (k : nat) (v : Z) (t : string) : Prop :=
  exists ds, length ds = k /\ Forall (fun d => 0 <= d <= 9) ds /\ fold_left (fun a d => 10 * a + d) ds 0 = v /\
    t = string_of_list_ascii (map (fun d => ascii_of_nat (Z.to_nat (48 + d))) ds).
(* q units of 10^-k: sign, whole part, point, k digits *)
Definition fixed_point (k : nat) (neg : bool) (q : Z) (t : string) : Prop :=
  exists f, digits_text k (q mod 10 ^ Z.of_nat k) f /\ t = (if neg then "-" else "") ++ number (q / 10 ^ Z.of_nat k) ++ "." ++ f.

(* the text is determined *)
Lemma digits_value ds : Forall (fun d => 0 <= d <= 9) ds -> forall a, fold_left (fun a d => 10 * a + d) ds a = a * 10 ^ Z.of_nat (length ds) + fold_left (fun a d => 10 * a + d) ds 0 /\
  0 <= fold_left (fun a d => 10 * a + d) ds 0 < 10 ^ Z.of_nat (length ds).
Proof.
  induction 1 as [|d ds Hd _ IH]; intros a; [cbn; lia|].
  cbn [fold_left length]. rewrite Nat2Z.inj_succ, Z.pow_succ_r by lia.
  destruct (IH (10 * a + d)) as [E1 B]. destruct (IH (10 * 0 + d)) as [E2 _]. rewrite E1, E2. split; [ring|nia].
Qed.
Lemma digits_inj ds : forall es, length ds = length es -> Forall (fun d => 0 <= d <= 9) ds -> Forall (fun d => 0 <= d <= 9) es ->
  fold_left (fun a d => 10 * a + d) ds 0 = fold_left (fun a d => 10 * a + d) es 0 -> ds = es.
Proof.
  induction ds as [|d ds IH]; intros [|e es] L Hd He E; try discriminate; [reflexivity|].
  inversion Hd as [|? ? D1 D2]; inversion He as [|? ? F1 F2]; subst. cbn [fold_left] in E. injection L as L.
  destruct (digits_value ds D2 (10 * 0 + d)) as [E1 B1]. destruct (digits_value es F2 (10 * 0 + e)) as [E2 B2].
  rewrite E1, E2 in E. assert (X : d = e) by (rewrite L in *; nia). subst e. f_equal. apply IH; try assumption. rewrite L in E. lia.
Qed.
Lemma digits_text_fun k v t t' : digits_text k v t -> digits_text k v t' -> t = t'.
Proof.
  intros (ds & L & H & E & ->) (es & L' & H' & E' & ->). rewrite (digits_inj ds es); try assumption; [reflexivity|congruence|congruence].
Qed.
Lemma fixed_point_fun k neg q t t' : fixed_point k neg q t -> fixed_point k neg q t' -> t = t'.
Proof. intros (f & H & ->) (f' & H' & ->). rewrite (digits_text_fun k _ f f' H H'). reflexivity. Qed.
Lemma digits_list ds : string_of_list_ascii (map (fun d => ascii_of_nat (Z.to_nat (48 + d))) ds) =
  fold_right (fun d t => String (ascii_of_N (Z.to_N (48 + d))) "" ++ t) "" ds.
Proof. induction ds as [|d ds IH]; [reflexivity|]. cbn [map string_of_list_ascii fold_right append]. rewrite IH. unfold ascii_of_nat. do 2 f_equal. lia. Qed.
Example fixed_point_case : fixed_point 3 true 1050 "-1.050".
Proof. exists "050". split; [|reflexivity]. exists [0; 5; 0]. repeat split. repeat constructor; lia. Qed.
