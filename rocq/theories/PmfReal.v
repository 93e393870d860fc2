(** * PmfReal: accuracy of the logarithmic number format over the reals *)
From Coq Require Import ZArith Bool List Lia Reals Lra.
From Verif Require Import Base Pmf PmfSweep PmfFacts.
Import ListNotations.
Open Scope Z_scope.
Ltac Zify.zify_post_hook ::= idtac.

(** ** Verified integer bounds of 2^(k/2048), scaled by 2^44 *)
Definition SC : Z := 17592186044416.
Definition r_lo : Z := 17598141141055.
Definition r_hi : Z := 17598141141057.

Definition sq_up (u : Z) : Z := u * u / SC + 1.
Definition sq_dn (u : Z) : Z := u * u / SC.
Fixpoint iter (f : Z -> Z) (n : nat) (u : Z) : Z :=
  match n with O => u | S k => iter f k (f u) end.

Fixpoint tab (step : Z -> Z) (n : nat) (u : Z) : list Z :=
  match n with O => [u] | S k => u :: tab step k (step u) end.
Definition stepU (u : Z) : Z := u * r_hi / SC + 1.
Definition stepL (u : Z) : Z := u * r_lo / SC.
Definition tabU : list Z := Eval vm_compute in tab stepU 2048 SC.
Lemma tabU_eq : tabU = tab stepU 2048 SC.
Proof. vm_compute. reflexivity. Qed.
Definition tabL : list Z := Eval vm_compute in tab stepL 2048 SC.
Lemma tabL_eq : tabL = tab stepL 2048 SC.
Proof. vm_compute. reflexivity. Qed.

Lemma r_lo_ok : iter sq_up 11 r_lo <= 2 * SC.
Proof. vm_compute. discriminate. Qed.
Lemma r_hi_ok : 2 * SC <= iter sq_dn 11 r_hi.
Proof. vm_compute. discriminate. Qed.

Open Scope R_scope.
Definition rS : R := IZR SC.
Lemma rS_pos : 0 < rS.
Proof. apply IZR_lt. reflexivity. Qed.

Lemma div_dn u v : (0 < v)%Z -> IZR (u / v) <= IZR u / IZR v.
Proof.
  intros Hv. assert (0 < IZR v) by (apply IZR_lt; lia).
  apply Rmult_le_reg_r with (IZR v); [assumption|].
  unfold Rdiv. rewrite Rmult_assoc, Rinv_l by lra. rewrite Rmult_1_r.
  rewrite <- mult_IZR. apply IZR_le.
  pose proof (Z.mul_div_le u v Hv). lia.
Qed.
Lemma div_up u v : (0 < v)%Z -> IZR u / IZR v <= IZR (u / v + 1).
Proof.
  intros Hv. assert (0 < IZR v) by (apply IZR_lt; lia).
  apply Rmult_le_reg_r with (IZR v); [assumption|].
  unfold Rdiv. rewrite Rmult_assoc, Rinv_l by lra. rewrite Rmult_1_r.
  rewrite <- mult_IZR. apply IZR_le.
  pose proof (Z.mul_succ_div_gt u v Hv). lia.
Qed.

Lemma mul_up u v y z :
  0 <= y -> 0 <= z -> y <= IZR u / rS -> z <= IZR v / rS ->
  y * z <= IZR (u * v / SC + 1) / rS.
Proof.
  intros Hy Hz Hu Hv. pose proof rS_pos.
  apply Rle_trans with (IZR u / rS * (IZR v / rS)).
  - apply Rmult_le_compat; assumption.
  - replace (IZR u / rS * (IZR v / rS)) with ((IZR (u * v) / rS) / rS)
      by (rewrite mult_IZR; field; lra).
    unfold Rdiv at 1 3. apply Rmult_le_compat_r.
    + left. apply Rinv_0_lt_compat. assumption.
    + apply (div_up (u * v) SC). reflexivity.
Qed.
Lemma mul_dn u v y z :
  (0 <= u)%Z -> (0 <= v)%Z -> IZR u / rS <= y -> IZR v / rS <= z ->
  IZR (u * v / SC) / rS <= y * z.
Proof.
  intros Hy Hz Hu Hv. pose proof rS_pos.
  assert (P : forall w, (0 <= w)%Z -> 0 <= IZR w / rS).
  { intros w Hw. apply Rmult_le_pos; [apply IZR_le; assumption|].
    left. apply Rinv_0_lt_compat. assumption. }
  apply Rle_trans with (IZR u / rS * (IZR v / rS)).
  - replace (IZR u / rS * (IZR v / rS)) with ((IZR (u * v) / rS) / rS)
      by (rewrite mult_IZR; field; lra).
    unfold Rdiv at 1 2. apply Rmult_le_compat_r.
    + left. apply Rinv_0_lt_compat. assumption.
    + apply (div_dn (u * v) SC). reflexivity.
  - apply Rmult_le_compat; auto.
Qed.

Lemma iter_up n : forall u y, 0 <= y -> y <= IZR u / rS ->
  y ^ (2 ^ n) <= IZR (iter sq_up n u) / rS.
Proof.
  induction n as [|n IH]; intros u y Hy Hu; cbn [iter].
  - cbn. lra.
  - replace (2 ^ S n)%nat with (2 * 2 ^ n)%nat by (cbn; lia).
    rewrite pow_mult. apply IH.
    + apply pow_le. assumption.
    + cbn [pow]. rewrite Rmult_1_r. apply mul_up; assumption.
Qed.
Lemma iter_dn n : forall u y, (0 <= u)%Z -> IZR u / rS <= y ->
  IZR (iter sq_dn n u) / rS <= y ^ (2 ^ n).
Proof.
  induction n as [|n IH]; intros u y Hu Hy; cbn [iter].
  - cbn. lra.
  - replace (2 ^ S n)%nat with (2 * 2 ^ n)%nat by (cbn; lia).
    rewrite pow_mult. apply IH.
    + apply Z.div_pos; [nia|reflexivity].
    + cbn [pow]. rewrite Rmult_1_r. apply mul_dn; assumption.
Qed.

(** 2^(k/2048) *)
Definition p2 (k : R) : R := Rpower 2 (k / 2048).
Lemma p2_pos k : 0 < p2 k.
Proof. apply exp_pos. Qed.
Lemma p2_add a b : p2 (a + b) = p2 a * p2 b.
Proof. unfold p2. rewrite <- Rpower_plus. f_equal. field. Qed.
Lemma p2_0 : p2 0 = 1.
Proof. unfold p2. replace (0 / 2048) with 0 by field. apply Rpower_O. lra. Qed.
Lemma p2_2048 : p2 2048 = 2.
Proof. unfold p2. replace (2048 / 2048) with 1 by field. apply Rpower_1. lra. Qed.
Lemma p2_mono a b : a <= b -> p2 a <= p2 b.
Proof.
  intros H. unfold p2. apply Rle_Rpower; lra.
Qed.
Lemma p2_1_pow : p2 1 ^ (2 ^ 11) = 2.
Proof.
  rewrite <- Rpower_pow by apply p2_pos.
  unfold p2. rewrite Rpower_mult.
  replace (1 / 2048 * INR (2 ^ 11)) with 1.
  - apply Rpower_1. lra.
  - change (2 ^ 11)%nat with 2048%nat. rewrite INR_IZR_INZ.
    change (Z.of_nat 2048) with 2048%Z. field.
Qed.

Lemma pow_le_inv a b n : 0 <= b -> (0 < n)%nat -> a ^ n <= b ^ n -> a <= b.
Proof.
  intros Hb Hn H. destruct (Rle_lt_dec a b) as [|C]; [assumption|exfalso].
  assert (b ^ n < a ^ n); [|lra].
  clear H. induction n as [|n IH]; [lia|].
  destruct n as [|n]; [cbn; lra|].
  specialize (IH ltac:(lia)). cbn [pow] in *.
  assert (0 <= b ^ n) by (apply pow_le; assumption).
  apply Rle_lt_trans with (b * (a * a ^ n)).
  - apply Rmult_le_compat_l; [assumption|]. lra.
  - apply Rmult_lt_compat_r; [|assumption].
    assert (0 < a) by lra. assert (0 < a ^ n) by (apply pow_lt; assumption).
    apply Rmult_lt_0_compat; assumption.
Qed.

Lemma p2_1_lo : IZR r_lo / rS <= p2 1.
Proof.
  apply pow_le_inv with (2 ^ 11)%nat; [left; apply p2_pos|apply Nat.ltb_lt; reflexivity|].
  rewrite p2_1_pow.
  apply Rle_trans with (IZR (iter sq_up 11 r_lo) / rS).
  - apply iter_up; [|apply Rle_refl].
    apply Rmult_le_pos; [apply IZR_le; discriminate|].
    left. apply Rinv_0_lt_compat, rS_pos.
  - pose proof rS_pos. apply Rmult_le_reg_r with rS; [assumption|].
    unfold Rdiv. rewrite Rmult_assoc, Rinv_l, Rmult_1_r by lra.
    unfold rS. rewrite <- mult_IZR. apply IZR_le. exact r_lo_ok.
Qed.
Lemma p2_1_hi : p2 1 <= IZR r_hi / rS.
Proof.
  assert (0 <= IZR r_hi / rS).
  { apply Rmult_le_pos; [apply IZR_le; discriminate|].
    left. apply Rinv_0_lt_compat, rS_pos. }
  apply pow_le_inv with (2 ^ 11)%nat; [assumption|apply Nat.ltb_lt; reflexivity|].
  rewrite p2_1_pow.
  apply Rle_trans with (IZR (iter sq_dn 11 r_hi) / rS).
  - pose proof rS_pos. apply Rmult_le_reg_r with rS; [assumption|].
    unfold Rdiv. rewrite Rmult_assoc, Rinv_l, Rmult_1_r by lra.
    unfold rS. rewrite <- mult_IZR. apply IZR_le. exact r_hi_ok.
  - apply iter_dn; [discriminate|apply Rle_refl].
Qed.

Lemma tabU_ok n : forall u y k, 0 <= y -> y <= IZR u / rS -> (k <= n)%nat ->
  y * p2 (INR k) <= IZR (nth k (tab stepU n u) 0%Z) / rS.
Proof.
  induction n as [|n IH]; intros u y k Hy Hu Hk; cbn [tab].
  - replace k with O by lia. cbn [nth INR]. rewrite p2_0. lra.
  - destruct k as [|k]; cbn [nth].
    + cbn [INR]. rewrite p2_0. lra.
    + rewrite S_INR, Rplus_comm, p2_add, <- Rmult_assoc. apply IH; [| |lia].
      * apply Rmult_le_pos; [assumption|left; apply p2_pos].
      * apply mul_up; [assumption|left; apply p2_pos|assumption|apply p2_1_hi].
Qed.
Lemma tabL_ok n : forall u y k, (0 <= u)%Z -> IZR u / rS <= y -> (k <= n)%nat ->
  IZR (nth k (tab stepL n u) 0%Z) / rS <= y * p2 (INR k).
Proof.
  induction n as [|n IH]; intros u y k Hy Hu Hk; cbn [tab].
  - replace k with O by lia. cbn [nth INR]. rewrite p2_0. lra.
  - destruct k as [|k]; cbn [nth].
    + cbn [INR]. rewrite p2_0. lra.
    + rewrite S_INR, Rplus_comm, p2_add, <- Rmult_assoc. apply IH; [| |lia].
      * apply Z.div_pos; [|reflexivity]. apply Z.mul_nonneg_nonneg; [assumption|discriminate].
      * apply mul_dn; [assumption|discriminate|assumption|apply p2_1_lo].
Qed.

(** integer comparisons with 2^(k/2048) * b *)
Definition powU (k : Z) : Z := nth (Z.to_nat (k mod 2048)) tabU 0%Z.
Definition powL (k : Z) : Z := nth (Z.to_nat (k mod 2048)) tabL 0%Z.
(** 2^(k/2048) * b <= a *)
Definition pow_le (k a b : Z) : bool :=
  (let q := k / 2048 in
   powU k * 2 ^ (Z.max q 0) * b <=? a * SC * 2 ^ (Z.max (- q) 0))%Z.
(** a <= 2^(k/2048) * b *)
Definition pow_ge (k a b : Z) : bool :=
  (let q := k / 2048 in
   a * SC * 2 ^ (Z.max (- q) 0) <=? powL k * 2 ^ (Z.max q 0) * b)%Z.

Lemma p2_INR_pow n : p2 (2048 * INR n) = 2 ^ n.
Proof.
  induction n as [|n IH]; [cbn; rewrite Rmult_0_r; apply p2_0|].
  rewrite S_INR. replace (2048 * (INR n + 1)) with (2048 * INR n + 2048) by ring.
  rewrite p2_add, IH, p2_2048. cbn. ring.
Qed.
Lemma p2_IZR_pow q : (0 <= q)%Z -> p2 (2048 * IZR q) = IZR (2 ^ q).
Proof.
  intros H. replace q with (Z.of_nat (Z.to_nat q)) by (apply Z2Nat.id; assumption).
  rewrite <- INR_IZR_INZ, p2_INR_pow, <- pow_IZR. reflexivity.
Qed.
Lemma p2_split k : p2 (IZR k) * IZR (2 ^ Z.max (- (k / 2048)) 0) =
  p2 (INR (Z.to_nat (k mod 2048))) * IZR (2 ^ Z.max (k / 2048) 0).
Proof.
  rewrite <- !p2_IZR_pow by lia.
  rewrite <- !p2_add. f_equal.
  rewrite INR_IZR_INZ, Z2Nat.id by (apply Z.mod_pos_bound; lia).
  assert (E : (k + 2048 * Z.max (- (k / 2048)) 0 = k mod 2048 + 2048 * Z.max (k / 2048) 0)%Z).
  { pose proof (Z.div_mod k 2048 ltac:(lia)). lia. }
  apply (f_equal IZR) in E. rewrite !plus_IZR, !mult_IZR in E. exact E.
Qed.

Lemma powU_ok k : p2 (INR (Z.to_nat (k mod 2048))) <= IZR (powU k) / rS.
Proof.
  unfold powU. rewrite tabU_eq. rewrite <- (Rmult_1_l (p2 _)). apply (tabU_ok 2048); [lra| |].
  - unfold rS. right. field. apply Rgt_not_eq. apply rS_pos.
  - pose proof (Z.mod_pos_bound k 2048 ltac:(lia)). lia.
Qed.
Lemma powL_ok k : IZR (powL k) / rS <= p2 (INR (Z.to_nat (k mod 2048))).
Proof.
  unfold powL. rewrite tabL_eq. rewrite <- (Rmult_1_l (p2 _)). apply (tabL_ok 2048); [discriminate| |].
  - unfold rS. right. field. apply Rgt_not_eq. apply rS_pos.
  - pose proof (Z.mod_pos_bound k 2048 ltac:(lia)). lia.
Qed.

Lemma pow_le_ok k a b : (0 <= b)%Z -> pow_le k a b = true ->
  p2 (IZR k) * IZR b <= IZR a.
Proof.
  intros Hb H. unfold pow_le in H. apply Z.leb_le in H.
  apply IZR_le in H. rewrite !mult_IZR in H. fold rS in H.
  pose proof rS_pos. pose proof (powU_ok k) as U. pose proof (p2_split k) as E.
  set (A := IZR (2 ^ Z.max (- (k / 2048)) 0)) in *.
  set (B := IZR (2 ^ Z.max (k / 2048) 0)) in *.
  assert (0 < A) by (apply IZR_lt, Z.pow_pos_nonneg; lia).
  assert (0 < B) by (apply IZR_lt, Z.pow_pos_nonneg; lia).
  assert (0 <= IZR b) by (apply IZR_le; assumption).
  apply Rmult_le_reg_r with (A * rS); [apply Rmult_lt_0_compat; assumption|].
  replace (p2 (IZR k) * IZR b * (A * rS)) with (p2 (IZR k) * A * IZR b * rS) by ring.
  rewrite E.
  replace (p2 (INR (Z.to_nat (k mod 2048))) * B * IZR b * rS)
    with (p2 (INR (Z.to_nat (k mod 2048))) * rS * (B * IZR b)) by ring.
  apply Rle_trans with (IZR (powU k) * (B * IZR b)); [|lra].
  apply Rmult_le_compat_r; [apply Rmult_le_pos; lra|].
  apply Rmult_le_reg_r with (/ rS); [apply Rinv_0_lt_compat; assumption|].
  rewrite Rmult_assoc, Rinv_r, Rmult_1_r by lra. exact U.
Qed.
Lemma pow_ge_ok k a b : (0 <= b)%Z -> pow_ge k a b = true ->
  IZR a <= p2 (IZR k) * IZR b.
Proof.
  intros Hb H. unfold pow_ge in H. apply Z.leb_le in H.
  apply IZR_le in H. rewrite !mult_IZR in H. fold rS in H.
  pose proof rS_pos. pose proof (powL_ok k) as U. pose proof (p2_split k) as E.
  set (A := IZR (2 ^ Z.max (- (k / 2048)) 0)) in *.
  set (B := IZR (2 ^ Z.max (k / 2048) 0)) in *.
  assert (0 < A) by (apply IZR_lt, Z.pow_pos_nonneg; lia).
  assert (0 < B) by (apply IZR_lt, Z.pow_pos_nonneg; lia).
  assert (0 <= IZR b) by (apply IZR_le; assumption).
  apply Rmult_le_reg_r with (A * rS); [apply Rmult_lt_0_compat; assumption|].
  replace (p2 (IZR k) * IZR b * (A * rS)) with (p2 (IZR k) * A * IZR b * rS) by ring.
  rewrite E.
  replace (p2 (INR (Z.to_nat (k mod 2048))) * B * IZR b * rS)
    with (p2 (INR (Z.to_nat (k mod 2048))) * rS * (B * IZR b)) by ring.
  apply Rle_trans with (IZR (powL k) * (B * IZR b)); [lra|].
  apply Rmult_le_compat_r; [apply Rmult_le_pos; lra|].
  apply Rmult_le_reg_r with (/ rS); [apply Rinv_0_lt_compat; assumption|].
  rewrite Rmult_assoc, Rinv_r, Rmult_1_r by lra. exact U.
Qed.

Global Opaque pow_le pow_ge.

(** ** Logarithm to base 2 *)
Definition log2R (x : R) : R := ln x / ln 2.
Lemma ln2_pos : 0 < ln 2.
Proof. rewrite <- ln_1. apply ln_increasing; lra. Qed.
Lemma p2_log x : 0 < x -> p2 (2048 * log2R x) = x.
Proof.
  intros H. unfold p2, log2R, Rpower. pose proof ln2_pos.
  replace (2048 * (ln x / ln 2) / 2048 * ln 2) with (ln x) by (field; lra).
  apply exp_ln. assumption.
Qed.
Lemma log2R_p2 k : 2048 * log2R (p2 k) = k.
Proof.
  unfold log2R, p2, Rpower. rewrite ln_exp. pose proof ln2_pos. field. lra.
Qed.
Lemma log2R_le x y : 0 < x -> x <= y -> log2R x <= log2R y.
Proof.
  intros Hx [H| ->]; [|lra]. unfold log2R. apply Rmult_le_compat_r.
  - left. apply Rinv_0_lt_compat, ln2_pos.
  - left. apply ln_increasing; assumption.
Qed.
Lemma log2R_mult x y : 0 < x -> 0 < y -> log2R (x * y) = log2R x + log2R y.
Proof.
  intros. unfold log2R. rewrite ln_mult by assumption. pose proof ln2_pos. field. lra.
Qed.
Lemma le_log k x : 0 < x -> p2 k <= x -> k <= 2048 * log2R x.
Proof.
  intros Hx H. rewrite <- (log2R_p2 k). apply Rmult_le_compat_l; [lra|].
  apply log2R_le; [apply p2_pos|assumption].
Qed.
Lemma log_le k x : 0 < x -> x <= p2 k -> 2048 * log2R x <= k.
Proof.
  intros Hx H. rewrite <- (log2R_p2 k) at 1. apply Rmult_le_compat_l; [lra|].
  apply log2R_le; assumption.
Qed.

(** ** Accuracy of the conversion from integers *)
Open Scope Z_scope.
Definition acc_small (x : Z) : bool :=
  let v := pmfl_from_u16 x in pow_le (4 * v - 3) x 1 && pow_ge (4 * v + 6) x 1.
Definition acc_mant (m : Z) : bool :=
  let v := mant m in
  pow_le (4 * v - 3) (2048 + m) 2048 && pow_ge (4 * v + 6) (2049 + m) 2048.
Lemma acc_small_sweep : sweep acc_small 1 2048 = true.
Proof. vm_compute. reflexivity. Qed.
Lemma acc_mant_sweep : sweep acc_mant 0 2048 = true.
Proof. vm_compute. reflexivity. Qed.

Open Scope R_scope.
Lemma from_u32_p2 x : (1 <= x < 4294967296)%Z ->
  p2 (4 * IZR (pmfl_from_u32 x) - 3) <= IZR x <= p2 (4 * IZR (pmfl_from_u32 x) + 6).
Proof.
  intros H.
  replace (4 * IZR (pmfl_from_u32 x) - 3) with (IZR (4 * pmfl_from_u32 x - 3))
    by (rewrite minus_IZR, mult_IZR; reflexivity).
  replace (4 * IZR (pmfl_from_u32 x) + 6) with (IZR (4 * pmfl_from_u32 x + 6))
    by (rewrite plus_IZR, mult_IZR; reflexivity).
  destruct (Z.lt_ge_cases x 2048).
  - rewrite from_u32_small by lia.
    pose proof (sweep_spec _ _ _ acc_small_sweep x ltac:(lia)) as S.
    unfold acc_small in S. apply andb_true_iff in S. destruct S as [S1 S2].
    apply pow_le_ok in S1; [|lia]. apply pow_ge_ok in S2; [|lia]. lra.
  - rewrite from_u32_mant by lia.
    pose proof (mant_arg x ltac:(lia)) as Am.
    pose proof (sweep_spec _ _ _ acc_mant_sweep _ Am) as S.
    unfold acc_mant in S. apply andb_true_iff in S. destruct S as [S1 S2].
    apply pow_le_ok in S1; [|lia]. apply pow_ge_ok in S2; [|lia].
    assert (11 <= Z.log2 x)%Z by (apply Z.log2_le_pow2; lia).
    set (n := (Z.log2 x - 11)%Z) in *.
    assert (P0 : (0 < 2 ^ n)%Z) by (apply Z.pow_pos_nonneg; lia).
    pose proof (Z.mul_div_le x (2 ^ n) ltac:(lia)) as B1.
    pose proof (Z.mul_succ_div_gt x (2 ^ n) ltac:(lia)) as B2.
    set (q := (x / 2 ^ n)%Z) in *.
    replace (2048 + (q - 2048))%Z with q in S1 by lia.
    replace (2049 + (q - 2048))%Z with (q + 1)%Z in S2 by lia.
    set (v := mant (q - 2048)) in *.
    assert (E : forall c, p2 (IZR (4 * (512 * Z.log2 x + v) + c)) =
                p2 (IZR (4 * v + c)) * 2048 * IZR (2 ^ n)).
    { intros c. replace 2048 with (IZR (2 ^ 11)) by reflexivity.
      rewrite <- !p2_IZR_pow by lia. rewrite <- !p2_add. f_equal.
      rewrite <- !mult_IZR, <- !plus_IZR. f_equal. unfold n. lia. }
    replace (4 * (512 * Z.log2 x + v) - 3)%Z with (4 * (512 * Z.log2 x + v) + -3)%Z by lia.
    rewrite !E.
    replace (4 * v - 3)%Z with (4 * v + -3)%Z in S1 by lia.
    apply IZR_lt in P0.
    split.
    + apply Rle_trans with (IZR q * IZR (2 ^ n)).
      * apply Rmult_le_compat_r; lra.
      * rewrite <- mult_IZR. apply IZR_le. lia.
    + apply Rle_trans with (IZR (q + 1) * IZR (2 ^ n)).
      * rewrite <- mult_IZR. apply IZR_le. lia.
      * apply Rmult_le_compat_r; lra.
Qed.

Lemma from_u32_accurate x : (1 <= x < 4294967296)%Z ->
  - (3 / 2) <= IZR (pmfl_from_u32 x) - 512 * log2R (IZR x) <= 3 / 4.
Proof.
  intros H. destruct (from_u32_p2 x H) as [L U].
  assert (0 < IZR x) by (apply IZR_lt; lia).
  apply le_log in L; [|assumption]. apply log_le in U; [|assumption]. lra.
Qed.

(** sharper for one byte *)
Open Scope Z_scope.
Definition acc_byte (x : Z) : bool :=
  let v := pmfl_from_u16 x in pow_le (4 * v - 3) x 1 && pow_ge (4 * v + 1) x 1.
Lemma acc_byte_sweep : sweep acc_byte 1 256 = true.
Proof. vm_compute. reflexivity. Qed.
Open Scope R_scope.
Lemma from_byte_accurate x : (1 <= x < 256)%Z ->
  - (1 / 4) <= IZR (pmfl_from_u32 x) - 512 * log2R (IZR x) <= 3 / 4.
Proof.
  intros H. assert (0 < IZR x) by (apply IZR_lt; lia).
  rewrite from_u32_small by lia.
  pose proof (sweep_spec _ _ _ acc_byte_sweep x ltac:(lia)) as S.
  unfold acc_byte in S. apply andb_true_iff in S. destruct S as [S1 S2].
  apply pow_le_ok in S1; [|lia]. apply pow_ge_ok in S2; [|lia].
  assert (L : p2 (IZR (4 * pmfl_from_u16 x - 3)) <= IZR x) by lra.
  assert (U : IZR x <= p2 (IZR (4 * pmfl_from_u16 x + 1))) by lra.
  apply le_log in L; [|assumption]. apply log_le in U; [|assumption].
  rewrite minus_IZR, mult_IZR in L. rewrite plus_IZR, mult_IZR in U. lra.
Qed.

(** ** Accuracy of the conversion to integers *)
Open Scope Z_scope.
Definition acc_pw (k : Z) : bool :=
  pow_le (4 * (5120 + k)) (pw k + 1) 1 && pow_ge (4 * (5120 + k)) (pw k - 1) 1.
Lemma acc_pw_sweep : sweep acc_pw 0 512 = true.
Proof. vm_compute. reflexivity. Qed.

Open Scope R_scope.
Lemma pw_accurate k : (0 <= k < 512)%Z ->
  IZR (pw k) - 1 <= p2 (IZR (4 * (5120 + k))) <= IZR (pw k) + 1.
Proof.
  intros H. pose proof (sweep_spec _ _ _ acc_pw_sweep k H) as S. unfold acc_pw in S.
  apply andb_true_iff in S. destruct S as [S1 S2].
  apply pow_le_ok in S1; [|lia]. apply pow_ge_ok in S2; [|lia].
  rewrite plus_IZR in S1. rewrite minus_IZR in S2. lra.
Qed.

Lemma to_u32_accurate v : (0 <= v < 16384)%Z ->
  Rabs (IZR (pmfl_to_u32 v) - Rpower 2 (IZR v / 512)) <=
  Rmax 1 (Rpower 2 (IZR v / 512) / 1000).
Proof.
  intros H.
  assert (E : Rpower 2 (IZR v / 512) = p2 (IZR (4 * v))).
  { unfold p2. f_equal. rewrite mult_IZR. field. }
  rewrite E. clear E.
  pose proof (Z.div_mod v 512 ltac:(lia)) as DM.
  pose proof (Z.mod_pos_bound v 512 ltac:(lia)) as K.
  pose proof (pw_accurate (v mod 512) K) as A.
  pose proof (pw_range (v mod 512) K) as PR.
  set (k := (v mod 512)%Z) in *. set (e := (v / 512)%Z) in *.
  set (y := p2 (IZR (4 * (5120 + k)))) in *.
  assert (Y : 1023 <= y).
  { destruct PR as [PR _]. apply IZR_le in PR. lra. }
  destruct (Z.lt_ge_cases v 5120).
  - assert (E10 : (0 <= e < 10)%Z).
    { split; [apply Z.div_pos; lia|apply Z.div_lt_upper_bound; lia]. }
    assert (Y2 : y = p2 (IZR (4 * v)) * IZR (2 ^ (10 - e))).
    { unfold y. rewrite <- p2_IZR_pow by lia. rewrite <- p2_add. f_equal.
      rewrite <- ?mult_IZR, <- ?plus_IZR. f_equal. lia. }
    rewrite to_u32_low, to_u16_small by lia. fold k e.
    apply Rle_trans with 1; [|apply Rmax_l].
    set (r := (if e =? 9 then 1 else 2)%Z).
    assert (Pw : (2 <= 2 ^ (10 - e))%Z).
    { change 2%Z with (2 ^ 1)%Z at 1. apply Z.pow_le_mono_r; lia. }
    assert (R9 : (1 <= r /\ r + 1 <= 2 ^ (10 - e))%Z).
    { unfold r. destruct (Z.eqb_spec e 9) as [->|]; [cbn; lia|].
      assert (2 ^ 2 <= 2 ^ (10 - e))%Z by (apply Z.pow_le_mono_r; lia). lia. }
    set (q := (2 ^ (10 - e))%Z) in *.
    pose proof (Z.mul_div_le (pw k + r) q ltac:(lia)) as B1.
    pose proof (Z.mul_succ_div_gt (pw k + r) q ltac:(lia)) as B2.
    set (z := ((pw k + r) / q)%Z) in *.
    set (x := p2 (IZR (4 * v))) in *.
    assert (B1' : IZR q * IZR z <= IZR (pw k) + IZR r)
      by (rewrite <- mult_IZR, <- plus_IZR; apply IZR_le; lia).
    assert (B2' : IZR (pw k) + IZR r + 1 <= IZR q * (IZR z + 1)).
    { replace (IZR z + 1) with (IZR (z + 1)) by (rewrite plus_IZR; reflexivity).
      rewrite <- mult_IZR. replace (IZR (pw k) + IZR r + 1) with (IZR (pw k + r + 1))
        by (rewrite !plus_IZR; reflexivity). apply IZR_le. lia. }
    destruct R9 as [R9a R9b]. apply IZR_le in R9a, R9b, Pw. rewrite plus_IZR in R9b.
    apply Rabs_le. split.
    + apply Rmult_le_reg_l with (IZR q); [lra|]. lra.
    + apply Rmult_le_reg_l with (IZR q); [lra|]. lra.
  - assert (E10 : (10 <= e < 32)%Z).
    { split; [apply Z.div_le_lower_bound; lia|apply Z.div_lt_upper_bound; lia]. }
    assert (Y2 : p2 (IZR (4 * v)) = y * IZR (2 ^ (e - 10))).
    { unfold y. rewrite <- p2_IZR_pow by lia. rewrite <- p2_add. f_equal.
      rewrite <- ?mult_IZR, <- ?plus_IZR. f_equal. lia. }
    rewrite to_u32_big by lia. fold k e. rewrite Y2, mult_IZR.
    apply Rle_trans with (y * IZR (2 ^ (e - 10)) / 1000); [|apply Rmax_r].
    assert (0 < IZR (2 ^ (e - 10))) by (apply IZR_lt, Z.pow_pos_nonneg; lia).
    set (q := IZR (2 ^ (e - 10))) in *.
    replace (IZR (pw k) * q - y * q) with ((IZR (pw k) - y) * q) by ring.
    apply Rabs_le. split.
    + replace (- (y * q / 1000)) with ((- (y / 1000)) * q) by field.
      apply Rmult_le_compat_r; lra.
    + replace (y * q / 1000) with ((y / 1000) * q) by field.
      apply Rmult_le_compat_r; lra.
Qed.
Lemma to_u32_accurate' v : (v < 16384)%Z ->
  Rabs (IZR (pmfl_to_u32 v) - Rpower 2 (IZR v / 512)) <=
  Rmax 1 (Rpower 2 (IZR v / 512) / 1000).
Proof.
  intros H. destruct (Z.lt_ge_cases v 0); [|apply to_u32_accurate; lia].
  rewrite to_u32_neg by lia.
  apply Rle_trans with 1; [|apply Rmax_l].
  assert (0 < Rpower 2 (IZR v / 512)) by apply exp_pos.
  assert (Rpower 2 (IZR v / 512) <= 1).
  { rewrite <- (Rpower_O 2) by lra. apply Rle_Rpower; [lra|].
    assert (IZR v < 0) by (apply IZR_lt; lia). lra. }
  apply Rabs_le. lra.
Qed.
