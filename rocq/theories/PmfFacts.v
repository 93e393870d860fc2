(** * PmfFacts: integer facts about the logarithmic number format *)
From Coq Require Import ZArith Bool List Lia ZifyBool.
From Verif Require Import Base Pmf PmfSweep.
Import ListNotations.
Open Scope Z_scope.
Ltac Zify.zify_post_hook ::= idtac.

Lemma tables_have_256_entries :
  length log2_tbl = 256%nat /\ length pow2_tbl = 256%nat.
Proof. split; reflexivity. Qed.

(** ** The 16 bit conversion, by complete sweeps *)


Lemma mono_from_steps f lo hi :
  sweep (mono_at f) lo hi = true ->
  forall x y, lo <= x -> x <= y -> y <= hi -> f x <= f y.
Proof.
  intros H x y Hlo Hxy Hhi.
  assert (S := sweep_spec _ _ _ H). unfold mono_at in S.
  revert Hhi. pattern y. revert y Hxy. apply Zlt_lower_bound_ind.
  intros y IH Hxy Hhi.
  destruct (Z.eq_dec x y) as [->|]; [lia|].
  specialize (IH (y - 1) ltac:(lia) ltac:(lia)).
  specialize (S (y - 1) ltac:(lia)).
  replace (y - 1 + 1) with y in S by lia. lia.
Qed.


Lemma mant_mono m m' : 0 <= m -> m <= m' -> m' <= 2047 -> mant m <= mant m'.
Proof. apply (mono_from_steps _ _ _ mant_mono_sweep). Qed.
Lemma mant_range m : 0 <= m < 2048 -> 0 <= mant m <= 512.
Proof.
  intros H. pose proof (mant_mono 0 m ltac:(lia) ltac:(lia) ltac:(lia)) as L.
  pose proof (mant_mono m 2047 ltac:(lia) ltac:(lia) ltac:(lia)) as U.
  change (mant 0) with 0 in L. change (mant 2047) with 512 in U. lia.
Qed.

Lemma from_u8_mono x y : 0 <= x -> x <= y -> y < 256 -> pmfl_from_u8 x <= pmfl_from_u8 y.
Proof. intros. apply (mono_from_steps _ _ _ from_u8_mono_sweep); lia. Qed.

(** the bytes go to the 8 bit conversion *)
Lemma from_u16_byte x : 0 <= x < 256 -> pmfl_from_u16 x = pmfl_from_u8 x.
Proof.
  intros H. unfold pmfl_from_u16.
  rewrite Z.shiftr_div_pow2 by lia. rewrite Z.div_small by lia.
  change (leading_zeros (u8 0)) with 8. cbv zeta. change (8 =? 8) with true. cbv iota.
  rewrite u8_id by lia. reflexivity.
Qed.

(** everything else factors through the mantissa *)
Lemma from_u16_mant x : 256 <= x < 65536 ->
  8 <= Z.log2 x <= 15 /\
  0 <= x * 2 ^ (16 - Z.log2 x) / 32 - 2048 < 2048 /\
  pmfl_from_u16 x = 512 * Z.log2 x + mant (x * 2 ^ (16 - Z.log2 x) / 32 - 2048).
Proof.
  intros Hx.
  assert (E1 : 8 <= Z.log2 x) by (apply Z.log2_le_pow2; lia).
  assert (E2 : Z.log2 x < 16) by (apply Z.log2_lt_pow2; lia).
  pose proof (Z.log2_spec x ltac:(lia)) as [P1 P2].
  assert (Hh : 1 <= x / 2 ^ 8 < 256).
  { split; [apply Z.div_le_lower_bound; lia|apply Z.div_lt_upper_bound; lia]. }
  assert (L : leading_zeros (u8 (Z.shiftr x 8)) = 15 - Z.log2 x).
  { rewrite Z.shiftr_div_pow2 by lia. rewrite u8_id by lia.
    pose proof (sweep_spec _ _ _ leading_zeros_sweep _ Hh) as S. cbv beta in S.
    apply Z.eqb_eq in S. rewrite S.
    rewrite <- Z.shiftr_div_pow2 by lia. rewrite Z.log2_shiftr by lia. lia. }
  set (e := Z.log2 x) in *.
  assert (Y : 65536 <= x * 2 ^ (16 - e) < 131072).
  { assert (Q : 2 ^ e * 2 ^ (16 - e) = 65536)
      by (rewrite <- Z.pow_add_r by lia; replace (e + (16 - e)) with 16 by lia; reflexivity).
    rewrite Z.pow_succ_r in P2 by lia.
    assert (0 < 2 ^ (16 - e)) by (apply Z.pow_pos_nonneg; lia). nia. }
  set (y := x * 2 ^ (16 - e)) in *.
  assert (M : 0 <= y / 32 - 2048 < 2048).
  { assert (2048 <= y / 32) by (apply Z.div_le_lower_bound; lia).
    assert (y / 32 < 4096) by (apply Z.div_lt_upper_bound; lia). lia. }
  split; [lia|]. split; [exact M|].
  assert (X : Z.shiftr (u16 (Z.shiftl x (15 - e + 1))) 5 = y / 32 - 2048).
  { rewrite Z.shiftl_mul_pow2, Z.shiftr_div_pow2 by lia.
    replace (15 - e + 1) with (16 - e) by lia. fold y.
    assert (U : u16 y = y - 65536).
    { unfold u16. replace y with (y - 65536 + 1 * 65536) at 1 by lia.
      rewrite Z.mod_add, Z.mod_small by lia. reflexivity. }
    rewrite U. change (2 ^ 5) with 32.
    replace (y - 65536) with (y + (-2048) * 32) by lia. rewrite Z.div_add by lia. lia. }
  pose proof (mant_range _ M) as R.
  unfold pmfl_from_u16. rewrite L. cbv zeta.
  destruct (Z.eqb_spec (15 - e) 8); [lia|].
  rewrite X. set (m := y / 32 - 2048) in *.
  transitivity (i16 (u16 (mant m + Z.shiftl (15 - (15 - e)) 9))); [reflexivity|].
  rewrite Z.shiftl_mul_pow2 by lia. change (2 ^ 9) with 512.
  rewrite u16_id by lia. rewrite i16_id by lia. lia.
Qed.

Lemma from_u16_mono x y : 0 <= x -> x <= y -> y < 65536 -> pmfl_from_u16 x <= pmfl_from_u16 y.
Proof.
  intros Hx Hxy Hy.
  assert (Big : forall x y, 256 <= x -> x <= y -> y < 65536 -> pmfl_from_u16 x <= pmfl_from_u16 y).
  { clear. intros x y Hx Hxy Hy.
    destruct (from_u16_mant x ltac:(lia)) as (Ex & Ax & ->).
    destruct (from_u16_mant y ltac:(lia)) as (Ey & Ay & ->).
    pose proof (mant_range _ Ax). pose proof (mant_range _ Ay).
    pose proof (Z.log2_le_mono x y Hxy).
    destruct (Z.eq_dec (Z.log2 x) (Z.log2 y)) as [E|]; [|lia].
    rewrite E in *.
    assert (mant (x * 2 ^ (16 - Z.log2 y) / 32 - 2048) <=
            mant (y * 2 ^ (16 - Z.log2 y) / 32 - 2048)); [|lia].
    assert (0 < 2 ^ (16 - Z.log2 y)) by (apply Z.pow_pos_nonneg; lia).
    assert (x * 2 ^ (16 - Z.log2 y) / 32 <= y * 2 ^ (16 - Z.log2 y) / 32)
      by (apply Z.div_le_mono; [lia|nia]).
    apply mant_mono; lia. }
  destruct (Z.lt_ge_cases x 256); [|apply Big; lia].
  destruct (Z.lt_ge_cases y 256).
  - rewrite !from_u16_byte by lia. apply from_u8_mono; lia.
  - apply Z.le_trans with (pmfl_from_u16 256); [|apply Big; lia].
    rewrite from_u16_byte by lia.
    apply Z.le_trans with (pmfl_from_u8 255); [apply from_u8_mono; lia|].
    vm_compute. discriminate.
Qed.
Lemma from_u16_range x : 1 <= x < 65536 -> 0 <= pmfl_from_u16 x <= 8192.
Proof.
  intros H.
  pose proof (from_u16_mono 1 x ltac:(lia) ltac:(lia) ltac:(lia)) as L.
  pose proof (from_u16_mono x 65535 ltac:(lia) ltac:(lia) ltac:(lia)) as U.
  change (pmfl_from_u16 1) with 0 in L. change (pmfl_from_u16 65535) with 8192 in U. lia.
Qed.
Lemma from_u16_mant_big x : 2048 <= x < 65536 ->
  pmfl_from_u16 x = 512 * Z.log2 x + mant (x / 2 ^ (Z.log2 x - 11) - 2048).
Proof.
  intros H. destruct (from_u16_mant x ltac:(lia)) as (E & _ & ->).
  assert (11 <= Z.log2 x) by (apply Z.log2_le_pow2; lia).
  do 2 f_equal. f_equal.
  replace 32 with (2 ^ (Z.log2 x - 11) * 2 ^ (16 - Z.log2 x)).
  - apply Z.div_mul_cancel_r; apply Z.pow_nonzero; lia.
  - rewrite <- Z.pow_add_r by lia. replace (_ + _) with 5 by lia. reflexivity.
Qed.

(** ** The 32 bit conversion *)

(** the shift applied by [pmfl_from_u32] *)
Definition sh (x : Z) : Z :=
  if x <? 65536 then 0 else if x <? 1048576 then 4
  else if x <? 16777216 then 8 else if x <? 268435456 then 12 else 16.

Lemma land_mask_zero x n m :
  0 <= n -> 0 <= m -> 0 <= x < 2 ^ (n + m) ->
  (Z.land x ((2 ^ m - 1) * 2 ^ n) =? 0) = (x <? 2 ^ n).
Proof.
  intros Hn Hm Hx.
  assert (E : Z.land x ((2 ^ m - 1) * 2 ^ n) = Z.shiftl (Z.shiftr x n) n).
  { rewrite <- Z.shiftl_mul_pow2 by lia.
    apply Z.bits_inj'. intros k Hk.
    rewrite Z.land_spec, !Z.shiftl_spec by lia.
    replace (2 ^ m - 1) with (Z.ones m) by (rewrite Z.ones_equiv; lia).
    destruct (Z.ltb_spec k n).
    - rewrite !(Z.testbit_neg_r _ (k - n)) by lia. apply andb_false_r.
    - rewrite Z.shiftr_spec by lia. replace (k - n + n) with k by lia.
      rewrite Z.testbit_ones_nonneg by lia.
      destruct (Z.ltb_spec (k - n) m); [apply andb_true_r|].
      rewrite andb_false_r. symmetry.
      destruct (Z.eq_dec x 0) as [->|]; [apply Z.bits_0|].
      apply Z.bits_above_log2; [lia|].
      apply Z.log2_lt_pow2; [lia|].
      apply Z.lt_le_trans with (2 ^ (n + m)); [lia|].
      apply Z.pow_le_mono_r; lia. }
  rewrite E, Z.shiftl_mul_pow2, Z.shiftr_div_pow2 by lia.
  pose proof (Z.pow_pos_nonneg 2 n ltac:(lia) Hn).
  destruct (Z.ltb_spec x (2 ^ n)).
  - rewrite Z.div_small by lia. reflexivity.
  - assert (1 <= x / 2 ^ n) by (apply Z.div_le_lower_bound; lia).
    apply Z.eqb_neq. nia.
Qed.

Lemma from_u32_sh x : 0 <= x < 4294967296 ->
  pmfl_from_u32 x = i16 (pmfl_from_u16 (x / 2 ^ sh x) + 512 * sh x) /\
  0 <= x / 2 ^ sh x < 65536.
Proof.
  intros Hx.
  unfold pmfl_from_u32, sh.
  assert (M1 : (Z.land x 4278190080 =? 0) = (x <? 16777216))
    by (apply (land_mask_zero x 24 8); lia).
  assert (M4 : (Z.land x 4026531840 =? 0) = (x <? 268435456))
    by (apply (land_mask_zero x 28 4); lia).
  rewrite M1, M4.
  destruct (Z.ltb_spec x 16777216).
  - assert (M2 : (Z.land x 16711680 =? 0) = (x <? 65536))
      by (apply (land_mask_zero x 16 8); lia).
    rewrite M2.
    destruct (Z.ltb_spec x 65536).
    + change (2 ^ 0) with 1. rewrite Z.div_1_r, u16_id by lia. split; [f_equal; lia|lia].
    + assert (M3 : (Z.land x 15728640 =? 0) = (x <? 1048576)).
      { replace (Z.land x 15728640) with (Z.land x 15728640) by reflexivity.
        apply (land_mask_zero x 20 4); lia. }
      rewrite M3.
      destruct (Z.ltb_spec x 1048576); rewrite Z.shiftr_div_pow2 by lia.
      * assert (x / 2 ^ 4 < 65536) by (apply Z.div_lt_upper_bound; lia).
        assert (0 <= x / 2 ^ 4) by (apply Z.div_pos; lia).
        rewrite u16_id by lia. split; [f_equal; lia|lia].
      * destruct (Z.ltb_spec x 16777216); [|lia].
        assert (x / 2 ^ 8 < 65536) by (apply Z.div_lt_upper_bound; lia).
        assert (0 <= x / 2 ^ 8) by (apply Z.div_pos; lia).
        rewrite u16_id by lia. split; [f_equal; lia|lia].
  - destruct (Z.ltb_spec x 65536); [lia|]. destruct (Z.ltb_spec x 1048576); [lia|].
    destruct (Z.ltb_spec x 268435456); rewrite Z.shiftr_div_pow2 by lia.
    + assert (x / 2 ^ 12 < 65536) by (apply Z.div_lt_upper_bound; lia).
      assert (0 <= x / 2 ^ 12) by (apply Z.div_pos; lia).
      rewrite u16_id by lia. split; [f_equal; lia|lia].
    + assert (x / 2 ^ 16 < 65536) by (apply Z.div_lt_upper_bound; lia).
      assert (0 <= x / 2 ^ 16) by (apply Z.div_pos; lia).
      rewrite u16_id by lia. split; [f_equal; lia|lia].
Qed.

Lemma from_u32_small x : 0 <= x < 65536 -> pmfl_from_u32 x = pmfl_from_u16 x.
Proof.
  intros H. destruct (from_u32_sh x ltac:(lia)) as [-> _].
  unfold sh. destruct (Z.ltb_spec x 65536); [|lia].
  change (2 ^ 0) with 1. rewrite Z.div_1_r, Z.mul_0_r, Z.add_0_r.
  destruct (Z.eq_dec x 0) as [->|]; [reflexivity|].
  pose proof (from_u16_range x ltac:(lia)). apply i16_id. lia.
Qed.

Lemma sh_cases x : 65536 <= x < 4294967296 ->
  4096 <= x / 2 ^ sh x < 65536 /\ 4 <= sh x <= 16.
Proof.
  intros H. unfold sh.
  repeat match goal with |- context [?a <? ?b] => destruct (Z.ltb_spec a b); try lia end;
  (split; [|lia]);
  (split; [apply Z.div_le_lower_bound; lia | apply Z.div_lt_upper_bound; lia]).
Qed.

(** the closed form for 2048 <= x *)
Lemma from_u32_mant x : 2048 <= x < 4294967296 ->
  pmfl_from_u32 x = 512 * Z.log2 x + mant (x / 2 ^ (Z.log2 x - 11) - 2048).
Proof.
  intros Hx. destruct (Z.lt_ge_cases x 65536) as [L|G].
  - rewrite from_u32_small by lia.
    apply from_u16_mant_big. lia.
  - destruct (from_u32_sh x ltac:(lia)) as [E R].
    destruct (sh_cases x ltac:(lia)) as [W S].
    set (s := sh x) in *. set (w := x / 2 ^ s) in *.
    pose proof (from_u16_mant_big w ltac:(lia)) as Ew.
    pose proof (from_u16_range w ltac:(lia)) as Rg.
    assert (Lw : Z.log2 w = Z.log2 x - s).
    { unfold w. rewrite <- Z.shiftr_div_pow2 by lia.
      rewrite Z.log2_shiftr by lia.
      rewrite Z.max_r; [reflexivity|].
      assert (s <= Z.log2 x); [|lia]. apply Z.log2_le_pow2; [lia|].
      assert (0 < 2 ^ s) by (apply Z.pow_pos_nonneg; lia).
      unfold w in W. 
      assert (1 <= x / 2 ^ s) by lia.
      pose proof (Z.mul_div_le x (2 ^ s) ltac:(lia)). nia. }
    assert (11 <= Z.log2 w) by (apply Z.log2_le_pow2; lia).
    assert (D : w / 2 ^ (Z.log2 w - 11) = x / 2 ^ (Z.log2 x - 11)).
    { unfold w at 1. rewrite Z.div_div; [|apply Z.pow_nonzero; lia|apply Z.pow_pos_nonneg; lia].
      rewrite <- Z.pow_add_r by lia. f_equal. f_equal. lia. }
    rewrite D in Ew. rewrite E, Ew, Lw, i16_id; [lia|].
    rewrite <- Lw, <- Ew. lia.
Qed.

Lemma mant_arg x : 2048 <= x -> 0 <= x / 2 ^ (Z.log2 x - 11) - 2048 < 2048.
Proof.
  intros H. assert (11 <= Z.log2 x) by (apply Z.log2_le_pow2; lia).
  pose proof (Z.log2_spec x ltac:(lia)) as [L U].
  set (k := Z.log2 x - 11) in *.
  assert (0 < 2 ^ k) by (apply Z.pow_pos_nonneg; lia).
  replace (Z.log2 x) with (11 + k) in L by lia.
  replace (Z.succ (Z.log2 x)) with (12 + k) in U by lia.
  rewrite Z.pow_add_r in L, U by lia.
  change (2 ^ 11) with 2048 in L. change (2 ^ 12) with 4096 in U.
  assert (2048 <= x / 2 ^ k) by (apply Z.div_le_lower_bound; lia).
  assert (x / 2 ^ k < 4096) by (apply Z.div_lt_upper_bound; lia). lia.
Qed.

Lemma from_u32_mono_big x y : 2048 <= x -> x <= y -> y < 4294967296 ->
  pmfl_from_u32 x <= pmfl_from_u32 y.
Proof.
  intros Hx Hxy Hy. rewrite !from_u32_mant by lia.
  pose proof (mant_arg x ltac:(lia)) as Ax. pose proof (mant_arg y ltac:(lia)) as Ay.
  pose proof (mant_range _ Ax). pose proof (mant_range _ Ay).
  pose proof (Z.log2_le_mono x y Hxy).
  destruct (Z.eq_dec (Z.log2 x) (Z.log2 y)) as [E|]; [|lia].
  rewrite E in *.
  assert (mant (x / 2 ^ (Z.log2 y - 11) - 2048) <= mant (y / 2 ^ (Z.log2 y - 11) - 2048)); [|lia].
  apply mant_mono; try lia.
  assert (11 <= Z.log2 y) by (apply Z.log2_le_pow2; lia).
  assert (x / 2 ^ (Z.log2 y - 11) <= y / 2 ^ (Z.log2 y - 11)); [|lia].
  apply Z.div_le_mono; [apply Z.pow_pos_nonneg; lia|lia].
Qed.

Lemma from_u32_mono x y : 0 <= x -> x <= y -> y < 4294967296 ->
  pmfl_from_u32 x <= pmfl_from_u32 y.
Proof.
  intros Hx Hxy Hy.
  destruct (Z.lt_ge_cases x 2048); [|apply from_u32_mono_big; lia].
  destruct (Z.lt_ge_cases y 65536).
  - rewrite !from_u32_small by lia. apply from_u16_mono; lia.
  - apply Z.le_trans with (pmfl_from_u32 2048).
    + rewrite !from_u32_small by lia. apply from_u16_mono; lia.
    + apply from_u32_mono_big; lia.
Qed.

Lemma from_u32_zero : pmfl_from_u32 0 = PMF_CONST_INVALID.
Proof. reflexivity. Qed.

Lemma from_u32_range x : 1 <= x < 4294967296 -> 0 <= pmfl_from_u32 x <= 16384.
Proof.
  intros H.
  pose proof (from_u32_mono 1 x ltac:(lia) ltac:(lia) ltac:(lia)) as L.
  pose proof (from_u32_mono x 4294967295 ltac:(lia) ltac:(lia) ltac:(lia)) as U.
  change (pmfl_from_u32 1) with 0 in L.
  change (pmfl_from_u32 4294967295) with 16384 in U. lia.
Qed.

Lemma from_u32_bound x b : 1 <= x <= b -> b < 4294967296 ->
  0 <= pmfl_from_u32 x <= pmfl_from_u32 b.
Proof.
  intros H Hb. split; [apply from_u32_range; lia|]. apply from_u32_mono; lia.
Qed.

(** ** Conversion to integers *)

Lemma to_u32_neg v : v < 0 -> pmfl_to_u32 v = 0.
Proof. intros. unfold pmfl_to_u32. destruct (Z.ltb_spec v 0); [reflexivity|lia]. Qed.
Lemma to_u16_neg v : v < 0 -> pmfl_to_u16 v = 0.
Proof. intros. unfold pmfl_to_u16. destruct (Z.ltb_spec v 0); [reflexivity|lia]. Qed.
Lemma to_u32_sat v : 16384 <= v -> pmfl_to_u32 v = 4294967295.
Proof.
  intros. unfold pmfl_to_u32, PMF_CONST_UINT32_MAX.
  destruct (Z.ltb_spec v 0); [lia|]. destruct (Z.geb_spec v 16384); [reflexivity|lia].
Qed.
Lemma to_u16_sat v : 8192 <= v -> pmfl_to_u16 v = 65535.
Proof.
  intros. unfold pmfl_to_u16, PMF_CONST_UINT16_MAX.
  destruct (Z.ltb_spec v 0); [lia|]. destruct (Z.geb_spec v 8192); [reflexivity|lia].
Qed.

Lemma pw_mono k k' : 0 <= k -> k <= k' -> k' <= 511 -> pw k <= pw k'.
Proof. apply (mono_from_steps _ _ _ pw_mono_sweep). Qed.
Lemma pw_range k : 0 <= k < 512 -> 1024 <= pw k <= 2047.
Proof.
  intros H. pose proof (pw_mono 0 k ltac:(lia) ltac:(lia) ltac:(lia)) as L.
  pose proof (pw_mono k 511 ltac:(lia) ltac:(lia) ltac:(lia)) as U.
  change (pw 0) with 1024 in L. change (pw 511) with 2045 in U. lia.
Qed.

Lemma land_511 v : 0 <= v -> Z.land v 511 = v mod 512.
Proof. intros. change 511 with (Z.ones 9). rewrite Z.land_ones by lia. reflexivity. Qed.

Lemma to_u16_small v : 0 <= v < 5120 ->
  pmfl_to_u16 v = (pw (v mod 512) + (if v / 512 =? 9 then 1 else 2)) / 2 ^ (10 - v / 512).
Proof.
  intros H. assert (E : 0 <= v / 512 < 10).
  { split; [apply Z.div_pos; lia|apply Z.div_lt_upper_bound; lia]. }
  assert (K : 0 <= v mod 512 < 512) by (apply Z.mod_pos_bound; lia).
  pose proof (pw_range _ K).
  unfold pmfl_to_u16, PMF_CONST_UINT16_MAX.
  destruct (Z.ltb_spec v 0); [lia|]. destruct (Z.geb_spec v 8192); [lia|].
  cbv zeta. rewrite land_511 by lia. rewrite (u16_id v) by lia.
  rewrite (Z.shiftr_div_pow2 v 9) by lia. change (2 ^ 9) with 512. rewrite (u8_id (v / 512)) by lia.
  set (e := v / 512) in *. set (k := v mod 512) in *.
  destruct (Z.gtb_spec e 10); [lia|]. destruct (Z.ltb_spec e 10); [|lia].
  transitivity (u16 (Z.shiftr (i16 (pw k + (if negb (e =? 9) then 2 else 1))) (10 - e)));
    [reflexivity|].
  assert (2 <= 2 ^ (10 - e)).
  { change 2 with (2 ^ 1) at 1. apply Z.pow_le_mono_r; lia. }
  destruct (e =? 9); cbn [negb]; rewrite i16_id by lia; rewrite Z.shiftr_div_pow2 by lia;
    (rewrite u16_id; [reflexivity|]);
    (split; [apply Z.div_pos; lia|apply Z.div_lt_upper_bound; nia]).
Qed.
Lemma to_u16_big v : 5120 <= v < 8192 ->
  pmfl_to_u16 v = pw (v mod 512) * 2 ^ (v / 512 - 10).
Proof.
  intros H. assert (E : 10 <= v / 512 < 16).
  { split; [apply Z.div_le_lower_bound; lia|apply Z.div_lt_upper_bound; lia]. }
  assert (K : 0 <= v mod 512 < 512) by (apply Z.mod_pos_bound; lia).
  pose proof (pw_range _ K).
  unfold pmfl_to_u16, PMF_CONST_UINT16_MAX.
  destruct (Z.ltb_spec v 0); [lia|]. destruct (Z.geb_spec v 8192); [lia|].
  cbv zeta. rewrite land_511 by lia. rewrite (u16_id v) by lia.
  rewrite (Z.shiftr_div_pow2 v 9) by lia. change (2 ^ 9) with 512. rewrite (u8_id (v / 512)) by lia.
  set (e := v / 512) in *. set (k := v mod 512) in *.
  assert (P : 1 <= 2 ^ (e - 10) <= 32).
  { split; [apply (Z.pow_le_mono_r 2 0); lia|].
    change 32 with (2 ^ 5). apply Z.pow_le_mono_r; lia. }
  destruct (Z.gtb_spec e 10).
  - transitivity (u16 (i16 (Z.shiftl (pw k) (e - 10)))); [reflexivity|].
    rewrite Z.shiftl_mul_pow2 by lia.
    assert (C : 0 <= pw k * 2 ^ (e - 10) < 65536) by nia.
    set (q := pw k * 2 ^ (e - 10)) in *.
    unfold u16, i16. destruct (Z.lt_ge_cases q 32768).
    + rewrite (Z.mod_small (q + 32768)) by lia.
      replace (q + 32768 - 32768) with q by lia. apply Z.mod_small. lia.
    + replace (q + 32768) with (q - 32768 + 1 * 65536) by lia.
      rewrite Z.mod_add by lia. rewrite (Z.mod_small (q - 32768)) by lia.
      replace (q - 32768 - 32768) with (q + (-1) * 65536) by lia.
      rewrite Z.mod_add, Z.mod_small by lia. reflexivity.
  - destruct (Z.ltb_spec e 10); [lia|].
    transitivity (u16 (pw k)); [reflexivity|].
    rewrite u16_id by lia. replace (e - 10) with 0 by lia. lia.
Qed.
Lemma to_u32_low v : v < 8192 -> pmfl_to_u32 v = pmfl_to_u16 v.
Proof.
  intros H. destruct (Z.lt_ge_cases v 0); [rewrite to_u32_neg, to_u16_neg by lia; reflexivity|].
  unfold pmfl_to_u32, PMF_CONST_UINT32_MAX.
  destruct (Z.ltb_spec v 0); [lia|]. destruct (Z.geb_spec v 16384); [lia|].
  rewrite u16_id by lia. rewrite Z.shiftr_div_pow2 by lia. change (2 ^ 9) with 512.
  assert (E : 0 <= v / 512 < 16).
  { split; [apply Z.div_pos; lia|apply Z.div_lt_upper_bound; lia]. }
  rewrite u8_id by lia. destruct (Z.ltb_spec (v / 512) 16); [reflexivity|lia].
Qed.
Lemma to_u32_big v : 5120 <= v < 16384 ->
  pmfl_to_u32 v = pw (v mod 512) * 2 ^ (v / 512 - 10).
Proof.
  intros H. destruct (Z.lt_ge_cases v 8192).
  - rewrite to_u32_low by lia. apply to_u16_big. lia.
  - assert (E : 16 <= v / 512 < 32).
    { split; [apply Z.div_le_lower_bound; lia|apply Z.div_lt_upper_bound; lia]. }
    assert (K : 0 <= v mod 512 < 512) by (apply Z.mod_pos_bound; lia).
    pose proof (pw_range _ K) as PR.
    unfold pmfl_to_u32, PMF_CONST_UINT32_MAX.
    destruct (Z.ltb_spec v 0); [lia|]. destruct (Z.geb_spec v 16384); [lia|].
    rewrite (u16_id v) by lia. rewrite (Z.shiftr_div_pow2 v 9) by lia. change (2 ^ 9) with 512.
    rewrite u8_id by lia. destruct (Z.ltb_spec (v / 512) 16); [lia|].
    cbv zeta. rewrite (Z.shiftl_mul_pow2 _ 9) by lia. change (2 ^ 9) with 512.
    pose proof (Z.div_mod v 512 ltac:(lia)) as DM.
    set (e := v / 512) in *. set (k := v mod 512) in *.
    replace (v - (e - 15) * 512) with (k + 15 * 512) by lia.
    rewrite i16_id by lia. rewrite to_u16_big by lia.
    rewrite Z.mod_add, Z.div_add by lia. rewrite Z.mod_small, Z.div_small by lia.
    change (0 + 15 - 10) with 5. rewrite Z.shiftl_mul_pow2 by lia.
    rewrite <- Z.mul_assoc, <- Z.pow_add_r by lia.
    replace (5 + (e - 15)) with (e - 10) by lia.
    rewrite u32_id; [reflexivity|].
    assert (0 < 2 ^ (e - 10)) by (apply Z.pow_pos_nonneg; lia).
    assert (2 ^ (e - 10) <= 2 ^ 21) by (apply Z.pow_le_mono_r; lia).
    change (2 ^ 21) with 2097152 in *. nia.
Qed.

Lemma mono_from_succ (f : Z -> Z) lo hi :
  (forall x, lo <= x < hi -> f x <= f (x + 1)) ->
  forall x y, lo <= x -> x <= y -> y <= hi -> f x <= f y.
Proof.
  intros S x y Hlo Hxy Hhi.
  revert Hhi. pattern y. revert y Hxy. apply Zlt_lower_bound_ind.
  intros y IH Hxy Hhi.
  destruct (Z.eq_dec x y) as [->|]; [lia|].
  specialize (IH (y - 1) ltac:(lia) ltac:(lia)).
  specialize (S (y - 1) ltac:(lia)).
  replace (y - 1 + 1) with y in S by lia. lia.
Qed.

Lemma next_frac v : 0 <= v -> v mod 512 <> 511 ->
  (v + 1) mod 512 = v mod 512 + 1 /\ (v + 1) / 512 = v / 512 /\ v mod 512 < 511.
Proof.
  intros H N. pose proof (Z.div_mod v 512 ltac:(lia)).
  pose proof (Z.mod_pos_bound v 512 ltac:(lia)).
  assert (E : (v + 1) / 512 = v / 512).
  { symmetry. apply Z.div_unique with (v mod 512 + 1); lia. }
  split; [|split; [exact E|lia]].
  rewrite Z.mod_eq by lia. rewrite E. lia.
Qed.

Lemma to_u32_step v : 0 <= v < 16383 -> pmfl_to_u32 v <= pmfl_to_u32 (v + 1).
Proof.
  intros H. destruct (Z.eq_dec (v mod 512) 511) as [E|N].
  - pose proof (Z.div_mod v 512 ltac:(lia)) as D.
    assert (0 <= v / 512 < 32).
    { split; [apply Z.div_pos; lia|apply Z.div_lt_upper_bound; lia]. }
    pose proof (sweep_spec _ _ _ to_u32_boundary_sweep (v / 512) ltac:(lia)) as S.
    cbv beta in S. unfold mono_at in S. rewrite <- E, <- D in S. apply Z.leb_le in S. exact S.
  - destruct (next_frac v ltac:(lia) N) as (M & D & L).
    pose proof (Z.mod_pos_bound v 512 ltac:(lia)) as B.
    pose proof (pw_mono (v mod 512) (v mod 512 + 1) ltac:(lia) ltac:(lia) ltac:(lia)) as P.
    destruct (Z.lt_ge_cases v 5120) as [S|S].
    + assert (v + 1 < 5120).
      { destruct (Z.eq_dec v 5119) as [->|]; [|lia]. exfalso. apply N. reflexivity. }
      rewrite !to_u32_low by lia. rewrite !to_u16_small by lia. rewrite M, D.
      apply Z.div_le_mono; [|lia].
      apply Z.pow_pos_nonneg; [lia|].
      assert (v / 512 < 10) by (apply Z.div_lt_upper_bound; lia). lia.
    + rewrite !to_u32_big by lia. rewrite M, D.
      apply Z.mul_le_mono_nonneg_r; [|lia].
      assert (10 <= v / 512) by (apply Z.div_le_lower_bound; lia).
      assert (0 < 2 ^ (v / 512 - 10)) by (apply Z.pow_pos_nonneg; lia). lia.
Qed.
Lemma to_u16_step v : 0 <= v < 8191 -> pmfl_to_u16 v <= pmfl_to_u16 (v + 1).
Proof.
  intros H. rewrite <- !to_u32_low by lia. apply to_u32_step. lia.
Qed.

Lemma to_u32_mono v w : v <= w -> pmfl_to_u32 v <= pmfl_to_u32 w.
Proof.
  intros H.
  assert (C : forall v, pmfl_to_u32 v = pmfl_to_u32 (Z.max (-1) (Z.min v 16384))).
  { intros z. destruct (Z.lt_ge_cases z 0).
    - rewrite Z.min_l, Z.max_l by lia. rewrite !to_u32_neg by lia. reflexivity.
    - destruct (Z.lt_ge_cases z 16384).
      + rewrite Z.min_l, Z.max_r by lia. reflexivity.
      + rewrite Z.min_r, Z.max_r by lia. rewrite !to_u32_sat by lia. reflexivity. }
  rewrite (C v), (C w).
  apply (mono_from_succ pmfl_to_u32 (-1) 16384); try lia.
  intros x Hx. destruct (Z.eq_dec x (-1)) as [->|]; [vm_compute; discriminate|].
  destruct (Z.eq_dec x 16383) as [->|]; [vm_compute; discriminate|].
  apply to_u32_step. lia.
Qed.
Lemma to_u16_mono v w : v <= w -> pmfl_to_u16 v <= pmfl_to_u16 w.
Proof.
  intros H.
  assert (C : forall v, pmfl_to_u16 v = pmfl_to_u16 (Z.max (-1) (Z.min v 8192))).
  { intros z. destruct (Z.lt_ge_cases z 0).
    - rewrite Z.min_l, Z.max_l by lia. rewrite !to_u16_neg by lia. reflexivity.
    - destruct (Z.lt_ge_cases z 8192).
      + rewrite Z.min_l, Z.max_r by lia. reflexivity.
      + rewrite Z.min_r, Z.max_r by lia. rewrite !to_u16_sat by lia. reflexivity. }
  rewrite (C v), (C w).
  apply (mono_from_succ pmfl_to_u16 (-1) 8192); try lia.
  intros x Hx. destruct (Z.eq_dec x (-1)) as [->|]; [vm_compute; discriminate|].
  destruct (Z.eq_dec x 8191) as [->|]; [vm_compute; discriminate|].
  apply to_u16_step. lia.
Qed.
Lemma to_u32_range v : 0 <= pmfl_to_u32 v < 4294967296.
Proof.
  split.
  - destruct (Z.lt_ge_cases v 0); [rewrite to_u32_neg; lia|].
    rewrite <- (to_u32_neg (-1)) by lia. apply to_u32_mono; lia.
  - destruct (Z.lt_ge_cases v 16384); [|rewrite to_u32_sat; lia].
    pose proof (to_u32_mono v 16384 ltac:(lia)).
    rewrite (to_u32_sat 16384) in * by lia. lia.
Qed.

(** ** Round trip *)

Lemma round_trip x : 0 <= x < 4294967296 ->
  Z.abs (pmfl_to_u32 (pmfl_from_u32 x) - x) * 500 <= x.
Proof.
  intros H. destruct (Z.lt_ge_cases x 1024).
  { rewrite from_u32_small by lia.
    pose proof (sweep_spec _ _ _ round_trip_0_sweep x ltac:(lia)) as S. cbv beta in S. lia. }
  (* the logarithm is 512 n + mant m, where x lies in [2048+m, 2049+m) 2^n / 2048 *)
  assert (N1 : 10 <= Z.log2 x) by (apply Z.log2_le_pow2; lia).
  assert (N2 : Z.log2 x < 32) by (apply Z.log2_lt_pow2; lia).
  assert (exists m, 0 <= m < 2048 /\ pmfl_from_u32 x = 512 * Z.log2 x + mant m /\
    (2048 + m) * 2 ^ (Z.log2 x - 10) <= 2 * x < (2049 + m) * 2 ^ (Z.log2 x - 10))
    as (m & Hm & E & B).
  { destruct (Z.lt_ge_cases x 2048).
    - destruct (from_u16_mant x ltac:(lia)) as (E & A & F).
      exists (x * 2 ^ (16 - Z.log2 x) / 32 - 2048). split; [exact A|].
      split; [rewrite from_u32_small by lia; exact F|].
      assert (L : Z.log2 x < 11) by (apply Z.log2_lt_pow2; lia).
      replace (Z.log2 x) with 10 by lia. change (2 ^ (16 - 10)) with 64.
      change (2 ^ (10 - 10)) with 1.
      replace (x * 64) with (x * 2 * 32) by lia. rewrite Z.div_mul by lia. lia.
    - exists (x / 2 ^ (Z.log2 x - 11) - 2048). split; [apply mant_arg; lia|].
      split; [apply from_u32_mant; lia|].
      assert (11 <= Z.log2 x) by (apply Z.log2_le_pow2; lia).
      replace (Z.log2 x - 10) with (Z.succ (Z.log2 x - 11)) by lia.
      rewrite Z.pow_succ_r by lia.
      assert (0 < 2 ^ (Z.log2 x - 11)) by (apply Z.pow_pos_nonneg; lia).
      pose proof (Z.mul_div_le x (2 ^ (Z.log2 x - 11)) ltac:(lia)) as B1.
      pose proof (Z.mul_succ_div_gt x (2 ^ (Z.log2 x - 11)) ltac:(lia)) as B2. lia. }
  rewrite E. clear E.
  pose proof (sweep_spec _ _ _ round_trip_mant_sweep m Hm) as S. unfold rt_mant in S.
  pose proof (mant_range m Hm) as R.
  set (n := Z.log2 x) in *. set (v := mant m) in *.
  assert (P0 : 0 < 2 ^ (n - 10)) by (apply Z.pow_pos_nonneg; lia).
  destruct (Z.eqb_spec v 512) as [V|V]; apply andb_true_iff in S; destruct S as [S1 S2];
    apply Z.leb_le in S1, S2.
  - rewrite V. destruct (Z.eq_dec n 31) as [->|].
    + rewrite to_u32_sat by lia. change (2 ^ (31 - 10)) with 2097152 in *. lia.
    + rewrite to_u32_big by lia.
      replace (512 * n + 512) with ((n + 1) * 512) by lia.
      rewrite Z.mod_mul, Z.div_mul by lia. change (pw 0) with 1024.
      replace (n + 1 - 10) with (Z.succ (n - 10)) by lia. rewrite Z.pow_succ_r by lia.
      set (p := 2 ^ (n - 10)) in *. nia.
  - rewrite to_u32_big by lia.
    replace (512 * n + v) with (v + n * 512) by lia.
    rewrite Z.mod_add, Z.div_add by lia. rewrite Z.mod_small, Z.div_small by lia.
    replace (0 + n - 10) with (n - 10) by lia.
    set (p := 2 ^ (n - 10)) in *. set (w := pw v) in *. nia.
Qed.

Lemma round_trip_exact x : 0 <= x < 514 -> pmfl_to_u32 (pmfl_from_u32 x) = x.
Proof.
  intros H. rewrite from_u32_small by lia.
  pose proof (sweep_spec _ _ _ round_trip_exact_sweep x H) as S. cbv beta in S. lia.
Qed.
