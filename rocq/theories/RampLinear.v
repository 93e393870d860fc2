(** * RampLinear: the ramp formulas with a phase of linearly increasing acceleration *)
From Coq Require Import ZArith Bool List Lia Reals Lra.
From Verif Require Import Base Pmf PmfSweep PmfFacts PmfReal RampCalc RampCalcFacts.
Import ListNotations.
Open Scope Z_scope.
Ltac Zify.zify_post_hook ::= idtac.

(** ** roots in the logarithmic representation *)
Lemma div_bounds x n : 0 < n -> 0 <= x -> cdiv x n = x / n /\ 0 <= x / n <= x /\ n * (x / n) <= x <= n * (x / n) + (n - 1).
Proof.
  intros Hn H. unfold cdiv. rewrite Z.quot_div_nonneg by lia.
  pose proof (Z.div_mod x n ltac:(lia)). pose proof (Z.mod_pos_bound x n ltac:(lia)).
  split; [reflexivity|]. split; [|lia]. split; [apply Z.div_pos; lia|]. apply Z.div_le_upper_bound; nia.
Qed.

Lemma pow_div_3_spec v : 0 <= v <= 16384 ->
  -5 <= 3 * pmfl_pow_div_3 v - v <= 1 /\ 0 <= pmfl_pow_div_3 v <= 5461.
Proof.
  intros H. unfold pmfl_pow_div_3.
  destruct (div_bounds v 2 ltac:(lia) ltac:(lia)) as (E1 & P1 & B1). rewrite E1. set (a := v / 2) in *. clearbody a.
  destruct (div_bounds a 4 ltac:(lia) ltac:(lia)) as (E2 & P2 & B2). rewrite E2.
  set (a4 := a / 4) in *. clearbody a4. rewrite (i16_id (a + a4)) by lia.
  set (b := a + a4) in *. assert (Eb : b = a + a4) by reflexivity. clearbody b.
  destruct (div_bounds b 16 ltac:(lia) ltac:(lia)) as (E3 & P3 & B3). rewrite E3.
  set (b4 := b / 16) in *. clearbody b4. rewrite (i16_id (b + b4)) by lia.
  set (c := b + b4) in *. assert (Ec : c = b + b4) by reflexivity. clearbody c.
  destruct (div_bounds c 256 ltac:(lia) ltac:(lia)) as (E4 & P4 & B4). rewrite E4.
  set (c4 := c / 256) in *. clearbody c4. rewrite (i16_id (c + c4)) by lia. rewrite (i16_id (c + c4 + 1)) by lia.
  destruct (div_bounds (c + c4 + 1) 2 ltac:(lia) ltac:(lia)) as (E5 & P5 & B5). rewrite E5.
  set (e := (c + c4 + 1) / 2) in *. clearbody e. clear - H P1 B1 P2 B2 P3 B3 P4 B4 P5 B5 Eb Ec. lia.
Qed.

Lemma quot2_any z : -1 <= z - 2 * cdiv z 2 <= 1 /\ Z.abs (cdiv z 2) <= Z.abs z.
Proof.
  unfold cdiv. pose proof (Z.quot_rem' z 2) as E. pose proof (Z.rem_bound_abs z 2 ltac:(lia)) as B. lia.
Qed.

(** ** closed forms *)
Definition lin_const (A : arch) (sh la : Z) : Z :=
  PMF_TICKS_PER_S A + cdiv (pmfl_pow_div_3 (pmfl_from_u32 sh) - (300 + la)) 2.

Lemma tps_bounds A : In A all_archs -> 12253 <= PMF_TICKS_PER_S A <= 12454.
Proof. revert A. apply arch_cases; cbn; lia. Qed.

Lemma lin_const_range A sh la : In A all_archs -> 0 <= la <= 15872 -> 1 <= sh < 4294967296 ->
  4166 <= lin_const A sh la <= 15036 /\
  -8087 <= cdiv (pmfl_pow_div_3 (pmfl_from_u32 sh) - (300 + la)) 2 <= 2581.
Proof.
  intros HA Hl Hs. unfold lin_const. pose proof (tps_bounds A HA) as T.
  pose proof (from_u32_range sh Hs) as R. destruct (pow_div_3_spec _ R) as (_ & P).
  destruct (quot2_any (pmfl_pow_div_3 (pmfl_from_u32 sh) - (300 + la))) as (Q & _). lia.
Qed.

Lemma update_cubic A c : In A all_archs -> 1 <= s_h (parameters c) < 4294967296 ->
  0 <= pmfl_accel (parameters c) <= 15872 ->
  cubic (update A c) = lin_const A (s_h (parameters c)) (pmfl_accel (parameters c)) /\
  pmfl_ticks_h (update A c) = lin_const A (s_h (parameters c)) (pmfl_accel (parameters c)) -
    (pmfl_from_u32 (s_h (parameters c)) - pmfl_pow_div_3 (pmfl_from_u32 (s_h (parameters c)))).
Proof.
  intros HA Hs Hl. unfold update. destruct (Z.gtb_spec (s_h (parameters c)) 0); [|lia].
  cbn [cubic pmfl_ticks_h].
  unfold pmfl_multiply, pmfl_divide, pmfl_sqrt, PMF_CONST_3_DIV_2, pmfl_pow_2_div_3.
  pose proof (lin_const_range A _ _ HA Hl Hs) as (R1 & R2). unfold lin_const in *.
  rewrite (i16_id (300 + _)) by lia. pose proof (tps_bounds A HA) as T.
  rewrite (i16_id (cdiv _ 2)) by lia. rewrite (i16_id (PMF_TICKS_PER_S A + _)) by lia.
  pose proof (from_u32_range _ Hs) as R. destruct (pow_div_3_spec _ R) as (_ & P).
  rewrite i16_id by lia. auto.
Qed.

(** The derived fields of the configuration belong to its parameters. *)
Definition derived (A : arch) (c : config) : Prop :=
  0 <= s_h (parameters c) < 4294967294 /\
  (s_h (parameters c) = 0 -> pmfl_ticks_h c = PMF_CONST_MAX) /\
  (0 < s_h (parameters c) ->
    cubic c = lin_const A (s_h (parameters c)) (pmfl_accel (parameters c)) /\
    pmfl_ticks_h c = lin_const A (s_h (parameters c)) (pmfl_accel (parameters c)) -
      (pmfl_from_u32 (s_h (parameters c)) - pmfl_pow_div_3 (pmfl_from_u32 (s_h (parameters c))))).

Lemma update_derived A c : In A all_archs -> 0 <= s_h (parameters c) < 4294967294 ->
  0 <= pmfl_accel (parameters c) <= 15872 -> derived A (update A c).
Proof.
  intros HA Hs Hl. unfold derived. rewrite update_parameters. split; [exact Hs|]. split.
  - intros E. apply update_ticks_h. exact E.
  - intros K. apply update_cubic; try assumption. lia.
Qed.

(** steps, by which a ramp with linear phase lags behind: a quarter of [s_h] *)
Definition quarter (sh : Z) : Z := (sh + 2) / 4.
Lemma quarter_spec sh : 0 <= sh < 4294967294 ->
  Z.shiftr (u32 (sh + 2)) 2 = quarter sh /\ 4 * quarter sh - 2 <= sh <= 4 * quarter sh + 1 /\
  0 <= quarter sh /\ (0 < sh -> quarter sh < sh).
Proof.
  intros H. rewrite u32_id by lia. rewrite Z.shiftr_div_pow2 by lia. change (2 ^ 2) with 4. unfold quarter.
  pose proof (Z.div_mod (sh + 2) 4 ltac:(lia)). pose proof (Z.mod_pos_bound (sh + 2) 4 ltac:(lia)). lia.
Qed.

Lemma calculate_ticks_above A c s :
  In A all_archs -> 0 <= s_h (parameters c) < 4294967294 -> s_h (parameters c) <= s -> 1 <= s < 4294967296 ->
  0 <= pmfl_accel (parameters c) <= 15872 ->
  1 <= s - quarter (s_h (parameters c)) /\
  calculate_ticks A c s = pmfl_to_u32 (PMF_TICKS_PER_S_DIV_SQRT_OF_2 A -
     (pmfl_from_u32 (s - quarter (s_h (parameters c))) + pmfl_accel (parameters c)) / 2).
Proof.
  intros HA Hs L H Ha. destruct (quarter_spec _ Hs) as (E & B & P & Q).
  assert (G : 1 <= s - quarter (s_h (parameters c)) < 4294967296) by lia.
  split; [lia|]. unfold calculate_ticks.
  destruct (Z.geb_spec s (s_h (parameters c))); [|lia].
  rewrite E, (u32_id (s - _)) by lia.
  destruct (arch_consts A HA) as [_ K].
  pose proof (from_u32_range _ G) as R.
  unfold pmfl_multiply, pmfl_divide, pmfl_sqrt.
  rewrite (i16_id (_ + _)) by lia.
  destruct (quot2 (pmfl_from_u32 (s - quarter (s_h (parameters c))) + pmfl_accel (parameters c)) ltac:(lia)) as [E1 B1].
  rewrite E1. rewrite (i16_id (_ / 2)) by lia. rewrite i16_id by lia. reflexivity.
Qed.

Lemma calculate_ticks_below A c s :
  In A all_archs -> derived A c -> 1 <= s < s_h (parameters c) ->
  0 <= pmfl_accel (parameters c) <= 15872 ->
  calculate_ticks A c s = pmfl_to_u32 (lin_const A (s_h (parameters c)) (pmfl_accel (parameters c)) -
     (pmfl_from_u32 s - pmfl_pow_div_3 (pmfl_from_u32 s))).
Proof.
  intros HA (Hs & _ & D) H Ha. destruct (D ltac:(lia)) as (E & _). unfold calculate_ticks.
  destruct (Z.geb_spec s (s_h (parameters c))); [lia|].
  rewrite E. unfold pmfl_divide, pmfl_pow_2_div_3.
  pose proof (lin_const_range A (s_h (parameters c)) _ HA Ha ltac:(lia)) as (R & _).
  pose proof (from_u32_range s ltac:(lia)) as R2. destruct (pow_div_3_spec _ R2) as (B & P).
  rewrite i16_id by lia. reflexivity.
Qed.

(** no period is longer than about 33 s *)
Lemma ticks_le_linear A c s : In A all_archs -> derived A c -> 0 <= pmfl_accel (parameters c) <= 15872 ->
  1 <= s < 4294967296 -> calculate_ticks A c s <= 1073741824.
Proof.
  intros HA D Ha H. destruct (Z_lt_le_dec s (s_h (parameters c))) as [L|L].
  - rewrite (calculate_ticks_below A c s HA D ltac:(lia) Ha). destruct D as (D & _).
    pose proof (lin_const_range A (s_h (parameters c)) _ HA Ha ltac:(lia)) as (R & _).
    pose proof (from_u32_range s H) as R2. destruct (pow_div_3_spec _ R2) as (B & P).
    eapply Z.le_trans; [apply (to_u32_mono _ 15040); lia|]. vm_compute. discriminate.
  - destruct D as (D & _). destruct (calculate_ticks_above A c s HA D L H Ha) as (G & ->).
    destruct (arch_consts A HA) as [_ K].
    pose proof (from_u32_range (s - quarter (s_h (parameters c)))) as R.
    assert (0 <= quarter (s_h (parameters c))) by (destruct (quarter_spec _ D); lia).
    assert (0 <= (pmfl_from_u32 (s - quarter (s_h (parameters c))) + pmfl_accel (parameters c)) / 2)
      by (apply Z.div_pos; lia).
    eapply Z.le_trans; [apply (to_u32_mono _ 12198); lia|]. vm_compute. discriminate.
Qed.

(** ** Accuracy over the reals *)
Open Scope R_scope.

Lemma tps_accurate A : In A all_archs ->
  0 <= IZR (PMF_TICKS_PER_S A) - 512 * log2R (IZR (TICKS_PER_S A)) <= 1 / 4.
Proof.
  intros HA. set (F := PMF_TICKS_PER_S A). set (T := TICKS_PER_S A).
  assert (E : pow_le (4 * F - 1) T 1 = true /\ pow_ge (4 * F) T 1 = true /\ (0 < T)%Z).
  { subst F T. revert A HA. apply arch_cases; vm_compute; auto. }
  destruct E as (E1 & E2 & PT).
  apply pow_le_ok in E1; [|lia]. apply pow_ge_ok in E2; [|lia].
  assert (0 < IZR T) by (apply IZR_lt; assumption).
  assert (L : IZR (4 * F - 1) <= 2048 * log2R (IZR T)) by (apply le_log; lra).
  assert (U : 2048 * log2R (IZR T) <= IZR (4 * F)) by (apply log_le; lra).
  rewrite minus_IZR, mult_IZR in L. rewrite mult_IZR in U. lra.
Qed.
Lemma three_half_accurate : 1 / 4 <= 300 - 512 * log2R (3 / 2) <= 1 / 2.
Proof.
  assert (E1 : pow_le 1198 3 2 = true) by (vm_compute; reflexivity).
  assert (E2 : pow_ge 1199 3 2 = true) by (vm_compute; reflexivity).
  apply pow_le_ok in E1; [|lia]. apply pow_ge_ok in E2; [|lia].
  assert (L : IZR 1198 <= 2048 * log2R (3 / 2)) by (apply le_log; lra).
  assert (U : 2048 * log2R (3 / 2) <= IZR 1199) by (apply log_le; lra). lra.
Qed.

Lemma log2R_Rpower x y : log2R (Rpower x y) = y * log2R x.
Proof. unfold log2R, Rpower. rewrite ln_exp. unfold Rdiv. ring. Qed.

Lemma pow_div_3_real v : (0 <= v <= 16384)%Z ->
  - (5 / 3) <= IZR (pmfl_pow_div_3 v) - IZR v / 3 <= 1 / 3.
Proof.
  intros H. destruct (pow_div_3_spec v H) as ((B1 & B2) & _).
  apply IZR_le in B1, B2. rewrite minus_IZR, mult_IZR in B1, B2. lra.
Qed.

(** the constant of the linear phase: [TPS * s_h^(1/6) / sqrt(1.5 * a)] *)
Definition lin_ideal (A : arch) (a sh : Z) : R :=
  IZR (TICKS_PER_S A) * Rpower (IZR sh) (1 / 6) / sqrt (3 / 2 * IZR a).

Lemma lin_ideal_pos A a sh : In A all_archs -> (1 <= a)%Z -> 0 < lin_ideal A a sh.
Proof.
  intros HA Ha. unfold lin_ideal. apply Rdiv_lt_0_compat.
  - apply Rmult_lt_0_compat; [|apply exp_pos]. apply IZR_lt. clear - HA. revert A HA. apply arch_cases; reflexivity.
  - apply sqrt_lt_R0. assert (0 < IZR a) by (apply IZR_lt; lia). lra.
Qed.
Lemma lin_ideal_log A a sh : In A all_archs -> (1 <= a)%Z ->
  log2R (lin_ideal A a sh) = log2R (IZR (TICKS_PER_S A)) + log2R (IZR sh) / 6 -
    (log2R (3 / 2) + log2R (IZR a)) / 2.
Proof.
  intros HA Ha. assert (0 < IZR a) by (apply IZR_lt; lia).
  assert (0 < IZR (TICKS_PER_S A)) by (apply IZR_lt; clear - HA; revert A HA; apply arch_cases; reflexivity).
  unfold lin_ideal. rewrite log2R_div, log2R_mult, log2R_Rpower, log2R_sqrt, log2R_mult; try assumption; try lra.
  - apply exp_pos.
  - apply Rmult_lt_0_compat; [assumption|apply exp_pos].
  - apply sqrt_lt_R0. lra.
Qed.

Lemma lin_const_accurate A a sh : In A all_archs -> (1 <= a < 2147483648)%Z -> (1 <= sh < 4294967296)%Z ->
  - (9 / 4) <= IZR (lin_const A sh (pmfl_from_u32 a)) - 512 * log2R (lin_ideal A a sh) <= 7 / 4.
Proof.
  intros HA Ha Hs. rewrite lin_ideal_log by (assumption || lia).
  unfold lin_const. rewrite plus_IZR.
  pose proof (tps_accurate A HA) as TA. pose proof three_half_accurate as TH.
  pose proof (from_u32_accurate a ltac:(lia)) as Aa.
  pose proof (from_u32_accurate sh Hs) as As.
  pose proof (from_u32_range sh Hs) as Rs.
  pose proof (pow_div_3_real _ Rs) as P3.
  set (z := (pmfl_pow_div_3 (pmfl_from_u32 sh) - (300 + pmfl_from_u32 a))%Z).
  destruct (quot2_any z) as ((Q1 & Q2) & _).
  apply IZR_le in Q1, Q2. rewrite minus_IZR, mult_IZR in Q1, Q2.
  assert (Ez : IZR z = IZR (pmfl_pow_div_3 (pmfl_from_u32 sh)) - (300 + IZR (pmfl_from_u32 a)))
    by (unfold z; rewrite minus_IZR, plus_IZR; reflexivity).
  clearbody z. lra.
Qed.

(** period at ramp step [s] in the linear phase *)
Theorem linear_period_accurate A c a s :
  In A all_archs -> derived A c -> pmfl_accel (parameters c) = pmfl_from_u32 a ->
  (1 <= a < 2147483648)%Z -> (1 <= s < s_h (parameters c))%Z ->
  let t := lin_ideal A a (s_h (parameters c)) / Rpower (IZR s) (2 / 3) in
  Rabs (IZR (calculate_ticks A c s) - t) <= t / 100 + 1.
Proof.
  intros HA D Ha HaR HsR t. pose proof (accel_log_range a HaR) as La.
  rewrite (calculate_ticks_below A c s HA D HsR) by (rewrite Ha; exact La). rewrite Ha.
  destruct D as (D & _). set (sh := s_h (parameters c)) in *.
  pose proof (lin_const_accurate A a sh HA HaR ltac:(lia)) as LC.
  pose proof (lin_const_range A sh _ HA La ltac:(lia)) as (LR & _).
  pose proof (from_u32_accurate s ltac:(lia)) as As.
  pose proof (from_u32_range s ltac:(lia)) as Rs.
  pose proof (pow_div_3_real _ Rs) as P3. destruct (pow_div_3_spec _ Rs) as (P3' & _).
  pose proof (lin_ideal_pos A a sh HA ltac:(lia)) as LP.
  assert (PR : 0 < Rpower (IZR s) (2 / 3)) by apply exp_pos.
  assert (Pt : 0 < t) by (unfold t; apply Rdiv_lt_0_compat; assumption).
  assert (Lt : log2R t = log2R (lin_ideal A a sh) - 2 / 3 * log2R (IZR s)).
  { unfold t. rewrite log2R_div, log2R_Rpower by assumption. reflexivity. }
  set (res := (lin_const A sh (pmfl_from_u32 a) - (pmfl_from_u32 s - pmfl_pow_div_3 (pmfl_from_u32 s)))%Z).
  assert (Q1 : (res < 16384)%Z) by (unfold res; lia).
  assert (Q2 : - (9 / 2) <= IZR res - 512 * log2R t <= 13 / 4).
  { unfold res. rewrite !minus_IZR, Lt. lra. }
  assert (H1 : 1 - 7 / 1000 <= p2 (- (4 * (9 / 2)))).
  { assert (X : pow_ge (-18) 993 1000 = true) by (vm_compute; reflexivity).
    apply pow_ge_ok in X; [|discriminate]. replace (- (4 * (9 / 2))) with (IZR (-18)) by lra. lra. }
  assert (H2 : p2 (4 * (13 / 4)) <= 1 + 5 / 1000).
  { assert (X : pow_le 13 1005 1000 = true) by (vm_compute; reflexivity).
    apply pow_le_ok in X; [|discriminate]. replace (4 * (13 / 4)) with (IZR 13) by lra. lra. }
  pose proof (to_u32_approx res t (9 / 2) (13 / 4) (7 / 1000) (5 / 1000) Q1 Pt Q2 H1 H2
    ltac:(lra) ltac:(lra) ltac:(lra)) as G.
  apply Rabs_le. lra.
Qed.

(** period at ramp step [s] behind the linear phase *)
Theorem above_period_accurate A c a s :
  In A all_archs -> (0 <= s_h (parameters c) < 4294967294)%Z -> pmfl_accel (parameters c) = pmfl_from_u32 a ->
  (1 <= a < 2147483648)%Z -> (s_h (parameters c) <= s)%Z -> (1 <= s < 4294967296)%Z ->
  let t := IZR (TICKS_PER_S A) / sqrt (2 * IZR a * IZR (s - quarter (s_h (parameters c)))) in
  Rabs (IZR (calculate_ticks A c s) - t) <= t / 150 + 1.
Proof.
  intros HA D Ha HaR L HsR t. pose proof (accel_log_range a HaR) as La.
  destruct (calculate_ticks_above A c s HA D L HsR) as (G & E); [rewrite Ha; exact La|].
  assert (0 <= quarter (s_h (parameters c)))%Z by (destruct (quarter_spec _ D); lia).
  set (c0 := mkConfig (set_s_h 0 (parameters c)) 0 0 0).
  assert (E0 : s_h (parameters c0) = 0%Z) by reflexivity.
  assert (E1 : pmfl_accel (parameters c0) = pmfl_from_u32 a) by exact Ha.
  rewrite E, Ha, <- E1.
  rewrite <- (calculate_ticks_const A c0 (s - quarter (s_h (parameters c)))); try assumption; try lia.
  apply calculate_ticks_accurate; try assumption. lia.
Qed.

(** ** steps needed to reach a period *)
Definition handover (A : arch) (a sh : Z) : R :=
  IZR (TICKS_PER_S A) / sqrt (3 / 2 * IZR a * IZR sh).

Lemma handover_log A a sh : In A all_archs -> (1 <= a)%Z -> (1 <= sh)%Z ->
  0 < handover A a sh /\
  log2R (handover A a sh) = log2R (IZR (TICKS_PER_S A)) -
    (log2R (3 / 2) + log2R (IZR a) + log2R (IZR sh)) / 2.
Proof.
  intros HA Ha Hs. assert (0 < IZR a) by (apply IZR_lt; lia). assert (0 < IZR sh) by (apply IZR_lt; lia).
  assert (0 < IZR (TICKS_PER_S A)) by (apply IZR_lt; clear - HA; revert A HA; apply arch_cases; reflexivity).
  assert (P1 : 0 < 3 / 2 * IZR a) by lra.
  assert (P : 0 < 3 / 2 * IZR a * IZR sh) by (apply Rmult_lt_0_compat; lra).
  assert (S : 0 < sqrt (3 / 2 * IZR a * IZR sh)) by (apply sqrt_lt_R0; exact P).
  unfold handover. split; [apply Rdiv_lt_0_compat; assumption|].
  rewrite log2R_div, log2R_sqrt, !log2R_mult; try assumption; try lra.
Qed.

(** the threshold between both formulas *)
Lemma ticks_h_accurate A a sh : In A all_archs -> (1 <= a < 2147483648)%Z -> (1 <= sh < 4294967294)%Z ->
  - (9 / 2) <= IZR (lin_const A sh (pmfl_from_u32 a) - (pmfl_from_u32 sh - pmfl_pow_div_3 (pmfl_from_u32 sh))) -
    512 * log2R (handover A a sh) <= 13 / 4.
Proof.
  intros HA Ha Hs. destruct (handover_log A a sh HA ltac:(lia) ltac:(lia)) as (_ & ->).
  pose proof (lin_const_accurate A a sh HA Ha ltac:(lia)) as LC. rewrite lin_ideal_log in LC by (assumption || lia).
  pose proof (from_u32_accurate sh ltac:(lia)) as As.
  pose proof (from_u32_range sh ltac:(lia)) as Rs.
  pose proof (pow_div_3_real _ Rs) as P3.
  rewrite !minus_IZR. lra.
Qed.

Lemma log2R_le x y : 0 < x -> x <= y -> log2R x <= log2R y.
Proof.
  intros H L. unfold log2R. assert (0 < ln 2) by (rewrite <- ln_1; apply ln_increasing; lra).
  apply Rmult_le_compat_r; [left; apply Rinv_0_lt_compat; assumption|].
  destruct L as [L| ->]; [left; apply ln_increasing; assumption|right; reflexivity].
Qed.

Lemma log_99 : 512 * log2R (99 / 100) <= - 7.
Proof.
  assert (E : pow_ge (-28) 99 100 = true) by (vm_compute; reflexivity).
  apply pow_ge_ok in E; [|lia].
  assert (U : 2048 * log2R (99 / 100) <= IZR (-28)) by (apply log_le; lra). lra.
Qed.
Lemma log_101 : 7 <= 512 * log2R (101 / 100).
Proof.
  assert (E : pow_le 28 101 100 = true) by (vm_compute; reflexivity).
  apply pow_le_ok in E; [|lia].
  assert (U : IZR 28 <= 2048 * log2R (101 / 100)) by (apply le_log; lra). lra.
Qed.

Theorem above_steps_accurate A c a t :
  In A all_archs -> derived A c -> (0 < s_h (parameters c))%Z ->
  pmfl_accel (parameters c) = pmfl_from_u32 a ->
  (1 <= a < 2147483648)%Z -> (1 <= t < 4294967296)%Z ->
  IZR t <= 99 / 100 * handover A a (s_h (parameters c)) ->
  let s := IZR (TICKS_PER_S A) * IZR (TICKS_PER_S A) / (2 * IZR a * (IZR t * IZR t)) in
  s <= 3100000000 ->
  Rabs (IZR (calculate_ramp_steps A c t) - (s + IZR (quarter (s_h (parameters c))))) <= s / 100 + 1.
Proof.
  intros HA D Hs Ha HaR HtR Hh s Hmax. destruct D as (D & _ & Dh). destruct (Dh Hs) as (_ & Th).
  set (sh := s_h (parameters c)) in *.
  destruct (quarter_spec sh D) as (Eq & Bq & Pq & _).
  destruct (handover_log A a sh HA ltac:(lia) ltac:(lia)) as (Ph & Lh).
  pose proof (ticks_h_accurate A a sh HA HaR ltac:(lia)) as TA. rewrite <- Ha, <- Th in TA.
  pose proof (from_u32_accurate t HtR) as At. pose proof log_99 as L99.
  assert (Pt : 0 < IZR t) by (apply IZR_lt; lia).
  pose proof (log2R_le _ _ Pt Hh) as LL. rewrite log2R_mult in LL by lra.
  assert (C : (pmfl_from_u32 t <= pmfl_ticks_h c)%Z) by (apply le_IZR; lra).
  set (c0 := mkConfig (set_s_h 0 (parameters c)) 0 PMF_CONST_MAX 0).
  pose proof (calculate_ramp_steps_accurate A c0 a t HA eq_refl eq_refl Ha HaR HtR ltac:(fold s; lra)) as G.
  fold s in G. cbv zeta in G.
  assert (E : calculate_ramp_steps A c t = u32 (calculate_ramp_steps A c0 t + quarter sh)).
  { pose proof (from_u32_range t ltac:(lia)) as R.
    unfold calculate_ramp_steps. fold sh. rewrite Eq.
    destruct (Z.leb_spec (pmfl_from_u32 t) (pmfl_ticks_h c)); [|lia].
    destruct (Z.leb_spec (pmfl_from_u32 t) (pmfl_ticks_h c0)) as [|X];
      [|change (pmfl_ticks_h c0) with 32767%Z in X; lia].
    change (pmfl_accel (parameters c0)) with (pmfl_accel (parameters c)).
    change (Z.shiftr (u32 (s_h (parameters c0) + 2)) 2) with 0%Z. rewrite Z.add_0_r.
    rewrite (u32_id (pmfl_to_u32 _)) by apply to_u32_range. reflexivity. }
  rewrite E. clear E. set (k := calculate_ramp_steps A c0 t) in *. clearbody k.
  assert (G' : - (s / 100 + 1) <= IZR k - s <= s / 100 + 1).
  { revert G. unfold Rabs. destruct (Rcase_abs (IZR k - s)); lra. }
  clear G. destruct G' as (G1 & G2).
  assert (Ps : 0 < s).
  { unfold s. assert (0 < IZR (TICKS_PER_S A)) by (apply IZR_lt; clear - HA; revert A HA; apply arch_cases; reflexivity).
    assert (0 < IZR a) by (apply IZR_lt; lia).
    apply Rdiv_lt_0_compat; repeat apply Rmult_lt_0_compat; lra. }
  assert (K1 : (-1 <= k)%Z) by (apply le_IZR; lra).
  assert (K2 : (k <= 3131000001)%Z) by (apply le_IZR; lra).
  assert (K0 : (0 <= k)%Z).
  { assert (X : (-1 < k)%Z) by (apply lt_IZR; lra). lia. }
  rewrite u32_id by lia. rewrite plus_IZR. apply Rabs_le. lra.
Qed.

Theorem linear_steps_accurate A c a t :
  In A all_archs -> derived A c -> (0 < s_h (parameters c))%Z ->
  pmfl_accel (parameters c) = pmfl_from_u32 a ->
  (1 <= a < 2147483648)%Z -> (1 <= t < 4294967296)%Z ->
  101 / 100 * handover A a (s_h (parameters c)) <= IZR t ->
  let s := Rpower (lin_ideal A a (s_h (parameters c)) / IZR t) (3 / 2) in
  Rabs (IZR (calculate_ramp_steps A c t) - s) <= s / 100 + 1.
Proof.
  intros HA D Hs Ha HaR HtR Hh s. destruct D as (D & _ & Dh). destruct (Dh Hs) as (Cu & Th).
  set (sh := s_h (parameters c)) in *.
  destruct (handover_log A a sh HA ltac:(lia) ltac:(lia)) as (Ph & Lh).
  pose proof (lin_ideal_pos A a sh HA ltac:(lia)) as LP.
  pose proof (lin_ideal_log A a sh HA ltac:(lia)) as LL.
  pose proof (ticks_h_accurate A a sh HA HaR ltac:(lia)) as TA. rewrite <- Ha, <- Th in TA.
  pose proof (lin_const_accurate A a sh HA HaR ltac:(lia)) as LC.
  pose proof (accel_log_range a HaR) as La.
  pose proof (lin_const_range A sh _ HA La ltac:(lia)) as (LR & _).
  pose proof (from_u32_accurate t HtR) as At. pose proof log_101 as L101.
  pose proof (from_u32_range t HtR) as Rt.
  pose proof (from_u32_accurate sh ltac:(lia)) as As.
  pose proof (from_u32_range sh ltac:(lia)) as Rsh.
  assert (Pt : 0 < IZR t) by (apply IZR_lt; lia).
  pose proof (log2R_le (101 / 100 * handover A a sh) _ ltac:(lra) Hh) as LT. rewrite log2R_mult in LT by lra.
  assert (C : (pmfl_ticks_h c < pmfl_from_u32 t)%Z) by (apply lt_IZR; lra).
  unfold calculate_ramp_steps.
  destruct (Z.leb_spec (pmfl_from_u32 t) (pmfl_ticks_h c)); [lia|].
  rewrite Cu, Ha. unfold pmfl_divide, pmfl_pow_3_div_2.
  set (x := (lin_const A sh (pmfl_from_u32 a) - pmfl_from_u32 t)%Z) in *.
  assert (Bx : (-12300 <= x <= 15036)%Z) by (unfold x; lia).
  assert (Ex : IZR x = IZR (lin_const A sh (pmfl_from_u32 a)) - IZR (pmfl_from_u32 t)) by (unfold x; apply minus_IZR).
  clearbody x. rewrite (i16_id x) by lia.
  destruct (quot2_any x) as ((Q1 & Q2) & Q3). rewrite i16_id by lia.
  apply IZR_le in Q1, Q2. rewrite minus_IZR, mult_IZR in Q1, Q2.
  set (res := (x + cdiv x 2)%Z).
  assert (Er : IZR res = IZR x + IZR (cdiv x 2)) by apply plus_IZR. clearbody res.
  assert (Ps : 0 < s) by apply exp_pos.
  assert (Ls : log2R s = 3 / 2 * (log2R (lin_ideal A a sh) - log2R (IZR t))).
  { unfold s. rewrite log2R_Rpower, log2R_div by assumption. reflexivity. }
  assert (B : - 5 <= IZR res - 512 * log2R s <= 11 / 2) by lra.
  assert (R : (res < 16384)%Z).
  { apply lt_IZR. assert (512 * log2R s <= 512 * log2R (IZR sh) - 10) by lra.
    destruct Rsh as (_ & R2). apply IZR_le in R2. lra. }
  assert (H1 : 1 - 8 / 1000 <= p2 (- (4 * 5))).
  { assert (X : pow_ge (-20) 992 1000 = true) by (vm_compute; reflexivity).
    apply pow_ge_ok in X; [|discriminate]. replace (- (4 * 5)) with (IZR (-20)) by lra. lra. }
  assert (H2 : p2 (4 * (11 / 2)) <= 1 + 8 / 1000).
  { assert (X : pow_le 22 1008 1000 = true) by (vm_compute; reflexivity).
    apply pow_le_ok in X; [|discriminate]. replace (4 * (11 / 2)) with (IZR 22) by lra. lra. }
  pose proof (to_u32_approx res s 5 (11 / 2) (8 / 1000) (8 / 1000) R Ps B H1 H2
    ltac:(lra) ltac:(lra) ltac:(lra)) as G.
  apply Rabs_le. lra.
Qed.

(** ** no period is zero, as long as the speed is physically possible *)
Lemma period_pos A t k : In A all_archs -> Rabs (IZR k - t) <= t / 100 + 1 -> 1.02 <= t -> (1 <= k)%Z.
Proof.
  intros HA K Ht. assert (X : 0 < IZR k) by (unfold Rabs in K; destruct (Rcase_abs _); lra).
  apply lt_IZR in X. lia.
Qed.

Lemma sqrt_bound A z : In A all_archs -> 0 < z <= 200000000000000 ->
  1.13 <= IZR (TICKS_PER_S A) / sqrt z.
Proof.
  intros HA Hz. assert (T : 16000000 <= IZR (TICKS_PER_S A)).
  { apply IZR_le. clear - HA. revert A HA. apply arch_cases; cbn; lia. }
  assert (Hq : 0 < sqrt z <= 14143000).
  { split; [apply sqrt_lt_R0; lra|].
    replace 14143000 with (sqrt (14143000 * 14143000)) by (apply sqrt_square; lra).
    apply sqrt_le_1; lra. }
  apply Rmult_le_reg_r with (sqrt z); [lra|].
  unfold Rdiv. rewrite Rmult_assoc, Rinv_l by lra. lra.
Qed.

Lemma lin_ideal_lower A a s sh : In A all_archs -> (1 <= a)%Z -> (1 <= s <= sh)%Z ->
  IZR (TICKS_PER_S A) / sqrt (3 / 2 * IZR a * IZR s) <= lin_ideal A a sh / Rpower (IZR s) (2 / 3).
Proof.
  intros HA Ha Hs. assert (P : 0 < IZR s) by (apply IZR_lt; lia).
  assert (L : IZR s <= IZR sh) by (apply IZR_le; lia).
  assert (0 < IZR a) by (apply IZR_lt; lia).
  assert (T : 0 < IZR (TICKS_PER_S A)) by (apply IZR_lt; clear - HA; revert A HA; apply arch_cases; reflexivity).
  assert (Sa : 0 < sqrt (3 / 2 * IZR a)) by (apply sqrt_lt_R0; lra).
  rewrite sqrt_mult by lra.
  pose proof (Rle_Rpower_l (IZR s) (IZR sh) (1 / 6) ltac:(lra) ltac:(lra)) as R.
  assert (E : Rpower (IZR s) (1 / 6) / Rpower (IZR s) (2 / 3) = / sqrt (IZR s)).
  { unfold Rdiv. rewrite <- Rpower_Ropp, <- Rpower_plus, <- Rpower_sqrt by assumption.
    rewrite <- Rpower_Ropp. f_equal. lra. }
  unfold lin_ideal.
  assert (P2 : 0 < Rpower (IZR s) (2 / 3)) by apply exp_pos.
  assert (P3 : 0 < sqrt (IZR s)) by (apply sqrt_lt_R0; assumption).
  replace (IZR (TICKS_PER_S A) / (sqrt (3 / 2 * IZR a) * sqrt (IZR s)))
    with (IZR (TICKS_PER_S A) / sqrt (3 / 2 * IZR a) * / sqrt (IZR s)) by (field; split; lra).
  replace (IZR (TICKS_PER_S A) * Rpower (IZR sh) (1 / 6) / sqrt (3 / 2 * IZR a) / Rpower (IZR s) (2 / 3))
    with (IZR (TICKS_PER_S A) / sqrt (3 / 2 * IZR a) * (Rpower (IZR sh) (1 / 6) / Rpower (IZR s) (2 / 3)))
    by (field; split; lra).
  rewrite <- E. apply Rmult_le_compat_l; [left; apply Rdiv_lt_0_compat; assumption|].
  apply Rmult_le_compat_r; [left; apply Rinv_0_lt_compat; assumption|exact R].
Qed.

Theorem ticks_ge1_linear A c a s :
  In A all_archs -> derived A c -> pmfl_accel (parameters c) = pmfl_from_u32 a ->
  (1 <= a < 2147483648)%Z -> (1 <= s < 4294967296)%Z -> (a * s <= 100000000000000)%Z ->
  (1 <= calculate_ticks A c s)%Z.
Proof.
  intros HA D Ha HaR HsR Has.
  assert (Pa : 1 <= IZR a) by (apply IZR_le; lia). assert (Ps : 1 <= IZR s) by (apply IZR_le; lia).
  assert (Pas : 0 < IZR a * IZR s <= 100000000000000).
  { split; [apply Rmult_lt_0_compat; lra|]. rewrite <- mult_IZR. apply IZR_le. exact Has. }
  destruct (Z_lt_le_dec s (s_h (parameters c))) as [L|L].
  - pose proof (linear_period_accurate A c a s HA D Ha HaR ltac:(lia)) as K. cbv zeta in K.
    eapply period_pos; [exact HA|exact K|].
    pose proof (lin_ideal_lower A a s (s_h (parameters c)) HA ltac:(lia) ltac:(lia)) as G.
    pose proof (sqrt_bound A (3 / 2 * IZR a * IZR s) HA ltac:(lra)) as G2. lra.
  - destruct D as (D & _). pose proof (above_period_accurate A c a s HA D Ha HaR L HsR) as K. cbv zeta in K.
    destruct (quarter_spec _ D) as (_ & B & Q & _).
    assert (Q1 : (1 <= s - quarter (s_h (parameters c)))%Z) by lia.
    assert (P1 : 1 <= IZR (s - quarter (s_h (parameters c))) <= IZR s) by (split; apply IZR_le; lia).
    set (s' := IZR (s - quarter (s_h (parameters c)))) in *. clearbody s'.
    assert (Z : 0 < 2 * IZR a * s' <= 200000000000000).
    { split; [apply Rmult_lt_0_compat; lra|].
      apply Rle_trans with (2 * IZR a * IZR s); [apply Rmult_le_compat_l; lra|lra]. }
    pose proof (sqrt_bound A _ HA Z) as G2.
    eapply period_pos; [exact HA| |apply Rle_trans with 1.13; [lra|exact G2]].
    set (t := IZR (TICKS_PER_S A) / sqrt (2 * IZR a * s')) in *. clearbody t. lra.
Qed.

(** ** in terms of the documented speeds *)
(** the configuration after setAcceleration(a) and setLinearAcceleration(sh) *)
Definition linear_accel (A : arch) (a sh : Z) (c : config) : config :=
  update A (set_parameters (p_setCubicAccelerationSteps sh (p_setAcceleration a (parameters c))) c).

Lemma setCubic_accel sh p : pmfl_accel (p_setCubicAccelerationSteps sh p) = pmfl_accel p.
Proof. unfold p_setCubicAccelerationSteps. destruct (_ =? _)%Z; reflexivity. Qed.
Lemma setCubic_s_h sh p : s_h (p_setCubicAccelerationSteps sh p) = sh.
Proof. unfold p_setCubicAccelerationSteps. destruct (Z.eqb_spec (s_h p) sh); [assumption|reflexivity]. Qed.

Lemma linear_accel_facts A a sh c : In A all_archs -> (1 <= a < 2147483648)%Z -> (0 <= sh < 4294967294)%Z ->
  derived A (linear_accel A a sh c) /\ s_h (parameters (linear_accel A a sh c)) = sh /\
  pmfl_accel (parameters (linear_accel A a sh c)) = pmfl_from_u32 a.
Proof.
  intros HA Ha Hs. unfold linear_accel. pose proof (accel_log_range a Ha) as La.
  rewrite !update_parameters. cbn [parameters set_parameters].
  rewrite setCubic_accel, setCubic_s_h, setAcceleration_log by assumption.
  split; [|auto]. apply update_derived; cbn [parameters set_parameters]; try assumption.
  - rewrite setCubic_s_h. exact Hs.
  - rewrite setCubic_accel, setAcceleration_log by assumption. exact La.
Qed.

Lemma linear_phase_lemma A a sh c s :
  In A all_archs -> (1 <= a < 2147483648)%Z -> (1 <= s < sh)%Z -> (sh < 4294967294)%Z ->
  let v := sqrt (3 / 2 * IZR a) / Rpower (IZR sh) (1 / 6) * Rpower (IZR s) (2 / 3) in
  let t := IZR (TICKS_PER_S A) / v in
  Rabs (IZR (calculate_ticks A (linear_accel A a sh c) s) - t) <= t / 100 + 1.
Proof.
  intros HA Ha Hs Hsh v t. destruct (linear_accel_facts A a sh c HA Ha ltac:(lia)) as (D & E1 & E2).
  pose proof (linear_period_accurate A _ a s HA D E2 Ha) as K. rewrite E1 in K. specialize (K Hs). cbv zeta in K.
  assert (Et : t = lin_ideal A a sh / Rpower (IZR s) (2 / 3)).
  { unfold t, v, lin_ideal.
    assert (0 < Rpower (IZR s) (2 / 3)) by apply exp_pos. assert (0 < Rpower (IZR sh) (1 / 6)) by apply exp_pos.
    assert (0 < sqrt (3 / 2 * IZR a)).
    { apply sqrt_lt_R0. assert (0 < IZR a) by (apply IZR_lt; lia). lra. }
    field. lra. }
  rewrite Et. exact K.
Qed.

(** rounding a quarter of [s_h] to an integer changes the period by less than 0.17 %
    from 200 steps on *)
Lemma sqrt_ratio T a x y : 0 < T -> 0 < a -> 150 <= y -> y - 1 / 2 <= x <= y + 1 / 2 ->
  Rabs (T / sqrt (2 * a * x) - T / sqrt (2 * a * y)) <= T / sqrt (2 * a * y) * (17 / 10000).
Proof.
  intros HT Ha Hy Hx.
  assert (Sx : 0 < sqrt x) by (apply sqrt_lt_R0; lra). assert (Sy : 0 < sqrt y) by (apply sqrt_lt_R0; lra).
  assert (S2 : 0 < sqrt (2 * a)) by (apply sqrt_lt_R0; lra).
  rewrite (sqrt_mult (2 * a) x), (sqrt_mult (2 * a) y) by lra.
  assert (L : sqrt x * (1 - 167 / 100000) <= sqrt y).
  { rewrite <- (sqrt_square (1 - 167 / 100000)) by lra. rewrite <- sqrt_mult by lra.
    apply sqrt_le_1; lra. }
  assert (U : sqrt y <= sqrt x * (1 + 17 / 10000)).
  { rewrite <- (sqrt_square (1 + 17 / 10000)) by lra. rewrite <- sqrt_mult by lra.
    apply sqrt_le_1; lra. }
  set (k := T / sqrt (2 * a)).
  assert (Pk : 0 < k) by (apply Rdiv_lt_0_compat; assumption).
  replace (T / (sqrt (2 * a) * sqrt x)) with (k * / sqrt x) by (unfold k; field; lra).
  replace (T / (sqrt (2 * a) * sqrt y)) with (k * / sqrt y) by (unfold k; field; lra).
  replace (k * / sqrt x - k * / sqrt y) with (k * / sqrt y * ((sqrt y - sqrt x) / sqrt x)) by (field; lra).
  assert (Py : 0 < k * / sqrt y) by (apply Rmult_lt_0_compat; [assumption|apply Rinv_0_lt_compat; assumption]).
  rewrite Rabs_mult, (Rabs_right (k * / sqrt y)) by lra.
  apply Rmult_le_compat_l; [lra|].
  apply Rabs_le. split.
  - apply Rmult_le_reg_r with (sqrt x); [assumption|]. unfold Rdiv at 2. rewrite (Rmult_assoc _ (/ sqrt x)), Rinv_l by lra. lra.
  - apply Rmult_le_reg_r with (sqrt x); [assumption|]. unfold Rdiv at 1. rewrite Rmult_assoc, Rinv_l by lra. lra.
Qed.

Lemma behind_phase_lemma A a sh c s :
  In A all_archs -> (1 <= a < 2147483648)%Z -> (200 <= sh <= s)%Z -> (s < 4294967294)%Z ->
  let t := IZR (TICKS_PER_S A) / sqrt (2 * IZR a * (IZR s - IZR sh / 4)) in
  Rabs (IZR (calculate_ticks A (linear_accel A a sh c) s) - t) <= t / 100 + 1.
Proof.
  intros HA Ha Hs Hsh t. destruct (linear_accel_facts A a sh c HA Ha ltac:(lia)) as (D & E1 & E2).
  destruct D as (D & _). rewrite E1 in D.
  pose proof (above_period_accurate A (linear_accel A a sh c) a s HA) as K. rewrite E1 in K.
  specialize (K D E2 Ha ltac:(lia) ltac:(lia)). cbv zeta in K.
  destruct (quarter_spec sh D) as (_ & (B1 & B2) & _).
  apply IZR_le in B1, B2. rewrite minus_IZR, mult_IZR in B1. rewrite plus_IZR, mult_IZR in B2.
  assert (S1 : 200 <= IZR sh) by (apply IZR_le; lia). assert (S2 : IZR sh <= IZR s) by (apply IZR_le; lia).
  assert (T : 0 < IZR (TICKS_PER_S A)) by (apply IZR_lt; clear - HA; revert A HA; apply arch_cases; reflexivity).
  assert (Pa : 0 < IZR a) by (apply IZR_lt; lia).
  rewrite minus_IZR in K.
  pose proof (sqrt_ratio (IZR (TICKS_PER_S A)) (IZR a) (IZR s - IZR (quarter sh)) (IZR s - IZR sh / 4) T Pa ltac:(lra) ltac:(lra)) as Q.
  fold t in Q.
  assert (Pt : 0 < t).
  { unfold t. apply Rdiv_lt_0_compat; [assumption|]. apply sqrt_lt_R0. apply Rmult_lt_0_compat; lra. }
  set (t' := IZR (TICKS_PER_S A) / sqrt (2 * IZR a * (IZR s - IZR (quarter sh)))) in *. clearbody t' t.
  set (k := IZR (calculate_ticks A (linear_accel A a sh c) s)) in *. clearbody k.
  revert K Q. unfold Rabs. destruct (Rcase_abs (k - t')), (Rcase_abs (t' - t)), (Rcase_abs (k - t)); lra.
Qed.

Lemma handover_lemma A a sh c :
  In A all_archs -> (1 <= a < 2147483648)%Z -> (200 <= sh < 4294967294)%Z ->
  let t := IZR (TICKS_PER_S A) / sqrt (3 / 2 * IZR a * IZR sh) in
  Rabs (IZR (calculate_ticks A (linear_accel A a sh c) sh) - t) <= t / 100 + 1.
Proof.
  intros HA Ha Hs t. pose proof (behind_phase_lemma A a sh c sh HA Ha ltac:(lia) ltac:(lia)) as K. cbv zeta in K.
  replace (2 * IZR a * (IZR sh - IZR sh / 4)) with (3 / 2 * IZR a * IZR sh) in K by lra. exact K.
Qed.

Lemma linear_steps_lemma A a sh c t :
  In A all_archs -> (1 <= a < 2147483648)%Z -> (1 <= sh < 4294967294)%Z -> (1 <= t < 4294967296)%Z ->
  101 / 100 * (IZR (TICKS_PER_S A) / sqrt (3 / 2 * IZR a * IZR sh)) <= IZR t ->
  let v := IZR (TICKS_PER_S A) / IZR t in
  let s := Rpower (v * Rpower (IZR sh) (1 / 6) / sqrt (3 / 2 * IZR a)) (3 / 2) in
  Rabs (IZR (calculate_ramp_steps A (linear_accel A a sh c) t) - s) <= s / 100 + 1.
Proof.
  intros HA Ha Hs Ht Hh v s. destruct (linear_accel_facts A a sh c HA Ha ltac:(lia)) as (D & E1 & E2).
  pose proof (linear_steps_accurate A _ a t HA D) as K. rewrite E1 in K.
  specialize (K ltac:(lia) E2 Ha Ht Hh). cbv zeta in K.
  assert (Pt : 0 < IZR t) by (apply IZR_lt; lia).
  assert (0 < sqrt (3 / 2 * IZR a)).
  { apply sqrt_lt_R0. assert (0 < IZR a) by (apply IZR_lt; lia). lra. }
  replace (lin_ideal A a sh / IZR t) with (v * Rpower (IZR sh) (1 / 6) / sqrt (3 / 2 * IZR a)) in K
    by (unfold v, lin_ideal; field; lra).
  exact K.
Qed.

Lemma behind_steps_lemma A a sh c t :
  In A all_archs -> (1 <= a < 2147483648)%Z -> (1 <= sh < 4294967294)%Z -> (1 <= t < 4294967296)%Z ->
  IZR t <= 99 / 100 * (IZR (TICKS_PER_S A) / sqrt (3 / 2 * IZR a * IZR sh)) ->
  let v := IZR (TICKS_PER_S A) / IZR t in
  let s := v * v / (2 * IZR a) in
  s <= 3100000000 ->
  Rabs (IZR (calculate_ramp_steps A (linear_accel A a sh c) t) - (s + IZR sh / 4)) <= s / 100 + 3 / 2.
Proof.
  intros HA Ha Hs Ht Hh v s Hm. destruct (linear_accel_facts A a sh c HA Ha ltac:(lia)) as (D & E1 & E2).
  pose proof (above_steps_accurate A _ a t HA D) as K. rewrite E1 in K.
  specialize (K ltac:(lia) E2 Ha Ht Hh). cbv zeta in K.
  assert (Pt : 0 < IZR t) by (apply IZR_lt; lia). assert (Pa : 0 < IZR a) by (apply IZR_lt; lia).
  replace (IZR (TICKS_PER_S A) * IZR (TICKS_PER_S A) / (2 * IZR a * (IZR t * IZR t))) with s in K
    by (unfold s, v; field; lra).
  specialize (K Hm).
  destruct D as (D & _). rewrite E1 in D. destruct (quarter_spec sh D) as (_ & (B1 & B2) & _).
  apply IZR_le in B1, B2. rewrite minus_IZR, mult_IZR in B1. rewrite plus_IZR, mult_IZR in B2.
  set (k := IZR (calculate_ramp_steps A (linear_accel A a sh c) t)) in *. clearbody k s.
  revert K. unfold Rabs.
  destruct (Rcase_abs (k - (s + IZR (quarter sh)))), (Rcase_abs (k - (s + IZR sh / 4))); lra.
Qed.
