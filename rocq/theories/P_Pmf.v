(** * Properties C01-C07: number format and ramp formulas

    Reading guide. [pmfl_from_u8/u16/u32] convert an unsigned integer to the
    logarithmic format (a value v stands for 2^(v/512)), [pmfl_to_u16/u32] convert
    back. [const_accel A a c] is the ramp configuration after setAcceleration(a).
    [calculate_ticks A c s] is the step period (in timer ticks) at ramp step s,
    [calculate_ramp_steps A c t] the number of ramp steps needed to reach period
    t. [A] ranges over the supported architectures. *)
From Coq Require Import ZArith List Reals.
From Verif Require Import Base Pmf PmfFacts PmfReal RampCalc RampCalcFacts.
Open Scope Z_scope.

(** ** C01 *)
Theorem C01_from_u32_monotone : forall x y,
  0 <= x -> x <= y -> y < 2 ^ 32 -> pmfl_from_u32 x <= pmfl_from_u32 y.
Proof. exact from_u32_mono. Qed.
Theorem C01_from_u16_monotone : forall x y,
  0 <= x -> x <= y -> y < 2 ^ 16 -> pmfl_from_u16 x <= pmfl_from_u16 y.
Proof. exact from_u16_mono. Qed.
Theorem C01_from_u8_monotone : forall x y,
  0 <= x -> x <= y -> y < 2 ^ 8 -> pmfl_from_u8 x <= pmfl_from_u8 y.
Proof. exact from_u8_mono. Qed.
Theorem C01_from_zero : pmfl_from_u32 0 = -32768.
Proof. exact from_u32_zero. Qed.
(** not constant: *)
Example C01_example : pmfl_from_u32 1000000 = 10205 /\ pmfl_from_u32 1001000 = 10206.
Proof. vm_compute. auto. Qed.

(** ** C02: error of less than 1.5 units of 1/512 octave *)
Theorem C02_from_u32_accurate : forall x, 1 <= x < 2 ^ 32 ->
  (- (3 / 2) <= IZR (pmfl_from_u32 x) - 512 * (ln (IZR x) / ln 2) <= 3 / 4)%R.
Proof. exact from_u32_accurate. Qed.
Theorem C02_byte_accurate : forall x, 1 <= x < 256 ->
  (- (1 / 4) <= IZR (pmfl_from_u32 x) - 512 * (ln (IZR x) / ln 2) <= 3 / 4)%R.
Proof. exact from_byte_accurate. Qed.
Example C02_example : 1 <= 123456789 < 2 ^ 32.
Proof. split; reflexivity || discriminate. Qed.

(** ** C03 *)
Theorem C03_to_u32_monotone : forall v w, v <= w -> pmfl_to_u32 v <= pmfl_to_u32 w.
Proof. exact to_u32_mono. Qed.
Theorem C03_to_u16_monotone : forall v w, v <= w -> pmfl_to_u16 v <= pmfl_to_u16 w.
Proof. exact to_u16_mono. Qed.
Theorem C03_to_u32_zero : forall v, v < 0 -> pmfl_to_u32 v = 0.
Proof. exact to_u32_neg. Qed.
Theorem C03_to_u16_zero : forall v, v < 0 -> pmfl_to_u16 v = 0.
Proof. exact to_u16_neg. Qed.
Theorem C03_to_u32_saturates : forall v, 32 * 512 <= v -> pmfl_to_u32 v = 2 ^ 32 - 1.
Proof. exact to_u32_sat. Qed.
Theorem C03_to_u16_saturates : forall v, 16 * 512 <= v -> pmfl_to_u16 v = 2 ^ 16 - 1.
Proof. exact to_u16_sat. Qed.
Theorem C03_to_u32_accurate : forall v, v < 32 * 512 ->
  (Rabs (IZR (pmfl_to_u32 v) - Rpower 2 (IZR v / 512))
   <= Rmax 1 (Rpower 2 (IZR v / 512) / 1000))%R.
Proof. exact to_u32_accurate'. Qed.
Example C03_example : pmfl_to_u32 10205 = 1000448 /\ pmfl_to_u32 10206 = 1001472.
Proof. vm_compute. auto. Qed.

(** ** C04: relative error of at most 0.2 percent, exact below 514 *)
Theorem C04_round_trip : forall x, 0 <= x < 2 ^ 32 ->
  Z.abs (pmfl_to_u32 (pmfl_from_u32 x) - x) * 500 <= x.
Proof. exact round_trip. Qed.
Theorem C04_round_trip_exact : forall x, 0 <= x < 514 ->
  pmfl_to_u32 (pmfl_from_u32 x) = x.
Proof. exact round_trip_exact. Qed.
Example C04_example : pmfl_to_u32 (pmfl_from_u32 1000000) = 1000448.
Proof. vm_compute. reflexivity. Qed.

(** ** C05: the 16 bit computations give the result of the same formula over
    unbounded integers *)
Theorem C05_period_no_wrap : forall A a c s,
  In A all_archs -> s_h (parameters c) = 0 ->
  1 <= a < 2 ^ 31 -> 1 <= s < 2 ^ 32 ->
  calculate_ticks A (const_accel A a c) s =
  pmfl_to_u32 (PMF_TICKS_PER_S_DIV_SQRT_OF_2 A - (pmfl_from_u32 s + pmfl_from_u32 a) / 2).
Proof. exact C05_period_no_wrap_lemma. Qed.
Theorem C05_steps_no_wrap : forall A a c t,
  In A all_archs -> s_h (parameters c) = 0 ->
  1 <= a < 2 ^ 31 -> 1 <= t < 2 ^ 32 ->
  calculate_ramp_steps A (const_accel A a c) t =
  pmfl_to_u32 (PMF_ACCEL_FACTOR A - pmfl_from_u32 a - 2 * pmfl_from_u32 t).
Proof. exact C05_steps_no_wrap_lemma. Qed.
(** every intermediate value fits 16 bits, for all periods below 4292870144 (0xffe00000) *)
Theorem C05_intermediate_values_partial : forall A a s t,
  In A all_archs -> 1 <= a < 2 ^ 31 -> 1 <= s < 2 ^ 32 -> 1 <= t < 4292870144 ->
  is_i16 (pmfl_from_u32 s + pmfl_from_u32 a) /\
  is_i16 (PMF_TICKS_PER_S_DIV_SQRT_OF_2 A - (pmfl_from_u32 s + pmfl_from_u32 a) / 2) /\
  is_i16 (PMF_ACCEL_FACTOR A - pmfl_from_u32 a) /\
  is_i16 (pmfl_from_u32 t + pmfl_from_u32 t) /\
  is_i16 (PMF_ACCEL_FACTOR A - pmfl_from_u32 a - 2 * pmfl_from_u32 t).
Proof. exact C05_intermediate_lemma. Qed.
(** but not for the longest ones: the square of the period overflows int16
    (undefined behaviour on AVR, where int has 16 bits) *)
Theorem C05_intermediate_values_refuted : exists t, 1 <= t < 2 ^ 32 /\
  ~ is_i16 (pmfl_from_u32 t + pmfl_from_u32 t).
Proof. exact C05_refuted_lemma. Qed.
Definition C05_config : config := mkConfig (params_init 0) 0 0 0.
Example C05_example :
  calculate_ticks arch_pc (const_accel arch_pc 10000 C05_config) 100 = 11320 /\
  calculate_ramp_steps arch_pc (const_accel arch_pc 10000 C05_config) 1600 = 5012.
Proof. vm_compute. auto. Qed.

(** ** C06: period within 1/150 (plus one tick) of T/sqrt(2*a*s) *)
Theorem C06_period_accurate : forall A a c s,
  In A all_archs -> s_h (parameters c) = 0 ->
  1 <= a < 2 ^ 31 -> 1 <= s < 2 ^ 32 ->
  let ideal := (IZR (TICKS_PER_S A) / sqrt (2 * IZR a * IZR s))%R in
  (Rabs (IZR (calculate_ticks A (const_accel A a c) s) - ideal) <= ideal / 150 + 1)%R.
Proof. exact C06_period_accurate_lemma. Qed.
Theorem C06_period_decreases_along_ramp : forall A a c s s',
  In A all_archs -> s_h (parameters c) = 0 ->
  1 <= a < 2 ^ 31 -> 1 <= s -> s <= s' -> s' < 2 ^ 32 ->
  calculate_ticks A (const_accel A a c) s' <= calculate_ticks A (const_accel A a c) s.
Proof. exact C06_mono_lemma. Qed.
Theorem C06_period_decreases_with_acceleration : forall A a a' c s,
  In A all_archs -> s_h (parameters c) = 0 ->
  1 <= a -> a <= a' -> a' < 2 ^ 31 -> 1 <= s < 2 ^ 32 ->
  calculate_ticks A (const_accel A a' c) s <= calculate_ticks A (const_accel A a c) s.
Proof. exact C06_mono_accel_lemma. Qed.

(** ** C07: ramp length within 1/100 (plus one step) of T^2/(2*a*t^2) *)
Theorem C07_steps_accurate : forall A a c t,
  In A all_archs -> s_h (parameters c) = 0 ->
  1 <= a < 2 ^ 31 -> 1 <= t < 2 ^ 32 ->
  let ideal := (IZR (TICKS_PER_S A) * IZR (TICKS_PER_S A) / (2 * IZR a * (IZR t * IZR t)))%R in
  (ideal <= 4260000000)%R ->
  (Rabs (IZR (calculate_ramp_steps A (const_accel A a c) t) - ideal) <= ideal / 100 + 1)%R.
Proof. exact C07_steps_accurate_lemma. Qed.
Theorem C07_steps_monotone : forall A a c t t',
  In A all_archs -> s_h (parameters c) = 0 ->
  1 <= a < 2 ^ 31 -> 1 <= t -> t <= t' -> t' < 2 ^ 32 ->
  calculate_ramp_steps A (const_accel A a c) t' <= calculate_ramp_steps A (const_accel A a c) t.
Proof. exact C07_mono_lemma. Qed.
(** Beyond the 32 bit range the result saturates. *)
Example C07_saturates :
  calculate_ramp_steps arch_pc (const_accel arch_pc 1 C05_config) 80 = 2 ^ 32 - 1.
Proof. vm_compute. reflexivity. Qed.

Print Assumptions C01_from_u32_monotone.
Print Assumptions C01_from_u16_monotone.
Print Assumptions C01_from_u8_monotone.
Print Assumptions C01_from_zero.
Print Assumptions C02_from_u32_accurate.
Print Assumptions C02_byte_accurate.
Print Assumptions C03_to_u32_monotone.
Print Assumptions C03_to_u16_monotone.
Print Assumptions C03_to_u32_zero.
Print Assumptions C03_to_u16_zero.
Print Assumptions C03_to_u32_saturates.
Print Assumptions C03_to_u16_saturates.
Print Assumptions C03_to_u32_accurate.
Print Assumptions C04_round_trip.
Print Assumptions C04_round_trip_exact.
Print Assumptions C05_period_no_wrap.
Print Assumptions C05_steps_no_wrap.
Print Assumptions C05_intermediate_values_partial.
Print Assumptions C05_intermediate_values_refuted.
Print Assumptions C06_period_accurate.
Print Assumptions C06_period_decreases_along_ramp.
Print Assumptions C06_period_decreases_with_acceleration.
Print Assumptions C07_steps_accurate.
Print Assumptions C07_steps_monotone.
