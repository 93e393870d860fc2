(** * P_Linear: property C72, linear acceleration phase *)
From Coq Require Import ZArith Bool List Lia Reals Lra.
From Verif Require Import Base Pmf RampCalc RampCalcFacts RampLinear RampGen RampStep RampRun RampMove RampSafe
  RampUser P_Pmf P_Ramp.
Import ListNotations.
Open Scope Z_scope.
Ltac Zify.zify_post_hook ::= idtac.

(** ** C72: setLinearAcceleration(s_h)

    The speed after [s] steps from standstill shall be the documented one:
    [sqrt(1.5*a)/s_h^(1/6) * s^(2/3)] below [s_h] steps, [sqrt(1.5*a*s_h)] at [s_h] steps,
    [sqrt(2*a*(s - s_h/4))] behind; and vice versa the number of ramp steps for a speed. *)
Theorem C72_linear_phase : forall A a sh c s,
  In A all_archs -> 1 <= a < 2147483648 -> 1 <= s < sh -> sh < 4294967294 ->
  let v := (sqrt (3 / 2 * IZR a) / Rpower (IZR sh) (1 / 6) * Rpower (IZR s) (2 / 3))%R in
  let t := (IZR (TICKS_PER_S A) / v)%R in
  (Rabs (IZR (calculate_ticks A (linear_accel A a sh c) s) - t) <= t / 100 + 1)%R.
Proof. exact linear_phase_lemma. Qed.
Theorem C72_handover_partial : forall A a sh c,
  In A all_archs -> 1 <= a < 2147483648 -> 200 <= sh < 4294967294 ->
  let v_h := sqrt (3 / 2 * IZR a * IZR sh) in
  let t := (IZR (TICKS_PER_S A) / v_h)%R in
  (Rabs (IZR (calculate_ticks A (linear_accel A a sh c) sh) - t) <= t / 100 + 1)%R.
Proof. exact handover_lemma. Qed.
Theorem C72_behind_phase_partial : forall A a sh c s,
  In A all_archs -> 1 <= a < 2147483648 -> 200 <= sh <= s -> s < 4294967294 ->
  let v := sqrt (2 * IZR a * (IZR s - IZR sh / 4)) in
  let t := (IZR (TICKS_PER_S A) / v)%R in
  (Rabs (IZR (calculate_ticks A (linear_accel A a sh c) s) - t) <= t / 100 + 1)%R.
Proof. exact behind_phase_lemma. Qed.
(** With few steps the quarter of [s_h] is rounded to an integer: [s_h = 2] gives at step
    2 the period of [sqrt(2*a*1)] instead of [sqrt(2*a*1.5)], 22 % too slow. *)
Theorem C72_handover_refuted : exists a sh c,
  1 <= a < 2147483648 /\ 1 <= sh /\
  (IZR (calculate_ticks arch_pc (linear_accel arch_pc a sh c) sh)
   >= 122 / 100 * (IZR (TICKS_PER_S arch_pc) / sqrt (3 / 2 * IZR a * IZR sh)))%R.
Proof.
  exists 10000, 2, C05_config. split; [lia|]. split; [lia|].
  assert (E : calculate_ticks arch_pc (linear_accel arch_pc 10000 2 C05_config) 2 = 113216) by (vm_compute; reflexivity).
  rewrite E. change (TICKS_PER_S arch_pc) with 16000000.
  assert (B : (173.2 <= sqrt (3 / 2 * 10000 * 2))%R).
  { rewrite <- (sqrt_square 173.2) by lra. apply sqrt_le_1; lra. }
  set (q := sqrt (3 / 2 * 10000 * 2)) in *. clearbody q.
  assert (X : (16000000 / q <= 92379)%R).
  { apply Rmult_le_reg_r with q; [lra|]. unfold Rdiv. rewrite Rmult_assoc, Rinv_l by lra. lra. }
  lra.
Qed.

(** ramp steps needed for a speed, at least 1 % away from the handover speed *)
Theorem C72_steps_linear_partial : forall A a sh c t,
  In A all_archs -> 1 <= a < 2147483648 -> 1 <= sh < 4294967294 -> 1 <= t < 4294967296 ->
  (101 / 100 * (IZR (TICKS_PER_S A) / sqrt (3 / 2 * IZR a * IZR sh)) <= IZR t)%R ->
  let v := (IZR (TICKS_PER_S A) / IZR t)%R in
  let s := Rpower (v * Rpower (IZR sh) (1 / 6) / sqrt (3 / 2 * IZR a)) (3 / 2) in
  (Rabs (IZR (calculate_ramp_steps A (linear_accel A a sh c) t) - s) <= s / 100 + 1)%R.
Proof. exact linear_steps_lemma. Qed.
Theorem C72_steps_behind_partial : forall A a sh c t,
  In A all_archs -> 1 <= a < 2147483648 -> 1 <= sh < 4294967294 -> 1 <= t < 4294967296 ->
  (IZR t <= 99 / 100 * (IZR (TICKS_PER_S A) / sqrt (3 / 2 * IZR a * IZR sh)))%R ->
  let v := (IZR (TICKS_PER_S A) / IZR t)%R in
  let s := (v * v / (2 * IZR a))%R in
  (s <= 3100000000)%R ->
  (Rabs (IZR (calculate_ramp_steps A (linear_accel A a sh c) t) - (s + IZR sh / 4)) <= s / 100 + 3 / 2)%R.
Proof. exact behind_steps_lemma. Qed.

(** The periods of one ramp: 100 steps linear phase. *)
Example C72_example :
  map (calculate_ticks arch_pc (linear_accel arch_pc 10000 100 C05_config)) [1; 10; 50; 99; 100; 1000] =
    [281344; 60512; 20704; 13144; 13072; 3626] /\
  calculate_ramp_steps arch_pc (linear_accel arch_pc 10000 100 C05_config) 20736 = 50 /\
  calculate_ramp_steps arch_pc (linear_accel arch_pc 10000 100 C05_config) 3624 = 1002.
Proof. vm_compute. auto. Qed.

(** Along the ramp the period should only decrease. In the linear phase it does not: with
    [s_h = 1000] step 496 is slower than step 495, and step 1000 slower than 999. *)
Theorem C72_monotone_refuted : exists a sh s,
  1 <= s < sh /\
  calculate_ticks arch_pc (linear_accel arch_pc a sh C05_config) s <
  calculate_ticks arch_pc (linear_accel arch_pc a sh C05_config) (s + 1).
Proof. exists 10000, 1000, 495. split; [lia|]. vm_compute. reflexivity. Qed.

(** The moves of C31, C32 and C36 may have a linear phase. *)
Example C72_move_example : exists g',
  rg_moveTo 300 at_zero (rg_setLinearAcceleration 100 (started 10000 8000)) = (g', MOVE_OK) /\
  ends_at arch_esp32 true old0 g' at_zero (fun cs _ qe' => qe_pos qe' = 300 /\
    total_steps cs = 300 /\ Forall (valid_cmd arch_esp32) cs /\ Forall (moves_only true) cs /\
    speed_ok 8000 cs /\ Forall (at_least 8000) cs).
Proof.
  apply C32_moveTo_monotone_partial with (a := 10000) (M := 8000); try (cbn; unfold TICKS_FOR_STOPPED_MOTOR; lia);
    try (vm_compute; intuition congruence).
Qed.

Print Assumptions C72_linear_phase.
Print Assumptions C72_handover_partial.
Print Assumptions C72_behind_phase_partial.
Print Assumptions C72_handover_refuted.
Print Assumptions C72_steps_linear_partial.
Print Assumptions C72_steps_behind_partial.
Print Assumptions C72_monotone_refuted.
