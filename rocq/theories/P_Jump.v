(** * P_Jump: property C71, jump start *)
From Coq Require Import ZArith Bool List Lia Reals Lra.
From Verif Require Import Base Pmf RampCalc RampCalcFacts RampGen RampStep RampRun RampMove RampSafe
  RampUser RampJump P_Ramp.
Import ListNotations.
Open Scope Z_scope.
Ltac Zify.zify_post_hook ::= idtac.

(** ** C71: jump start

    With setJumpStart(j) a move from standstill shall begin at the speed of ramp step
    [j] (not above the configured speed) and go to its target without detour. *)
(** The move ends at its target, whatever [j] is. *)
Theorem C71_ends_at_target : forall A g qe olds a M j pos,
  In A all_archs -> configured_jump g a M j -> idle g -> 1 <= a < 2147483648 -> 0 <= j ->
  -2147483648 <= qe_pos qe < 2147483648 -> -2147483648 <= pos < 2147483648 ->
  2 <= M <= 1073741824 ->
  Z.abs (i32 (pos - qe_pos qe)) + start_step A g < 1073741824 ->
  a * Z.max (Z.abs (i32 (pos - qe_pos qe)) + start_step A g) 42000 <= 100000000000000 ->
  u16 M <> 0 ->
  exists g', rg_moveTo pos qe g = (g', MOVE_OK) /\
    ends_at A false olds g' qe (fun _ _ qe' => qe_pos qe' = pos).
Proof. exact (fun A g qe olds a M j pos HA Hc Hi Ha Hj Hq Hp HM HB Hab => moveTo_jump_ends A HA g qe olds a M j pos Hc Hi Ha Hj Hq Hp HM HB Hab). Qed.

(** If the move continues in the direction of the last one and is longer than the jump
    by two steps, then there is no detour, no step is faster than configured, every
    command is accepted, and the first period is that of ramp step [j+1]. *)
Theorem C71_no_detour_partial : forall A g qe olds a M j pos,
  In A all_archs -> configured_jump g a M j -> idle g -> 1 <= a < 2147483648 -> 0 <= j ->
  -2147483648 <= qe_pos qe < 2147483648 -> -2147483648 <= pos < 2147483648 ->
  2 <= M <= 1073741824 ->
  let d := i32 (pos - qe_pos qe) in
  let J := start_step A g in
  Z.abs d + J < 1073741824 -> a * Z.max (Z.abs d + J) 42000 <= 100000000000000 ->
  MIN_CMD_TICKS A <= M -> 1 <= J ->
  J + 2 <= (if qe_up qe then d else - d) ->
  exists g', rg_moveTo pos qe g = (g', MOVE_OK) /\
    ends_at A true olds g' qe (fun cs _ qe' => qe_pos qe' = pos /\
      total_steps cs = Z.abs d /\ Forall (valid_cmd A) cs /\ Forall (moves_only (qe_up qe)) cs /\
      speed_ok M cs /\
      exists c rest, cs = c :: rest /\ c_steps c = 1 /\
        c_ticks c + pauses rest = Z.max M (ramp_period A g (J + 1))).
Proof. exact (fun A g qe olds a M j pos HA Hc Hi Ha Hj Hq Hp HM HB Hab => moveTo_jump_along A true HA g qe olds a M j pos Hc Hi Ha Hj Hq Hp HM HB Hab). Qed.
(** [J] is [j], unless ramp step [j] is faster than configured. *)
Theorem C71_start_step : forall A g a M j,
  configured_jump g a M j -> M <= ramp_period A g j -> start_step A g = j.
Proof. exact (fun A g a M j => start_step_limited A g at_zero a M j 0). Qed.
(** The period of a ramp step is the documented one, [v = sqrt(2*a*s)], within 1/150. *)
Theorem C71_period : forall A g a M j s,
  In A all_archs -> configured_jump g a M j -> s_h (rg_params g) = 0 ->
  1 <= a < 2147483648 -> 1 <= s < 4294967296 ->
  (Rabs (IZR (ramp_period A g s) - IZR (TICKS_PER_S A) / sqrt (2 * IZR a * IZR s))
   <= IZR (TICKS_PER_S A) / sqrt (2 * IZR a * IZR s) / 150 + 1)%R.
Proof.
  intros A g a M j s HA Hc Hh Ha Hs. pose proof (ramp_period_accurate A HA g a M j s Hc Ha Hs) as K.
  rewrite Hh in K. change ((0 + 2) / 4) with 0 in K. rewrite Z.sub_0_r in K. apply K. lia.
Qed.

Definition jumping (j : Z) : rampgen := rg_setJumpStart j (started 10000 8000).
Example C71_example : exists g',
  rg_moveTo 100 at_zero (jumping 20) = (g', MOVE_OK) /\
  ends_at arch_esp32 true old0 g' at_zero (fun cs _ qe' => qe_pos qe' = 100 /\
    total_steps cs = 100 /\ Forall (valid_cmd arch_esp32) cs /\ Forall (moves_only true) cs /\
    speed_ok 8000 cs /\
    exists c rest, cs = c :: rest /\ c_steps c = 1 /\ c_ticks c + pauses rest = 24688).
Proof.
  assert (E : start_step arch_esp32 (jumping 20) = 20) by (vm_compute; reflexivity).
  assert (E1 : ramp_period arch_esp32 (jumping 20) 21 = 24688) by (vm_compute; reflexivity).
  pose proof (C71_no_detour_partial arch_esp32 (jumping 20) at_zero old0 10000 8000 20 100) as T.
  cbv zeta in T. rewrite E in T. change (20 + 1) with 21 in T. rewrite E1 in T.
  apply T; try (vm_compute; intuition congruence); try (cbn; lia).
Qed.

(** the generator after moveTo(pos) from position 0 with jump start [j] *)
Definition jump_to (j pos : Z) : rampgen := fst (rg_moveTo pos at_zero (jumping j)).
(** the first [n] commands *)
Definition jump_run (n : nat) (j pos : Z) := ramp_run arch_esp32 true old0 n (jump_to j pos) at_zero.

(** A move against the direction of the last one (here: the first move at all, backward)
    starts in the wrong direction: 20 steps forward before it turns. *)
Theorem C71_direction_refuted : exists j pos, pos < 0 /\
  snd (rg_moveTo pos at_zero (jumping j)) = MOVE_OK /\
  map (fun c => (c_steps c, c_up c)) (cmds (jump_run 3 j pos)) = [(1, true); (1, true); (1, true)] /\
  end_pos (jump_run 23 j pos) = Some (20, true).
Proof. exists 20, (-100). repeat split; vm_compute; reflexivity. Qed.
(** A move in the direction of the last one, which is not longer than the jump, overshoots
    and comes back: to 20 instead of 10. *)
Theorem C71_short_refuted : exists j pos, pos = 10 /\
  snd (rg_moveTo pos at_zero (jumping j)) = MOVE_OK /\
  end_pos (jump_run 23 j pos) = Some (20, true) /\ end_pos (jump_run 60 j pos) = Some (10, false).
Proof. exists 20, 10. repeat split; vm_compute; reflexivity. Qed.
(** The first period is that of ramp step [j+1], not [j]: with setJumpStart(1) the motor
    starts 1.4 times as fast as documented. *)
Theorem C71_speed_refuted : exists pos,
  snd (rg_moveTo pos at_zero (jumping 1)) = MOVE_OK /\
  map (fun c => (c_steps c, c_ticks c)) (cmds (jump_run 3 1 pos)) =
    [(1, 40032); (0, 40032); (1, 65344)] /\
  (IZR (TICKS_PER_S arch_esp32) / sqrt (2 * 10000 * 1) - IZR (40032 + 40032) >= 33000)%R.
Proof.
  exists 100. split; [reflexivity|]. split; [vm_compute; reflexivity|].
  assert (E : (sqrt (2 * 10000 * 1) <= 141.43)%R).
  { replace 141.43%R with (sqrt (141.43 * 141.43)) by (apply sqrt_square; lra). apply sqrt_le_1; lra. }
  assert (E0 : (0 < sqrt (2 * 10000 * 1))%R) by (apply sqrt_lt_R0; lra).
  set (q := sqrt (2 * 10000 * 1)) in *. clearbody q.
  change (TICKS_PER_S arch_esp32) with 16000000. change (40032 + 40032) with 80064.
  assert (X : (113128 <= 16000000 / q)%R).
  { apply Rmult_le_reg_r with q; [exact E0|]. unfold Rdiv. rewrite Rmult_assoc, Rinv_l by lra. lra. }
  lra.
Qed.

Print Assumptions C71_ends_at_target.
Print Assumptions C71_no_detour_partial.
Print Assumptions C71_start_step.
Print Assumptions C71_period.
Print Assumptions C71_direction_refuted.
Print Assumptions C71_short_refuted.
Print Assumptions C71_speed_refuted.
