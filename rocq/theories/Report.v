(** * Report: the current speed reported to the application *)
From Coq Require Import ZArith Bool List Lia.
From Verif Require Import Base Pmf RampCalc RampGen RampStep RampReport Queue QueueFacts QueuePos QueueHist QueueProp Stepper.
Import ListNotations.
Open Scope Z_scope.
Ltac Zify.zify_post_hook ::= idtac.
Ltac splits := repeat match goal with |- _ /\ _ => split end.

Section WithArch.
Variable A : arch.

(** ** Model *)
(** RampGenerator::getCurrentSpeedInTicks: src/RampGenerator.h:97-103 *)
Definition rg_currentSpeed (g : rampgen) : Z * bool :=
  (rw_curr_ticks (rg_rw g), negb (Z.land (rw_state (rg_rw g)) RAMP_DIRECTION_COUNT_UP =? 0)).

(** FastAccelStepper::getCurrentSpeedInTicks: src/FastAccelStepper.cpp:759-774. [up0] is the
    uninitialised value of [speed.count_up] in the caller; [speed.ticks] is always written. *)
Definition s_currentSpeed (realtime up0 : bool) (s : stepper) (q : queue) : Z * bool :=
  let '(valid, t, up) := if realtime then getActualTicksWithDirection A q else (false, None, None) in
  let up1 := match up with Some b => b | None => up0 end in
  if valid then (match t with Some t => t | None => 0 end, up1)
  else if isRampGeneratorActive (s_rg s) then rg_currentSpeed (s_rg s)
  else (0, up1).

(** getCurrentSpeedInUs: src/FastAccelStepper.cpp:775-783 *)
Definition s_currentSpeedInUs (realtime up0 : bool) (s : stepper) (q : queue) : Z :=
  let '(t, up) := s_currentSpeed realtime up0 s q in
  let v := i32 (t / (TICKS_PER_S A / 1000000)) in
  if up then v else - v.
(** getCurrentSpeedInMilliHz: src/FastAccelStepper.cpp:784-795 *)
Definition s_currentSpeedInMilliHz (realtime up0 : bool) (s : stepper) (q : queue) : Z :=
  let '(t, up) := s_currentSpeed realtime up0 s q in
  if t >? 0 then
    let v := i32 (u32 (u32 (250 * TICKS_PER_S A) / t * 4)) in
    if up then v else - v
  else 0.

(** ** Specification *)
(** the motion which is reported: period and direction, [None] = no motion *)
Definition ramp_motion (g : rampgen) : option (Z * bool) :=
  if rw_state (rg_rw g) =? 0 then None
  else Some (rw_curr_ticks (rg_rw g), Z.testbit (rw_state (rg_rw g)) 5).
Definition motion (realtime : bool) (cs : list command) (g : rampgen) : option (Z * bool) :=
  if realtime then
    match cs with
    | [] => None
    | c :: t =>
      if (1 <? c_steps c) || ((c_steps c =? 1) && (match t with [] => false | c2 :: _ => 0 <? c_steps c2 end))
      then Some (c_ticks c, c_up c) else ramp_motion g
    end
  else ramp_motion g.
Definition signed (m : option (Z * bool)) (f : Z -> Z) : Z :=
  match m with None => 0 | Some (t, true) => f t | Some (t, false) => - f t end.

Hypothesis HA : In A all_archs.

Lemma bit5 b : 0 <= b -> negb (Z.land b RAMP_DIRECTION_COUNT_UP =? 0) = Z.testbit b 5.
Proof.
  intros H. change RAMP_DIRECTION_COUNT_UP with (2 ^ 5).
  destruct (Z.testbit b 5) eqn:E.
  - destruct (Z.eqb_spec (Z.land b (2 ^ 5)) 0) as [K|]; [|reflexivity]. exfalso.
    assert (F : Z.testbit (Z.land b (2 ^ 5)) 5 = true) by (rewrite Z.land_spec, E; reflexivity).
    rewrite K, Z.bits_0 in F. discriminate.
  - replace (Z.land b (2 ^ 5)) with 0; [reflexivity|]. symmetry. apply Z.bits_inj_0. intros n.
    rewrite Z.land_spec. destruct (Z.eq_dec n 5) as [->|N]; [rewrite E; reflexivity|].
    rewrite Z.pow2_bits_eqb by lia. destruct (Z.eqb_spec 5 n); [congruence|]. apply andb_false_r.
Qed.

Lemma current_speed h realtime up0 s : inv A h -> 0 <= rw_state (rg_rw (s_rg s)) ->
  let r := s_currentSpeed realtime up0 s (h_q h) in
  match motion realtime (pend_cmds (h_done h) (pend A (h_q h))) (s_rg s) with
  | None => fst r = 0
  | Some m => r = m
  end.
Proof.
  intros HI HS. cbv zeta. unfold s_currentSpeed, motion.
  assert (R : forall up1, match ramp_motion (s_rg s) with
    | None => fst (if isRampGeneratorActive (s_rg s) then rg_currentSpeed (s_rg s) else (0, up1)) = 0
    | Some m => (if isRampGeneratorActive (s_rg s) then rg_currentSpeed (s_rg s) else (0, up1)) = m
    end).
  { intros up1. unfold ramp_motion, isRampGeneratorActive, rg_currentSpeed, RAMP_STATE_IDLE.
    destruct (rw_state (rg_rw (s_rg s)) =? 0); cbn [negb fst]; [reflexivity|].
    now rewrite bit5. }
  destruct realtime; [|exact (R up0)].
  rewrite (actual_lemma A HA h HI).
  destruct (pend_cmds _ _) as [|c t]; [reflexivity|].
  destruct (Z.gtb_spec (c_steps c) 0) as [K|K].
  - destruct (Z.gtb_spec (c_steps c) 1), (Z.ltb_spec 1 (c_steps c)); try lia; cbn [orb].
    + reflexivity.
    + destruct (Z.eqb_spec (c_steps c) 1); [|lia]. cbn [andb].
      destruct t as [|c2 t]; [exact (R (c_up c))|].
      destruct (Z.gtb_spec (c_steps c2) 0), (Z.ltb_spec 0 (c_steps c2)); try lia; [reflexivity|exact (R (c_up c))].
  - destruct (Z.ltb_spec 1 (c_steps c)); [lia|]. destruct (Z.eqb_spec (c_steps c) 1); [lia|].
    exact (R up0).
Qed.

(** whole microseconds *)
Lemma current_us h realtime up0 s : inv A h -> 0 <= rw_state (rg_rw (s_rg s)) ->
  let m := motion realtime (pend_cmds (h_done h) (pend A (h_q h))) (s_rg s) in
  (forall t up, m = Some (t, up) -> 0 <= t < 4294967296) ->
  s_currentSpeedInUs realtime up0 s (h_q h) = signed m (fun t => 1000000 * t / TICKS_PER_S A).
Proof.
  intros HI HS m Hm. pose proof (current_speed h realtime up0 s HI HS) as K. cbv zeta in K.
  fold m in K. unfold s_currentSpeedInUs.
  destruct (s_currentSpeed realtime up0 s (h_q h)) as [t up].
  destruct m as [[t1 up1]|]; cbn [signed].
  - injection K as -> ->. specialize (Hm t1 up1 eq_refl).
    assert (E : i32 (t1 / (TICKS_PER_S A / 1000000)) = 1000000 * t1 / TICKS_PER_S A).
    { clear - HA Hm.
      assert (Q : forall k, 16 <= k <= 21 -> i32 (t1 / k) = 1000000 * t1 / (1000000 * k)).
      { intros k Hk. rewrite Z.div_mul_cancel_l by lia. apply i32_id.
        split; [pose proof (Z.div_pos t1 k); lia|].
        apply Z.div_lt_upper_bound; lia. }
      clear Hm. revert A HA. apply arch_cases; cbn; [apply (Q 16)|apply (Q 16)|apply (Q 16)|apply (Q 21)]; lia. }
    rewrite E. now destruct up1.
  - cbn [fst] in K. subst t. rewrite Zdiv_0_l. now destruct up.
Qed.

(** thousandths of steps per second: at most 4 below the exact value *)
Definition mhz_ok (v t : Z) : Prop := v * t <= 1000 * TICKS_PER_S A < (v + 4) * t.
Lemma current_mhz h realtime up0 s : 250 * TICKS_PER_S A < 4294967296 -> inv A h ->
  0 <= rw_state (rg_rw (s_rg s)) ->
  match motion realtime (pend_cmds (h_done h) (pend A (h_q h))) (s_rg s) with
  | None => s_currentSpeedInMilliHz realtime up0 s (h_q h) = 0
  | Some (t, up) => 8 <= t ->
     exists v, 0 <= v /\ mhz_ok v t
       /\ s_currentSpeedInMilliHz realtime up0 s (h_q h) = if up then v else - v
  end.
Proof.
  intros HT HI HS. pose proof (current_speed h realtime up0 s HI HS) as K. cbv zeta in K.
  unfold s_currentSpeedInMilliHz.
  destruct (motion _ _ _) as [[t1 up1]|]; destruct (s_currentSpeed realtime up0 s (h_q h)) as [t up].
  - injection K as -> ->. intros Ht. destruct (Z.gtb_spec t1 0); [|lia].
    assert (HP : 0 < TICKS_PER_S A) by (clear - HA; revert A HA; apply arch_cases; cbn; lia).
    rewrite (u32_id (250 * TICKS_PER_S A)) by lia.
    set (k := 250 * TICKS_PER_S A) in *.
    pose proof (Z.mul_div_le k t1 ltac:(lia)) as B1.
    pose proof (Z.mul_succ_div_gt k t1 ltac:(lia)) as B2.
    assert (B0 : 0 <= k / t1) by (apply Z.div_pos; lia).
    assert (B3 : k / t1 < 536870912) by (apply Z.div_lt_upper_bound; lia).
    exists (k / t1 * 4). rewrite u32_id, i32_id by lia. splits; [lia| |reflexivity].
    unfold mhz_ok. replace (1000 * TICKS_PER_S A) with (4 * k) by (unfold k; lia).
    clearbody k. clear - B1 B2. nia.
  - cbn [fst] in K. subst t. reflexivity.
Qed.
End WithArch.
