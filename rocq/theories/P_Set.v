(** * P_Set: properties C08 - C12 *)
From Coq Require Import ZArith Bool List Lia.
From Verif Require Import Base RampCalc RampGen Queue Stepper StepperSet.
Import ListNotations.
Open Scope Z_scope.

(** ** C08: setSpeedInTicks, setSpeedInUs, setSpeedInHz

    [speed_of s] is the period getSpeedInTicks() reports and the next move uses;
    [rounded n d r]: r is n/d rounded to the nearest integer (halves up);
    [accepted r]: return value 0; [refused r s]: return value -1 and nothing changed. *)
Theorem C08_ticks : forall t s q,
  (q_max q <= t /\ t <> 4294967295 ->
     accepted (setSpeedInTicks t s q) /\ speed_of (fst (setSpeedInTicks t s q)) = t
     /\ speed_valid (fst (setSpeedInTicks t s q)) = true)
  /\ (t < q_max q \/ t = 4294967295 -> refused (setSpeedInTicks t s q) s).
Proof. exact set_ticks_cases. Qed.

Theorem C08_us_partial : forall A us s q, In A all_archs -> is_u32 us ->
  let t := us * TICKS_PER_US A in
  (q_max q <= t /\ us < 4294967295 / TICKS_PER_US A ->
     accepted (setSpeedInUs A us s q) /\ speed_of (fst (setSpeedInUs A us s q)) = t)
  /\ (t < q_max q \/ 4294967295 / TICKS_PER_US A <= us -> refused (setSpeedInUs A us s q) s).
Proof. exact set_us_lemma. Qed.

Theorem C08_hz : forall A f s q, In A all_archs -> is_u32 f ->
  (f = 0 -> refused (setSpeedInHz A f s q) s)
  /\ (0 < f -> exists t, rounded (TICKS_PER_S A) f t
      /\ (q_max q <= t -> accepted (setSpeedInHz A f s q)
                          /\ speed_of (fst (setSpeedInHz A f s q)) = t)
      /\ (t < q_max q -> refused (setSpeedInHz A f s q) s)).
Proof. exact set_hz_lemma. Qed.

Definition a_stepper : stepper := s_init arch_pc 0 9.
Definition a_queue : queue := set_max 80 (q_init arch_pc (fun _ => mkEntry 0 false false false false false false 0 0) true).

(** "Not representable" is not met exactly: the longest representable period, 268435455 us
    = 4294967280 ticks, is refused. *)
Theorem C08_us_refuted : exists us, is_u32 us
  /\ q_max a_queue <= us * TICKS_PER_US arch_pc < 4294967295
  /\ refused (setSpeedInUs arch_pc us a_stepper a_queue) a_stepper.
Proof. exists 268435455. unfold is_u32. repeat split; vm_compute; congruence. Qed.

Example C08_example :
  speed_of (fst (setSpeedInHz arch_pc 3000 a_stepper a_queue)) = 5333
  /\ accepted (setSpeedInHz arch_pc 3000 a_stepper a_queue)
  /\ refused (setSpeedInHz arch_pc 300000 a_stepper a_queue) a_stepper
  /\ speed_of (fst (setSpeedInUs arch_sam 1000 a_stepper a_queue)) = 21000.
Proof. vm_compute. repeat split. Qed.

(** ** C09: setSpeedInMilliHz

    Proved for the 16 MHz timers as long as the speed limit is above 20 ticks (it is 80 at
    least unless setAbsoluteSpeedLimit() is used). *)
Theorem C09_mhz_partial : forall A f s q, TICKS_PER_S A = 16000000 -> is_u32 f -> 20 < q_max q ->
  (f <= 4 -> refused (setSpeedInMilliHz A f s q) s)
  /\ (4 < f -> accepted (setSpeedInMilliHz A f s q) ->
      rounded (1000 * TICKS_PER_S A) f (speed_of (fst (setSpeedInMilliHz A f s q))))
  /\ (4 < f -> forall t, rounded (1000 * TICKS_PER_S A) f t -> q_max q <= t ->
      accepted (setSpeedInMilliHz A f s q) /\ speed_of (fst (setSpeedInMilliHz A f s q)) = t)
  /\ (4 < f -> forall t, rounded (1000 * TICKS_PER_S A) f t -> t < q_max q ->
      refused (setSpeedInMilliHz A f s q) s).
Proof. exact set_mhz_lemma. Qed.

(** SAM (21 MHz): [250 * TICKS_PER_S] overflows uint32_t. 1000000 mHz = 1000 steps/s are
    21000 ticks, but 3820 ticks (5497 steps/s) are stored. *)
Theorem C09_sam_refuted : exists f,
  accepted (setSpeedInMilliHz arch_sam f a_stepper a_queue)
  /\ speed_of (fst (setSpeedInMilliHz arch_sam f a_stepper a_queue)) = 3820
  /\ rounded (1000 * TICKS_PER_S arch_sam) f 21000.
Proof. exists 1000000. vm_compute. repeat split; congruence. Qed.

(** With a speed limit overridden to 8 ticks, 1400000000 mHz are accepted as 8 ticks instead
    of 11 (line [base <<= 2] overflows). *)
Theorem C09_fast_refuted : exists f,
  let q := set_max 8 a_queue in
  accepted (setSpeedInMilliHz arch_esp32 f a_stepper q)
  /\ speed_of (fst (setSpeedInMilliHz arch_esp32 f a_stepper q)) = 8
  /\ rounded (1000 * TICKS_PER_S arch_esp32) f 11.
Proof. exists 1400000000. vm_compute. repeat split; congruence. Qed.

Example C09_example :
  speed_of (fst (setSpeedInMilliHz arch_esp32 123456789 a_stepper a_queue)) = 130
  /\ accepted (setSpeedInMilliHz arch_esp32 123456789 a_stepper a_queue)
  /\ rounded (1000 * TICKS_PER_S arch_esp32) 123456789 130.
Proof. vm_compute. repeat split; congruence. Qed.

(** ** C10: reading back the speed in mHz *)
Theorem C10_get_partial : forall A s, TICKS_PER_S A = 16000000 -> 4 <= speed_of s <= 954437176 ->
  exists r, rg_getSpeedInMilliHz A (s_rg s) = Some r
    /\ rounded (1000 * TICKS_PER_S A) (speed_of s) r.
Proof. exact get_mhz_lemma. Qed.

(** getMaxSpeedInMilliHz() is at most 4 mHz too low *)
Theorem C10_max_partial : forall A q, TICKS_PER_S A = 16000000 -> 4 <= q_max q < 65536 ->
  exists r, getMaxSpeedInMilliHz A q = Some r
    /\ 1000 * TICKS_PER_S A - 4 * q_max q < r * q_max q <= 1000 * TICKS_PER_S A.
Proof. exact max_mhz_lemma. Qed.

(** A period of 1400000000 ticks is accepted, its frequency is 11.43 mHz, 8 is reported. *)
Theorem C10_slow_refuted : exists t,
  let s := fst (setSpeedInTicks t a_stepper a_queue) in
  accepted (setSpeedInTicks t a_stepper a_queue)
  /\ rg_getSpeedInMilliHz arch_esp32 (s_rg s) = Some 8
  /\ rounded (1000 * TICKS_PER_S arch_esp32) (speed_of s) 11.
Proof. exists 1400000000. vm_compute. repeat split; congruence. Qed.
(** SAM: 21000 ticks are 1000 steps/s; 181911 mHz is reported. *)
Theorem C10_sam_refuted : exists t,
  let s := fst (setSpeedInTicks t a_stepper a_queue) in
  accepted (setSpeedInTicks t a_stepper a_queue)
  /\ rg_getSpeedInMilliHz arch_sam (s_rg s) = Some 181911
  /\ rounded (1000 * TICKS_PER_S arch_sam) (speed_of s) 1000000.
Proof. exists 21000. vm_compute. repeat split; congruence. Qed.
(** The limit for two AVR steppers, 426 ticks, is reported as 37558684 mHz. *)
Theorem C10_max_refuted : exists t,
  getMaxSpeedInMilliHz arch_avr (set_max t a_queue) = Some 37558684
  /\ rounded (1000 * TICKS_PER_S arch_avr) t 37558685.
Proof. exists 426. vm_compute. repeat split; congruence. Qed.

Example C10_example : let s := fst (setSpeedInTicks 5333 a_stepper a_queue) in
  4 <= speed_of s <= 954437176 /\ rg_getSpeedInMilliHz arch_esp32 (s_rg s) = Some 3000188.
Proof. vm_compute. repeat split; congruence. Qed.

(** ** C11: the direction change delay *)
Theorem C11_dir_delay : forall A ext pin hcu us s q p, In A all_archs -> is_u16 us ->
  let s' := fst (fst (setDirectionPin A ext pin hcu us s q p)) in
  s_dirdelay s' = (if us =? 0 then 0
                   else clamp (MIN_DIR_DELAY_US A) (MAX_DIR_DELAY_US A) us * TICKS_PER_US A)
  /\ s_dirpin s' = pin
  /\ (us <> 0 -> MIN_CMD_TICKS A <= s_dirdelay s' < 65536).
Proof. exact dir_delay_lemma. Qed.

Example C11_example :
  s_dirdelay (fst (fst (setDirectionPin arch_sam None 5 true 60000 a_stepper a_queue (fun _ => false)))) = 65520
  /\ s_dirdelay (fst (fst (setDirectionPin arch_avr None 5 true 1 a_stepper a_queue (fun _ => false)))) = 640.
Proof. vm_compute. repeat split. Qed.

(** ** C12: the enable delay *)
Theorem C12_enable_delay_partial : forall A us s, In A all_archs ->
  0 <= us * TICKS_PER_US A < 4294967296 ->
  let t := us * TICKS_PER_US A in
  let r := setDelayToEnable A us s in
  (t = 0 \/ MIN_CMD_TICKS A <= t <= 65535 * (QUEUE_LEN A - 1) ->
     snd r = DELAY_OK /\ s_ondelay (fst r) = t)
  /\ (0 < t < MIN_CMD_TICKS A -> r = (s, DELAY_TOO_LOW))
  /\ (65535 * (QUEUE_LEN A - 1) < t -> r = (s, DELAY_TOO_HIGH)).
Proof. exact enable_delay_lemma. Qed.

(** The conversion to ticks overflows: 268435496 us (4.5 minutes) are accepted as 40 us. *)
Theorem C12_overflow_refuted : exists us, is_u32 us
  /\ snd (setDelayToEnable arch_avr us a_stepper) = DELAY_OK
  /\ s_ondelay (fst (setDelayToEnable arch_avr us a_stepper)) <> us * TICKS_PER_US arch_avr.
Proof. exists 268435496. unfold is_u32. repeat split; vm_compute; congruence. Qed.

Example C12_example :
  snd (setDelayToEnable arch_avr 61439 a_stepper) = DELAY_OK
  /\ setDelayToEnable arch_avr 61440 a_stepper = (a_stepper, DELAY_TOO_HIGH)
  /\ setDelayToEnable arch_avr 39 a_stepper = (a_stepper, DELAY_TOO_LOW).
Proof. vm_compute. repeat split. Qed.

Print Assumptions C08_ticks.
Print Assumptions C08_us_partial.
Print Assumptions C08_hz.
Print Assumptions C08_us_refuted.
Print Assumptions C09_mhz_partial.
Print Assumptions C09_sam_refuted.
Print Assumptions C09_fast_refuted.
Print Assumptions C10_get_partial.
Print Assumptions C10_max_partial.
Print Assumptions C10_slow_refuted.
Print Assumptions C10_sam_refuted.
Print Assumptions C10_max_refuted.
Print Assumptions C11_dir_delay.
Print Assumptions C12_enable_delay_partial.
Print Assumptions C12_overflow_refuted.
