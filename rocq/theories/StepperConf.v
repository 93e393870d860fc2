(** * StepperConf: the reported maximum speed and the effect of the configuration calls *)
From Coq Require Import ZArith Bool List Lia.
From Verif Require Import Base RampCalc RampGen Queue QueueHist Stepper StepperSet.
Import ListNotations.
Open Scope Z_scope.
Ltac Zify.zify_post_hook ::= idtac.

Lemma ticks_ok A : In A all_archs ->
  16000000 <= TICKS_PER_S A <= 21000000 /\ TICKS_PER_S A = 1000000 * TICKS_PER_US A
  /\ TICKS_PER_S A / 1000000 = TICKS_PER_US A /\ 16 <= TICKS_PER_US A <= 21
  /\ TICKS_PER_S A / 1000 = 1000 * TICKS_PER_US A.
Proof. revert A. apply arch_cases; cbn; lia. Qed.

(** the highest whole frequency within the limit is reported, and setSpeedInHz() takes it *)
Lemma max_hz_lemma A s q : In A all_archs -> 0 < q_max q < 65536 ->
  exists f, getMaxSpeedInHz A q = Some f
    /\ f * q_max q <= TICKS_PER_S A < (f + 1) * q_max q
    /\ accepted (setSpeedInHz A f s q)
    /\ q_max q <= speed_of (fst (setSpeedInHz A f s q)).
Proof.
  intros HA Hm. destruct (ticks_ok A HA) as (T & _). unfold getMaxSpeedInHz.
  destruct (Z.eqb_spec (q_max q) 0) as [|_]; [lia|].
  set (f := TICKS_PER_S A / q_max q). exists f. split; [reflexivity|].
  pose proof (Z.div_mod (TICKS_PER_S A) (q_max q) ltac:(lia)) as E.
  pose proof (Z.mod_pos_bound (TICKS_PER_S A) (q_max q) ltac:(lia)) as B. fold f in E.
  assert (F : f * q_max q <= TICKS_PER_S A < (f + 1) * q_max q) by lia. split; [exact F|].
  assert (F0 : 0 < f <= 21000000) by nia.
  unfold setSpeedInHz. destruct (divForHz A f) as [t|] eqn:D.
  2: { unfold divForHz in D. destruct (Z.eqb_spec f 0); [lia|discriminate]. }
  destruct (divForHz_spec A f t HA ltac:(unfold is_u32; lia) D) as (R & Rt). unfold rounded in R.
  assert (L : q_max q <= t) by (clear - F F0 R Hm; nia).
  destruct (set_ticks_cases t s q) as (K & _).
  destruct K as (K1 & K2 & _); [split; lia|]. split; [exact K1|]. rewrite K2. exact L.
Qed.

Lemma max_mhz_back A s q : TICKS_PER_S A = 16000000 -> 20 < q_max q < 65536 ->
  exists f, getMaxSpeedInMilliHz A q = Some f
    /\ accepted (setSpeedInMilliHz A f s q)
    /\ q_max q <= speed_of (fst (setSpeedInMilliHz A f s q)).
Proof.
  intros HA Hm. destruct (max_mhz_lemma A q HA ltac:(lia)) as (f & Ef & Bf). rewrite HA in Bf.
  exists f. split; [exact Ef|].
  assert (F0 : 200000 < f <= 761904761) by nia.
  destruct (set_mhz_lemma A f s q HA ltac:(unfold is_u32; lia) ltac:(lia)) as (_ & _ & K & _).
  set (t := (16000000000 + f / 2) / f).
  assert (R : rounded (1000 * TICKS_PER_S A) f t) by (rewrite HA; apply div_rounded; lia).
  assert (L : q_max q <= t).
  { unfold rounded in R. rewrite HA in R. clearbody t. clear - Bf F0 R Hm. nia. }
  destruct (K ltac:(lia) t R L) as (K1 & K2). split; [exact K1|]. rewrite K2. exact L.
Qed.

(** the period in us is rounded down *)
Lemma max_us_lemma A s q : In A all_archs -> 0 < q_max q < 65536 ->
  let r := getMaxSpeedInUs A q in
  r * TICKS_PER_US A <= q_max q < (r + 1) * TICKS_PER_US A
  /\ (accepted (setSpeedInUs A r s q) <-> q_max q mod TICKS_PER_US A = 0).
Proof.
  intros HA Hm. destruct (ticks_ok A HA) as (T & _ & E1 & T1 & _). cbv zeta.
  assert (Er : getMaxSpeedInUs A q = q_max q / TICKS_PER_US A).
  { unfold getMaxSpeedInUs. rewrite E1. apply Z.mod_small. split; [apply Z.div_pos; lia|].
    apply Z.div_lt_upper_bound; nia. }
  rewrite Er. set (r := q_max q / TICKS_PER_US A) in *.
  pose proof (Z.div_mod (q_max q) (TICKS_PER_US A) ltac:(lia)) as E.
  pose proof (Z.mod_pos_bound (q_max q) (TICKS_PER_US A) ltac:(lia)) as B. fold r in E.
  split; [lia|]. assert (R : 0 <= r <= 4095) by nia.
  destruct (set_us_lemma A r s q HA ltac:(unfold is_u32; lia)) as (K1 & K2).
  assert (D : 200000000 <= 4294967295 / TICKS_PER_US A).
  { apply Z.div_le_lower_bound; nia. }
  split.
  - intros Acc. destruct (Z.eq_dec (q_max q mod TICKS_PER_US A) 0) as [|N]; [assumption|exfalso].
    assert (X : refused (setSpeedInUs A r s q) s) by (apply K2; left; lia).
    unfold refused in X. unfold accepted in Acc. rewrite X in Acc. discriminate Acc.
  - intros Z0. apply K1. lia.
Qed.

(** reading back a speed given in us *)
Lemma us_back A us s q : In A all_archs -> is_u32 us ->
  accepted (setSpeedInUs A us s q) ->
  rg_getSpeedInUs A (s_rg (fst (setSpeedInUs A us s q))) = us.
Proof.
  intros HA Hu Acc. destruct (ticks_ok A HA) as (_ & _ & E1 & T1 & _).
  destruct (set_us_lemma A us s q HA Hu) as (K1 & K2).
  destruct (Z_lt_le_dec (us * TICKS_PER_US A) (q_max q)) as [L|L];
    [pose proof (K2 (or_introl L)) as X; unfold refused in X; unfold accepted in Acc; rewrite X in Acc; discriminate Acc|].
  destruct (Z_lt_le_dec us (4294967295 / TICKS_PER_US A)) as [M|M];
    [|pose proof (K2 (or_intror M)) as X; unfold refused in X; unfold accepted in Acc; rewrite X in Acc; discriminate Acc].
  destruct (K1 (conj L M)) as (_ & K). unfold rg_getSpeedInUs. rewrite E1.
  unfold speed_of in K. rewrite K. apply Z.div_mul. lia.
Qed.
Lemma us_read A s : In A all_archs ->
  let r := rg_getSpeedInUs A (s_rg s) in
  r * TICKS_PER_US A <= speed_of s < (r + 1) * TICKS_PER_US A.
Proof.
  intros HA. destruct (ticks_ok A HA) as (_ & _ & E1 & T1 & _). cbv zeta. unfold rg_getSpeedInUs, speed_of.
  rewrite E1. set (t := min_travel_ticks _).
  pose proof (Z.div_mod t (TICKS_PER_US A) ltac:(lia)) as E.
  pose proof (Z.mod_pos_bound t (TICKS_PER_US A) ltac:(lia)) as B. lia.
Qed.

(** ** setDirectionPin() is the event [ESetDir] of the queue histories *)
Lemma set_dir_event A EXT ext pin hcu us s h : idle_q h = true -> is_external pin = false ->
  let r := setDirectionPin A ext pin hcu us s (h_q h) (h_pins h) in
  let h' := hstep A EXT (ESetDir pin hcu) h in
  h_q h' = snd (fst r) /\ h_pins h' = snd r.
Proof.
  intros Hi Hx. cbv zeta. cbn [hstep]. rewrite Hi. cbn [h_q h_pins setDirectionPin fst snd].
  split; [reflexivity|]. unfold set_pin. rewrite Hx. destruct (pin =? PIN_UNDEFINED); reflexivity.
Qed.
Lemma set_dir_level A ext pin hcu us s q p : pin <> PIN_UNDEFINED -> is_external pin = false ->
  snd (setDirectionPin A ext pin hcu us s q p) = upd p pin hcu.
Proof.
  intros Hu Hx. unfold setDirectionPin, set_pin. rewrite Hx.
  destruct (Z.eqb_spec pin PIN_UNDEFINED); [contradiction|reflexivity].
Qed.
Lemma set_dir_level_ext A f pin hcu us s q p : pin <> PIN_UNDEFINED -> is_external pin = true ->
  snd (setDirectionPin A (Some f) pin hcu us s q p) = upd p pin (f pin hcu).
Proof.
  intros Hu Hx. unfold setDirectionPin, set_pin. rewrite Hx.
  destruct (Z.eqb_spec pin PIN_UNDEFINED); [contradiction|reflexivity].
Qed.

Lemma plan_lemma A ms s : In A all_archs -> 0 <= ms < 256 ->
  1000 * s_plan (setForwardPlanningTimeInMs A ms s) = ms * TICKS_PER_S A.
Proof.
  intros HA Hm. destruct (ticks_ok A HA) as (T & E0 & _ & T1 & E1). unfold setForwardPlanningTimeInMs.
  cbn [s_plan st_plan]. rewrite E1, u32_id by nia. nia.
Qed.
