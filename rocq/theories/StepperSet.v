(** * StepperSet: what the configuration functions store *)
From Coq Require Import ZArith Bool List Lia.
From Verif Require Import Base RampCalc RampGen Queue Stepper.
Import ListNotations.
Open Scope Z_scope.
Ltac Zify.zify_post_hook ::= idtac.

(** [r] is [n/d] rounded to the nearest integer, halves up *)
Definition rounded (n d r : Z) : Prop := 2 * n - d < 2 * d * r <= 2 * n + d.

Lemma rounded_unique n d r r' : 0 < d -> rounded n d r -> rounded n d r' -> r = r'.
Proof. unfold rounded. intros. nia. Qed.

Lemma div_rounded n d : 0 < d -> rounded n d ((n + d / 2) / d).
Proof.
  intros Hd. unfold rounded.
  pose proof (Z.div_mod d 2 ltac:(lia)) as E1. pose proof (Z.mod_pos_bound d 2 ltac:(lia)) as B1.
  pose proof (Z.div_mod (n + d / 2) d ltac:(lia)) as E2.
  pose proof (Z.mod_pos_bound (n + d / 2) d ltac:(lia)) as B2.
  set (h := d / 2) in *. set (r := (n + h) / d) in *. nia.
Qed.

Lemma divForHz_spec A f t : In A all_archs -> is_u32 f -> divForHz A f = Some t ->
  rounded (TICKS_PER_S A) f t /\ 0 <= t <= TICKS_PER_S A.
Proof.
  intros HA Hf H. unfold divForHz in H.
  destruct (Z.eqb_spec f 0) as [|Hn]; [discriminate|]. unfold is_u32 in Hf.
  assert (Ht : 0 <= TICKS_PER_S A <= 21000000 /\ TICKS_PER_S A >= 16000000).
  { clear - HA. revert A HA. apply arch_cases; cbn; lia. }
  assert (Hh : 0 <= f / 2 < 2147483648).
  { split; [apply Z.div_pos; lia|apply Z.div_lt_upper_bound; lia]. }
  rewrite u32_id in H by lia. injection H as <-.
  split; [apply div_rounded; lia|].
  split; [apply Z.div_pos; lia|]. apply Z.div_le_upper_bound; [lia|].
  assert (f / 2 <= f - 1 \/ f = 1) by
    (destruct (Z.eq_dec f 1); [now right|left; assert (f / 2 < f) by (apply Z.div_lt; lia); lia]).
  pose proof (Z.div_mod f 2 ltac:(lia)). pose proof (Z.mod_pos_bound f 2 ltac:(lia)). nia.
Qed.

(** the two stage division: [n = 4 b] *)
Lemma two_stage b f : 0 < f -> 0 <= b ->
  rounded (4 * b) f (4 * (b / f) + (4 * (b mod f) + f / 2) / f).
Proof.
  intros Hf Hb.
  pose proof (div_rounded (4 * (b mod f)) f Hf) as H. unfold rounded in *.
  pose proof (Z.div_mod b f ltac:(lia)). nia.
Qed.


Lemma divForMilliHz_16 A f t : TICKS_PER_S A = 16000000 -> 4 <= f <= 954437176 ->
  divForMilliHz A f = Some t -> rounded 16000000000 f t /\ 0 <= t.
Proof.
  intros HA Hf H. unfold divForMilliHz in H. rewrite HA in H.
  destruct (Z.eqb_spec f 0) as [|Hn]; [lia|].
  change (u32 (250 * 16000000)) with 4000000000 in H. cbv zeta in H.
  set (b := 4000000000) in *.
  assert (Hb : b = 4000000000) by reflexivity. clearbody b.
  assert (E : b - b / f * f = b mod f) by (rewrite Z.mod_eq by lia; lia).
  assert (R : 0 <= b / f <= 1000000000).
  { split; [apply Z.div_pos; lia|]. apply Z.div_le_upper_bound; nia. }
  pose proof (Z.mod_pos_bound b f ltac:(lia)) as M.
  assert (P : 0 <= b / f * f <= b) by nia.
  rewrite (u32_id (b / f * f)) in H by lia. rewrite E in H.
  rewrite (u32_id (b mod f)) in H by lia.
  rewrite !Z.shiftl_mul_pow2 in H by lia. change (2 ^ 2) with 4 in H.
  rewrite (u32_id (b mod f * 4)) in H by lia.
  assert (Hh : 0 <= f / 2 /\ 2 * (f / 2) <= f).
  { split; [apply Z.div_pos; lia|apply Z.mul_div_le; lia]. }
  rewrite (u32_id (b mod f * 4 + f / 2)) in H by lia.
  rewrite (Z.mul_comm (b mod f) 4), (Z.mul_comm (b / f) 4) in H.
  pose proof (two_stage b f ltac:(lia) ltac:(lia)) as T.
  set (x := (4 * (b mod f) + f / 2) / f) in *.
  assert (Hx : 0 <= x <= 4).
  { unfold x. split; [apply Z.div_pos; lia|]. apply Z.lt_succ_r, Z.div_lt_upper_bound; lia. }
  clearbody x.
  rewrite (u32_id (4 * (b / f))) in H by lia.
  rewrite (u32_id (4 * (b / f) + x)) in H by lia.
  assert (Ht : t = 4 * (b / f) + x) by congruence. subst t.
  replace 16000000000 with (4 * b) by lia. split; [exact T|lia].
Qed.

(** Above this bound the result is small in any case *)
Lemma divForMilliHz_16_small A f t : TICKS_PER_S A = 16000000 -> 954437176 < f < 4294967296 ->
  divForMilliHz A f = Some t -> 0 <= t <= 20.
Proof.
  intros HA Hf H. unfold divForMilliHz in H. rewrite HA in H.
  destruct (Z.eqb_spec f 0) as [|Hn]; [lia|].
  change (u32 (250 * 16000000)) with 4000000000 in H. cbv zeta in H.
  assert (R : 0 <= 4000000000 / f <= 4).
  { split; [apply Z.div_pos; lia|]. apply Z.lt_succ_r, Z.div_lt_upper_bound; lia. }
  set (r := 4000000000 / f) in *. clearbody r.
  set (y := u32 (_ + f / 2)) in H.
  assert (Hy : 0 <= y < 4294967296) by apply u32_range. clearbody y.
  assert (Y : 0 <= y / f <= 4).
  { split; [apply Z.div_pos; lia|]. apply Z.lt_succ_r, Z.div_lt_upper_bound; lia. }
  rewrite !Z.shiftl_mul_pow2 in H by lia. change (2 ^ 2) with 4 in H.
  rewrite (u32_id (r * 4)) in H by lia. rewrite u32_id in H by lia.
  assert (t = r * 4 + y / f) by congruence. lia.
Qed.

(** ** What the period setters do *)
(** the period, that getSpeedInTicks() reports and the next move will use *)
Definition speed_of (s : stepper) : Z := min_travel_ticks (rg_params (s_rg s)).
Definition speed_valid (s : stepper) : bool := valid_speed (rg_params (s_rg s)).

Lemma setTicks_ok t s q s' : setSpeedInTicks t s q = (s', 0) ->
  q_max q <= t /\ t <> 4294967295 /\ speed_of s' = t /\ speed_valid s' = true.
Proof.
  unfold setSpeedInTicks, TICKS_FOR_STOPPED_MOTOR.
  destruct (Z.ltb_spec t (q_max q)); [discriminate|].
  destruct (Z.eqb_spec t 4294967295); [discriminate|]. intros [= <-].
  repeat split; try assumption.
  all: unfold speed_of, speed_valid, rg_setSpeedInTicks, p_setSpeedInTicks; cbn [s_rg st_rg rg_params with_params];
    destruct (valid_speed (rg_params (s_rg s))) eqn:Ev;
    destruct (Z.eqb_spec (min_travel_ticks (rg_params (s_rg s))) t); cbn; congruence.
Qed.
Lemma setTicks_code t s q : snd (setSpeedInTicks t s q) = 0 \/
  (snd (setSpeedInTicks t s q) = -1 /\ fst (setSpeedInTicks t s q) = s).
Proof.
  unfold setSpeedInTicks.
  destruct (t <? q_max q); [right; now split|].
  destruct (t =? TICKS_FOR_STOPPED_MOTOR); [right; now split|now left].
Qed.
Lemma setTicks_iff t s q : snd (setSpeedInTicks t s q) = 0 <-> q_max q <= t /\ t <> 4294967295.
Proof.
  unfold setSpeedInTicks, TICKS_FOR_STOPPED_MOTOR.
  destruct (Z.ltb_spec t (q_max q)); cbn [snd]; [lia|].
  destruct (Z.eqb_spec t 4294967295); cbn [snd]; lia.
Qed.

(** ** Statements for the property file *)
Definition accepted (r : stepper * Z) : Prop := snd r = 0.
Definition refused (r : stepper * Z) (s : stepper) : Prop := r = (s, -1).

Lemma set_ticks_lemma t s q :
  (accepted (setSpeedInTicks t s q) /\ speed_of (fst (setSpeedInTicks t s q)) = t
     <-> q_max q <= t /\ t <> 4294967295)
  /\ (refused (setSpeedInTicks t s q) s <-> t < q_max q \/ t = 4294967295).
Proof.
  unfold accepted, refused. pose proof (setTicks_iff t s q) as I.
  pose proof (setTicks_code t s q) as C. pose proof (setTicks_ok t s q) as O.
  destruct (setSpeedInTicks t s q) as [s' r]; cbn [fst snd] in *. split; split.
  - intros [-> _]. now apply I.
  - intros H. apply I in H as ->. split; [reflexivity|]. now apply (O s').
  - intros [= -> ->]. destruct (Z_lt_le_dec t (q_max q)); [now left|right].
    destruct (Z.eq_dec t 4294967295); [assumption|]. exfalso.
    assert (-1 = 0) by (apply I; lia). lia.
  - intros H. destruct C as [->|[-> ->]]; [|reflexivity].
    assert (q_max q <= t /\ t <> 4294967295) by (now apply I). lia.
Qed.

Lemma set_ticks_cases t s q :
  (q_max q <= t /\ t <> 4294967295 ->
     accepted (setSpeedInTicks t s q) /\ speed_of (fst (setSpeedInTicks t s q)) = t
     /\ speed_valid (fst (setSpeedInTicks t s q)) = true)
  /\ (t < q_max q \/ t = 4294967295 -> refused (setSpeedInTicks t s q) s).
Proof.
  destruct (set_ticks_lemma t s q) as [H1 H2]. split; intros H.
  - destruct (proj2 H1 H) as [Ha Hs]. repeat split; try assumption.
    pose proof (setTicks_ok t s q) as O. unfold accepted in Ha.
    destruct (setSpeedInTicks t s q) as [s' r]. cbn [fst snd] in *. subst r.
    now apply (O s').
  - now apply H2.
Qed.

Lemma us_ticks A : In A all_archs -> 1 < TICKS_PER_US A /\ TICKS_PER_US A * 1000000 = TICKS_PER_S A.
Proof. revert A. apply arch_cases; cbn; lia. Qed.

Lemma set_us_lemma A us s q : In A all_archs -> is_u32 us ->
  let t := us * TICKS_PER_US A in
  (q_max q <= t /\ us < 4294967295 / TICKS_PER_US A ->
     accepted (setSpeedInUs A us s q) /\ speed_of (fst (setSpeedInUs A us s q)) = t)
  /\ (t < q_max q \/ 4294967295 / TICKS_PER_US A <= us -> refused (setSpeedInUs A us s q) s).
Proof.
  intros HA Hu t. destruct (us_ticks A HA) as [Ht _]. unfold is_u32 in Hu.
  unfold setSpeedInUs, TICKS_TO_US, US_TO_TICKS. fold t.
  pose proof (Z.mul_div_le 4294967295 (TICKS_PER_US A) ltac:(lia)) as B.
  pose proof (Z.geb_spec us (4294967295 / TICKS_PER_US A)) as G.
  destruct (us >=? 4294967295 / TICKS_PER_US A).
  - inversion G. split; [lia|]. intros _. reflexivity.
  - inversion G as [|G']. assert (Hb : 0 <= t < 4294967295) by (unfold t; nia).
    rewrite u32_id by lia. destruct (set_ticks_cases t s q) as [C1 C2]. split; intros H.
    + destruct C1 as (? & ? & _); [lia|]. now split.
    + apply C2. lia.
Qed.

Lemma set_hz_lemma A f s q : In A all_archs -> is_u32 f ->
  (f = 0 -> refused (setSpeedInHz A f s q) s)
  /\ (0 < f -> exists t, rounded (TICKS_PER_S A) f t
      /\ (q_max q <= t -> accepted (setSpeedInHz A f s q)
                          /\ speed_of (fst (setSpeedInHz A f s q)) = t)
      /\ (t < q_max q -> refused (setSpeedInHz A f s q) s)).
Proof.
  intros HA Hf. unfold setSpeedInHz. destruct (divForHz A f) as [t|] eqn:E.
  - pose proof (divForHz_spec A f t HA Hf E) as [R B].
    assert (TICKS_PER_S A < 4294967295).
    { clear - HA. revert A HA. apply arch_cases; cbn; lia. }
    split; [intros ->; discriminate|]. intros _. exists t. split; [assumption|].
    destruct (set_ticks_cases t s q) as [C1 C2]. split; intros H'.
    + destruct C1 as (? & ? & _); [lia|]. now split.
    + apply C2. lia.
  - unfold divForHz in E. destruct (Z.eqb_spec f 0); [|discriminate].
    split; [reflexivity|lia].
Qed.

Lemma set_mhz_lemma A f s q : TICKS_PER_S A = 16000000 -> is_u32 f -> 20 < q_max q ->
  (f <= 4 -> refused (setSpeedInMilliHz A f s q) s)
  /\ (4 < f -> accepted (setSpeedInMilliHz A f s q) ->
      rounded (1000 * TICKS_PER_S A) f (speed_of (fst (setSpeedInMilliHz A f s q))))
  /\ (4 < f -> forall t, rounded (1000 * TICKS_PER_S A) f t -> q_max q <= t ->
      accepted (setSpeedInMilliHz A f s q) /\ speed_of (fst (setSpeedInMilliHz A f s q)) = t)
  /\ (4 < f -> forall t, rounded (1000 * TICKS_PER_S A) f t -> t < q_max q ->
      refused (setSpeedInMilliHz A f s q) s).
Proof.
  intros HA Hf Hq. unfold setSpeedInMilliHz. rewrite HA.
  change (1000 * 16000000 / 4294967295 + 1) with 4. change (1000 * 16000000) with 16000000000.
  unfold is_u32 in Hf.
  destruct (Z.leb_spec f 4) as [|H4]; [repeat split; (reflexivity || lia)|].
  destruct (divForMilliHz A f) as [t|] eqn:E;
    [|unfold divForMilliHz in E; destruct (Z.eqb_spec f 0); [lia|discriminate]].
  pose proof (set_ticks_cases t s q) as [C1 C2].
  destruct (Z_le_gt_dec f 954437176) as [Hs|Hs].
  - destruct (divForMilliHz_16 A f t HA ltac:(lia) E) as [R B].
    assert (t < 4294967295) by (unfold rounded in R; nia).
    split; [lia|]. split; [|split].
    + intros _ Ha. assert (I : q_max q <= t /\ t <> 4294967295) by (now apply (setTicks_iff t s q)).
      destruct (C1 I) as (_ & -> & _). exact R.
    + intros _ t' R' Hle. assert (t' = t) by (apply (rounded_unique 16000000000 f t' t); [lia|exact R'|exact R]); subst t'.
      destruct C1 as (? & ? & _); [lia|]. now split.
    + intros _ t' R' Hlt. assert (t' = t) by (apply (rounded_unique 16000000000 f t' t); [lia|exact R'|exact R]); subst t'. apply C2. lia.
  - pose proof (divForMilliHz_16_small A f t HA ltac:(lia) E) as B.
    split; [lia|]. split; [|split].
    + intros _ Ha. assert (I : q_max q <= t /\ t <> 4294967295) by (now apply (setTicks_iff t s q)). lia.
    + intros _ t' R' Hle. exfalso. unfold rounded in R'. nia.
    + intros _ t' R' _. apply C2. lia.
Qed.

Lemma get_mhz_lemma A s : TICKS_PER_S A = 16000000 -> 4 <= speed_of s <= 954437176 ->
  exists r, rg_getSpeedInMilliHz A (s_rg s) = Some r /\ rounded (1000 * TICKS_PER_S A) (speed_of s) r.
Proof.
  intros HA Hs. unfold rg_getSpeedInMilliHz. fold (speed_of s).
  destruct (Z.eqb_spec (speed_of s) 0); [lia|].
  destruct (divForMilliHz A (speed_of s)) as [r|] eqn:E.
  - exists r. split; [reflexivity|]. rewrite HA. now apply (divForMilliHz_16 A _ r HA).
  - unfold divForMilliHz in E. destruct (Z.eqb_spec (speed_of s) 0); [lia|discriminate].
Qed.

Lemma max_mhz_lemma A q : TICKS_PER_S A = 16000000 -> 4 <= q_max q < 65536 ->
  exists r, getMaxSpeedInMilliHz A q = Some r
    /\ 1000 * TICKS_PER_S A - 4 * q_max q < r * q_max q <= 1000 * TICKS_PER_S A.
Proof.
  intros HA Hq. unfold getMaxSpeedInMilliHz. rewrite HA.
  destruct (Z.eqb_spec (q_max q) 0); [lia|].
  change (u32 (250 * 16000000)) with 4000000000.
  assert (R : 0 <= 4000000000 / q_max q <= 1000000000).
  { split; [apply Z.div_pos; lia|]. apply Z.div_le_upper_bound; lia. }
  rewrite u32_id by lia. eexists. split; [reflexivity|].
  pose proof (Z.div_mod 4000000000 (q_max q) ltac:(lia)).
  pose proof (Z.mod_pos_bound 4000000000 (q_max q) ltac:(lia)). nia.
Qed.

(** Direction delay *)
Definition clamp (lo hi x : Z) : Z := Z.max lo (Z.min hi x).
Lemma dir_delay_lemma A ext pin hcu us s q p : In A all_archs -> is_u16 us ->
  let s' := fst (fst (setDirectionPin A ext pin hcu us s q p)) in
  s_dirdelay s' = (if us =? 0 then 0
                   else clamp (MIN_DIR_DELAY_US A) (MAX_DIR_DELAY_US A) us * TICKS_PER_US A)
  /\ s_dirpin s' = pin
  /\ (us <> 0 -> MIN_CMD_TICKS A <= s_dirdelay s' < 65536).
Proof.
  intros HA Hu. cbn [setDirectionPin fst s_dirdelay st_dir s_dirpin]. cbv zeta.
  unfold dir_delay_ticks.
  destruct (Z.eqb_spec us 0) as [|Hn]; cbn [negb].
  { split; [reflexivity|]. split; [reflexivity|]. lia. }
  assert (F : 1 < TICKS_PER_US A /\ 0 < MIN_DIR_DELAY_US A <= MAX_DIR_DELAY_US A
    /\ 0 <= MIN_CMD_TICKS A <= MIN_DIR_DELAY_US A * TICKS_PER_US A
    /\ MAX_DIR_DELAY_US A * TICKS_PER_US A < 65536).
  { clear - HA. revert A HA. apply arch_cases; cbn; lia. }
  set (w := if us >? MAX_DIR_DELAY_US A then MAX_DIR_DELAY_US A else us).
  assert (Hw : w = Z.min (MAX_DIR_DELAY_US A) us)
    by (unfold w; destruct (Z.gtb_spec us (MAX_DIR_DELAY_US A)); lia).
  clearbody w.
  set (v := if w <? MIN_DIR_DELAY_US A then MIN_DIR_DELAY_US A else w).
  assert (Hv : v = clamp (MIN_DIR_DELAY_US A) (MAX_DIR_DELAY_US A) us)
    by (unfold v, clamp; destruct (Z.ltb_spec w (MIN_DIR_DELAY_US A)); lia).
  clearbody v.
  assert (Hb : MIN_DIR_DELAY_US A <= v <= MAX_DIR_DELAY_US A) by (unfold clamp in Hv; lia).
  assert (MIN_CMD_TICKS A <= v * TICKS_PER_US A < 65536) by nia.
  rewrite u16_id by lia. subst v. repeat split; lia.
Qed.

(** Enable delay *)
Lemma enable_delay_lemma A us s : In A all_archs -> 0 <= us * TICKS_PER_US A < 4294967296 ->
  let t := us * TICKS_PER_US A in
  let r := setDelayToEnable A us s in
  (t = 0 \/ MIN_CMD_TICKS A <= t <= 65535 * (QUEUE_LEN A - 1) ->
     snd r = DELAY_OK /\ s_ondelay (fst r) = t)
  /\ (0 < t < MIN_CMD_TICKS A -> r = (s, DELAY_TOO_LOW))
  /\ (65535 * (QUEUE_LEN A - 1) < t -> r = (s, DELAY_TOO_HIGH)).
Proof.
  intros HA Hu t r. subst r. unfold setDelayToEnable, US_TO_TICKS, MAX_ON_DELAY_TICKS. fold t.
  assert (F : 0 < QUEUE_LEN A <= 32 /\ 0 < MIN_CMD_TICKS A < 65535 * (QUEUE_LEN A - 1)).
  { clear - HA. revert A HA. apply arch_cases; cbn; lia. }
  fold t in Hu. rewrite !u32_id by lia. clearbody t.
  destruct (Z.gtb_spec t 0), (Z.ltb_spec t (MIN_CMD_TICKS A)),
    (Z.gtb_spec t (65535 * (QUEUE_LEN A - 1))); cbn [andb fst snd st_ondelay s_ondelay];
    repeat split; intros; (reflexivity || lia).
Qed.
