(** * RampCalcFacts: the ramp formulas with constant acceleration *)
From Coq Require Import ZArith Bool List Lia Reals Lra.
From Verif Require Import Base Pmf PmfSweep PmfFacts PmfReal RampCalc.
Import ListNotations.
Open Scope Z_scope.
Ltac Zify.zify_post_hook ::= idtac.

(** constants are the same for both formulas *)
Lemma arch_consts A : In A all_archs ->
  PMF_ACCEL_FACTOR A = 2 * PMF_TICKS_PER_S_DIV_SQRT_OF_2 A /\
  11997 <= PMF_TICKS_PER_S_DIV_SQRT_OF_2 A <= 12198.
Proof. revert A. apply arch_cases; cbn; lia. Qed.

Lemma quot2 x : 0 <= x -> cdiv x 2 = x / 2 /\ 2 * (x / 2) <= x <= 2 * (x / 2) + 1.
Proof.
  intros H. unfold cdiv. rewrite Z.quot_div_nonneg by lia.
  pose proof (Z.div_mod x 2 ltac:(lia)). pose proof (Z.mod_pos_bound x 2 ltac:(lia)). lia.
Qed.

(** closed form of [calculate_ticks] without linear phase *)
Lemma calculate_ticks_const A c s :
  In A all_archs -> s_h (parameters c) = 0 ->
  0 <= pmfl_accel (parameters c) <= 15872 -> 1 <= s < 4294967296 ->
  calculate_ticks A c s =
  pmfl_to_u32 (PMF_TICKS_PER_S_DIV_SQRT_OF_2 A -
               (pmfl_from_u32 s + pmfl_accel (parameters c)) / 2).
Proof.
  intros HA Hs Ha H. unfold calculate_ticks. rewrite Hs.
  destruct (Z.geb_spec s 0); [|lia].
  change (Z.shiftr (u32 (0 + 2)) 2) with 0. rewrite Z.sub_0_r, u32_id by lia.
  destruct (arch_consts A HA) as [_ K].
  pose proof (from_u32_range s ltac:(lia)) as R.
  unfold pmfl_multiply, pmfl_divide, pmfl_sqrt.
  rewrite (i16_id (_ + _)) by lia.
  destruct (quot2 (pmfl_from_u32 s + pmfl_accel (parameters c)) ltac:(lia)) as [E B].
  rewrite E. rewrite (i16_id (_ / 2)) by lia. rewrite i16_id by lia. reflexivity.
Qed.

Lemma calculate_ramp_steps_const A c t :
  In A all_archs -> s_h (parameters c) = 0 -> pmfl_ticks_h c = PMF_CONST_MAX ->
  0 <= pmfl_accel (parameters c) <= 15872 -> 1 <= t < 4294967296 ->
  calculate_ramp_steps A c t =
  pmfl_to_u32 (PMF_ACCEL_FACTOR A - pmfl_accel (parameters c) - 2 * pmfl_from_u32 t).
Proof.
  intros HA Hs Hh Ha H. unfold calculate_ramp_steps. rewrite Hs, Hh.
  pose proof (from_u32_range t ltac:(lia)) as R.
  unfold PMF_CONST_MAX.
  destruct (Z.leb_spec (pmfl_from_u32 t) 32767); [|lia].
  change (Z.shiftr (u32 (0 + 2)) 2) with 0. rewrite Z.add_0_r.
  rewrite u32_id by apply to_u32_range.
  destruct (arch_consts A HA) as [F K].
  unfold pmfl_divide. rewrite (i16_id (PMF_ACCEL_FACTOR A - _)) by lia.
  unfold pmfl_square.
  destruct (Z.gtb_spec (pmfl_from_u32 t) 16384); [lia|].
  destruct (Z.leb_spec (pmfl_from_u32 t) (-16384)); [lia|].
  destruct (Z.eq_dec (pmfl_from_u32 t) 16384) as [E|N].
  - rewrite E. change (i16 (16384 + 16384)) with (-32768).
    assert (I : i16 (PMF_ACCEL_FACTOR A - pmfl_accel (parameters c) - -32768)
                = PMF_ACCEL_FACTOR A - pmfl_accel (parameters c) - 32768).
    { unfold i16.
      replace (PMF_ACCEL_FACTOR A - pmfl_accel (parameters c) - -32768 + 32768)
        with (PMF_ACCEL_FACTOR A - pmfl_accel (parameters c) + 1 * 65536) by lia.
      rewrite Z.mod_add, Z.mod_small by lia. lia. }
    rewrite I. f_equal; lia.
  - rewrite (i16_id (pmfl_from_u32 t + pmfl_from_u32 t)) by lia.
    rewrite i16_id by lia. f_equal; lia.
Qed.

(** monotonicity *)
Lemma calculate_ticks_mono A c s s' :
  In A all_archs -> s_h (parameters c) = 0 ->
  0 <= pmfl_accel (parameters c) <= 15872 -> 1 <= s -> s <= s' -> s' < 4294967296 ->
  calculate_ticks A c s' <= calculate_ticks A c s.
Proof.
  intros HA Hs Ha H1 H2 H3. rewrite !calculate_ticks_const by (auto; lia).
  apply to_u32_mono. pose proof (from_u32_mono s s' ltac:(lia) H2 H3).
  assert ((pmfl_from_u32 s + pmfl_accel (parameters c)) / 2 <=
          (pmfl_from_u32 s' + pmfl_accel (parameters c)) / 2)
    by (apply Z.div_le_mono; lia). lia.
Qed.
Lemma calculate_ticks_mono_accel A c c' s :
  In A all_archs -> s_h (parameters c) = 0 -> s_h (parameters c') = 0 ->
  0 <= pmfl_accel (parameters c) -> pmfl_accel (parameters c) <= pmfl_accel (parameters c') ->
  pmfl_accel (parameters c') <= 15872 -> 1 <= s < 4294967296 ->
  calculate_ticks A c' s <= calculate_ticks A c s.
Proof.
  intros HA Hs Hs' Ha H1 H2 H3. rewrite !calculate_ticks_const by (auto; lia).
  apply to_u32_mono.
  assert ((pmfl_from_u32 s + pmfl_accel (parameters c)) / 2 <=
          (pmfl_from_u32 s + pmfl_accel (parameters c')) / 2)
    by (apply Z.div_le_mono; lia). lia.
Qed.
Lemma calculate_ramp_steps_mono A c t t' :
  In A all_archs -> s_h (parameters c) = 0 -> pmfl_ticks_h c = PMF_CONST_MAX ->
  0 <= pmfl_accel (parameters c) <= 15872 -> 1 <= t -> t <= t' -> t' < 4294967296 ->
  calculate_ramp_steps A c t' <= calculate_ramp_steps A c t.
Proof.
  intros HA Hs Hh Ha H1 H2 H3. rewrite !calculate_ramp_steps_const by (auto; lia).
  apply to_u32_mono. pose proof (from_u32_mono t t' ltac:(lia) H2 H3). lia.
Qed.

(** upper bound of the log of every accepted acceleration *)
Lemma accel_log_range a : 1 <= a < 2147483648 -> 0 <= pmfl_from_u32 a <= 15872.
Proof.
  intros H. pose proof (from_u32_bound a 2147483647 ltac:(lia) ltac:(lia)) as B.
  change (pmfl_from_u32 2147483647) with 15872 in B. lia.
Qed.

(** ** Accuracy over the reals *)
Open Scope R_scope.

Lemma factor_accurate A : In A all_archs ->
  - (1 / 4) <= IZR (PMF_ACCEL_FACTOR A) -
               512 * log2R (IZR (TICKS_PER_S A) * IZR (TICKS_PER_S A) / 2) <= 1 / 2.
Proof.
  intros HA.
  set (F := PMF_ACCEL_FACTOR A). set (T := TICKS_PER_S A).
  assert (E : pow_le (4 * F - 2) (T * T) 2 = true /\ pow_ge (4 * F + 1) (T * T) 2 = true
              /\ (0 < T)%Z).
  { subst F T. revert A HA. apply arch_cases; vm_compute; auto. }
  destruct E as (E1 & E2 & PT).
  apply pow_le_ok in E1; [|lia]. apply pow_ge_ok in E2; [|lia].
  rewrite (mult_IZR T T) in E1, E2.
  assert (0 < IZR T) by (apply IZR_lt; assumption).
  assert (0 < IZR T * IZR T / 2).
  { apply Rmult_lt_0_compat; [apply Rmult_lt_0_compat; assumption|lra]. }
  assert (L : IZR (4 * F - 2) <= 2048 * log2R (IZR T * IZR T / 2)) by (apply le_log; lra).
  assert (U : 2048 * log2R (IZR T * IZR T / 2) <= IZR (4 * F + 1)) by (apply log_le; lra).
  rewrite minus_IZR, mult_IZR in L. rewrite plus_IZR, mult_IZR in U. lra.
Qed.

(** 2^(x/512) for bounded exponents *)
Lemma p2_Rpower x : Rpower 2 (x / 512) = p2 (4 * x).
Proof. unfold p2. f_equal. field. Qed.

(** general composition: if [res] approximates 512*log2(t) within [-lo, hi] then
    the integer is close to t *)
Lemma to_u32_approx res t lo hi elo ehi :
  (res < 16384)%Z -> 0 < t ->
  - lo <= IZR res - 512 * log2R t <= hi ->
  1 - elo <= p2 (- (4 * lo)) -> p2 (4 * hi) <= 1 + ehi ->
  0 <= elo -> 0 <= ehi -> ehi <= 1 ->
  (1 - elo) * t - (1 + 2 * t / 1000) <= IZR (pmfl_to_u32 res) <= (1 + ehi) * t + (1 + 2 * t / 1000).
Proof.
  intros Hr Ht [L U] Hlo Hhi P1 P2 P3.
  pose proof (to_u32_accurate' res Hr) as Q. rewrite p2_Rpower in Q.
  assert (E : p2 (4 * IZR res) = t * p2 (4 * (IZR res - 512 * log2R t))).
  { rewrite <- (p2_log t Ht) at 1. rewrite <- p2_add. f_equal. ring. }
  set (e := IZR res - 512 * log2R t) in *.
  assert (B1 : p2 (- (4 * lo)) <= p2 (4 * e)) by (apply p2_mono; lra).
  assert (B2 : p2 (4 * e) <= p2 (4 * hi)) by (apply p2_mono; lra).
  assert (Y1 : (1 - elo) * t <= p2 (4 * IZR res)).
  { rewrite E, Rmult_comm. apply Rmult_le_compat_l; lra. }
  assert (Y2 : p2 (4 * IZR res) <= (1 + ehi) * t).
  { rewrite E, (Rmult_comm _ t). apply Rmult_le_compat_l; lra. }
  set (y := p2 (4 * IZR res)) in *.
  assert (Hehi : ehi * t <= 1 * t) by (apply Rmult_le_compat_r; lra).
  assert (M : Rmax 1 (y / 1000) <= 1 + 2 * t / 1000).
  { apply Rmax_lub; lra. }
  set (m := Rmax 1 (y / 1000)) in *. clearbody m.
  assert (Q1 := Rle_abs (IZR (pmfl_to_u32 res) - y)).
  assert (Q2 := Rle_abs (- (IZR (pmfl_to_u32 res) - y))). rewrite Rabs_Ropp in Q2. lra.
Qed.

Lemma log2R_div x y : 0 < x -> 0 < y -> log2R (x / y) = log2R x - log2R y.
Proof.
  intros. unfold log2R, Rdiv. rewrite ln_mult; [|assumption|apply Rinv_0_lt_compat; assumption].
  rewrite ln_Rinv by assumption. pose proof ln2_pos. field. lra.
Qed.
Lemma log2R_sqrt x : 0 < x -> log2R (sqrt x) = log2R x / 2.
Proof.
  intros H. assert (S : sqrt x * sqrt x = x) by (apply sqrt_sqrt; lra).
  assert (0 < sqrt x) by (apply sqrt_lt_R0; assumption).
  rewrite <- S at 2. rewrite log2R_mult by assumption. lra.
Qed.

Theorem calculate_ticks_accurate A c a s :
  In A all_archs -> s_h (parameters c) = 0%Z ->
  pmfl_accel (parameters c) = pmfl_from_u32 a ->
  (1 <= a < 2147483648)%Z -> (1 <= s < 4294967296)%Z ->
  Rabs (IZR (calculate_ticks A c s) - IZR (TICKS_PER_S A) / sqrt (2 * IZR a * IZR s))
  <= IZR (TICKS_PER_S A) / sqrt (2 * IZR a * IZR s) / 150 + 1.
Proof.
  intros HA Hs Ha HaR HsR.
  pose proof (accel_log_range a HaR) as La.
  rewrite calculate_ticks_const by (auto; rewrite ?Ha; lia). rewrite Ha.
  destruct (arch_consts A HA) as [F K].
  pose proof (factor_accurate A HA) as FA.
  pose proof (from_u32_accurate a ltac:(lia)) as Aa.
  pose proof (from_u32_accurate s ltac:(lia)) as As.
  pose proof (from_u32_range s ltac:(lia)) as Ls.
  destruct (quot2 (pmfl_from_u32 s + pmfl_from_u32 a) ltac:(lia)) as [_ [D1 D2]].
  set (q := ((pmfl_from_u32 s + pmfl_from_u32 a) / 2)%Z) in *.
  set (K0 := PMF_TICKS_PER_S_DIV_SQRT_OF_2 A) in *.
  rewrite F in FA. rewrite mult_IZR in FA.
  apply IZR_le in D1, D2. rewrite mult_IZR, plus_IZR in D1.
  rewrite !plus_IZR, mult_IZR in D2.
  assert (PT : (0 < TICKS_PER_S A)%Z) by (clear - HA;
    revert A HA; apply arch_cases; reflexivity).
  apply IZR_lt in PT.
  assert (Pa : 0 < IZR a) by (apply IZR_lt; lia).
  assert (Ps : 0 < IZR s) by (apply IZR_lt; lia).
  set (T := IZR (TICKS_PER_S A)) in *.
  set (z := 2 * IZR a * IZR s).
  assert (Pz : 0 < z).
  { unfold z. apply Rmult_lt_0_compat; [|assumption]. apply Rmult_lt_0_compat; lra. }
  assert (Psq : 0 < sqrt z) by (apply sqrt_lt_R0; assumption).
  set (t := T / sqrt z).
  assert (Pt : 0 < t) by (unfold t; apply Rdiv_lt_0_compat; assumption).
  assert (Lt : log2R t = (log2R (T * T / 2) - log2R (IZR a) - log2R (IZR s)) / 2).
  { unfold t. rewrite log2R_div, log2R_sqrt by assumption.
    rewrite log2R_div by (try apply Rmult_lt_0_compat; lra).
    rewrite log2R_mult by assumption.
    unfold z. rewrite !log2R_mult by (try apply Rmult_lt_0_compat; lra). lra. }
  assert (H1 : 1 - 2 / 1000 <= p2 (- (4 * (7 / 8)))).
  { assert (X : pow_ge (-4) 998 1000 = true) by (vm_compute; reflexivity).
    apply pow_ge_ok in X; [|discriminate].
    assert (p2 (IZR (-4)) <= p2 (- (4 * (7 / 8)))) by (apply p2_mono; lra). lra. }
  assert (H2 : p2 (4 * (9 / 4)) <= 1 + 4 / 1000).
  { assert (X : pow_le 9 1004 1000 = true) by (vm_compute; reflexivity).
    apply pow_le_ok in X; [|discriminate]. replace (4 * (9 / 4)) with (IZR 9) by lra. lra. }
  pose proof (to_u32_approx (K0 - q) t (7 / 8) (9 / 4) (2 / 1000) (4 / 1000)) as G.
  assert (Q1 : (K0 - q < 16384)%Z).
  { assert (0 <= q)%Z by (apply Z.div_pos; lia). lia. }
  assert (Q2 : - (7 / 8) <= IZR (K0 - q) - 512 * log2R t <= 9 / 4).
  { rewrite minus_IZR, Lt. lra. }
  specialize (G Q1 Pt Q2 H1 H2 ltac:(lra) ltac:(lra) ltac:(lra)).
  apply Rabs_le. lra.
Qed.

Theorem calculate_ramp_steps_accurate A c a t :
  In A all_archs -> s_h (parameters c) = 0%Z -> pmfl_ticks_h c = PMF_CONST_MAX ->
  pmfl_accel (parameters c) = pmfl_from_u32 a ->
  (1 <= a < 2147483648)%Z -> (1 <= t < 4294967296)%Z ->
  let s := IZR (TICKS_PER_S A) * IZR (TICKS_PER_S A) / (2 * IZR a * (IZR t * IZR t)) in
  s <= 4260000000 ->
  Rabs (IZR (calculate_ramp_steps A c t) - s) <= s / 100 + 1.
Proof.
  intros HA Hs Hh Ha HaR HtR s Hmax.
  pose proof (accel_log_range a HaR) as La.
  rewrite calculate_ramp_steps_const by (auto; rewrite ?Ha; lia). rewrite Ha.
  destruct (arch_consts A HA) as [F K].
  pose proof (factor_accurate A HA) as FA.
  pose proof (from_u32_accurate a ltac:(lia)) as Aa.
  pose proof (from_u32_accurate t ltac:(lia)) as At.
  assert (PT : (0 < TICKS_PER_S A)%Z) by (clear - HA;
    revert A HA; apply arch_cases; reflexivity).
  apply IZR_lt in PT.
  assert (Pa : 0 < IZR a) by (apply IZR_lt; lia).
  assert (Pt : 0 < IZR t) by (apply IZR_lt; lia).
  set (T := IZR (TICKS_PER_S A)) in *.
  assert (Ptt : 0 < IZR t * IZR t) by (apply Rmult_lt_0_compat; assumption).
  assert (Pz : 0 < 2 * IZR a * (IZR t * IZR t)).
  { apply Rmult_lt_0_compat; [|assumption]. apply Rmult_lt_0_compat; lra. }
  assert (PTT : 0 < T * T) by (apply Rmult_lt_0_compat; assumption).
  assert (Ps : 0 < s) by (unfold s; apply Rdiv_lt_0_compat; assumption).
  assert (Ls : log2R s = log2R (T * T / 2) - log2R (IZR a) - 2 * log2R (IZR t)).
  { unfold s. rewrite log2R_div by assumption.
    rewrite log2R_div by lra.
    rewrite !log2R_mult by (try apply Rmult_lt_0_compat; lra). lra. }
  set (res := (PMF_ACCEL_FACTOR A - pmfl_from_u32 a - 2 * pmfl_from_u32 t)%Z).
  assert (Q2 : - (5 / 2) <= IZR res - 512 * log2R s <= 5).
  { unfold res. rewrite !minus_IZR, mult_IZR, Ls. lra. }
  assert (Q1 : (res < 16384)%Z).
  { assert (X : pow_le 65515 4260000000 1 = true \/ pow_ge 65515 4260000000 1 = true)
      by (vm_compute; auto).
    assert (2048 * log2R s <= 65515).
    { apply log_le; [assumption|]. apply Rle_trans with 4260000000; [assumption|].
      assert (Y : pow_ge 65515 4260000000 1 = true) by (vm_compute; reflexivity).
      apply pow_ge_ok in Y; [|lia]. lra. }
    apply lt_IZR. lra. }
  assert (H1 : 1 - 4 / 1000 <= p2 (- (4 * (5 / 2)))).
  { assert (X : pow_ge (-10) 996 1000 = true) by (vm_compute; reflexivity).
    apply pow_ge_ok in X; [|discriminate]. replace (- (4 * (5 / 2))) with (IZR (-10)) by lra. lra. }
  assert (H2 : p2 (4 * 5) <= 1 + 7 / 1000).
  { assert (X : pow_le 20 1007 1000 = true) by (vm_compute; reflexivity).
    apply pow_le_ok in X; [|discriminate]. replace (4 * 5) with (IZR 20) by lra. lra. }
  pose proof (to_u32_approx res s (5 / 2) 5 (4 / 1000) (7 / 1000) Q1 Ps Q2 H1 H2
    ltac:(lra) ltac:(lra) ltac:(lra)) as G.
  apply Rabs_le. lra.
Qed.

(** ** Statements used by the property file *)
Open Scope Z_scope.
Lemma setAcceleration_log a p : 1 <= a < 2147483648 ->
  pmfl_accel (p_setAcceleration a p) = pmfl_from_u32 a.
Proof.
  intros H. unfold p_setAcceleration. rewrite u32_id by lia.
  destruct (negb (valid_acceleration p) || negb (pmfl_accel p =? pmfl_from_u32 a)) eqn:E.
  - reflexivity.
  - apply orb_false_iff in E. destruct E as [_ E]. apply negb_false_iff, Z.eqb_eq in E.
    exact E.
Qed.
Lemma setAcceleration_s_h a p : s_h (p_setAcceleration a p) = s_h p.
Proof. unfold p_setAcceleration. destruct (_ || _); reflexivity. Qed.
Lemma update_parameters A c : parameters (update A c) = parameters c.
Proof. unfold update. destruct (s_h (parameters c) >? 0); reflexivity. Qed.
Lemma update_ticks_h A c : s_h (parameters c) = 0 -> pmfl_ticks_h (update A c) = PMF_CONST_MAX.
Proof.
  intros H. unfold update. rewrite H. reflexivity.
Qed.

(** the configuration used for constant acceleration [a] *)
Definition const_accel (A : arch) (a : Z) (c : config) : config :=
  update A (set_parameters (p_setAcceleration a (parameters c)) c).

Lemma const_accel_facts A a c : s_h (parameters c) = 0 -> 1 <= a < 2147483648 ->
  s_h (parameters (const_accel A a c)) = 0 /\
  pmfl_ticks_h (const_accel A a c) = PMF_CONST_MAX /\
  pmfl_accel (parameters (const_accel A a c)) = pmfl_from_u32 a.
Proof.
  intros Hs Ha. unfold const_accel. rewrite update_parameters. cbn [set_parameters parameters].
  rewrite setAcceleration_s_h, setAcceleration_log by assumption.
  split; [assumption|]. split; [|reflexivity].
  apply update_ticks_h. cbn [set_parameters parameters]. rewrite setAcceleration_s_h. assumption.
Qed.

Lemma log_below_max t : 1 <= t < 4292870144 -> pmfl_from_u32 t <= 16383.
Proof.
  intros H. pose proof (from_u32_mono t 4292870143 ltac:(lia) ltac:(lia) ltac:(lia)) as M.
  change (pmfl_from_u32 4292870143) with 16383 in M. exact M.
Qed.

Lemma C05_period_no_wrap_lemma A a c s :
  In A all_archs -> s_h (parameters c) = 0 -> 1 <= a < 2 ^ 31 -> 1 <= s < 2 ^ 32 ->
  calculate_ticks A (const_accel A a c) s =
  pmfl_to_u32 (PMF_TICKS_PER_S_DIV_SQRT_OF_2 A - (pmfl_from_u32 s + pmfl_from_u32 a) / 2).
Proof.
  intros HA Hs Ha H. destruct (const_accel_facts A a c Hs Ha) as (E1 & _ & E3).
  rewrite calculate_ticks_const; auto; rewrite E3; [reflexivity|].
  apply accel_log_range. assumption.
Qed.
Lemma C05_steps_no_wrap_lemma A a c t :
  In A all_archs -> s_h (parameters c) = 0 -> 1 <= a < 2 ^ 31 -> 1 <= t < 2 ^ 32 ->
  calculate_ramp_steps A (const_accel A a c) t =
  pmfl_to_u32 (PMF_ACCEL_FACTOR A - pmfl_from_u32 a - 2 * pmfl_from_u32 t).
Proof.
  intros HA Hs Ha H. destruct (const_accel_facts A a c Hs Ha) as (E1 & E2 & E3).
  rewrite calculate_ramp_steps_const; auto; rewrite E3; [reflexivity|].
  apply accel_log_range. assumption.
Qed.
Lemma C05_intermediate_lemma A a s t :
  In A all_archs -> 1 <= a < 2 ^ 31 -> 1 <= s < 2 ^ 32 -> 1 <= t < 4292870144 ->
  is_i16 (pmfl_from_u32 s + pmfl_from_u32 a) /\
  is_i16 (PMF_TICKS_PER_S_DIV_SQRT_OF_2 A - (pmfl_from_u32 s + pmfl_from_u32 a) / 2) /\
  is_i16 (PMF_ACCEL_FACTOR A - pmfl_from_u32 a) /\
  is_i16 (pmfl_from_u32 t + pmfl_from_u32 t) /\
  is_i16 (PMF_ACCEL_FACTOR A - pmfl_from_u32 a - 2 * pmfl_from_u32 t).
Proof.
  intros HA Ha Hs Ht. unfold is_i16.
  pose proof (accel_log_range a Ha). pose proof (from_u32_range s Hs).
  pose proof (log_below_max t Ht). pose proof (from_u32_range t ltac:(lia)).
  destruct (arch_consts A HA) as [F K].
  destruct (quot2 (pmfl_from_u32 s + pmfl_from_u32 a) ltac:(lia)) as [_ B]. lia.
Qed.
Lemma C05_refuted_lemma : exists t, 1 <= t < 2 ^ 32 /\
  ~ is_i16 (pmfl_from_u32 t + pmfl_from_u32 t).
Proof.
  exists 4294967295. split; [split; reflexivity || discriminate|].
  change (pmfl_from_u32 4294967295) with 16384. unfold is_i16. lia.
Qed.
Lemma C06_period_accurate_lemma A a c s :
  In A all_archs -> s_h (parameters c) = 0 -> 1 <= a < 2 ^ 31 -> 1 <= s < 2 ^ 32 ->
  let ideal := (IZR (TICKS_PER_S A) / sqrt (2 * IZR a * IZR s))%R in
  (Rabs (IZR (calculate_ticks A (const_accel A a c) s) - ideal) <= ideal / 150 + 1)%R.
Proof.
  intros HA Hs Ha H. destruct (const_accel_facts A a c Hs Ha) as (E1 & _ & E3).
  apply calculate_ticks_accurate; auto.
Qed.
Lemma C06_mono_lemma A a c s s' :
  In A all_archs -> s_h (parameters c) = 0 -> 1 <= a < 2 ^ 31 ->
  1 <= s -> s <= s' -> s' < 2 ^ 32 ->
  calculate_ticks A (const_accel A a c) s' <= calculate_ticks A (const_accel A a c) s.
Proof.
  intros HA Hs Ha H1 H2 H3. destruct (const_accel_facts A a c Hs Ha) as (E1 & _ & E3).
  apply calculate_ticks_mono; auto. rewrite E3. apply accel_log_range. assumption.
Qed.
Lemma C06_mono_accel_lemma A a a' c s :
  In A all_archs -> s_h (parameters c) = 0 ->
  1 <= a -> a <= a' -> a' < 2 ^ 31 -> 1 <= s < 2 ^ 32 ->
  calculate_ticks A (const_accel A a' c) s <= calculate_ticks A (const_accel A a c) s.
Proof.
  intros HA Hs H1 H2 H3 H4. change (2 ^ 31) with 2147483648 in H3.
  destruct (const_accel_facts A a c Hs ltac:(lia)) as (E1 & _ & E3).
  destruct (const_accel_facts A a' c Hs ltac:(lia)) as (F1 & _ & F3).
  apply calculate_ticks_mono_accel; auto; rewrite ?E3, ?F3.
  - apply from_u32_range. lia.
  - apply from_u32_mono; lia.
  - apply accel_log_range. lia.
Qed.
Lemma C07_steps_accurate_lemma A a c t :
  In A all_archs -> s_h (parameters c) = 0 -> 1 <= a < 2 ^ 31 -> 1 <= t < 2 ^ 32 ->
  let ideal := (IZR (TICKS_PER_S A) * IZR (TICKS_PER_S A) / (2 * IZR a * (IZR t * IZR t)))%R in
  (ideal <= 4260000000)%R ->
  (Rabs (IZR (calculate_ramp_steps A (const_accel A a c) t) - ideal) <= ideal / 100 + 1)%R.
Proof.
  intros HA Hs Ha H. destruct (const_accel_facts A a c Hs Ha) as (E1 & E2 & E3).
  apply calculate_ramp_steps_accurate; auto.
Qed.
Lemma C07_mono_lemma A a c t t' :
  In A all_archs -> s_h (parameters c) = 0 -> 1 <= a < 2 ^ 31 ->
  1 <= t -> t <= t' -> t' < 2 ^ 32 ->
  calculate_ramp_steps A (const_accel A a c) t' <= calculate_ramp_steps A (const_accel A a c) t.
Proof.
  intros HA Hs Ha H1 H2 H3. destruct (const_accel_facts A a c Hs Ha) as (E1 & E2 & E3).
  apply calculate_ramp_steps_mono; auto. rewrite E3. apply accel_log_range. assumption.
Qed.
