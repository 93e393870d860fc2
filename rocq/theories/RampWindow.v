(** * RampWindow: how long several commands in a row take

    A command of the ramp generator is planned for 2 ms, but there are shorter ones: while the
    motor accelerates, where the ramp changes its state, and at its end. This file bounds the
    number of short commands. *)
From Coq Require Import ZArith Bool List Lia ZifyBool.
From Verif Require Import Base Pmf PmfFacts RampCalc RampCalcFacts RampLinear RampGen RampStep RampRun RampMove RampSafe RampPlan RampUser.
Import ListNotations.
Open Scope Z_scope.
Ltac Zify.zify_post_hook ::= idtac.
Local Ltac splits := repeat match goal with |- _ /\ _ => split end.

(** ** The weight of a period *)
(** 64 * 16000 / i, rounded up *)
Definition wt (i : Z) : Z := (1024000 + i - 1) / i.
Fixpoint hs (n : nat) : Z := match n with O => 0 | S k => hs k + wt (640 + Z.of_nat (S k)) end.
(** the sum of [wt i] for [i] up to [c] *)
Definition hc (c : Z) : Z := hs (Z.to_nat (Z.min c 16000 - 640)).

Lemma wt_le i : 1 <= i -> 1024000 <= wt i * i.
Proof.
  intros H. unfold wt. pose proof (Z.mul_succ_div_gt (1024000 + i - 1) i ltac:(lia)). lia.
Qed.
Lemma wt_least i k : 1 <= i -> 1024000 <= k * i -> wt i <= k.
Proof. intros H K. unfold wt. apply Z.lt_succ_r. apply Z.div_lt_upper_bound; nia. Qed.
Lemma wt_mono i j : 1 <= i <= j -> wt j <= wt i.
Proof. intros H. apply wt_least; [lia|]. pose proof (wt_le i ltac:(lia)). assert (0 <= wt i) by nia. nia. Qed.
Lemma wt_pos i : 1 <= i -> 0 <= wt i.
Proof. intros H. pose proof (wt_le i H). nia. Qed.
Lemma hs_step : forall k n, (Z.of_nat k) * wt (640 + Z.of_nat (n + k)) <= hs (n + k) - hs n <= Z.of_nat k * wt (640 + Z.of_nat n).
Proof.
  induction k as [|k IH]; intros n.
  - rewrite Nat.add_0_r. lia.
  - specialize (IH n). replace (n + S k)%nat with (S (n + k)) by lia. cbn [hs].
    set (a := wt (640 + Z.of_nat (S (n + k)))). set (b := wt (640 + Z.of_nat n)) in *. set (m := wt (640 + Z.of_nat (n + k))) in *.
    assert (a <= m) by (apply wt_mono; lia). assert (a <= b) by (apply wt_mono; lia).
    assert (Z.of_nat k * a <= Z.of_nat k * m) by (apply Z.mul_le_mono_nonneg_l; lia). lia.
Qed.
Lemma hc_between a b : 640 <= a <= b -> b <= 16000 -> (b - a) * wt b <= hc b - hc a <= (b - a) * wt a.
Proof.
  intros H1 H2. unfold hc. rewrite !Z.min_l by lia.
  pose proof (hs_step (Z.to_nat (b - a)) (Z.to_nat (a - 640))) as K.
  replace (Z.to_nat (a - 640) + Z.to_nat (b - a))%nat with (Z.to_nat (b - 640)) in K by lia.
  rewrite !Z2Nat.id in K by lia. replace (640 + (b - 640)) with b in K by lia. replace (640 + (a - 640)) with a in K by lia. exact K.
Qed.
Lemma hs_nonneg n : 0 <= hs n.
Proof. induction n as [|n IH]; cbn [hs]; [lia|]. pose proof (wt_pos (640 + Z.of_nat (S n)) ltac:(lia)). lia. Qed.
Lemma hc_mono a b : a <= b -> hc a <= hc b.
Proof.
  intros H. unfold hc. set (n := Z.to_nat (Z.min a 16000 - 640)). set (m := Z.to_nat (Z.min b 16000 - 640)).
  assert (N : (n <= m)%nat) by (unfold n, m; lia).
  pose proof (hs_step (m - n) n) as K. replace (n + (m - n))%nat with m in K by lia.
  pose proof (wt_pos (640 + Z.of_nat m) ltac:(lia)). assert (0 <= Z.of_nat (m - n) * wt (640 + Z.of_nat m)) by (apply Z.mul_nonneg_nonneg; lia). lia.
Qed.
(** an upper bound of the sum from [a] to 16000, in pieces *)
Fixpoint pieces (n : nat) (a : Z) : Z :=
  match n with
  | O => (16000 - a) * wt a
  | S k => let b := Z.min 16000 (a + Z.max 1 (a / 200)) in (b - a) * wt a + pieces k b
  end.
Lemma hc_pieces : forall n a, 640 <= a <= 16000 -> hc 16000 - hc a <= pieces n a.
Proof.
  induction n as [|n IH]; intros a Ha; cbn [pieces].
  - apply (hc_between a 16000); lia.
  - pose proof (Z.div_pos a 200 ltac:(lia) ltac:(lia)). set (b := Z.min 16000 (a + Z.max 1 (a / 200))).
    assert (a <= b <= 16000) by lia. pose proof (hc_between a b ltac:(lia) ltac:(lia)). specialize (IH b ltac:(lia)). lia.
Qed.
Lemma hc_16000 : hc 16000 <= 3312000.
Proof.
  assert (H : pieces 700 640 <=? 3312000 = true) by (vm_compute; reflexivity). apply Z.leb_le in H.
  pose proof (hc_pieces 700 640 ltac:(lia)). change (hc 640) with 0 in *. lia.
Qed.
Lemma hc_cap c : hc (Z.min c 16000) = hc c.
Proof. unfold hc. do 2 f_equal. lia. Qed.
Lemma hc_range c : 0 <= hc c <= 3312000.
Proof.
  split; [apply hs_nonneg|]. pose proof hc_16000. rewrite <- hc_cap.
  pose proof (hc_mono (Z.min c 16000) 16000 ltac:(lia)). lia.
Qed.
Global Opaque hc.
(** a command with as many steps as planned pays for itself and for the change of the period *)
Lemma hc_pay C N o steps : 640 <= C -> 640 <= N -> 1 <= o <= steps -> 16000 <= o * Z.min C 16000 ->
  1024000 + hc N - hc C <= 64 * (steps * N).
Proof.
  intros HC HN Ho Hp. rewrite <- (hc_cap N), <- (hc_cap C).
  set (C0 := Z.min C 16000) in *. set (N0 := Z.min N 16000).
  assert (B1 : 640 <= C0 <= 16000) by lia. assert (B2 : 640 <= N0 <= 16000 /\ N0 <= N) by lia.
  assert (W : wt C0 <= 64 * o) by (apply wt_least; [lia|]; nia).
  pose proof (wt_le C0 ltac:(lia)) as W1. pose proof (wt_pos C0 ltac:(lia)) as W2.
  assert (K : hc N0 - hc C0 <= (N0 - C0) * wt C0).
  { destruct (Z.le_ge_cases C0 N0) as [L|L].
    - apply (hc_between C0 N0); lia.
    - pose proof (hc_between N0 C0 ltac:(lia) ltac:(lia)). lia. }
  assert (F : wt C0 * N0 <= 64 * (steps * N)).
  { apply Z.le_trans with (64 * o * N0); [apply Z.mul_le_mono_nonneg_r; lia|]. nia. }
  lia.
Qed.

(** ** One command *)
(** number of short commands to come, without the last one of the ramp, if there are [x] more
    steps than those of the deceleration *)
Definition bonus (x : Z) : Z := if x >=? 2 then 2 else if x >=? 1 then 1 else 0.
Lemma bonus_mono x y : x <= y -> bonus x <= bonus y.
Proof. intros H. unfold bonus. destruct (Z.geb_spec x 2), (Z.geb_spec y 2), (Z.geb_spec x 1), (Z.geb_spec y 1); lia. Qed.
Lemma bonus_range x : 0 <= bonus x <= 2.
Proof. unfold bonus. destruct (_ >=? 2); [lia|]. destruct (_ >=? 1); lia. Qed.

Section WithArch.
Variable A : arch.
Hypothesis HA : In A all_archs.

Lemma choose_pay M C P R o : 0 <= P <= R -> MIN_CMD_TICKS A <= M <= C -> M < 4294967295 ->
  1 <= o <= 255 -> exists s pl, gnc_choose A M C P R true o = (s, R, pl) /\
    (s = ACC /\ P < R /\ pl = o /\ (R - P < 2 * o -> C < 2 * MIN_CMD_TICKS A /\ o <= R - P \/ C = TICKS_FOR_STOPPED_MOTOR) \/
     s = COAST /\ P < R /\ C <> TICKS_FOR_STOPPED_MOTOR /\ (pl = o /\ o <= R - P \/ pl = R - P /\ R - P < 2 * o) \/
     s = DEC /\ pl = o /\ R - P < o /\ (P < R -> M < C < 2 * MIN_CMD_TICKS A)).
Proof.
  intros HP HM HM2 Ho. unfold gnc_choose. cbn [negb]. pose proof (min_cmd_bounds A HA) as HN.
  unfold TICKS_FOR_STOPPED_MOTOR.
  destruct (Z.eqb_spec R P).
  { eexists _, _. split; [reflexivity|]. right. right. repeat split; lia. }
  destruct (Z.ltb_spec R P); [lia|].
  destruct (Z.ltb_spec M C) as [L1|L1].
  - destruct (Z.ltb_spec C (2 * MIN_CMD_TICKS A)) as [L2|L2].
    + destruct (Z.gtb_spec o (R - P)).
      * eexists _, _. split; [reflexivity|]. right. right. repeat split; lia.
      * destruct ((Z.shiftr (R - P) 2 >? 0) && _); eexists _, _; (split; [reflexivity|]); [right; left|left]; repeat split; lia.
    + destruct (Z.ltb_spec (R - P) (2 * o)).
      * destruct (Z.eqb_spec C 4294967295); cbn [negb].
        -- eexists _, _. split; [reflexivity|]. left. repeat split; lia.
        -- rewrite u16_id by lia. eexists _, _. split; [reflexivity|]. right. left. repeat split; lia.
      * eexists _, _. split; [reflexivity|]. left. repeat split; lia.
  - destruct (Z.gtb_spec M C); [lia|].
    destruct (Z.ltb_spec (R - P) (2 * o)).
    + rewrite u16_id by lia. destruct (Z.ltb_spec C (MIN_CMD_TICKS A)); [lia|]. cbn [andb].
      eexists _, _. split; [reflexivity|]. right. left. repeat split; lia.
    + eexists _, _. split; [reflexivity|]. right. left. repeat split; lia.
Qed.

(** at high speed the period does not fall apart within one command *)
Definition flat (c : config) : Prop := min_travel_ticks (parameters c) < 2 * MIN_CMD_TICKS A ->
  2 <= max_ramp_up_steps c -> forall rs, 1 <= rs < 2147483648 -> max_ramp_up_steps c <= rs + 65 -> calculate_ticks A c rs <= 65535.

(** the distance to the target, without the steps of the deceleration, does not grow *)
Definition pays (C P R : Z) (o : core_out) : Prop :=
  let N := o_ticks o + o_pause o in
  let R' := R - o_steps o in
  1 <= o_steps o <= 255 /\ o_steps o <= R /\ 640 <= N /\ 0 <= o_pause o /\ 1 <= o_ticks o <= 65535 /\ 0 <= o_P o /\
  (R' = 0 \/ 0 <= R' - o_P o <= R - P) /\
  (o_pause o <> 0 /\ o_steps o = 1 /\ 32767 <= o_ticks o /\ 32767 <= o_pause o \/
   o_pause o = 0 /\
   (R' = 0 \/
    1024000 + hc N - hc C <= 64 * (o_steps o * N) \/
    N <= C /\ bonus (R' - o_P o) + 1 <= bonus (R - P))).

Lemma core_pay c C P R o :
  let M := min_travel_ticks (parameters c) in
  MIN_CMD_TICKS A <= M <= C -> M <= 1073741824 -> C < 4294967296 -> 0 <= P <= R -> 1 <= R -> P + R < 2147483648 ->
  (C = TICKS_FOR_STOPPED_MOTOR -> P = 0) ->
  1 <= max_ramp_up_steps c < 4294967296 -> calc_pos A c (Z.max P 42000) -> flat c ->
  core A c C P R true = Some o -> pays C P R o.
Proof.
  intros M HM HM2 HC HP HR HPR HS HX Hc HF E. pose proof (min_cmd_bounds A HA) as HN.
  unfold core in E. fold M in E.
  destruct (planning_spec A HA C ltac:(lia)) as (k & Ek & Hk & Hp1 & Hp2). rewrite Ek in E.
  pose proof (arch_nums A HA) as AN. assert (TB : 16000 <= TICKS_PER_S A / 1000 <= 21000) by (clear - AN; lia).
  assert (Hpay : 16000 <= k * Z.min C 16000 /\ k <= 65 /\ (k * C <= 42000 \/ k = 1)).
  { destruct (Z.lt_ge_cases C (TICKS_PER_S A / 1000)) as [L|L].
    - destruct (Hp2 L) as (K1 & K2 & K3). clear AN Hp1 Hp2. assert (640 * k <= C * k) by (apply Z.mul_le_mono_nonneg_r; lia). split; [|split; [lia|left; lia]].
      destruct (Z.le_ge_cases C 16000); [rewrite Z.min_l by lia; lia|rewrite Z.min_r by lia; lia].
    - rewrite (Hp1 L). clear AN Hp1 Hp2. lia. }
  assert (Hk1 : C = TICKS_FOR_STOPPED_MOTOR -> k = 1) by (intros ->; apply Hp1; unfold TICKS_FOR_STOPPED_MOTOR; lia).
  clear Hp1 Hp2 AN. destruct Hpay as (Hpay & Hk255 & HkC).
  destruct (choose_pay M C P R k HP HM ltac:(lia) ltac:(lia)) as (s & pl & Es & Hs). rewrite Es in E.
  (* the new period and the steps before the adjustment of short commands *)
  assert (H1 : exists d pl1, gnc_new_ticks A c s C P R pl k = (d, pl1) /\ 1 <= d < 4294967296 /\ 1 <= pl1 <= 42000 /\
     (s = ACC /\ P < R /\ MIN_CMD_TICKS A <= d /\
        (pl1 = k /\ 2 * k <= R - P \/ C <> TICKS_FOR_STOPPED_MOTOR /\ 2 <= R - P /\ pl1 = (R - P) / 2 /\ pl1 < k \/ P = 0 /\ R = 1 /\ pl1 = 1) \/
      s = COAST /\ P < R /\ C <> TICKS_FOR_STOPPED_MOTOR /\ d = C /\ (pl1 = k /\ k <= R - P \/ pl1 = R - P /\ R - P < 2 * k) \/
      s = DEC /\ pl1 = k /\ R - P < k /\ (P < R -> max_ramp_up_steps c = P -> Z.max d C <= 65535))).
  { destruct Hs as [(-> & L & -> & H)|[(-> & L & H0 & H)|(-> & -> & H & HD)]].
    - destruct (new_ticks_acc A c C P R k k ltac:(lia) ltac:(lia)) as (pl' & -> & K). eexists _, pl'. split; [reflexivity|].
      fold M. pose proof (calc_range A c (u32 (P + pl'))).
      pose proof (Z.mul_div_le (R - P) 2 ltac:(lia)). pose proof (Z.mul_succ_div_gt (R - P) 2 ltac:(lia)).
      assert (B2 : C < 2 * MIN_CMD_TICKS A -> 2 <= k) by (clear - Hk HN Hpay; intros; destruct (Z.eq_dec k 1); [subst|]; lia).
      clear HkC Hpay E Es. split; [lia|]. split; [lia|]. left. split; [reflexivity|]. split; [exact L|]. split; [lia|].
      destruct K as [(K1 & K2 & K3)|(K1 & K2)].
      + destruct (H ltac:(lia)) as [[Q1 Q2]|Q].
        * right. left. specialize (B2 Q1). unfold TICKS_FOR_STOPPED_MOTOR. lia.
        * right. right. specialize (Hk1 Q). specialize (HS Q). lia.
      + left. split; [exact K2|]. lia.
    - destruct (new_ticks_coast A c C P R pl k ltac:(lia) ltac:(lia)) as (pl' & -> & K). exists C, pl'.
      split; [reflexivity|]. split; [lia|]. split; [lia|]. right. left. splits; auto. lia.
    - destruct (new_ticks_dec A c DEC C P R k k ltac:(auto) ltac:(lia) ltac:(lia)) as (d & Ed & Dd).
      exists d, k. split; [exact Ed|]. split.
      { refine (proj1 (new_ticks_dec_pos A c DEC C P R k k d _ _ (or_introl eq_refl) _ _ Ed _ _)); [fold M; lia| |lia|lia|lia|lia].
        intros z Hz. apply Hc. lia. }
      split; [lia|]. right. right. splits; auto. intros L EX. specialize (HD L).
      assert (d <= 65535); [|lia]. fold M in Dd. cbv zeta in Dd. clear Ed E Es Hpay.
      destruct Dd as [(D1 & ->)|(D1 & rs & D2 & D3 & [->|(_ & _ & ->)])]; [lia| |lia].
      destruct (Z.eq_dec P 0) as [P0|P0]; [rewrite P0 in *; exfalso|].
      2:{ apply HF; [fold M; lia|lia|lia|]. rewrite EX. revert D2. destruct (Z.leb_spec P k); lia. }
      clear - HX EX. lia. }
  clear Hs Es. destruct H1 as (d & pl1 & Ed & Hd & Hpl1 & Hs). rewrite Ed in E. clear Ed.
  destruct (min_cmd_spec A HA s d P R pl1 Hd ltac:(lia) ltac:(lia) ltac:(lia) ltac:(lia)) as (s' & d' & pl' & Em & Hm).
  rewrite Em in E. clear Em.
  assert (H2 : 1 <= d' < 4294967296 /\ 0 <= pl' <= 65535 /\
     (s' = ACC /\ P < R /\ MIN_CMD_TICKS A <= d' /\
        (pl' = k /\ 2 * k <= R - P \/ C <> TICKS_FOR_STOPPED_MOTOR /\ 2 <= R - P /\ pl' = (R - P) / 2 /\ pl' < k \/ P = 0 /\ R = 1 /\ pl' = 1) \/
      s' = COAST /\ P < R /\ C <> TICKS_FOR_STOPPED_MOTOR /\ d' = C /\ (pl' = k /\ k <= R - P \/ pl' = R - P /\ R - P < 2 * k) \/
      s' = DEC /\ C <> TICKS_FOR_STOPPED_MOTOR /\ (k <= pl' \/ pl' = R) /\ R - P < k /\ (P < R -> max_ramp_up_steps c = P -> Z.max d' C <= 65535))).
  { destruct Hs as [(-> & L & K1 & K2)|[(-> & L & K0 & -> & K1)|(-> & -> & K1 & K2)]].
    - assert (s' = ACC /\ d' = d /\ pl' = pl1) as (-> & -> & ->).
      { destruct Hm as [(-> & -> & -> & _)|[Hm|Hm]]; [auto|exfalso; clear - Hm K1; lia|exfalso; clear - Hm K1; lia]. }
      split; [lia|]. split; [lia|]. left. auto.
    - assert (s' = COAST /\ d' = C /\ pl' = pl1) as (-> & -> & ->).
      { destruct Hm as [(-> & -> & -> & _)|[Hm|Hm]]; [auto|exfalso; clear - Hm HM HN; lia|exfalso; clear - Hm HM HN; lia]. }
      split; [lia|]. split; [lia|]. right. left. splits; auto.
    - assert (CS : C <> TICKS_FOR_STOPPED_MOTOR) by (clear - Hk1 HS HR HP K1; intros Q; specialize (Hk1 Q); specialize (HS Q); lia).
      assert (E1 : s' = DEC) by (clear - Hm; intuition). clear - Hm E1 Hd Hk K1 K2 HN CS HR HPR.
      assert (B : 1 <= d' < 4294967296 /\ 0 <= pl' <= 65535 /\ (k <= pl' \/ pl' = R) /\ (d' <= d \/ d' <= 65535)) by (clear - Hm Hd Hk HN HR; destruct Hm as [Hm|[Hm|Hm]]; lia). clear Hm.
      split; [lia|]. split; [lia|]. right. right. splits; auto; [clear - B; lia|]. intros L EX. specialize (K2 L EX). clear - K2 B. lia. }
  clear Hm Hd Hpl1. clear Hs. destruct H2 as (Hd & Hpl & Hs).
  set (next := gnc_clip s' d' C) in *.
  assert (Hn : 640 <= next < 4294967296 /\ (s' <> DEC -> next <= C \/ C = TICKS_FOR_STOPPED_MOTOR)).
  { unfold next. rewrite clip_spec. destruct (Z.eqb_spec C TICKS_FOR_STOPPED_MOTOR) as [EC|NC].
    - destruct Hs as [(-> & L & K1 & K2)|[(-> & L & K0 & _)|(-> & K0 & _)]]; [|contradiction|contradiction]. lia.
    - destruct Hs as [(-> & L & K1 & K2)|[(-> & L & K0 & K1 & _)|(-> & K0 & _)]]; (split; [lia|]; intros NS; try congruence; lia). }
  assert (Hn2 : s' = DEC -> P < R -> max_ramp_up_steps c = P -> next <= 65535).
  { intros K0 L EX. unfold next. rewrite clip_spec. destruct Hs as [(K & _)|[(K & _)|(_ & NS & _ & _ & K)]]; [rewrite K in K0; discriminate|rewrite K in K0; discriminate|].
    specialize (K L EX). rewrite K0. destruct (Z.eqb_spec C TICKS_FOR_STOPPED_MOTOR); lia. }
  destruct Hn as [Hn HnC]. clearbody next.
  destruct (split_spec next R pl' ltac:(clear - Hn; lia) HR Hpl) as (steps & t & pause & Esp & B1 & B2 & B3 & B4 & B5 & B6).
  rewrite Esp in E. clear Esp.
  destruct (prus_spec c s' P R steps t ltac:(lia) ltac:(lia) ltac:(lia) ltac:(lia)) as (P' & t' & Ep & Hp). rewrite Ep in E. clear Ep.
  injection E as <-. unfold pays. cbn [o_s o_steps o_ticks o_pause o_P].
  clear Ek TB HM2 Hc HF HkC Hk1 HS Hd.
  assert (ST : (s' = ACC /\ R - P >= 0 /\ (k <= steps \/ 65535 < next \/ P + steps = R - steps \/ P + steps = R - steps - 1 /\ 2 <= R - P \/ R = steps) /\ (2 * steps <= R - P \/ steps = R)
               \/ s' = COAST /\ P < R /\ steps <= R - P /\ (k <= steps \/ 65535 < next \/ steps = R - P)
               \/ s' = DEC /\ R - P < k /\ (k <= steps \/ steps = R \/ 65535 < next /\ steps = 1))).
  { pose proof (Z.mul_div_le (R - P) 2 ltac:(lia)) as D1. pose proof (Z.mul_succ_div_gt (R - P) 2 ltac:(lia)) as D2.
    clear Hp HnC Hn2 Hpay HM HX.
    destruct Hs as [(-> & L & _ & K2)|[(-> & L & K0 & _ & K1)|(-> & K0 & K1 & K2 & _)]].
    - left. split; [reflexivity|]. split; [lia|].
      destruct B6 as [(B6 & B7 & B8)|(B6 & B8 & _)].
      + destruct K2 as [(K2 & K3)|[(K2 & K3 & K4 & K5)|(K2 & K3 & K4)]]; [rewrite K2 in *; lia|lia|lia].
      + split; [auto|]. lia.
    - right. left. splits; auto; destruct B6 as [(B6 & B7 & B8)|(B6 & B8 & _)]; lia.
    - right. right. splits; auto. destruct B6 as [(B6 & B7 & B8)|(B6 & B8 & _)]; [|right; right; lia].
      destruct K1 as [K1|K1]; lia. }
  assert (Q : max_ramp_up_steps c = P -> u32 (max_ramp_up_steps c + steps) = P + steps) by (clear - B1 HP HPR B2; intros K; rewrite K; apply u32_id; lia).
  assert (PP : t' = t /\ (R - steps = 0 \/ 0 <= R - steps - P' <= R - P) /\
    (s' = ACC -> P' = P + steps) /\ (s' = COAST -> P' = P) /\ 0 <= P').
  { clear Hs. destruct ST as [(-> & G1 & G2 & G3)|[(-> & G1 & G2 & G3)|(-> & G1 & G2)]].
    - destruct Hp as [-> ->]. splits; auto; try discriminate; lia.
    - destruct Hp as [-> ->]. splits; auto; try discriminate; lia.
    - splits; try discriminate; [|lia|lia].
      destruct Hp as [Hp|[Hp|[Hp|[Hp|[Hp|Hp]]]]]; try apply Hp.
      exfalso. destruct Hp as (Hp1 & Hp2 & Hp3 & Hp4 & Hp5). rewrite Q in Hp3 by lia. specialize (Hn2 eq_refl ltac:(lia) ltac:(lia)). lia. }
  destruct PP as (-> & PP & PA & PC & PN). rewrite B5. clear Hp Q Hn2 Hs.
  split; [lia|]. split; [lia|]. split; [lia|]. split; [lia|]. split; [lia|]. split; [exact PN|]. split; [exact PP|].
  destruct B6 as [(B6 & B7 & B8)|(B6 & B8 & B9 & B10)]; [right|left; splits; lia].
  split; [exact B7|].
  destruct (Z.eq_dec (R - steps) 0) as [Z0|NZ]; [left; exact Z0|right].
  destruct (Z.le_gt_cases k steps) as [LK|LK].
  { left. apply hc_pay with (o := k); lia. }
  right. destruct ST as [(-> & G1 & G2 & G3)|[(-> & G1 & G2 & G3)|(-> & G1 & G2)]].
  - rewrite (PA eq_refl). specialize (HnC ltac:(discriminate)).
    split. { destruct HnC as [HnC|HnC]; [exact HnC|]. rewrite HnC. unfold TICKS_FOR_STOPPED_MOTOR. lia. }
    unfold bonus. destruct (Z.geb_spec (R - steps - (P + steps)) 2), (Z.geb_spec (R - steps - (P + steps)) 1), (Z.geb_spec (R - P) 2), (Z.geb_spec (R - P) 1); lia.
  - rewrite (PC eq_refl). specialize (HnC ltac:(discriminate)).
    split. { destruct HnC as [HnC|HnC]; [exact HnC|]. rewrite HnC. unfold TICKS_FOR_STOPPED_MOTOR. lia. }
    unfold bonus. destruct (Z.geb_spec (R - steps - P) 2), (Z.geb_spec (R - steps - P) 1), (Z.geb_spec (R - P) 2), (Z.geb_spec (R - P) 1); lia.
  - exfalso. lia.
Qed.

(** ** Steps of the generator *)
Definition clen (c : command) : Z := c_ticks c * Z.max 1 (c_steps c).
(** 64 times the ticks, by which the next commands may be short *)
Definition slack (ro : ramp_ro) (rw : ramp_rw) (qe : queue_end) (up : bool) : Z :=
  hc (rw_curr_ticks rw) + 1024000 * bonus (along up (i32 (ro_target_pos ro - qe_pos qe)) - rw_prus rw).
Lemma slack_range ro rw qe up : 0 <= slack ro rw qe up <= 5360000.
Proof. unfold slack. pose proof (hc_range (rw_curr_ticks rw)). pose proof (bonus_range (along up (i32 (ro_target_pos ro - qe_pos qe)) - rw_prus rw)). lia. Qed.

Lemma safe_pay ro rw qe old B up n :
  sinv ro rw qe B -> cfg_ok A (ro_config ro) B -> safe A ro rw qe up -> flat (ro_config ro) -> 1 <= max_ramp_up_steps (ro_config ro) ->
  getNextCommand_ A ro rw qe old = Some n -> c_ticks (n_cmd n) <> 0 ->
  let c := n_cmd n in
  let s := slack ro rw qe up in
  let s' := slack ro (n_rw n) (enqueue c qe) up in
  0 <= clen c /\ (rw_pause_left rw <> 0 -> 32767 <= clen c /\ s' <= s) /\
  (i32 (ro_target_pos ro - qe_pos (enqueue c qe)) = 0 /\ rw_pause_left (n_rw n) = 0 \/
   1024000 + s' - s <= 64 * clen c \/
   rw_pause_left rw = 0 /\ rw_pause_left (n_rw n) <> 0 /\ 32767 <= clen c /\ s' - s <= 3312000).
Proof.
  intros Hi Hc Hsf HF HX1 G Ht c s s'.
  destruct (safe_step A HA ro rw qe old B up n Hi Hc Hsf G Ht) as ([Hm' Hs' Hpa' Hu' Hal' Hv'] & Q2 & Q3 & _ & Q5 & Q6).
  pose proof (min_cmd_bounds A HA) as HN.
  fold c in Hm', Hs', Hpa', Hu', Hal', Hv', Q2, Q3, Q5, Q6.
  assert (T0 : 0 <= clen c) by (unfold clen; apply Z.mul_nonneg_nonneg; lia). split; [exact T0|].
  destruct (Z.eq_dec (rw_pause_left rw) 0) as [Ep|Np].
  - split; [lia|].
    destruct Hsf as [Hm Hs Hpa Hu Hal Hv]. pose proof Hi as [Hk HP HB Hp HC Hst Hact].
    destruct Hc as (HM & HX & Hcp & Hcl).
    assert (S0 : c_steps c <> 0) by (intros K; destruct (Q6 K); lia).
    destruct (Q5 S0) as (_ & _ & Q7 & _ & Q8 & Q9). clear Q5 Q6.
    pose proof (gnc_cases A ro rw qe old B Hi Ep) as GC. cbv zeta in GC.
    unfold s, s', slack. rewrite Q9. 
    set (cc := ro_config ro) in *. set (M := min_travel_ticks (parameters cc)) in *.
    set (P := rw_prus rw) in *. set (d := i32 (ro_target_pos ro - qe_pos qe)) in *.
    set (C := rw_curr_ticks rw) in *.
    destruct GC as [(Ed & EP & GC)|(up1 & Hnt & HP0 & Hup & Hdist & GC)].
    { rewrite GC in G. injection G as <-. cbn in Ht. congruence. }
    rewrite GC in G. clear GC.
    assert (Eup : up1 = up).
    { destruct (Z.eq_dec P 0) as [E0|N0]; [|rewrite Hup by assumption; apply Hu; assumption].
      specialize (HP0 E0). clear - HP0 Hal. unfold along in Hal. destruct up1, up; try reflexivity; lia. }
    subst up1. fold (along up d) in *.
    assert (Habs : Z.abs d = along up d) by (clear - Hal; unfold along in *; destruct up; lia).
    assert (HPv : P <= along up d).
    { destruct Hv as [Hv|(Hv1 & Hv2)]; [exact Hv|]. exfalso. apply Hnt. split; [|exact Hv2].
      clear - Hv1. unfold along. destruct up; lia. }
    assert (HC4 : 1 <= C < 4294967296) by (unfold TICKS_FOR_STOPPED_MOTOR in Hst; lia).
    assert (Hcp' : calc_pos A cc (Z.max P 42000)) by (clear - Hcp HB HP; intros z Hz; apply Hcp; lia).
    assert (Hmeas : along up d + P < 1073741824) by (clear - HB Habs; lia).
    set (rho := along up d) in *. rewrite Habs in G.
    assert (R1 : 1 <= rho) by (clear - HPv HP HP0 Hnt; lia).
    assert (0 <? rho = true) as RT by (clear - R1; lia). rewrite RT in G.
    destruct (core A cc C P rho true) as [o|] eqn:Eo; [|discriminate].
    pose proof (core_pay cc C P rho o Hm ltac:(fold M; clear - HM; lia) ltac:(clear - HC4; lia) ltac:(clear - HP HPv; lia) R1 ltac:(clear - Hmeas; lia) Hs ltac:(clear - HX HX1; lia) Hcp' HF Eo) as PY.
    destruct PY as (Y1 & Y2 & Y3 & Y4 & Y7 & Y8 & Y5 & Y6).
    injection G as G. assert (E1 : c_steps c = o_steps o).
    { unfold c. rewrite <- G. cbn [n_cmd c_steps]. apply u8_id. clear - Y1. lia. }
    assert (E2 : rw_pause_left (n_rw n) = o_pause o) by (rewrite <- G; reflexivity).
    assert (E3 : rw_prus (n_rw n) = o_P o) by (rewrite <- G; reflexivity).
    assert (E4 : rw_curr_ticks (n_rw n) = c_ticks c + o_pause o) by (rewrite <- E2; symmetry; exact Q7).
    assert (E5 : c_ticks c = u16 (o_ticks o)) by (unfold c; rewrite <- G; reflexivity).
    assert (E6 : rw_curr_ticks (n_rw n) = u32 (o_pause o + o_ticks o)) by (rewrite <- G; reflexivity).
    clear G Eo. rewrite u16_id in E5 by (clear - Y7; lia).
    rewrite E3, E4, E1, E2, E5. unfold clen. rewrite E1, E5.
    assert (EZ : rho - o_steps o = 0 -> i32 (ro_target_pos ro - qe_pos (enqueue c qe)) = 0).
    { intros K. rewrite E1, K in Q9. clear - Q9. unfold along in Q9. destruct up; lia. }
    assert (BM : bonus (rho - o_steps o - o_P o) <= bonus (rho - P)).
    { apply bonus_mono. clear - Y5 Y8 HPv. lia. }
    rewrite Z.max_r by (clear - Y1; lia). pose proof (hc_range C) as HR1. pose proof (hc_range (o_ticks o + o_pause o)) as HR2.
    destruct Y6 as [(Z1 & Z2 & Z3 & Z4)|(Z1 & Z2)].
    + right. right. splits; [exact Ep|exact Z1|rewrite Z2; lia|]. clear - HR1 HR2 BM. lia.
    + rewrite Z1 in *. rewrite Z.add_0_r in *. destruct Z2 as [Z2|[Z2|(Z2 & Z3)]].
      * left. split; [exact (EZ Z2)|reflexivity].
      * right. left. clear - Z2 BM. lia.
      * right. left. pose proof (hc_mono _ _ Z2).
        assert (0 <= o_ticks o * o_steps o) by (apply Z.mul_nonneg_nonneg; lia). clear - H H0 Z3. lia.
  - assert (S0 : c_steps c = 0).
    { destruct (Z.eq_dec (c_steps c) 0) as [E|E]; [exact E|]. destruct (Q5 E) as (_ & K & _). contradiction. }
    pose proof Hi as [Hk HP HB Hp HC Hst Hact].
    destruct (pause_spec rw qe ltac:(lia)) as (p & E & H1 & H2 & H3 & H4).
    assert (E0 := G). unfold getNextCommand_ in E0. rewrite E in E0. injection E0 as E0.
    assert (L : 32767 <= clen c).
    { unfold clen. rewrite S0. change (Z.max 1 0) with 1. rewrite Z.mul_1_r. unfold c. rewrite <- E0. cbn [n_cmd c_ticks].
      destruct Hsf as [_ _ Hpa _ _ _]. lia. }
    assert (EQ : s' = s); [|split; [intros _; lia|right; left; lia]].
    unfold s', s, slack.
    assert (Hd' : i32 (ro_target_pos ro - qe_pos (enqueue c qe)) = i32 (ro_target_pos ro - qe_pos qe)).
    { unfold enqueue. cbn [qe_pos]. rewrite S0. replace (if c_up c then qe_pos qe + 0 else qe_pos qe - 0) with (qe_pos qe) by (destruct (c_up c); lia).
      apply i32_sub_i32. }
    rewrite Hd', <- E0. reflexivity.
Qed.

(** ** The commands of a ramp *)
(** [walk s b cs]: commands [cs] with slack [s] before the first of them; [b]: it is a piece of
    a long pause *)
Inductive walk : Z -> bool -> list command -> Prop :=
| walk_nil s b : walk s b []
| walk_last s b c : 0 <= clen c -> walk s b [c]
| walk_cmd s b c cs s' b' : 0 <= clen c -> (b = true -> 32767 <= clen c /\ s' <= s) -> 0 <= s' <= 5360000 ->
    (1024000 + s' - s <= 64 * clen c \/ b = false /\ b' = true /\ 32767 <= clen c /\ s' - s <= 3312000) ->
    walk s' b' cs -> walk s b (c :: cs).
Fixpoint lsum (cs : list command) : Z := match cs with [] => 0 | c :: cs' => clen c + lsum cs' end.

Lemma walk_len : forall s b cs, walk s b cs -> Forall (fun c => 0 <= clen c) cs.
Proof. induction 1; repeat (constructor; auto). Qed.
Lemma lsum_pos cs : Forall (fun c => 0 <= clen c) cs -> 0 <= lsum cs.
Proof. induction 1; cbn [lsum]; lia. Qed.
(** at most one jump *)
Lemma walk_one : forall s b cs, walk s b cs -> 0 <= s -> forall w r, cs = w ++ r -> r <> [] ->
  Z.min (64 * 32767) (1024000 * Z.of_nat (length w) - s) <= 64 * lsum w.
Proof.
  induction 1 as [s b|s b c Hc|s b c cs s' b' Hc Hb Hs' Hst H IH]; intros Hs w r E Hr.
  - destruct w; [|discriminate]. cbn [length lsum]. lia.
  - destruct w as [|c1 w]; [cbn [length lsum]; lia|]. injection E as -> E. destruct w; [|discriminate]. cbn [app] in E. congruence.
  - destruct w as [|c1 w]; [cbn [length lsum]; lia|]. injection E as <- E. specialize (IH (proj1 Hs') w r E Hr).
    cbn [lsum length]. rewrite Nat2Z.inj_succ.
    assert (0 <= lsum w). { apply lsum_pos. pose proof (walk_len _ _ _ H) as F. rewrite E in F. apply Forall_app in F. apply F. }
    destruct Hst as [Hst|Hst]; lia.
Qed.
Lemma walk_window : forall s b cs, walk s b cs -> 0 <= s -> forall w r, cs = w ++ r -> r <> [] ->
  Z.min (64 * 98301) (1024000 * Z.of_nat (length w) - s - 1165824) <= 64 * lsum w.
Proof.
  induction 1 as [s b|s b c Hc|s b c cs s' b' Hc Hb Hs' Hst H IH]; intros Hs w r E Hr.
  - destruct w; [|discriminate]. cbn [length lsum]. lia.
  - destruct w as [|c1 w]; [cbn [length lsum]; lia|]. injection E as -> E. destruct w; [|discriminate]. cbn [app] in E. congruence.
  - destruct w as [|c1 w]; [cbn [length lsum]; lia|]. injection E as <- E. specialize (IH (proj1 Hs') w r E Hr).
    cbn [lsum length]. rewrite Nat2Z.inj_succ.
    destruct Hst as [Hst|(Hb0 & Hb' & Hl & Hst)]; [lia|]. clear IH.
    destruct w as [|c2 w]; [cbn [length lsum]; lia|].
    inversion H as [|? ? ? Hc2|? ? ? ? s2 b2 Hc2 Hbb Hs2 Hst2 H2]; subst.
    + discriminate.
    + exfalso. match goal with K : [_] = _ |- _ => injection K as _ K end. destruct w; [cbn [app] in *; congruence|discriminate].
    + match goal with K : _ :: _ = _ |- _ => injection K as -> -> end.
      specialize (Hbb eq_refl). pose proof (walk_one _ _ _ H2 (proj1 Hs2) w r eq_refl Hr) as W.
      cbn [lsum length]. rewrite Nat2Z.inj_succ.
      destruct Hst2 as [Hst2|(K & _)]; [|discriminate]. lia.
Qed.
(** thirteen commands in a row, the last command of the ramp not among them *)
Lemma walk_13 : forall s b cs, walk s b cs -> 0 <= s <= 5360000 -> forall w r, cs = w ++ r -> r <> [] ->
  (13 <= length w)%nat -> 98301 <= lsum w.
Proof. intros s b cs H Hs w r E Hr L. pose proof (walk_window _ _ _ H (proj1 Hs) w r E Hr). lia. Qed.
Lemma walk_suffix : forall l0 l s b, walk s b (l0 ++ l) -> 0 <= s <= 5360000 -> exists s' b', walk s' b' l /\ 0 <= s' <= 5360000.
Proof.
  induction l0 as [|c l0 IH]; intros l s b H Hs; [exists s, b; split; [exact H|lia]|].
  cbn [app] in H. inversion H as [|? ? ? Hc|? ? ? ? s2 b2 Hc Hbb Hs2 Hst H2]; subst.
  - match goal with K : [] = _ |- _ => symmetry in K; apply app_eq_nil in K as [-> ->] end. exists 0, false. split; [constructor|lia].
  - exact (IH _ _ _ H2 Hs2).
Qed.
Lemma walk_any s b cs : walk s b cs -> 0 <= s <= 5360000 -> forall l0 w r, cs = l0 ++ w ++ r -> r <> [] ->
  (13 <= length w)%nat -> 98301 <= lsum w.
Proof.
  intros H Hs l0 w r -> Hr L. destruct (walk_suffix _ _ _ _ H Hs) as (s' & b' & H' & Hs').
  exact (walk_13 _ _ _ H' Hs' w r eq_refl Hr L).
Qed.

(** ** From the generator to its commands *)
Lemma plan_over ro g qe B k up cs : sinv (rg_ro g) (rg_rw g) qe B -> safe A (rg_ro g) (rg_rw g) qe up ->
  rg_ro g = ro -> norm g -> rw_curr_ticks (rg_rw g) <> TICKS_FOR_STOPPED_MOTOR ->
  i32 (ro_target_pos ro - qe_pos qe) = 0 -> rw_pause_left (rg_rw g) = 0 ->
  plan A k g (qe_pos qe) (qe_up qe) cs -> cs = [].
Proof.
  intros Hi Hsf <- Hn HC Hd Hp H.
  assert (G : forall old, rg_getNextCommand A qe old g = Some (g, ramp_complete old)).
  { intros old. rewrite getNext_prepare; rewrite (prepare_norm A qe g Hn HC); [|apply Hn].
    pose proof (gnc_cases A (rg_ro g) (rg_rw g) qe old B Hi Hp) as GC. cbv zeta in GC.
    destruct GC as [(_ & _ & ->)|(u & Hnt & HP0 & _ & _ & _)]; [reflexivity|exfalso].
    apply Hnt. rewrite Hd in *. destruct Hsf as [_ _ _ _ _ Hv]. rewrite Hd in Hv. unfold along in Hv. destruct u, up; lia. }
  destruct qe as [p u pin]. cbn [qe_pos qe_up] in *.
  inversion H as [|? ? ? ? ? g1 n old Ha Hg Ht Hpl|? ? ? ? c cs' g1 n Ha Hg _ Hc Ht Hpl]; subst.
  - reflexivity.
  - specialize (Hg pin). rewrite G in Hg. injection Hg as <- <-. inversion Hpl; subst; try discriminate. reflexivity.
  - specialize (Hg (mkNext (mkCommand 0 0 false) (mkRw 0 0 0 0)) pin). rewrite G in Hg. injection Hg as <- <-. exfalso. apply Ht. reflexivity.
Qed.
Lemma plan_walk : forall k g p u cs, plan A k g p u cs -> forall pin B up,
  let qe := mkQueueEnd p u pin in
  let g1 := rg_prepare A qe g in
  norm g1 -> sinv (rg_ro g1) (rg_rw g1) qe B -> cfg_ok A (ro_config (rg_ro g1)) B ->
  safe A (rg_ro g1) (rg_rw g1) qe up -> flat (ro_config (rg_ro g1)) -> 1 <= max_ramp_up_steps (ro_config (rg_ro g1)) ->
  walk (slack (rg_ro g1) (rg_rw g1) qe up) (negb (rw_pause_left (rg_rw g1) =? 0)) cs.
Proof.
  induction 1 as [k g p u Ha|k g p u cs g1 n old Ha Hg Ht Hpl IH|k g p u c cs g1 n Ha Hg _ Hc Ht Hpl IH];
    intros pin B up qe g2 Hn Hi Hk Hsf HF HX.
  - constructor.
  - specialize (Hg pin). fold qe in Hg. rewrite getNext_prepare in Hg by (apply Hn). fold g2 in Hg.
    destruct (getNextCommand_ A (rg_ro g2) (rg_rw g2) qe old) as [n'|] eqn:EG; [|discriminate]. injection Hg as <- <-.
    destruct (sstep A HA (rg_ro g2) (rg_rw g2) qe old B Hi Hk (safe_period_ok A HA _ _ _ _ Hsf)) as (n2 & E2 & Hs).
    rewrite EG in E2. injection E2 as <-. destruct Hs as [(_ & _ & Hs & _)|(Hs & _)]; [|contradiction].
    inversion Hpl as [|? ? ? ? ? ? ? ? K|? ? ? ? ? ? ? ? K]; subst; [constructor| |];
      unfold isRampGeneratorActive, rg_afterCommandEnqueued in K; cbn [with_rw rg_rw] in K; rewrite Hs in K; discriminate.
  - specialize (Hg (mkNext (mkCommand 0 0 false) (mkRw 0 0 0 0)) pin). fold qe in Hg. rewrite getNext_prepare in Hg by (apply Hn). fold g2 in Hg.
    destruct (getNextCommand_ A (rg_ro g2) (rg_rw g2) qe (mkNext (mkCommand 0 0 false) (mkRw 0 0 0 0))) as [n'|] eqn:EG; [|discriminate]. injection Hg as <- <-.
    subst c.
    destruct (sstep A HA (rg_ro g2) (rg_rw g2) qe (mkNext (mkCommand 0 0 false) (mkRw 0 0 0 0)) B Hi Hk (safe_period_ok A HA _ _ _ _ Hsf)) as (n2 & E2 & Hs).
    rewrite EG in E2. injection E2 as <-. destruct Hs as [(Hs & _)|(_ & Hi2 & _ & HC2 & _)]; [contradiction|].
    destruct (safe_pay _ _ _ _ _ _ _ Hi Hk Hsf HF HX EG Ht) as (W1 & W2 & W3).
    destruct (safe_step A HA _ _ _ _ _ _ _ Hi Hk Hsf EG Ht) as (Hsf2 & _).
    set (g3 := rg_afterCommandEnqueued n' g2) in *.
    assert (Hn3 : norm g3) by exact Hn.
    assert (HC3 : rw_curr_ticks (rg_rw g3) <> TICKS_FOR_STOPPED_MOTOR) by exact HC2.
    specialize (IH pin B up). cbv zeta in IH.
    change (mkQueueEnd (after_pos (n_cmd n') p) (c_up (n_cmd n')) pin) with (enqueue (n_cmd n') qe) in IH.
    rewrite (prepare_norm A (enqueue (n_cmd n') qe) g3 Hn3 HC3) in IH.
    specialize (IH Hn3 Hi2 Hk Hsf2 HF HX). cbn [rg_rw] in IH.
    destruct W3 as [(W3 & W4)|W3].
    + assert (cs = []) as ->; [|now constructor].
      eapply (plan_over (rg_ro g2) g3 (enqueue (n_cmd n') qe)); try eassumption; reflexivity.
    + eapply walk_cmd; [exact W1| | | |exact IH].
      * intros K. apply W2. intros K2. rewrite K2 in K. discriminate.
      * apply slack_range.
      * destruct W3 as [W3|(W3 & W4 & W5 & W6)]; [left; exact W3|right].
        rewrite W3. split; [reflexivity|]. split; [|split; assumption].
        change (rw_pause_left (rg_rw g3)) with (rw_pause_left (n_rw n')). apply Z.eqb_neq in W4. now rewrite W4.
Qed.

(** ** Constant acceleration *)
Lemma to_u32_twice v : 5120 <= v < 15872 -> pmfl_to_u32 (v + 512) = 2 * pmfl_to_u32 v.
Proof.
  intros H. rewrite !to_u32_big by lia.
  replace (v + 512) with (v + 1 * 512) by lia. rewrite Z.mod_add, Z.div_add by lia.
  pose proof (Z.div_le_lower_bound v 512 10 ltac:(lia) ltac:(lia)).
  replace (v / 512 + 1 - 10) with (Z.succ (v / 512 - 10)) by lia. rewrite Z.pow_succ_r by lia. lia.
Qed.
Lemma flat_const c : MIN_CMD_TICKS A = 640 -> s_h (parameters c) = 0 -> 0 <= pmfl_accel (parameters c) <= 15872 ->
  1 <= min_travel_ticks (parameters c) ->
  (2 <= max_ramp_up_steps c -> max_ramp_up_steps c =
    pmfl_to_u32 (PMF_ACCEL_FACTOR A - pmfl_accel (parameters c) - 2 * pmfl_from_u32 (min_travel_ticks (parameters c)))) ->
  flat c.
Proof.
  intros HMN Hs Ha HM1 HX HM X2 rs Hrs Hle. rewrite HMN in HM. rewrite (HX X2) in Hle. clear HX X2.
  rewrite calculate_ticks_const by (auto; lia).
  destruct (arch_consts A HA) as [F K]. rewrite F in Hle.
  set (M := min_travel_ticks (parameters c)) in *. set (la := pmfl_accel (parameters c)) in *.
  assert (LM : pmfl_from_u32 M <= 5285).
  { eapply Z.le_trans; [apply (from_u32_mono M 1280); lia|]. vm_compute. discriminate. }
  pose proof (from_u32_range rs ltac:(lia)) as LR. set (lr := pmfl_from_u32 rs) in *.
  set (q := PMF_TICKS_PER_S_DIV_SQRT_OF_2 A) in *.
  pose proof (Z.mul_div_le (lr + la) 2 ltac:(lia)) as D1. pose proof (Z.mul_succ_div_gt (lr + la) 2 ltac:(lia)) as D2.
  destruct (Z.le_gt_cases (q - (lr + la) / 2) 8191) as [L|L].
  { eapply Z.le_trans; [apply (to_u32_mono _ 8191 L)|]. vm_compute. discriminate. }
  exfalso. assert (V : lr + 5800 <= 2 * q - la - 2 * pmfl_from_u32 M) by lia.
  pose proof (to_u32_mono _ _ V) as T.
  destruct (Z.le_gt_cases rs 2400) as [L2|L2].
  - pose proof (to_u32_mono 5800 (lr + 5800) ltac:(lia)) as T2.
    assert (2500 <= pmfl_to_u32 5800) by (vm_compute; discriminate). lia.
  - assert (L3 : 5120 <= lr).
    { eapply Z.le_trans; [|apply (from_u32_mono 2400 rs); lia]. vm_compute. discriminate. }
    assert (L4 : lr <= 15872).
    { eapply Z.le_trans; [apply (from_u32_mono rs 2147483648); lia|]. vm_compute. discriminate. }
    pose proof (round_trip rs ltac:(lia)) as RT. fold lr in RT.
    assert (T3 : 2 * pmfl_to_u32 lr <= pmfl_to_u32 (lr + 5800) \/ 4294967295 <= pmfl_to_u32 (lr + 5800)).
    { destruct (Z.eq_dec lr 15872) as [E|E].
      - right. rewrite E. rewrite to_u32_sat by lia. lia.
      - left. rewrite <- to_u32_twice by lia. apply to_u32_mono. lia. }
    lia.
Qed.
Lemma flat_slow c : 2 * MIN_CMD_TICKS A <= min_travel_ticks (parameters c) -> flat c.
Proof. intros H K. lia. Qed.

(** ** A move from standstill *)
Theorem standstill_walk g p u a D k cs :
  let pr := rg_params g in
  let ro := rg_ro g in
  let rw := rg_rw g in
  let t := target_of pr (keep_running (parameters (ro_config ro))) (ro_target_pos ro) p in
  apply pr = true -> any_change pr = true -> keep_running pr = false ->
  ro_force_stop ro = false -> ro_force_immediate ro = false ->
  s_jump pr = 0 -> 0 <= s_h pr < 4294967294 -> pmfl_accel pr = pmfl_from_u32 a -> 1 <= a < 2147483648 ->
  MIN_CMD_TICKS A <= min_travel_ticks pr <= 1073741824 ->
  (MIN_CMD_TICKS A = 640 /\ s_h pr = 0 \/ 2 * MIN_CMD_TICKS A <= min_travel_ticks pr) ->
  isRampGeneratorActive g = true ->
  rw_curr_ticks rw = TICKS_FOR_STOPPED_MOTOR -> rw_pause_left rw = 0 ->
  -2147483648 <= p < 2147483648 ->
  D = i32 (t - p) ->
  Z.abs D < 1073741824 -> a * Z.max (Z.abs D) 42000 <= 100000000000000 ->
  plan A k g p u cs -> exists s b, walk s b cs /\ 0 <= s <= 5360000.
Proof.
  intros pr ro rw t H1 H2 H3 H4 H5 H6 H7 H8 HaR HM HFL Hact HC Hp Hq HD HB Hab HPL.
  set (qe := mkQueueEnd p u false). change p with (qe_pos qe) in HD, t.
  pose proof (min_cmd_bounds A HA) as HN.
  destruct (prepare_pending A qe g H1 H2 H3 H4 H5 (fun _ => H6)) as
    (N & E1 & E2 & E3 & E4 & E5 & E6 & E7).
  fold pr in E1, E2, E3, E5, E6, E7. fold ro in E5, E6, E7. fold rw in E7. fold t in E6.
  unfold start_prus in E7. rewrite HC, Z.eqb_refl, H6, Hp in E7.
  assert (I : sinv (rg_ro (rg_prepare A qe g)) (rg_rw (rg_prepare A qe g)) qe (Z.abs D)).
  { split; rewrite ?E4, ?E6, ?E7, <- ?HD; cbn [rw_prus rw_pause_left rw_curr_ticks rw_state]; try lia.
    - unfold TICKS_FOR_STOPPED_MOTOR. lia.
    - unfold isRampGeneratorActive in Hact. fold rw in Hact. intros K. rewrite K in Hact. discriminate. }
  assert (K : cfg_ok A (ro_config (rg_ro (rg_prepare A qe g))) (Z.abs D)).
  { apply cfg_ok_derived with (a := a); rewrite ?E1, ?E2, ?E3; try assumption; try lia.
    { apply prepare_derived; fold pr; try assumption; [|congruence]. intros _. rewrite H8. pose proof (accel_log_range a HaR). auto. }
    rewrite E5. pose proof (update_X A (set_parameters pr (ro_config ro))). lia. }
  assert (S : safe A (rg_ro (rg_prepare A qe g)) (rg_rw (rg_prepare A qe g)) qe (0 <? D)).
  { split; rewrite ?E1, ?E6, ?E7, <- ?HD; cbn [rw_prus rw_pause_left rw_curr_ticks]; try lia.
    - unfold TICKS_FOR_STOPPED_MOTOR. lia.
    - unfold along. destruct (Z.ltb_spec 0 D); lia.
    - left. unfold along. destruct (Z.ltb_spec 0 D); lia. }
  assert (F : flat (ro_config (rg_ro (rg_prepare A qe g)))).
  { destruct HFL as [(F1 & F2)|F1]; [|apply flat_slow; rewrite E1; exact F1].
    apply flat_const; rewrite ?E1, ?E2, ?E3; auto; [rewrite H8; apply accel_log_range; exact HaR|lia|].
    rewrite E5. unfold update. cbn [set_parameters parameters]. rewrite F2. cbn [Z.gtb Z.compare max_ramp_up_steps].
    rewrite calculate_ramp_steps_const; cbn [parameters pmfl_ticks_h]; auto; [|rewrite H8; apply accel_log_range; exact HaR|lia].
    destruct (Z.eqb_spec (pmfl_to_u32 (PMF_ACCEL_FACTOR A - pmfl_accel pr - 2 * pmfl_from_u32 (min_travel_ticks pr))) 0); lia. }
  assert (X : 1 <= max_ramp_up_steps (ro_config (rg_ro (rg_prepare A qe g)))).
  { rewrite E5. pose proof (update_X A (set_parameters pr (ro_config ro))). lia. }
  eexists _, _. split; [exact (plan_walk k g p u cs HPL false (Z.abs D) (0 <? D) N I K S F X)|apply slack_range].
Qed.

(** ** Moves *)
(** constant acceleration, or a speed limit of at most half the highest speed *)
Definition gentle (g : rampgen) : Prop :=
  MIN_CMD_TICKS A = 640 /\ s_h (rg_params g) = 0 \/ 2 * MIN_CMD_TICKS A <= min_travel_ticks (rg_params g).
Lemma pending_walk g p u a M v abs changed k cs :
  configured g a M -> sane g -> rw_pause_left (rg_rw g) = 0 -> 1 <= a < 2147483648 -> -2147483648 <= p < 2147483648 ->
  MIN_CMD_TICKS A <= M <= 1073741824 -> gentle g -> isRampGeneratorActive g = false ->
  let pr := set_apply true (set_any_change true (set_keep false true (set_move v abs (rg_params g)))) in
  let t := target_of pr (rg_isRunningContinuously g) (ro_target_pos (rg_ro g)) p in
  let d := i32 (t - p) in
  Z.abs d < 1073741824 -> a * Z.max (Z.abs d) 42000 <= 100000000000000 ->
  plan A k (rg_startMove changed (with_params pr g)) p u cs -> exists s b, walk s b cs /\ 0 <= s <= 5360000.
Proof.
  intros Hcfg Hsane Hidle Ha Hp HM HG Hna pr t d HB Hab H.
  destruct changed.
  2:{ inversion H as [|? ? ? ? ? ? ? ? K|? ? ? ? ? ? ? ? K]; subst; [|unfold isRampGeneratorActive in *; rewrite started_rw in K; cbn [with_params rg_rw] in K; congruence..].
      exists 0, false. split; [constructor|lia]. }
  destruct (start_curr true g (or_intror eq_refl)) as (E1 & E2 & E3 & E4). cbv zeta in E1, E2, E3, E4.
  destruct Hcfg as (V & C1 & C2 & C3 & C4). destruct Hsane as (S1 & S2 & S3 & S4 & S5).
  assert (Et : target_of (rg_params (rg_startMove true (with_params pr g))) (keep_running (parameters (ro_config (rg_ro (rg_startMove true (with_params pr g))))))
                 (ro_target_pos (rg_ro (rg_startMove true (with_params pr g)))) p = t).
  { rewrite started_params, started_ro. reflexivity. }
  eapply standstill_walk with (a := a) (p := p) (D := d); [..|exact H]; try (rewrite Et); fold d; try assumption;
    unfold isRampGeneratorActive; rewrite ?started_params, ?started_ro, ?started_rw;
    cbn [rg_params with_params rg_rw rg_ro set_force_stop ro_config ro_force_stop ro_force_immediate];
    rewrite ?E1, ?E2, ?E3, ?E4; try assumption; try reflexivity.
  - unfold pr. cbn. rewrite C2. exact HM.
  - unfold period. rewrite Hna. reflexivity.
Qed.
Lemma moveTo_walk g qe a M pos g' k cs :
  configured g a M -> sane g -> rw_pause_left (rg_rw g) = 0 -> 1 <= a < 2147483648 ->
  -2147483648 <= qe_pos qe < 2147483648 -> -2147483648 <= pos < 2147483648 ->
  let d := i32 (pos - qe_pos qe) in
  Z.abs d < 1073741824 -> a * Z.max (Z.abs d) 42000 <= 100000000000000 ->
  MIN_CMD_TICKS A <= M <= 1073741824 -> gentle g -> isRampGeneratorActive g = false ->
  rg_moveTo pos qe g = (g', MOVE_OK) -> plan A k g' (qe_pos qe) (qe_up qe) cs -> exists s b, walk s b cs /\ 0 <= s <= 5360000.
Proof.
  intros Hcfg Hsane Hidle Ha Hq Hp d HB Hab HM HG Hna E H.
  destruct (moveTo_shape g qe a M pos Hcfg (fun _ => Hidle)) as (ch & E1 & _). rewrite E1 in E. injection E as <-.
  destruct (moveTo_target A g qe pos Hp) as (T1 & T2).
  refine (pending_walk g (qe_pos qe) (qe_up qe) a M _ _ ch k cs Hcfg Hsane Hidle Ha Hq HM HG Hna _ _ H);
    unfold target_of; cbn [move_absolute move_value set_apply set_any_change set_keep set_move];
    rewrite T2; assumption.
Qed.
Lemma move_walk g qe a M delta g' k cs :
  configured g a M -> sane g -> rw_pause_left (rg_rw g) = 0 -> 1 <= a < 2147483648 ->
  -2147483648 <= qe_pos qe < 2147483648 -> delta <> 0 ->
  let d := i32 (i32 (base_target g qe + pending_move g + delta) - qe_pos qe) in
  Z.abs d < 1073741824 -> a * Z.max (Z.abs d) 42000 <= 100000000000000 ->
  MIN_CMD_TICKS A <= M <= 1073741824 -> gentle g -> isRampGeneratorActive g = false ->
  rg_move delta g = (g', MOVE_OK) -> plan A k g' (qe_pos qe) (qe_up qe) cs -> exists s b, walk s b cs /\ 0 <= s <= 5360000.
Proof.
  intros Hcfg Hsane Hidle Ha Hq Hdelta d HB Hab HM HG Hna E H.
  destruct (move_shape g a M delta Hcfg (or_intror Hdelta)) as (ch & E1 & _). rewrite E1 in E. injection E as <-.
  destruct (move_target g qe delta _ eq_refl) as (T1 & T2).
  refine (pending_walk g (qe_pos qe) (qe_up qe) a M _ _ ch k cs Hcfg Hsane Hidle Ha Hq HM HG Hna _ _ H);
    unfold target_of; cbn [move_absolute move_value set_apply set_any_change set_keep set_move];
    rewrite T2; assumption.
Qed.
End WithArch.
