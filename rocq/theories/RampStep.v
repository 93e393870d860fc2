(** * RampStep: facts about one call of [_getNextCommand] *)
From Coq Require Import ZArith Bool List Lia ZifyBool.
From Verif Require Import Base Pmf PmfFacts RampCalc RampGen.
Import ListNotations.
Open Scope Z_scope.
Ltac Zify.zify_post_hook ::= idtac.

Record core_out := mkOut { o_s : rstate; o_steps : Z; o_ticks : Z; o_pause : Z; o_P : Z }.

Section WithArch.
Variable A : arch.
Hypothesis HA : In A all_archs.

(** the part of [getNextCommand_] behind the distance calculation, for a
    ramp, which is not complete *)
Definition core (c : config) (C P R : Z) (same : bool) : option core_out :=
  match gnc_planning A C with
  | None => None
  | Some orig =>
    let '(s, R, planning) := gnc_choose A (min_travel_ticks (parameters c)) C P R same orig in
    let '(d, planning) := gnc_new_ticks A c s C P R planning orig in
    match gnc_min_cmd A s d P R planning with
    | None => None
    | Some (s, d, planning) =>
      let next := gnc_clip s d C in
      let '(steps, next, pause) := gnc_split next R planning in
      let '(P', next) := gnc_prus c s P R steps next in
      Some (mkOut s steps next pause P')
    end
  end.

Lemma arch_nums :
  (TICKS_PER_S A = 16000000 /\ TICKS_PER_S A / 1000 = 16000 /\ u16 (TICKS_PER_S A / 500) = 32000
   /\ (MIN_CMD_TICKS A = 3200 \/ MIN_CMD_TICKS A = 640)) \/
  (TICKS_PER_S A = 21000000 /\ TICKS_PER_S A / 1000 = 21000 /\ u16 (TICKS_PER_S A / 500) = 42000
   /\ MIN_CMD_TICKS A = 4200).
Proof.
  revert A HA. apply arch_cases; [left|left|left|right]; cbn; repeat split; auto.
Qed.
Lemma min_cmd_bounds : 640 <= MIN_CMD_TICKS A <= 4200.
Proof. pose proof arch_nums. lia. Qed.

Lemma planning_spec C : 1 <= C < 4294967296 ->
  exists o, gnc_planning A C = Some o /\ 1 <= o <= 42000 /\
    (TICKS_PER_S A / 1000 <= C -> o = 1) /\
    (C < TICKS_PER_S A / 1000 -> 2 <= o /\ o * C <= 42000 /\ 31999 - C < o * C).
Proof.
  intros H. unfold gnc_planning.
  pose proof arch_nums as K.
  assert (B : 16000 <= TICKS_PER_S A / 1000 <= 21000) by lia.
  destruct (Z.ltb_spec C (TICKS_PER_S A / 1000)).
  - rewrite (u16_id C) by lia. destruct (Z.eqb_spec C 0); [lia|].
    eexists. split; [reflexivity|].
    set (W := u16 (TICKS_PER_S A / 500)) in *.
    assert (HW : W = 32000 /\ TICKS_PER_S A / 1000 = 16000 \/ W = 42000 /\ TICKS_PER_S A / 1000 = 21000) by lia.
    pose proof (Z.mul_div_le W C ltac:(lia)).
    pose proof (Z.mul_succ_div_gt W C ltac:(lia)).
    assert (2 <= W / C) by (apply Z.div_le_lower_bound; lia).
    assert (W / C <= W) by (apply Z.div_le_upper_bound; nia).
    repeat split; try lia.
  - exists 1. repeat split; lia.
Qed.

(** choice of the state *)
Definition enlarged (s s' : rstate) := s' = s \/ s' = DEC.

Lemma choose_away M C P R o :
  gnc_choose A M C P R false o = (REV, P, o).
Proof. reflexivity. Qed.
Lemma choose_below M C P R o : R < P -> gnc_choose A M C P R true o = (REV, P, o).
Proof.
  intros H. unfold gnc_choose. cbn [negb].
  destruct (Z.eqb_spec R P); [lia|]. destruct (Z.ltb_spec R P); [reflexivity|lia].
Qed.
Lemma choose_equal M C P o : gnc_choose A M C P P true o = (DEC, P, o).
Proof. unfold gnc_choose. cbn [negb]. rewrite Z.eqb_refl. reflexivity. Qed.

(** distance larger than the deceleration ramp *)
Lemma choose_ahead M C P R o : 0 <= P < R ->
  1 <= C -> 1 <= o <= 42000 -> 2 <= M -> (o = 1 \/ o * C <= 42000) ->
  exists s pl, gnc_choose A M C P R true o = (s, R, pl) /\ s <> REV /\
    1 <= pl <= 42000 /\
    (s = ACC -> pl = o /\ M < C /\ (C < 2 * MIN_CMD_TICKS A -> o <= R - P) /\
       (2 * MIN_CMD_TICKS A <= C -> R - P < 2 * o -> C = TICKS_FOR_STOPPED_MOTOR)) /\
    (s = COAST -> M <= C /\ pl <= R - P /\ (M < 4294967295 -> C <> TICKS_FOR_STOPPED_MOTOR)) /\
    (s = DEC -> M < C /\ C < 2 * MIN_CMD_TICKS A /\ o > R - P /\ pl = o \/
                C < M /\ 1 <= pl <= o \/
                M = C /\ C < MIN_CMD_TICKS A /\ R - P < 2 * o /\ pl = R - P
                /\ C * pl < MIN_CMD_TICKS A).
Proof.
  intros H HC Ho HM HoC. unfold gnc_choose. cbn [negb].
  destruct (Z.eqb_spec R P); [lia|]. destruct (Z.ltb_spec R P); [lia|].
  destruct (Z.ltb_spec M C) as [L1|L1].
  - assert (o <= 21000) by nia. pose proof min_cmd_bounds.
    unfold TICKS_FOR_STOPPED_MOTOR.
    destruct (Z.ltb_spec C (2 * MIN_CMD_TICKS A)) as [L2|L2].
    + destruct (Z.gtb_spec o (R - P)).
      * exists DEC, o. split; [reflexivity|]. repeat split; try discriminate; try lia.
      * destruct ((Z.shiftr (R - P) 2 >? 0) && _); eexists _, o;
          (split; [reflexivity|]); repeat split; try discriminate; try lia.
    + destruct (Z.ltb_spec (R - P) (2 * o)).
      * destruct (Z.eqb_spec C 4294967295); cbn [negb].
        2:{ exists COAST, (R - P). rewrite u16_id by lia.
           split; [reflexivity|]. repeat split; try discriminate; try lia. }
        exists ACC, o. split; [reflexivity|]. repeat split; try discriminate; try lia.
      * exists ACC, o. split; [reflexivity|]. repeat split; try discriminate; try lia.
  - destruct (Z.gtb_spec M C).
    + eexists DEC, _. split; [reflexivity|].
      assert (X : 1 <= (if P <=? o then if P >? 0 then u16 P else 1 else o) <= o).
      { destruct (Z.leb_spec P o); [|lia]. destruct (Z.gtb_spec P 0); [|lia].
        rewrite u16_id by lia. lia. }
      repeat split; try discriminate; try lia.
    + assert (o <= 21000) by nia. unfold TICKS_FOR_STOPPED_MOTOR.
      destruct (Z.ltb_spec (R - P) (2 * o)).
      * rewrite u16_id by lia.
        destruct (Z.ltb_spec C (MIN_CMD_TICKS A)); cbn [andb].
        -- assert (u32 (C * (R - P)) = C * (R - P)) as -> by
             (apply u32_id; pose proof min_cmd_bounds; nia).
           destruct (Z.ltb_spec (C * (R - P)) (MIN_CMD_TICKS A)); eexists _, _;
             (split; [reflexivity|]); repeat split; try discriminate; try lia.
        -- eexists _, _; (split; [reflexivity|]); repeat split; try discriminate; try lia.
      * eexists _, _; (split; [reflexivity|]); repeat split; try discriminate; try lia.
Qed.

(** the new period *)
Lemma new_ticks_acc c C P R pl o : 0 <= P < R -> R < 4294967296 ->
  exists pl', gnc_new_ticks A c ACC C P R pl o =
    (Z.max (min_travel_ticks (parameters c)) (calculate_ticks A c (u32 (P + pl'))), pl') /\
    (R - P < 512 /\ (R - P) / 2 < o /\ pl' = Z.max 1 ((R - P) / 2) \/
     (512 <= R - P \/ o <= (R - P) / 2) /\ pl' = pl).
Proof.
  intros H HR. unfold gnc_new_ticks. cbn [accelerating]. rewrite (u32_id (R - P)) by lia.
  assert (D : 0 <= (R - P) / 2) by (apply Z.div_pos; lia).
  destruct (Z.ltb_spec (R - P) 512).
  - destruct (Z.ltb_spec ((R - P) / 2) o).
    + destruct (Z.eqb_spec ((R - P) / 2) 0).
      * exists 1. rewrite fas_max_spec. split; [reflexivity|lia].
      * exists ((R - P) / 2). rewrite fas_max_spec. split; [reflexivity|lia].
    + exists pl. rewrite fas_max_spec. split; [reflexivity|lia].
  - exists pl. rewrite fas_max_spec. split; [reflexivity|lia].
Qed.
Lemma new_ticks_dec c s C P R pl o : s = DEC \/ s = REV -> 0 <= P -> 1 <= pl ->
  exists d, gnc_new_ticks A c s C P R pl o = (d, pl) /\
    let M := min_travel_ticks (parameters c) in
    (P = 1 /\ d = M \/
     P <> 1 /\ exists rs, rs = (if P <=? pl then pl else P - pl) /\ 1 <= rs <= Z.max P pl /\
       (d = calculate_ticks A c rs \/ rs = 1 /\ calculate_ticks A c 1 < M /\ d = M)).
Proof.
  intros Hs HP Hpl. unfold gnc_new_ticks.
  assert (E1 : accelerating s = false) by (destruct Hs; subst; reflexivity).
  assert (E2 : decelerating s = true) by (destruct Hs; subst; reflexivity).
  rewrite E1, E2.
  destruct (Z.eqb_spec P 1).
  - eexists; split; [reflexivity|]. left. auto.
  - eexists; split; [reflexivity|]. right. split; [assumption|].
    eexists; split; [reflexivity|]. split; [destruct (Z.leb_spec P pl); lia|].
    destruct (Z.eqb_spec (if P <=? pl then pl else P - pl) 1) as [E|]; cbn [andb]; [|auto].
    rewrite E.
    destruct (Z.gtb_spec (min_travel_ticks (parameters c)) (calculate_ticks A c 1)); auto.
Qed.
Lemma new_ticks_coast c C P R pl o : 0 <= P < R -> R < 4294967296 ->
  exists pl', gnc_new_ticks A c COAST C P R pl o = (C, pl') /\
    (R - P < 256 /\ R - P < 2 * o /\ pl' = R - P \/
     (256 <= R - P \/ 2 * o <= R - P) /\ pl' = pl).
Proof.
  intros H HR. unfold gnc_new_ticks. cbn [accelerating decelerating].
  rewrite (u32_id (R - P)) by lia.
  destruct (Z.ltb_spec (R - P) 256); cbn [andb].
  - destruct (Z.ltb_spec (R - P) (2 * o)); eexists; (split; [reflexivity|lia]).
  - eexists; (split; [reflexivity|lia]).
Qed.

(** enlarging commands, which are too short *)
Lemma min_cmd_spec s d P R pl : 1 <= d < 4294967296 -> 1 <= R -> 0 <= P -> P + R < 4294967296 ->
  0 <= pl <= 65535 ->
  exists s' d' pl', gnc_min_cmd A s d P R pl = Some (s', d', pl') /\
    (s' = s /\ d' = d /\ pl' = pl /\ (MIN_CMD_TICKS A <= d \/ MIN_CMD_TICKS A <= d * pl)
     \/
     s' = DEC /\ d' = (MIN_CMD_TICKS A + R - 1) / R /\ pl' = R /\
       d < MIN_CMD_TICKS A /\ d * pl < MIN_CMD_TICKS A /\
       R <= 2 * MIN_CMD_TICKS A /\ 1 <= d' <= MIN_CMD_TICKS A /\ MIN_CMD_TICKS A <= d' * R /\
       R <= 2 * Z.max pl ((MIN_CMD_TICKS A + d - 1) / d)
     \/
     (s' = s /\ P + pl' <= R \/ s' = DEC /\ R < P + pl') /\ d' = d /\
       d < MIN_CMD_TICKS A /\ d * pl < MIN_CMD_TICKS A /\
       pl' = Z.max pl ((MIN_CMD_TICKS A + d - 1) / d) /\
       2 * pl' < R /\ MIN_CMD_TICKS A <= d * pl' /\ 1 <= pl' <= MIN_CMD_TICKS A).
Proof.
  intros Hd HR HP HPR Hpl. unfold gnc_min_cmd. pose proof min_cmd_bounds as HM.
  set (N := MIN_CMD_TICKS A) in *.
  destruct (Z.ltb_spec d N) as [Ld|Ld]; cbn [andb].
  2:{ exists s, d, pl. split; [reflexivity|]. left. auto. }
  assert (W : u32 (d * pl) = d * pl) by (apply u32_id; nia).
  rewrite W.
  destruct (Z.ltb_spec (d * pl) N) as [Lp|Lp].
  2:{ exists s, d, pl. split; [reflexivity|]. left. auto. }
  destruct (Z.eqb_spec d 0); [lia|]. cbv zeta.
  rewrite (u16_id (N + d - 1)) by lia.
  set (k := (N + d - 1) / d).
  assert (K : N <= d * k /\ 1 <= k <= N).
  { unfold k. pose proof (Z.mul_succ_div_gt (N + d - 1) d ltac:(lia)).
    split; [lia|]. split.
    - apply Z.div_le_lower_bound; lia.
    - apply Z.div_le_upper_bound; nia. }
  assert (PN : pl <= N) by nia.
  destruct (Z.geb_spec k R) as [Lk|Lk].
  - (* steps >= R *)
    rewrite fas_max_spec. rewrite (u16_id R) by lia.
    destruct (Z.geb_spec (2 * Z.max R k) R); [|lia].
    exists DEC, (u32 (N + R - 1) / R), R. split; [reflexivity|]. right. left.
    rewrite u32_id by lia.
    pose proof (Z.mul_succ_div_gt (N + R - 1) R ltac:(lia)).
    assert (1 <= (N + R - 1) / R) by (apply Z.div_le_lower_bound; lia).
    assert ((N + R - 1) / R <= N) by (apply Z.div_le_upper_bound; nia).
    repeat split; lia.
  - rewrite fas_max_spec.
    destruct (Z.geb_spec (2 * Z.max pl k) R) as [L2|L2].
    + rewrite (u16_id R) by lia.
      exists DEC, (u32 (N + R - 1) / R), R. split; [reflexivity|]. right. left.
      rewrite u32_id by lia.
      pose proof (Z.mul_succ_div_gt (N + R - 1) R ltac:(lia)).
      assert (1 <= (N + R - 1) / R) by (apply Z.div_le_lower_bound; lia).
      assert ((N + R - 1) / R <= N) by (apply Z.div_le_upper_bound; nia).
      repeat split; lia.
    + rewrite u32_id by lia.
      assert (Q : N <= d * Z.max pl k).
      { apply Z.le_trans with (d * k); [lia|]. apply Z.mul_le_mono_nonneg_l; lia. }
      destruct (Z.ltb_spec R (P + Z.max pl k)); eexists _, _, _; (split; [reflexivity|]);
        right; right.
      * split; [right; split; [reflexivity|lia]|]. repeat split; lia.
      * split; [left; split; [reflexivity|lia]|]. repeat split; lia.
Qed.

(** splitting of long periods *)
Lemma split_spec next R pl : 1 <= next < 4294967296 -> 1 <= R -> 0 <= pl <= 65535 ->
  exists steps t pause, gnc_split next R pl = (steps, t, pause) /\
    1 <= steps <= 255 /\ steps <= R /\ 1 <= t <= 65535 /\ 0 <= pause /\ t + pause = next /\
    (next <= 65535 /\ pause = 0 /\ steps = Z.min 255 (Z.max 1 (Z.min pl R)) \/
     65535 < next /\ steps = 1 /\ 32767 <= t /\ 32767 <= pause).
Proof.
  intros Hn HR Hpl. unfold gnc_split.
  rewrite !fas_min_spec, fas_max_spec. rewrite (u16_id (Z.min pl R)) by lia.
  rewrite Z.shiftr_div_pow2 by lia. change (2 ^ 1) with 2.
  destruct (Z.gtb_spec next 65535).
  - assert (32768 <= next / 2) by (apply Z.div_le_lower_bound; lia).
    pose proof (Z.mul_div_le next 2 ltac:(lia)).
    eexists _, _, _. split; [reflexivity|]. repeat split; try lia.
  - eexists _, _, _. split; [reflexivity|]. repeat split; try lia.
Qed.

(** new ramp step counter *)
Lemma prus_spec c s P R steps t : 0 <= P -> 1 <= steps <= R -> P + R < 2147483648 ->
  0 <= max_ramp_up_steps c < 4294967296 ->
  let X := max_ramp_up_steps c in
  exists P' t', gnc_prus c s P R steps t = (P', t') /\
  match s with
  | ACC => P' = P + steps /\ t' = t
  | COAST => P' = P /\ t' = t
  | _ =>
    P < steps /\ P' = 0 /\ t' = t \/
    steps <= P /\ X < P /\ P' = P - steps /\ t' = t \/
    steps <= P /\ P = X /\ u32 (X + steps) <= R /\ P' = X /\ t' = min_travel_ticks (parameters c) \/
    steps <= P /\ P <= X /\ P < R /\ R - P < steps /\ P' = R - steps /\ t' = t \/
    steps <= P /\ P <= X /\ P < R /\ steps <= R - P /\ P' = P /\ t' = t \/
    steps <= P /\ P <= X /\ R <= P /\ P' = P - steps /\ t' = t
  end.
Proof.
  intros HP Hs HPR HX X. unfold gnc_prus. fold X.
  assert (W : u32 (P + steps) = P + steps) by (apply u32_id; lia).
  assert (D : forall s, s = DEC \/ s = REV -> accelerating s = false /\ decelerating s = true)
    by (intros ? [->| ->]; auto).
  assert (Main : exists P' t',
    (if P <? steps then (0, t)
     else if P >? X then (P - steps, t)
     else if (P >=? X) && (u32 (X + steps) <=? R) && (P - steps <? X)
          then (X, min_travel_ticks (parameters c))
     else if R >? P then ((if R - P <? steps then R - steps else P), t)
     else (P - steps, t)) = (P', t') /\
    (P < steps /\ P' = 0 /\ t' = t \/
    steps <= P /\ X < P /\ P' = P - steps /\ t' = t \/
    steps <= P /\ P = X /\ u32 (X + steps) <= R /\ P' = X /\ t' = min_travel_ticks (parameters c) \/
    steps <= P /\ P <= X /\ P < R /\ R - P < steps /\ P' = R - steps /\ t' = t \/
    steps <= P /\ P <= X /\ P < R /\ steps <= R - P /\ P' = P /\ t' = t \/
    steps <= P /\ P <= X /\ R <= P /\ P' = P - steps /\ t' = t)).
  { destruct (Z.ltb_spec P steps); [eexists _, _; split; [reflexivity|lia]|].
    destruct (Z.gtb_spec P X); [eexists _, _; split; [reflexivity|lia]|].
    destruct (Z.geb_spec P X); cbn [andb].
    - destruct (Z.leb_spec (u32 (X + steps)) R); cbn [andb].
      + destruct (Z.ltb_spec (P - steps) X); [eexists _, _; split; [reflexivity|lia]|lia].
      + destruct (Z.gtb_spec R P); [|eexists _, _; split; [reflexivity|lia]].
        destruct (Z.ltb_spec (R - P) steps); eexists _, _; split; try reflexivity; lia.
    - destruct (Z.gtb_spec R P); [|eexists _, _; split; [reflexivity|lia]].
      destruct (Z.ltb_spec (R - P) steps); eexists _, _; split; try reflexivity; lia. }
  destruct s; cbn [accelerating decelerating].
  - eexists _, _; split; [reflexivity|]. auto.
  - eexists _, _; split; [reflexivity|]. auto.
  - exact Main.
  - exact Main.
Qed.

Lemma clip_spec s d C : gnc_clip s d C =
  if C =? TICKS_FOR_STOPPED_MOTOR then d
  else match s with ACC => Z.min d C | COAST => d | _ => Z.max d C end.
Proof.
  unfold gnc_clip. rewrite fas_min_spec, fas_max_spec.
  destruct (C =? TICKS_FOR_STOPPED_MOTOR), s; reflexivity.
Qed.

(** ** One step of the ramp *)
Definition calc_pos (c : config) (N : Z) : Prop :=
  forall s, 1 <= s <= N -> 1 <= calculate_ticks A c s.

(** no period exceeds about one minute *)
Definition calc_le (c : config) : Prop :=
  forall s, 1 <= s < 4294967296 -> calculate_ticks A c s <= 1073741824.

(** keeps case distinctions away from [lia] *)
Definition hide (P : Prop) := P.
Lemma hide_intro (P : Prop) : P -> hide P.
Proof. exact (fun h => h). Qed.
Opaque hide.
Lemma hide_elim (P : Prop) : hide P -> P.
Proof. Transparent hide. exact (fun h => h). Qed.
Opaque hide.

Lemma calc_range c s : 0 <= calculate_ticks A c s < 4294967296.
Proof.
  unfold calculate_ticks. destruct (_ >=? _); apply to_u32_range.
Qed.

Lemma new_ticks_dec_pos c s C P R pl o d : 1 <= min_travel_ticks (parameters c) < 4294967296 ->
  calc_pos c (Z.max P pl) -> s = DEC \/ s = REV -> 0 <= P -> 1 <= pl ->
  gnc_new_ticks A c s C P R pl o = (d, pl) -> P < 4294967296 -> pl < 4294967296 ->
  1 <= d < 4294967296 /\
  (calc_le c -> min_travel_ticks (parameters c) <= 1073741824 -> d <= 1073741824).
Proof.
  intros HM Hc Hs HP Hpl E HP2 Hpl2.
  destruct (new_ticks_dec c s C P R pl o Hs HP Hpl) as (d0 & E0 & Hd).
  rewrite E in E0. injection E0 as ->. cbv zeta in Hd.
  destruct Hd as [[_ ->]|(_ & rs & _ & Hrs & [->|(_ & _ & ->)])]; [lia| |lia].
  split; [split; [apply Hc; lia|apply calc_range]|].
  intros Hle _. apply Hle. lia.
Qed.

(** state of a deceleration to standstill: moving away from the target or too
    close to it, or exactly on the deceleration ramp *)
Lemma core_back c C P R same :
  let M := min_travel_ticks (parameters c) in
  1 <= M < 4294967296 -> 1 <= C < 4294967296 -> 1 <= P < 1073741824 ->
  0 <= max_ramp_up_steps c < 4294967296 ->
  calc_pos c (Z.max P 42000) ->
  (same = false \/ R <= P) ->
  exists o, core c C P R same = Some o /\ (o_s o = DEC \/ o_s o = REV) /\
    1 <= o_steps o <= 255 /\ o_steps o <= P /\ o_P o = P - o_steps o /\
    1 <= o_ticks o <= 65535 /\ 0 <= o_pause o /\ o_ticks o + o_pause o < 4294967296 /\
    (C <> TICKS_FOR_STOPPED_MOTOR -> C <= o_ticks o + o_pause o) /\
    (o_pause o <> 0 -> o_steps o = 1 /\ 32767 <= o_ticks o /\ 32767 <= o_pause o) /\
    (calc_le c -> M <= 1073741824 -> C = TICKS_FOR_STOPPED_MOTOR \/ C <= 2147483648 ->
     o_ticks o + o_pause o <= 2147483648).
Proof.
  intros M HM HC HP HX Hc Hcase. unfold core.
  destruct (planning_spec C HC) as (o & -> & Ho & _ & _).
  assert (E : exists s, (s = DEC \/ s = REV) /\ gnc_choose A M C P R same o = (s, P, o)).
  { destruct same; [|exists REV; auto].
    destruct (Z.eq_dec R P) as [->|]; [exists DEC; split; [auto|apply choose_equal]|].
    exists REV. split; [auto|]. apply choose_below. destruct Hcase; [discriminate|lia]. }
  clear Hcase. destruct E as (s & Hs & E). fold M. rewrite E.
  destruct (new_ticks_dec c s C P P o o Hs ltac:(lia) ltac:(lia)) as (d & Ed & _).
  rewrite Ed.
  assert (Hd1 : 1 <= d < 4294967296 /\ (calc_le c -> M <= 1073741824 -> d <= 1073741824)).
  { eapply new_ticks_dec_pos with (P := P) (pl := o); try eassumption; try lia.
    intros z Hz. apply Hc. lia. }
  destruct Hd1 as [Hd1 HdU].
  destruct (min_cmd_spec s d P P o Hd1 ltac:(lia) ltac:(lia) ltac:(lia) ltac:(lia))
    as (s' & d' & pl' & -> & Hm).
  pose proof min_cmd_bounds as HN.
  assert (Hs' : s' = DEC \/ s' = REV) by (clear - Hm Hs; intuition congruence).
  assert (Hd' : 1 <= d' < 4294967296 /\ 0 <= pl' <= 65535 /\ (d' = d \/ d' <= 4200))
    by (clear - Hm Hd1 HN Ho; lia).
  clear Hm. rewrite clip_spec.
  set (next := if C =? TICKS_FOR_STOPPED_MOTOR then d' else _).
  assert (Hn : 1 <= next < 4294967296 /\ (C <> TICKS_FOR_STOPPED_MOTOR -> C <= next) /\
    (next = d' \/ C <> TICKS_FOR_STOPPED_MOTOR /\ next = C)).
  { clear - Hs' Hd' HC. unfold next. destruct (Z.eqb_spec C TICKS_FOR_STOPPED_MOTOR); [lia|].
    destruct Hs' as [->| ->]; lia. }
  destruct (split_spec next P pl' ltac:(clear - Hn; lia) ltac:(lia) ltac:(clear - Hd'; lia))
    as (steps & t & pause & -> & B1 & B2 & B3 & B4 & B5 & B6).
  apply hide_intro in B6. clearbody next.
  destruct (prus_spec c s' P P steps t ltac:(lia) ltac:(lia) ltac:(lia) HX)
    as (P' & t' & -> & Hp).
  eexists. split; [reflexivity|]. cbn [o_s o_steps o_ticks o_pause o_P].
  assert (HP' : P' = P - steps /\ t' = t).
  { clear - Hp Hs' B1 B2 HP.
    assert (Q : max_ramp_up_steps c = P -> u32 (max_ramp_up_steps c + steps) = P + steps).
    { intros ->. apply u32_id. lia. }
    destruct Hs' as [->| ->]; lia. }
  clear Hp. destruct HP' as [-> ->].
  split; [exact Hs'|]. clear Hs'. repeat (apply conj); try lia.
  intros N. apply hide_elim in B6. lia.
Qed.

(** distance larger than the deceleration ramp *)
Lemma core_ahead c C P R :
  let M := min_travel_ticks (parameters c) in
  2 <= M < 4294967296 -> 1 <= C < 4294967296 -> 0 <= P < R -> P + R < 2147483648 ->
  0 <= max_ramp_up_steps c < 4294967296 ->
  calc_pos c (Z.max P 42000) ->
  exists o, core c C P R true = Some o /\ o_s o <> REV /\
    1 <= o_steps o <= 255 /\ o_steps o <= R /\ 0 <= o_P o /\
    (o_s o = ACC /\ o_P o = P + o_steps o /\ (o_steps o < R \/ P = 0 /\ R = 1) \/
     o_s o = COAST /\ o_P o = P /\ o_steps o <= R - P \/
     o_s o = DEC /\ o_P o <= P /\ o_P o <= R - o_steps o) /\
    0 <= o_pause o < 4294967296 /\
    (o_pause o <> 0 -> o_steps o = 1 /\ 32767 <= o_pause o) /\
    (1 <= o_ticks o <= 65535 /\ o_ticks o + o_pause o < 4294967296 /\
       (o_pause o <> 0 -> 32767 <= o_ticks o) \/
     o_s o = DEC /\ o_ticks o = M /\ o_P o = P /\ P = max_ramp_up_steps c /\
     (C < M \/ M < 2 * MIN_CMD_TICKS A)) /\
    (calc_le c -> M <= 1073741824 -> C = TICKS_FOR_STOPPED_MOTOR \/ C <= 2147483648 ->
     o_ticks o + o_pause o <= 2147483648) /\
    ((C = TICKS_FOR_STOPPED_MOTOR -> M < 4294967295 /\
        (MIN_CMD_TICKS A <= M \/ P = 0 /\ MIN_CMD_TICKS A <= calculate_ticks A c 1)) ->
     Z.min M C <= o_ticks o + o_pause o) /\
    (MIN_CMD_TICKS A <= M -> M <= C ->
     o_steps o + o_P o <= R \/ R - P = 1 /\ C = TICKS_FOR_STOPPED_MOTOR).
Proof.
  intros M HM HC HP HPR HX Hc. unfold core.
  destruct (planning_spec C HC) as (o & -> & Ho & Hp1 & Hp2).
  assert (Ho2 : C < 2 * MIN_CMD_TICKS A -> 2 <= o).
  { clear - Hp2 HA. pose proof arch_nums. intros. apply Hp2. lia. }
  assert (Ho1 : C = TICKS_FOR_STOPPED_MOTOR -> o = 1).
  { clear - Hp1 HA. pose proof arch_nums. intros ->. apply Hp1. unfold TICKS_FOR_STOPPED_MOTOR. lia. }
  assert (HoC : o = 1 \/ o * C <= 42000).
  { destruct (Z.lt_ge_cases C (TICKS_PER_S A / 1000)) as [L|L].
    - right. apply Hp2, L. - left. apply Hp1, L. }
  clear Hp1 Hp2.
  destruct (choose_ahead M C P R o HP ltac:(lia) Ho ltac:(lia) HoC)
    as (s & pl & E & Hs & Hpl & Ha & Hco & Hdec). clear HoC.
  fold M. rewrite E. pose proof min_cmd_bounds as HN.
  (* new period *)
  assert (N : exists d pl', gnc_new_ticks A c s C P R pl o = (d, pl') /\
      1 <= d < 4294967296 /\ 1 <= pl' <= 42000 /\
      (s = ACC -> (pl' <= 255 -> pl' < R \/ P = 0 /\ R = 1 /\ pl' = 1) /\ (255 < pl' -> 255 < R)) /\
      (s = COAST -> pl' <= R - P) /\
      (M < 4294967295 -> s = COAST /\ d = C /\ C <> TICKS_FOR_STOPPED_MOTOR \/
       (calc_le c -> M <= 1073741824 -> d <= 1073741824)) /\
      (d < MIN_CMD_TICKS A -> M < MIN_CMD_TICKS A \/ s = DEC) /\
      (s = ACC -> M <= d) /\ (s = COAST -> d = C) /\
      (s = ACC -> P = 0 -> C = TICKS_FOR_STOPPED_MOTOR -> calculate_ticks A c 1 <= d) /\
      (s = ACC -> 2 * Z.min 255 pl' <= R - P \/ R - P = 1 /\ C = TICKS_FOR_STOPPED_MOTOR)).
  { destruct s.
    - (* COAST *)
      destruct (new_ticks_coast c C P R pl o HP ltac:(lia)) as (pl' & -> & H).
      exists C, pl'. destruct (Hco eq_refl) as (K0 & K & K1). clear - H HC Hpl K0 K K1 HP.
      split; [reflexivity|].
      repeat split; try lia; try discriminate.
      intros HM1. left. auto.
    - destruct (new_ticks_acc c C P R pl o HP ltac:(lia)) as (pl' & -> & H).
      eexists _, pl'. split; [reflexivity|].
      destruct (Ha eq_refl) as (-> & _ & Ha1 & Ha2).
      pose proof (calc_range c (u32 (P + pl'))).
      pose proof (Z.mul_div_le (R - P) 2 ltac:(lia)).
      pose proof (Z.mul_succ_div_gt (R - P) 2 ltac:(lia)).
      fold M. clear - H HM Ho HP HPR H0 H1 H2 Ha1 Ha2 Ho1 Ho2 HC.
      repeat split; try lia; try discriminate.
      2:{ intros _ -> EC. specialize (Ho1 EC).
          assert (pl' = 1) as -> by lia. cbn -[calculate_ticks Z.max]. lia. }

      intros _. right. intros Hle HM2. specialize (Hle (u32 (P + pl'))).
      rewrite u32_id in * by lia. lia.
    - destruct (new_ticks_dec c DEC C P R pl o ltac:(auto) ltac:(lia) ltac:(lia)) as (d & Ed & _).
      exists d, pl. split; [exact Ed|].
      assert (Hdd : 1 <= d < 4294967296 /\ (calc_le c -> M <= 1073741824 -> d <= 1073741824)).
      { refine (new_ticks_dec_pos c DEC C P R pl o d _ _ (or_introl eq_refl) _ _ Ed _ _);
          [fold M; lia| |lia|lia|lia|lia].
        intros z Hz. apply Hc. lia. }
      destruct Hdd as [Hdd1 Hdd2].
      repeat split; try lia; try discriminate; auto.
    - congruence. }
  destruct N as (d & pl1 & -> & Hd1 & Hpl1 & Hacc & Hcoast & HdU & HdM & HaM & HcC & HaS & HaO).
  assert (Hdec' : s = DEC -> C < M \/ M < 2 * MIN_CMD_TICKS A) by (clear - Hdec HN; intros K; specialize (Hdec K); lia).
  assert (HnC : s <> COAST -> s = DEC \/ M < C).
  { clear - Hs Ha. destruct s; intros; auto; try congruence. destruct (Ha eq_refl) as (_ & ? & _). auto. }
  assert (HnC2 : s = COAST -> M <= C) by (clear - Hco; intros K; destruct (Hco K); assumption).
  assert (HnS : s = COAST -> M < 4294967295 -> C <> TICKS_FOR_STOPPED_MOTOR).
  { clear - Hco. intros K K1. destruct (Hco K) as (_ & _ & K2). auto. }
  assert (HnD : s = DEC -> C < 2 * MIN_CMD_TICKS A \/ C < M).
  { clear - Hdec HN. intros K. specialize (Hdec K). lia. }
  clear Ha Hco Hdec. clear Hpl E pl.
  destruct (min_cmd_spec s d P R pl1 Hd1 ltac:(lia) ltac:(lia) ltac:(lia) ltac:(lia))
    as (s' & d' & pl' & -> & Hm).
  assert (Hs' : s' <> REV).
  { clear - Hm Hs. destruct Hm as [Hm|[Hm|Hm]]; [| |destruct Hm as [[Hm|Hm] _]];
      destruct Hm as (-> & _); congruence. }
  assert (Hd' : 1 <= d' < 4294967296 /\ 0 <= pl' <= 65535) by (clear - Hm Hd1 HN Ho Hpl1; lia).
  assert (Hacc' : s' = ACC -> (pl' <= 255 -> pl' < R \/ P = 0 /\ R = 1 /\ pl' = 1) /\ (255 < pl' -> 255 < R)).
  { intros ->. destruct Hm as [(Es & _ & -> & _)|[(? & _)|([[Es ?]|[? _]] & _ & _ & _ & _ & Hm)]];
      [|discriminate| |discriminate].
    - apply Hacc. congruence.
    - clear - Hm. lia. }
  assert (Hcoast' : s' = COAST -> pl' <= R - P).
  { intros ->. destruct Hm as [(Es & _ & -> & _)|[(? & _)|([[Es ?]|[? _]] & _)]];
      [|discriminate| |discriminate].
    - apply Hcoast. congruence.
    - lia. }
  assert (HD : s' = DEC -> C < M \/ M < 2 * MIN_CMD_TICKS A).
  { intros ->.
    assert (Q : s = DEC \/ d < MIN_CMD_TICKS A).
    { destruct Hm as [(Es & _)|[(_ & _ & _ & ? & _)|(_ & _ & ? & _)]]; auto. }
    destruct Q as [Q|Q]; [auto|]. destruct (HdM Q) as [K|K]; [right; clear - K HN; lia|auto]. }
  assert (Hd'' : d' = d \/ d' <= 4200) by (clear - Hm HN; lia).
  assert (Hd3 : s' = ACC \/ s' = COAST -> d' = d /\ s' = s).
  { clear - Hm. intros K. destruct Hm as [(? & ? & _)|[(? & _)|([(? & _)|(? & _)] & ? & _)]]; auto;
      destruct K; congruence. }
  assert (Hd4 : MIN_CMD_TICKS A <= d -> d' = d /\ pl' = pl1 /\ s' = s).
  { clear - Hm. intros K. destruct Hm as [(? & ? & ? & _)|[(_ & _ & _ & ? & _)|(_ & _ & ? & _)]]; auto; lia. }
  assert (Hs2 : s' = DEC \/ s' = s).
  { destruct Hm as [(? & _)|[(? & _)|([(? & _)|(? & _)] & _)]]; auto. }
  clear Hacc Hcoast Hm. rewrite clip_spec.
  set (next := if C =? TICKS_FOR_STOPPED_MOTOR then d' else _).
  assert (Hn : 1 <= next < 4294967296).
  { clear - Hs' Hd' HC. unfold next. destruct (Z.eqb_spec C TICKS_FOR_STOPPED_MOTOR); [lia|].
    destruct s'; lia. }
  destruct (split_spec next R pl' ltac:(clear - Hn; lia) ltac:(lia) ltac:(clear - Hd'; lia))
    as (steps & t & pause & -> & B1 & B2 & B3 & B4 & B5 & B6).
  assert (HnU : calc_le c -> M <= 1073741824 -> C = TICKS_FOR_STOPPED_MOTOR \/ C <= 2147483648 ->
     next <= 2147483648 /\ (C < M -> next <= 1073741824)).
  { intros Hle HM2 HC2. specialize (HdU ltac:(lia)).
    unfold next. clear - HdU Hle HM2 HC2 Hd'' HnC HnC2 Hs2 Hs' Hs.
    destruct (Z.eqb_spec C TICKS_FOR_STOPPED_MOTOR) as [EC|NC].
    - destruct HdU as [(_ & _ & ?)|HdU]; [lia|]. specialize (HdU Hle HM2). lia.
    - destruct HdU as [(E1 & E2 & _)|HdU].
      + specialize (HnC2 E1). destruct s'; lia.
      + specialize (HdU Hle HM2). destruct s'; lia. }
  assert (HnL : (C = TICKS_FOR_STOPPED_MOTOR -> M < 4294967295 /\
        (MIN_CMD_TICKS A <= M \/ P = 0 /\ MIN_CMD_TICKS A <= calculate_ticks A c 1)) ->
     Z.min M C <= next).
  { intros K. unfold next.
    destruct (Z.eqb_spec C TICKS_FOR_STOPPED_MOTOR) as [EC|NC].
    - destruct (K EC) as (K0 & K1). clear K.
      assert (s = ACC) as ->.
      { specialize (HdU K0). destruct s; try congruence.
        - exfalso. apply (HnS eq_refl K0 EC).
        - exfalso. unfold TICKS_FOR_STOPPED_MOTOR in EC. clear - HnD EC K0 HN. specialize (HnD eq_refl). lia. }
      specialize (HaM eq_refl).
      assert (MIN_CMD_TICKS A <= d).
      { destruct K1 as [K1|(K1 & K2)]; [lia|]. specialize (HaS eq_refl K1 EC). lia. }
      destruct (Hd4 H) as (-> & _). clear - HaM. lia.
    - destruct s'.
      + destruct (Hd3 (or_intror eq_refl)) as (-> & <-). rewrite (HcC eq_refl). clear. lia.
      + destruct (Hd3 (or_introl eq_refl)) as (-> & <-). specialize (HaM eq_refl). clear - HaM. lia.
      + clear. lia.
      + congruence. }
  clearbody next.
  assert (B7 : 1 <= steps <= Z.max 1 pl' /\ (steps < 255 -> 65535 < next \/ steps = Z.max 1 (Z.min pl' R))
     /\ (pause <> 0 -> steps = 1 /\ 32767 <= pause /\ 32767 <= t)) by (clear - B6 B1; lia).
  clear B6.
  destruct (prus_spec c s' P R steps t ltac:(lia) ltac:(lia) ltac:(lia) HX)
    as (P' & t' & -> & Hp).
  eexists. split; [reflexivity|]. cbn [o_s o_steps o_ticks o_pause o_P].
  split; [exact Hs'|]. split; [clear - B1; lia|]. split; [clear - B2; lia|].
  assert (K : 0 <= P' /\ (s' = ACC /\ P' = P + steps /\ (steps < R \/ P = 0 /\ R = 1) \/
   s' = COAST /\ P' = P /\ steps <= R - P \/ s' = DEC /\ P' <= P /\ P' <= R - steps) /\
   (t' = t \/ s' = DEC /\ t' = M /\ P' = P /\ P = max_ramp_up_steps c /\ (C < M \/ M < 2 * MIN_CMD_TICKS A))).
  { destruct s'; [| | |congruence].
    - specialize (Hcoast' eq_refl). destruct Hp as (-> & ->).
      clear - Hcoast' B1 B7 HP.
      split; [lia|]. split; [right; left; repeat split; lia|left; reflexivity].
    - specialize (Hacc' eq_refl). destruct Hp as (-> & ->).
      clear - Hacc' B1 B7 HP.
      split; [lia|]. split; [left; repeat split; lia|left; reflexivity].
    - specialize (HD eq_refl). clear - Hp HP B1 B2 HPR HD.
      assert (Q : max_ramp_up_steps c = P -> u32 (max_ramp_up_steps c + steps) = P + steps).
      { intros ->. apply u32_id. lia. }
      assert (R1 : 0 <= P' /\ P' <= P /\ P' <= R - steps /\ (t' = t \/ t' = M /\ P' = P /\ P = max_ramp_up_steps c))
        by (clear - Hp Q B1 B2 HP; fold M in Hp; lia).
      clear Hp. destruct R1 as (R1 & R2 & R3 & R4). split; [lia|].
      split; [right; right; repeat split; lia|].
      destruct R4 as [R4|(R4 & R5 & R6)]; [left; lia|right; auto]. }
  clear Hp. destruct K as (K1 & K2 & K3). split; [exact K1|]. split; [exact K2|].
  assert (HO : MIN_CMD_TICKS A <= M -> M <= C ->
     steps + P' <= R \/ R - P = 1 /\ C = TICKS_FOR_STOPPED_MOTOR).
  { intros L1 L2. destruct K2 as [(-> & -> & _)|[(-> & -> & G)|(-> & _ & G)]]; [|left; clear - G; lia|left; clear - G; lia].
    destruct (Hd3 (or_introl eq_refl)) as (_ & <-).
    specialize (HaM eq_refl). destruct (Hd4 ltac:(clear - HaM L1; lia)) as (_ & -> & _).
    destruct (HaO eq_refl) as [K|K]; [left|right; exact K].
    clear - K B7 B1 Hpl1. lia. }
  clear K2.
  split; [clear - B3 B4 B5 Hn; lia|]. split; [clear - B7; lia|].
  split; [|split; [|split]].
  - destruct K3 as [->|K3]; [left|right; exact K3].
    clear - B3 B4 B5 Hn B7. repeat split; lia.
  - intros Hle HM2 HC2. specialize (HnU Hle HM2 HC2).
    clear - HnU K3 HM2 B3 B4 B5 B7 HN.
    destruct K3 as [->|(_ & -> & _ & _ & K3)]; [lia|].
    destruct (Z.eq_dec pause 0); lia.
  - intros K. specialize (HnL K). clear - HnL K3 B3 B4 B5.
    destruct K3 as [->|(_ & -> & _)]; lia.
  - exact HO.
Qed.
End WithArch.
