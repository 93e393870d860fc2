(** * UserShift: a change of the origin does not influence the motion *)
From Coq Require Import ZArith Bool List Lia ZifyBool.
From Verif Require Import Base Pmf RampCalc RampGen RampStep RampRun RampMove Queue Stepper UserRamp.
Import ListNotations.
Open Scope Z_scope.
Ltac Zify.zify_post_hook ::= idtac.
Ltac splits := repeat match goal with |- _ /\ _ => split end.

(** the planned position moved by [k] *)
Definition shift_end (k : Z) (qe : queue_end) : queue_end := mkQueueEnd (i32 (qe_pos qe + k)) (qe_up qe) (qe_dir qe).
(** no call of moveTo() waits to be taken over *)
Definition no_absolute (g : rampgen) : Prop :=
  (apply (rg_params g) = false \/ move_absolute (rg_params g) = false)
  /\ (any_change (parameters (ro_config (rg_ro g))) = false \/ move_absolute (parameters (ro_config (rg_ro g))) = false).

Lemma u32_add x k : u32 (u32 x + k) = u32 (x + k).
Proof. unfold u32. apply Zplus_mod_idemp_l. Qed.
Lemma u32_sub x k : u32 (u32 x - k) = u32 (x - k).
Proof. apply (u32_add x (- k)). Qed.
Lemma u32_i32 x : u32 (i32 x) = u32 x.
Proof.
  unfold u32, i32. rewrite Zminus_mod_idemp_l. f_equal. lia.
Qed.
Lemma shift_delta t k p : i32 (u32 (t + k) - i32 (p + k)) = i32 (t - p).
Proof.
  rewrite <- (i32_u32 (u32 (t + k) - _)), u32_sub.
  replace (u32 (t + k - i32 (p + k))) with (u32 (t - p)); [apply i32_u32|].
  rewrite <- (u32_i32 (p + k)) at 1 || idtac.
  unfold u32, i32.
  replace (t + k - ((p + k + 2147483648) mod 4294967296 - 2147483648))
    with (t + k + 2147483648 - (p + k + 2147483648) mod 4294967296) by lia.
  rewrite Zminus_mod_idemp_r. f_equal. lia.
Qed.

Section WithArch.
Variable A : arch.
Notation adv := rg_advanceTargetPosition.

Definition adv_ro (k : Z) (ro : ramp_ro) : ramp_ro := set_target (u32 (ro_target_pos ro + k)) ro.
Lemma adv_eq k g : adv k g = with_ro (adv_ro k (rg_ro g)) g. Proof. reflexivity. Qed.

Lemma take_shift k g : no_absolute g -> rg_take_parameters A (adv k g) = adv k (rg_take_parameters A g)
  /\ no_absolute (rg_take_parameters A g).
Proof.
  intros [H1 H2]. unfold rg_take_parameters. destruct g as [p ro rw ac]. cbn [rg_params rg_ro rg_rw rg_acceleration] in *.
  change (rg_params (adv k (mkRg p ro rw ac))) with p. cbv zeta. destruct (apply p) eqn:EA.
  - destruct H1 as [H1|H1]; [discriminate|]. rewrite H1. split.
    + destruct ro as [c t fs fi]. unfold rg_advanceTargetPosition. cbn. destruct fi; [|reflexivity].
      destruct (negb (move_value p =? 0)); reflexivity.
    + split; [right; reflexivity|]. destruct ro as [c t fs fi]. cbn [set_config ro_config ro_force_immediate]. right.
      destruct fi; [destruct (negb (move_value p =? 0))|];
        cbn [rg_ro set_immediate set_config ro_config]; rewrite update_params; exact H1.
  - split; [reflexivity|]. split; [left; exact EA|exact H2].
Qed.
Lemma adjust_shift k g : rg_adjust_prus A (adv k g) = adv k (rg_adjust_prus A g)
  /\ (no_absolute g -> no_absolute (rg_adjust_prus A g)).
Proof.
  unfold rg_adjust_prus. destruct g as [p [c t fs fi] rw ac]. unfold rg_advanceTargetPosition, no_absolute. cbn [rg_params rg_ro rg_rw rg_acceleration with_ro set_target ro_config].
  destruct (rw_curr_ticks rw =? TICKS_FOR_STOPPED_MOTOR); cbn -[calculate_ramp_steps calculate_ticks u32];
    [|destruct (recalc_ramp_steps (parameters c))]; cbn -[calculate_ramp_steps calculate_ticks u32]; auto.
Qed.
Definition no_abs_ro (ro : ramp_ro) : Prop :=
  any_change (parameters (ro_config ro)) = false \/ move_absolute (parameters (ro_config ro)) = false.
Lemma target_shift k wk qe ro P : no_abs_ro ro ->
  rg_new_target wk (shift_end k qe) (adv_ro k ro) P = adv_ro k (rg_new_target wk qe ro P)
  /\ no_abs_ro (rg_new_target wk qe ro P).
Proof.
  unfold no_abs_ro. destruct ro as [c t fs fi]. intros H. unfold rg_new_target, adv_ro. cbv zeta.
  cbn [set_target ro_config ro_target_pos ro_force_stop ro_force_immediate qe_up qe_pos shift_end] in *. destruct fs.
  - assert (E1 : u32 (u32 (i32 (qe_pos qe + k)) + P) = u32 (u32 (u32 (qe_pos qe) + P) + k)).
    { rewrite u32_i32, (u32_add (qe_pos qe + k)), (u32_add (qe_pos qe) P), u32_add. f_equal. lia. }
    assert (E2 : u32 (u32 (i32 (qe_pos qe + k)) - P) = u32 (u32 (u32 (qe_pos qe) - P) + k)).
    { rewrite u32_i32, (u32_sub (qe_pos qe + k)), (u32_sub (qe_pos qe) P), u32_add. f_equal. lia. }
    destruct (qe_up qe); cbn -[u32 i32]; (split; [|exact H]); rewrite ?E1, ?E2; reflexivity.
  - destruct (any_change (parameters c)) eqn:EC; [|cbn -[u32 i32]; rewrite EC; auto].
    destruct H as [H|H]; [discriminate|]. rewrite H.
    destruct (keep_running (parameters c)); [cbn -[u32 i32]; auto|].
    set (m := move_value (parameters c)).
    assert (E1 : u32 (u32 (i32 (qe_pos qe + k)) + m) = u32 (u32 (u32 (qe_pos qe) + m) + k)).
    { rewrite u32_i32, (u32_add (qe_pos qe + k)), (u32_add (qe_pos qe) m), u32_add. f_equal. lia. }
    assert (E2 : u32 (u32 (t + k) + m) = u32 (u32 (t + m) + k)).
    { rewrite !u32_add. f_equal. lia. }
    destruct wk; cbn -[u32 i32 m]; (split; [|auto]); rewrite ?E1, ?E2; reflexivity.
Qed.
Lemma delta_shift k ro qe : gnc_delta (adv_ro k ro) (shift_end k qe) = gnc_delta ro qe.
Proof.
  unfold gnc_delta, adv_ro. cbn [set_target ro_config ro_target_pos qe_up qe_pos shift_end].
  rewrite shift_delta. reflexivity.
Qed.
Lemma gnc_shift k ro rw qe old : getNextCommand_ A (adv_ro k ro) rw (shift_end k qe) old = getNextCommand_ A ro rw qe old.
Proof. unfold getNextCommand_. rewrite delta_shift. reflexivity. Qed.
Lemma round_shift k qe old g : no_absolute g ->
  rg_getNextCommand A (shift_end k qe) old (adv k g)
  = match rg_getNextCommand A qe old g with Some (g', n) => Some (adv k g', n) | None => None end
  /\ (forall g' n, rg_getNextCommand A qe old g = Some (g', n) -> no_absolute g').
Proof.
  intros H. unfold rg_getNextCommand. cbv zeta.
  destruct (take_shift k g H) as [T1 T2]. rewrite T1. set (a := rg_take_parameters A g) in *. clearbody a.
  destruct (adjust_shift k a) as [S1 S2]. specialize (S2 T2). rewrite S1. set (b := rg_adjust_prus A a) in *. clearbody b.
  change (parameters (ro_config (rg_ro (adv k g)))) with (parameters (ro_config (rg_ro g))).
  set (wk := keep_running _). clearbody wk.
  change (rg_ro (adv k b)) with (adv_ro k (rg_ro b)). change (rg_rw (adv k b)) with (rg_rw b).
  destruct (target_shift k wk qe (rg_ro b) (rw_prus (rg_rw b)) (proj2 S2)) as [N1 N2]. rewrite N1.
  set (ro := rg_new_target wk qe (rg_ro b) (rw_prus (rg_rw b))) in *. clearbody ro.
  change (ro_force_immediate (adv_ro k ro)) with (ro_force_immediate ro).
  destruct (ro_force_immediate ro).
  - split.
    + cbn [with_ro rg_params rg_rw rg_acceleration shift_end qe_pos]. unfold rg_advanceTargetPosition. cbn -[u32 i32].
      rewrite u32_i32, u32_add. reflexivity.
    + intros g' n E. injection E as <- _. split; [exact (proj1 S2)|exact N2].
  - cbn [with_ro rg_rw]. rewrite gnc_shift. change (rg_rw (adv k b)) with (rg_rw b). destruct (getNextCommand_ A ro (rg_rw b) qe old); split; try reflexivity; try discriminate.
    intros g' n' E. injection E as <- _. split; [exact (proj1 S2)|exact N2].
Qed.
Lemma enqueue_shift k c qe : enqueue c (shift_end k qe) = shift_end k (enqueue c qe).
Proof.
  unfold enqueue, shift_end. cbn [qe_pos qe_up qe_dir]. f_equal.
  destruct (c_up c); [|rewrite <- !Z.add_opp_r]; rewrite !i32_add; f_equal; lia.
Qed.
Lemma run_shift strict k : forall n olds g qe, no_absolute g ->
  ramp_run A strict olds n (adv k g) (shift_end k qe)
  = match ramp_run A strict olds n g qe with Some (cs, g', qe') => Some (cs, adv k g', shift_end k qe') | None => None end.
Proof.
  induction n as [|n IH]; intros olds g qe H; cbn [ramp_run]; [reflexivity|].
  change (isRampGeneratorActive (adv k g)) with (isRampGeneratorActive g).
  destruct (isRampGeneratorActive g); [|reflexivity].
  unfold ramp_step. destruct (round_shift k qe (olds O) g H) as [R1 R2]. rewrite R1.
  destruct (rg_getNextCommand A qe (olds O) g) as [[g' m]|]; [|reflexivity]. specialize (R2 g' m eq_refl).
  change (rg_afterCommandEnqueued m (adv k g')) with (adv k (rg_afterCommandEnqueued m g')).
  change (rg_stopRamp (adv k g')) with (adv k (rg_stopRamp g')).
  destruct (c_ticks (n_cmd m) =? 0); [|destruct (strict && _)]; rewrite ?enqueue_shift, IH by exact R2;
    match goal with |- context [ramp_run A strict ?o n ?a ?b] => destruct (ramp_run A strict o n a b) as [[[]]|] end; reflexivity.
Qed.
(** setCurrentPosition(), setPositionAfterCommandsCompleted() *)
Lemma set_position_shift done_p pos s q : let r := s_setCurrentPosition A done_p pos s q in
  let k := pos - getCurrentPosition A done_p q in
  (i32 k <> 0 -> s_rg (fst r) = adv (i32 k) (s_rg s)) /\ (i32 k = 0 -> r = (s, q))
  /\ (i32 k <> 0 -> q_end (snd r) = shift_end (i32 k) (q_end q)).
Proof.
  unfold s_setCurrentPosition. cbv zeta. destruct (Z.eqb_spec (i32 (pos - getCurrentPosition A done_p q)) 0) as [E|E]; cbn [negb].
  - splits; intros; congruence.
  - splits; intros; try contradiction; reflexivity.
Qed.
Lemma position_after_shift pos s q : -2147483648 <= pos < 2147483648 ->
  let r := s_setPositionAfter pos s q in let k := i32 (pos - qe_pos (q_end q)) in
  (k <> 0 -> s_rg (fst r) = adv k (s_rg s)) /\ (k = 0 -> s_rg (fst r) = s_rg s)
  /\ q_end (snd r) = shift_end k (q_end q) /\ qe_pos (q_end (snd r)) = pos.
Proof.
  intros H. unfold s_setPositionAfter. cbv zeta. cbn [fst snd].
  assert (E : shift_end (i32 (pos - qe_pos (q_end q))) (q_end q) = mkQueueEnd pos (qe_up (q_end q)) (qe_dir (q_end q))).
  { unfold shift_end. f_equal. rewrite Z.add_comm, i32_add. replace (_ + _) with pos by lia. apply i32_id. lia. }
  rewrite E. destruct (Z.eqb_spec (i32 (pos - qe_pos (q_end q))) 0) as [E0|E0]; splits; intros; try contradiction; reflexivity.
Qed.
(** the same motion with positions moved by [k] *)
Definition same_motion (k : Z) (r1 r2 : option (list command * rampgen * queue_end)) : Prop :=
  match r1, r2 with
  | Some (cs1, g1, qe1), Some (cs2, g2, qe2) =>
    cs2 = cs1 /\ i32 (qe_pos qe2) = i32 (qe_pos qe1 + k) /\ qe_up qe2 = qe_up qe1 /\ rg_rw g2 = rg_rw g1
    /\ rg_targetPosition g2 = i32 (rg_targetPosition g1 + k)
  | None, None => True
  | _, _ => False
  end.
Lemma i32_i32 x : i32 (i32 x) = i32 x.
Proof. pose proof (i32_add x 0) as H. rewrite !Z.add_0_r in H. exact H. Qed.
Lemma same_motion_adv strict k n olds g qe : no_absolute g ->
  same_motion k (ramp_run A strict olds n g qe) (ramp_run A strict olds n (adv k g) (shift_end k qe)).
Proof.
  intros H. rewrite (run_shift strict k n olds g qe H). unfold same_motion.
  destruct (ramp_run A strict olds n g qe) as [[[cs g'] qe']|]; [|exact I].
  cbn [shift_end qe_pos qe_up]. splits; auto.
  - apply i32_i32.
  - unfold rg_targetPosition. cbn -[i32 u32]. rewrite i32_u32, i32_add. reflexivity.
Qed.
Lemma same_motion_refl r : same_motion 0 r r.
Proof.
  unfold same_motion. destruct r as [[[cs g'] qe']|]; [|exact I]. rewrite Z.add_0_r. splits; auto.
  rewrite Z.add_0_r. symmetry. apply i32_i32.
Qed.
Lemma set_position_motion strict done_p pos s q n olds : no_absolute (s_rg s) ->
  let r := s_setCurrentPosition A done_p pos s q in
  same_motion (i32 (pos - getCurrentPosition A done_p q))
    (ramp_run A strict olds n (s_rg s) (q_end q)) (ramp_run A strict olds n (s_rg (fst r)) (q_end (snd r))).
Proof.
  intros H r. destruct (set_position_shift done_p pos s q) as (S1 & S2 & S3). fold r in S1, S2, S3. clearbody r.
  set (k := i32 (pos - getCurrentPosition A done_p q)) in *. destruct (Z.eq_dec k 0) as [E|E].
  - rewrite (S2 E), E. apply same_motion_refl.
  - rewrite (S1 E), (S3 E). now apply same_motion_adv.
Qed.
Lemma position_after_motion strict pos s q n olds : -2147483648 <= pos < 2147483648 ->
  -2147483648 <= qe_pos (q_end q) < 2147483648 -> no_absolute (s_rg s) ->
  let r := s_setPositionAfter pos s q in
  same_motion (i32 (pos - qe_pos (q_end q)))
    (ramp_run A strict olds n (s_rg s) (q_end q)) (ramp_run A strict olds n (s_rg (fst r)) (q_end (snd r))).
Proof.
  intros Hp Hq H r. destruct (position_after_shift pos s q Hp) as (S1 & S2 & S3 & S4). fold r in S1, S2, S3, S4. clearbody r.
  set (k := i32 (pos - qe_pos (q_end q))) in *. destruct (Z.eq_dec k 0) as [E|E].
  - rewrite (S2 E), S3, E. replace (shift_end 0 (q_end q)) with (q_end q); [apply same_motion_refl|].
    destruct (q_end q) as [p u d]. unfold shift_end. cbn [qe_pos qe_up qe_dir] in *. rewrite Z.add_0_r, i32_id by lia. reflexivity.
  - rewrite (S1 E), S3. now apply same_motion_adv.
Qed.
End WithArch.
