(** * RampPlan: the commands of a ramp, as handed out to [fill_queue]

    [fill_queue] asks the ramp generator again, when the queue refuses a command, and the
    queue's direction may have changed in between. The commands do not depend on that. *)
From Coq Require Import ZArith Bool List Lia ZifyBool.
From Verif Require Import Base RampCalc RampGen RampRun RampMove.
Import ListNotations.
Open Scope Z_scope.
Ltac Zify.zify_post_hook ::= idtac.

Section WithArch.
Variable A : arch.

(** ** What a call depends on *)
(** the level of the direction pin is not used *)
Lemma getNext_pin p u d d' old g :
  rg_getNextCommand A (mkQueueEnd p u d) old g = rg_getNextCommand A (mkQueueEnd p u d') old g.
Proof.
  unfold rg_getNextCommand, getNextCommand_, gnc_pause, gnc_delta, rg_new_target.
  cbn [qe_pos qe_up]. reflexivity.
Qed.

Definition finished (n : next_command) : Prop :=
  c_ticks (n_cmd n) = 0 /\ rw_state (n_rw n) = RAMP_STATE_IDLE.

(** the previous content of the command is used only when the ramp ends *)
Lemma gnc_old ro rw qe old n : getNextCommand_ A ro rw qe old = Some n ->
  forall old', exists n', getNextCommand_ A ro rw qe old' = Some n' /\
    (n' = n \/ finished n /\ finished n').
Proof.
  unfold getNextCommand_, finished. intros H old'.
  destruct (gnc_pause rw qe); [eauto|].
  destruct (gnc_delta ro qe) as [[need R]|]; [|discriminate].
  destruct ((R =? 0) && (rw_prus rw <=? 1)).
  { injection H as <-. eexists. split; [reflexivity|]. right. auto. }
  destruct (gnc_planning A (rw_curr_ticks rw)) as [orig|]; [|discriminate].
  destruct (gnc_choose A _ _ _ _ _ _) as [[s R'] pl].
  destruct (R' =? 0).
  { injection H as <-. eexists. split; [reflexivity|]. right. auto. }
  destruct (gnc_new_ticks A _ _ _ _ _ _ _) as [d pl'].
  destruct (gnc_min_cmd A s d _ R' pl') as [[[s' d'] pl'']|]; [|discriminate].
  destruct (gnc_split _ _ _) as [[steps next] pause].
  destruct (gnc_prus _ _ _ _ _ _). eauto.
Qed.
Lemma getNext_old qe old g g1 n : rg_getNextCommand A qe old g = Some (g1, n) ->
  forall old', exists n', rg_getNextCommand A qe old' g = Some (g1, n') /\
    (n' = n \/ finished n /\ finished n').
Proof.
  unfold rg_getNextCommand. intros H old'.
  set (ro := rg_new_target _ _ _ _) in *. set (g0 := with_ro ro _) in *.
  destruct (ro_force_immediate ro).
  - injection H as <- <-. eexists. split; [reflexivity|]. right. unfold finished. auto.
  - destruct (getNextCommand_ A ro (rg_rw g0) qe old) as [n0|] eqn:E; [|discriminate].
    injection H as <- <-. destruct (gnc_old _ _ _ _ _ E old') as (n' & E' & C).
    rewrite E'. eauto.
Qed.

(** ** Asking again *)
(** the direction of the queue's end is the one at the first call or that of the command *)
Lemma gnc_again ro rw qe qe2 old n : getNextCommand_ A ro rw qe old = Some n ->
  c_ticks (n_cmd n) <> 0 -> qe_pos qe2 = qe_pos qe ->
  qe_up qe2 = qe_up qe \/ qe_up qe2 = c_up (n_cmd n) ->
  getNextCommand_ A ro rw qe2 old = Some n /\ (qe_up qe2 = qe_up qe \/ rw_prus rw = 0).
Proof.
  intros H Hn Hp Hu.
  destruct (Bool.bool_dec (qe_up qe2) (qe_up qe)) as [E|E].
  { split; [|now left]. destruct qe, qe2. cbn in *. subst. exact H. }
  destruct Hu as [Hu|Hu]; [contradiction|].
  revert H Hn Hu. unfold getNextCommand_. destruct qe as [p u pin], qe2 as [p2 u2 pin2].
  cbn [qe_pos qe_up] in *. subst p2.
  unfold gnc_pause. destruct (rw_pause_left rw >? 0).
  { cbn [qe_up]. intros H Hn Hu. exfalso. apply E. rewrite Hu. injection H as <-. reflexivity. }
  unfold gnc_delta. cbn [qe_pos qe_up].
  set (P := rw_prus rw).
  destruct (keep_running _).
  - destruct (Z.eqb_spec P 0) as [EP|EP].
    + intros H _ _. split; [exact H|now right].
    + intros H Hn Hu. exfalso. apply E.
      destruct (_ && _); [injection H as <-; contradiction|].
      destruct (gnc_planning A (rw_curr_ticks rw)) as [orig|]; [|discriminate].
      destruct (gnc_choose A _ _ _ _ _ _) as [[s R'] pl].
      destruct (R' =? 0); [injection H as <-; contradiction|].
      destruct (gnc_new_ticks A _ _ _ _ _ _ _) as [d pl'].
      destruct (gnc_min_cmd A s d _ R' pl') as [[[s' d'] pl'']|]; [|discriminate].
      destruct (gnc_split _ _ _) as [[steps next] pause].
      destruct (gnc_prus _ _ _ _ _ _). injection H as <-. exact Hu.
  - set (D := i32 (ro_target_pos ro - p)).
    destruct (Z.eqb_spec D (-2147483648)); [discriminate|].
    destruct (Z.eqb_spec P 0) as [EP|EP].
    + destruct (Z.eqb_spec D 0) as [ED|ED].
      * rewrite ED, EP. cbn. intros H Hn. injection H as <-. contradiction.
      * intros H _ _. split; [exact H|now right].
    + intros H Hn Hu. exfalso. apply E.
      destruct (_ && _); [injection H as <-; contradiction|].
      destruct (gnc_planning A (rw_curr_ticks rw)) as [orig|]; [|discriminate].
      destruct (gnc_choose A _ _ _ _ _ _) as [[s R'] pl].
      destruct (R' =? 0); [injection H as <-; contradiction|].
      destruct (gnc_new_ticks A _ _ _ _ _ _ _) as [d pl'].
      destruct (gnc_min_cmd A s d _ R' pl') as [[[s' d'] pl'']|]; [|discriminate].
      destruct (gnc_split _ _ _) as [[steps next] pause].
      destruct (gnc_prus _ _ _ _ _ _). injection H as <-. exact Hu.
Qed.

Definition rg_rest (was_keep : bool) (qe : queue_end) (g : rampgen) : rampgen :=
  let g := rg_adjust_prus A g in
  with_ro (rg_new_target was_keep qe (rg_ro g) (rw_prus (rg_rw g))) g.
(** the ramp steps at standstill *)
Definition jump (c : config) : Z :=
  let p := parameters c in
  if negb (s_jump p =? 0) && (calculate_ticks A c (s_jump p) <? min_travel_ticks p)
  then calculate_ramp_steps A c (min_travel_ticks p) else s_jump p.
Definition alike (p p' : params) : Prop :=
  min_travel_ticks p' = min_travel_ticks p /\ s_h p' = s_h p /\ s_jump p' = s_jump p /\
  pmfl_accel p' = pmfl_accel p.
Lemma jump_alike p' c : alike (parameters c) p' -> jump (set_parameters p' c) = jump c.
Proof.
  intros (H1 & H2 & H3 & H4). unfold jump, calculate_ticks, calculate_ramp_steps, set_parameters.
  cbn [parameters pmfl_ticks_h cubic]. rewrite H1, H2, H3, H4. reflexivity.
Qed.
Definition stop_target (qe : queue_end) (P : Z) : Z :=
  if qe_up qe then u32 (u32 (qe_pos qe) + P) else u32 (u32 (qe_pos qe) - P).

Record settled (qe : queue_end) (g : rampgen) : Prop := mkSettled {
  se_recalc : recalc_ramp_steps (parameters (ro_config (rg_ro g))) = false;
  se_jump : rw_curr_ticks (rg_rw g) = TICKS_FOR_STOPPED_MOTOR ->
    rw_prus (rg_rw g) = jump (ro_config (rg_ro g));
  se_stop : ro_force_stop (rg_ro g) = true ->
    keep_running (parameters (ro_config (rg_ro g))) = false /\
    ro_target_pos (rg_ro g) = stop_target qe (rw_prus (rg_rw g));
  se_change : ro_force_stop (rg_ro g) = false ->
    any_change (parameters (ro_config (rg_ro g))) = false
}.
Lemma settled_rest wk qe g : settled qe g -> rg_rest wk qe g = g.
Proof.
  intros [H1 H2 H3 H4].
  destruct g as [pa [[p0 X th cu] tg fs fi] [st P pl C] acc].
  cbn [rg_ro rg_rw ro_config parameters rw_curr_ticks rw_prus ro_force_stop ro_target_pos] in *.
  assert (E1 : set_recalc false p0 = p0) by (destruct p0; cbn in *; subst; reflexivity).
  assert (EA : rg_adjust_prus A (mkRg pa (mkRo (mkConfig p0 X th cu) tg fs fi) (mkRw st P pl C) acc)
     = mkRg pa (mkRo (mkConfig p0 X th cu) tg fs fi) (mkRw st P pl C) acc).
  { unfold rg_adjust_prus. cbn [rg_rw rg_ro rw_curr_ticks ro_config parameters rw_state rw_pause_left rg_params rg_acceleration].
    destruct (C =? TICKS_FOR_STOPPED_MOTOR) eqn:EC.
    - apply Z.eqb_eq in EC. rewrite (H2 EC). unfold map_parameters, set_config, set_parameters.
      cbn [rg_rw rg_ro rw_curr_ticks ro_config parameters ro_target_pos ro_force_stop ro_force_immediate
           max_ramp_up_steps pmfl_ticks_h cubic].
      rewrite E1, H1. rewrite EC. reflexivity.
    - cbn [rg_ro ro_config parameters]. rewrite H1. reflexivity. }
  unfold rg_rest. rewrite EA. cbn [rg_rw rg_ro rw_prus with_ro rg_params rg_acceleration].
  unfold rg_new_target. cbn [ro_config parameters ro_force_stop].
  destruct fs.
  - destruct (H3 eq_refl) as [H5 H6].
    unfold map_parameters, set_config, set_target, set_parameters.
    cbn [ro_config parameters ro_target_pos ro_force_stop ro_force_immediate max_ramp_up_steps pmfl_ticks_h cubic].
    replace (set_keep false (keep_running_count_up p0) p0) with p0 by (destruct p0; cbn in *; subst; reflexivity).
    rewrite E1. f_equal. f_equal. rewrite H6. reflexivity.
  - rewrite (H4 eq_refl). unfold map_parameters, set_config, set_parameters.
    cbn [ro_config parameters ro_target_pos ro_force_stop ro_force_immediate max_ramp_up_steps pmfl_ticks_h cubic].
    rewrite E1. reflexivity.
Qed.

Lemma rest_settled wk qe g : settled qe (rg_rest wk qe g).
Proof.
  destruct g as [pa [[p0 X th cu] tg fs fi] [st P pl C] acc].
  set (c := mkConfig p0 X th cu).
  assert (EA : exists p1 P1, rg_adjust_prus A (mkRg pa (mkRo c tg fs fi) (mkRw st P pl C) acc)
     = mkRg pa (mkRo (set_parameters p1 c) tg fs fi) (mkRw st P1 pl C) acc
     /\ alike p0 p1 /\ (C = TICKS_FOR_STOPPED_MOTOR -> P1 = jump c)).
  { unfold rg_adjust_prus. cbn [rg_rw rg_ro rw_curr_ticks ro_config rw_state rw_pause_left rg_params rg_acceleration].
    change (parameters c) with p0.
    destruct (C =? TICKS_FOR_STOPPED_MOTOR) eqn:EC.
    - exists (set_recalc false p0), (jump c). cbn [rg_ro map_parameters set_config ro_config set_parameters parameters
       recalc_ramp_steps set_recalc]. repeat split.
    - cbn [rg_ro ro_config]. change (parameters c) with p0. destruct (recalc_ramp_steps p0).
      + exists p0, (calculate_ramp_steps A c C). repeat split. intros K. apply Z.eqb_neq in EC. contradiction.
      + exists p0, P. repeat split. intros K. apply Z.eqb_neq in EC. contradiction. }
  destruct EA as (p1 & P1 & EA & AL & HJ).
  unfold rg_rest. rewrite EA. cbn [rg_rw rg_ro rw_prus with_ro rg_params rg_acceleration].
  set (ro1 := mkRo (set_parameters p1 c) tg fs fi).
  assert (EN : exists p2 t2, rg_new_target wk qe ro1 P1 = mkRo (set_parameters p2 c) t2 fs fi
     /\ alike p1 p2 /\ recalc_ramp_steps p2 = false
     /\ (fs = true -> keep_running p2 = false /\ t2 = stop_target qe P1)
     /\ (fs = false -> any_change p2 = false)).
  { unfold rg_new_target, ro1. cbn [ro_config set_parameters parameters ro_force_stop].
    destruct fs.
    - exists (set_recalc false (set_keep false (keep_running_count_up p1) p1)), (stop_target qe P1).
      repeat split; discriminate.
    - destruct (any_change p1) eqn:EY.
      + destruct (keep_running p1); [|destruct (move_absolute p1)].
        * exists (set_recalc false (set_any_change false p1)). eexists. split; [reflexivity|]. repeat split; discriminate.
        * exists (set_recalc false (set_any_change false p1)). eexists. split; [reflexivity|]. repeat split; discriminate.
        * exists (set_recalc false (set_any_change false p1)). eexists. split; [reflexivity|]. repeat split; discriminate.
      + exists (set_recalc false p1), tg. split; [reflexivity|]. split; [repeat split|]. split; [reflexivity|].
        split; [discriminate|]. intros _. exact EY. }
  destruct EN as (p2 & t2 & EN & AL2 & H1 & H2 & H3). rewrite EN.
  constructor; cbn [rg_ro rg_rw ro_config set_parameters parameters rw_curr_ticks rw_prus ro_force_stop ro_target_pos]; auto.
  intros K. rewrite (HJ K). symmetry. apply jump_alike. unfold alike in *. cbn [c parameters]. intuition congruence.
Qed.
Lemma settled_up qe qe2 g : qe_pos qe2 = qe_pos qe ->
  qe_up qe2 = qe_up qe \/ rw_prus (rg_rw g) = 0 -> settled qe g -> settled qe2 g.
Proof.
  intros Hp Hu [H1 H2 H3 H4]. constructor; auto. intros K. destruct (H3 K) as [H5 H6]. split; [exact H5|].
  rewrite H6. unfold stop_target. rewrite Hp. destruct Hu as [->| ->]; [reflexivity|].
  rewrite Z.add_0_r, Z.sub_0_r. destruct (qe_up qe), (qe_up qe2); reflexivity.
Qed.

Lemma take_apply g : apply (rg_params (rg_take_parameters A g)) = false.
Proof. unfold rg_take_parameters. destruct (apply (rg_params g)) eqn:E; [reflexivity|exact E]. Qed.
Lemma adjust_params g : rg_params (rg_adjust_prus A g) = rg_params g.
Proof. unfold rg_adjust_prus. destruct (_ =? _); destruct (recalc_ramp_steps _); reflexivity. Qed.
Lemma prepare_rest qe g : rg_prepare A qe g =
  rg_rest (keep_running (parameters (ro_config (rg_ro g)))) qe (rg_take_parameters A g).
Proof. reflexivity. Qed.
Lemma prepare_params qe g : apply (rg_params (rg_prepare A qe g)) = false.
Proof.
  unfold rg_prepare. cbn [with_ro rg_params]. rewrite adjust_params. apply take_apply.
Qed.
Lemma prepare_again qe qe2 g : qe_pos qe2 = qe_pos qe ->
  qe_up qe2 = qe_up qe \/ rw_prus (rg_rw (rg_prepare A qe g)) = 0 ->
  rg_prepare A qe2 (rg_prepare A qe g) = rg_prepare A qe g.
Proof.
  intros Hp Hu. rewrite (prepare_rest qe2).
  assert (ET : rg_take_parameters A (rg_prepare A qe g) = rg_prepare A qe g).
  { unfold rg_take_parameters at 1. rewrite prepare_params. reflexivity. }
  rewrite ET. apply settled_rest. eapply settled_up; [exact Hp|exact Hu|]. apply rest_settled.
Qed.

Lemma getNext_again qe qe2 old old2 g g1 n : rg_getNextCommand A qe old g = Some (g1, n) ->
  c_ticks (n_cmd n) <> 0 -> qe_pos qe2 = qe_pos qe ->
  qe_up qe2 = qe_up qe \/ qe_up qe2 = c_up (n_cmd n) ->
  rg_getNextCommand A qe2 old2 g1 = Some (g1, n).
Proof.
  intros H Hn Hp Hu.
  destruct (ro_force_immediate (rg_ro (rg_prepare A qe g))) eqn:EI.
  { exfalso. apply Hn. revert H. unfold rg_getNextCommand. unfold rg_prepare in EI. cbn [with_ro rg_ro] in EI.
    rewrite EI. intros H. injection H as <- <-. reflexivity. }
  rewrite getNext_prepare in H by exact EI.
  destruct (getNextCommand_ A (rg_ro (rg_prepare A qe g)) (rg_rw (rg_prepare A qe g)) qe old) as [n0|] eqn:E; [|discriminate].
  injection H as <- <-.
  destruct (gnc_again _ _ _ qe2 _ _ E Hn Hp Hu) as [E2 HP].
  assert (EP : rg_prepare A qe2 (rg_prepare A qe g) = rg_prepare A qe g) by (apply prepare_again; assumption).
  rewrite getNext_prepare; rewrite EP; [|exact EI].
  destruct (gnc_old _ _ _ _ _ E2 old2) as (n' & E3 & C). rewrite E3.
  destruct C as [->|[[C _] _]]; [reflexivity|contradiction].
Qed.
Lemma getNext_active qe old g g1 n : rg_getNextCommand A qe old g = Some (g1, n) ->
  isRampGeneratorActive g1 = isRampGeneratorActive g.
Proof.
  intros H. unfold isRampGeneratorActive. f_equal. f_equal.
  assert (E : forall b, rw_state (rg_rw (rg_prepare A qe g)) = b -> rw_state (rg_rw g1) = b).
  { intros b <-. revert H. unfold rg_getNextCommand, rg_prepare. cbv zeta.
    destruct (ro_force_immediate _); [intros H; injection H as <- <-; reflexivity|].
    destruct (getNextCommand_ A _ _ qe old); [|discriminate]. intros H. injection H as <- <-. reflexivity. }
  apply E. apply prepared_active.
Qed.

Lemma getNext_valid qe old g g1 n : rg_getNextCommand A qe old g = Some (g1, n) ->
  checkValidConfig (rg_params g1) = checkValidConfig (rg_params g).
Proof.
  assert (E : checkValidConfig (rg_params (rg_prepare A qe g)) = checkValidConfig (rg_params g)).
  { transitivity (checkValidConfig (rg_params (rg_take_parameters A g))).
    - unfold rg_prepare. cbv zeta. cbn [with_ro rg_params]. generalize (rg_take_parameters A g). intros h.
      unfold rg_adjust_prus. repeat match goal with |- context [if ?b then _ else _] => destruct b end; reflexivity.
    - unfold rg_take_parameters. destruct (apply _); reflexivity. }
  rewrite <- E. unfold rg_getNextCommand, rg_prepare. cbv zeta.
  destruct (ro_force_immediate _); [intros H; injection H as <- <-; reflexivity|].
  destruct (getNextCommand_ A _ _ qe old); [|discriminate]. intros H. injection H as <- <-. reflexivity.
Qed.

(** ** The commands of a ramp *)
Definition after_pos (c : command) (p : Z) : Z :=
  i32 (if c_up c then p + c_steps c else p - c_steps c).
(** [plan k g p u cs]: the generator [g] hands out exactly the commands [cs] in at most [k]
    calls, when the queue ends at position [p] with direction [u]; every command may be asked
    for repeatedly *)
Inductive plan : nat -> rampgen -> Z -> bool -> list command -> Prop :=
| plan_idle k g p u : isRampGeneratorActive g = false -> plan k g p u []
| plan_zero k g p u cs g1 n old : isRampGeneratorActive g = true ->
    (forall pin, rg_getNextCommand A (mkQueueEnd p u pin) old g = Some (g1, n)) ->
    c_ticks (n_cmd n) = 0 -> plan k (rg_afterCommandEnqueued n g1) p u cs -> plan (S k) g p u cs
| plan_cmd k g p u c cs g1 n : isRampGeneratorActive g = true ->
    (forall old pin, rg_getNextCommand A (mkQueueEnd p u pin) old g = Some (g1, n)) ->
    (forall old pin u2, u2 = u \/ u2 = c_up c ->
       rg_getNextCommand A (mkQueueEnd p u2 pin) old g1 = Some (g1, n)) ->
    n_cmd n = c -> c_ticks c <> 0 ->
    plan k (rg_afterCommandEnqueued n g1) (after_pos c p) (c_up c) cs ->
    plan (S k) g p u (c :: cs).

(** the next call hands out a command *)
Definition ready_cmd (g : rampgen) (p : Z) (u : bool) : Prop :=
  exists g1 n, (forall old pin, rg_getNextCommand A (mkQueueEnd p u pin) old g = Some (g1, n))
    /\ c_ticks (n_cmd n) <> 0.

Lemma plan_run : forall k olds g qe cs g' qe',
  ramp_run A false olds k g qe = Some (cs, g', qe') -> isRampGeneratorActive g' = false ->
  plan k g (qe_pos qe) (qe_up qe) cs.
Proof.
  induction k as [|k IH]; intros olds g qe cs g' qe' H Ha; cbn [ramp_run] in H.
  { injection H as <- <- <-. now constructor. }
  destruct (isRampGeneratorActive g) eqn:Eg.
  2:{ injection H as <- <- <-. now constructor. }
  unfold ramp_step in H. cbn [andb] in H.
  destruct (rg_getNextCommand A qe (olds O) g) as [[g1 n]|] eqn:En; [|discriminate].
  destruct qe as [p u pin].
  assert (En' : forall pin', rg_getNextCommand A (mkQueueEnd p u pin') (olds O) g = Some (g1, n)).
  { intros pin'. rewrite (getNext_pin _ _ _ pin). exact En. }
  destruct (Z.eqb_spec (c_ticks (n_cmd n)) 0) as [E0|E0].
  - destruct (ramp_run A false (fun i => olds (S i)) k _ _) as [[[cs1 g2] qe2]|] eqn:Er; [|discriminate].
    injection H as <- <- <-. cbn [app].
    eapply plan_zero; [exact Eg|exact En'|exact E0|].
    apply (IH _ _ _ _ _ _ Er Ha).
  - destruct (ramp_run A false (fun i => olds (S i)) k _ _) as [[[cs1 g2] qe2]|] eqn:Er; [|discriminate].
    injection H as <- <- <-. cbn [app qe_pos qe_up].
    eapply plan_cmd; [exact Eg| | |reflexivity|exact E0|].
    + intros old pin'. destruct (getNext_old _ _ _ _ _ (En' pin') old) as (n' & E & C).
      rewrite E. destruct C as [->|[[C _] _]]; [reflexivity|contradiction].
    + intros old pin' u2 Hu. eapply getNext_again; [exact En|exact E0|reflexivity|exact Hu].
    + apply (IH _ _ _ _ _ _ Er Ha).
Qed.
Lemma plan_again k g p u cs g1 n old pin u2 : plan k g p u cs -> isRampGeneratorActive g = true ->
  rg_getNextCommand A (mkQueueEnd p u pin) old g = Some (g1, n) -> c_ticks (n_cmd n) <> 0 ->
  u2 = u \/ u2 = c_up (n_cmd n) ->
  exists k' cs', k = S k' /\ cs = n_cmd n :: cs' /\ plan k g1 p u2 cs /\ ready_cmd g1 p u2
    /\ plan k' (rg_afterCommandEnqueued n g1) (after_pos (n_cmd n) p) (c_up (n_cmd n)) cs'.
Proof.
  intros H Ha Hg Hn Hu. inversion H as [? ? ? ? K1|? ? ? ? ? g2 n2 old2 K1 K2 K3 K4|k' ? ? ? ? cs' g2 n2 K1 K2 K3 K4 K5 K6]; subst.
  - congruence.
  - exfalso. destruct (getNext_old _ _ _ _ _ (K2 pin) old) as (n' & E & C).
    rewrite E in Hg. injection Hg as <- <-. destruct C as [->|[_ [C _]]]; contradiction.
  - rewrite (K2 old pin) in Hg. injection Hg as <- <-.
    exists k', cs'. split; [reflexivity|]. split; [reflexivity|].
    assert (R : ready_cmd g2 p u2).
    { eexists _, _. split; [intros; apply K3; exact Hu|assumption]. }
    split; [|split; assumption].
    eapply plan_cmd; [| | |reflexivity|assumption|eassumption].
    + rewrite (getNext_active _ _ _ _ _ (K2 old pin)). exact Ha.
    + intros old' pin'. apply K3. exact Hu.
    + intros old' pin' u3 [->|Hu3]; apply K3; auto.
Qed.
Lemma plan_end k g p u cs g1 n old pin : plan k g p u cs -> isRampGeneratorActive g = true ->
  rg_getNextCommand A (mkQueueEnd p u pin) old g = Some (g1, n) -> c_ticks (n_cmd n) = 0 ->
  exists k', k = S k' /\ plan k' (rg_afterCommandEnqueued n g1) p u cs.
Proof.
  intros H Ha Hg Hn. inversion H as [? ? ? ? K1|k' ? ? ? ? g2 n2 old2 K1 K2 K3 K4|k' ? ? ? ? cs' g2 n2 K1 K2 K3 K4 K5 K6]; subst.
  - congruence.
  - exists k'. split; [reflexivity|].
    destruct (getNext_old _ _ _ _ _ (K2 pin) old) as (n' & E & C).
    rewrite E in Hg. injection Hg as <- <-. destruct C as [->|[[_ C1] [_ C2]]]; [assumption|].
    assert (I1 : isRampGeneratorActive (rg_afterCommandEnqueued n2 g2) = false).
    { unfold rg_afterCommandEnqueued, isRampGeneratorActive. cbn [with_rw rg_rw]. rewrite C1. reflexivity. }
    inversion K4; subst; try congruence.
    constructor. unfold rg_afterCommandEnqueued, isRampGeneratorActive in *. cbn [with_rw rg_rw] in *.
    rewrite C2. reflexivity.
  - rewrite (K2 old pin) in Hg. injection Hg as <- <-. contradiction.
Qed.
Lemma plan_some k g p u cs old pin : plan k g p u cs -> isRampGeneratorActive g = true ->
  rg_getNextCommand A (mkQueueEnd p u pin) old g <> None.
Proof.
  intros H Ha. inversion H as [? ? ? ? K1|k' ? ? ? ? g2 n2 old2 K1 K2 K3 K4|k' ? ? ? ? cs' g2 n2 K1 K2 K3 K4 K5 K6]; subst.
  - congruence.
  - destruct (getNext_old _ _ _ _ _ (K2 pin) old) as (n' & E & C). congruence.
  - rewrite (K2 old pin). discriminate.
Qed.
Lemma plan_inactive k g p u cs : plan k g p u cs -> isRampGeneratorActive g = false -> cs = [].
Proof. intros H Ha. inversion H; subst; congruence. Qed.
Lemma plan_zero_height g p u cs : plan 0 g p u cs -> isRampGeneratorActive g = false.
Proof. intros H. inversion H; subst; assumption. Qed.

(** a pause keeps the direction *)
Lemma split_steps x R pl : 1 <= fst (fst (gnc_split x R pl)) <= 255.
Proof.
  unfold gnc_split. destruct (x >? 65535); cbn [fst]; [lia|]. unfold fas_min, fas_max.
  generalize (u16 (if pl <? R then pl else R)). intros y.
  repeat match goal with |- context [?a <? ?b] => destruct (Z.ltb_spec a b) | |- context [?a >? ?b] => destruct (Z.gtb_spec a b) end; lia.
Qed.
Lemma gnc_pause_up ro rw qe old n : getNextCommand_ A ro rw qe old = Some n ->
  c_ticks (n_cmd n) <> 0 -> c_steps (n_cmd n) = 0 -> c_up (n_cmd n) = qe_up qe.
Proof.
  unfold getNextCommand_, gnc_pause. destruct (rw_pause_left rw >? 0).
  { intros H _ _. injection H as <-. reflexivity. }
  destruct (gnc_delta ro qe) as [[need R]|]; [|discriminate].
  destruct (_ && _); [intros H K; injection H as <-; now destruct K|].
  destruct (gnc_planning A (rw_curr_ticks rw)) as [orig|]; [|discriminate].
  destruct (gnc_choose A _ _ _ _ _ _) as [[s R'] pl].
  destruct (R' =? 0); [intros H K; injection H as <-; now destruct K|].
  destruct (gnc_new_ticks A _ _ _ _ _ _ _) as [d pl'].
  destruct (gnc_min_cmd A s d _ R' pl') as [[[s' d'] pl'']|]; [|discriminate].
  match goal with |- context [gnc_split ?x ?y ?z] => pose proof (split_steps x y z) as S end.
  destruct (gnc_split _ _ _) as [[steps next] pause]. cbn [fst] in S.
  destruct (gnc_prus _ _ _ _ _ _). intros H _ K. injection H as <-. cbn [n_cmd c_steps] in K.
  rewrite u8_id in K; lia.
Qed.
Lemma plan_up : forall k g p u cs b, plan k g p u cs -> u = b ->
  Forall (fun c => c_steps c <> 0 -> c_up c = b) cs -> Forall (fun c => c_up c = b) cs.
Proof.
  induction 1 as [|k g p u cs g1 n old Ha Hn H0 H IH|k g p u c cs g1 n Ha Hn Hn2 Hc H0 H IH]; intros Hu HF; auto.
  inversion HF as [|? ? H1 H2]; subst. 
  assert (E : c_up (n_cmd n) = b).
  { destruct (Z.eq_dec (c_steps (n_cmd n)) 0) as [E|E]; [|now apply H1].
    specialize (Hn2 n true b (or_introl eq_refl)). revert Hn2. unfold rg_getNextCommand.
    cbv zeta. destruct (ro_force_immediate _).
    { intros K. injection K as _ K. exfalso. apply H0. rewrite <- K. reflexivity. }
    destruct (getNextCommand_ A _ _ _ _) as [n0|] eqn:EG; [|discriminate].
    intros K. injection K as _ ->. apply (gnc_pause_up _ _ _ _ _ EG H0 E). }
  constructor; auto.
Qed.
End WithArch.
