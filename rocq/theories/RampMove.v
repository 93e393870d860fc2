(** * RampMove: complete moves *)
From Coq Require Import ZArith Bool List Lia ZifyBool Zwf Reals Lra.
From Verif Require Import Base Pmf PmfFacts PmfReal RampCalc RampCalcFacts RampLinear RampGen RampStep RampRun.
Import ListNotations.
Open Scope Z_scope.
Ltac Zify.zify_post_hook ::= idtac.

(** ** Periods are positive and bounded *)
Lemma calc_le_derived A c :
  In A all_archs -> derived A c -> 0 <= pmfl_accel (parameters c) <= 15872 -> calc_le A c.
Proof. intros HA Hd Ha s H. apply ticks_le_linear; assumption. Qed.

(** ** The ramp generator between two calls *)
Section WithArch.
Variable A : arch.
Hypothesis HA : In A all_archs.

(** no parameters pending, no stop requested *)
Definition norm (g : rampgen) : Prop :=
  apply (rg_params g) = false /\
  any_change (parameters (ro_config (rg_ro g))) = false /\
  recalc_ramp_steps (parameters (ro_config (rg_ro g))) = false /\
  ro_force_stop (rg_ro g) = false /\ ro_force_immediate (rg_ro g) = false.

(** the first part of [getNextCommand] *)
Definition rg_prepare (qe : queue_end) (g : rampgen) : rampgen :=
  let was_keep := keep_running (parameters (ro_config (rg_ro g))) in
  let g := rg_take_parameters A g in
  let g := rg_adjust_prus A g in
  with_ro (rg_new_target was_keep qe (rg_ro g) (rw_prus (rg_rw g))) g.

Lemma getNext_prepare qe old g :
  ro_force_immediate (rg_ro (rg_prepare qe g)) = false ->
  rg_getNextCommand A qe old g =
  match getNextCommand_ A (rg_ro (rg_prepare qe g)) (rg_rw (rg_prepare qe g)) qe old with
  | None => None
  | Some n => Some (rg_prepare qe g, n)
  end.
Proof.
  intros H. unfold rg_getNextCommand. unfold rg_prepare in *.
  cbn [with_ro rg_ro rg_rw] in *. rewrite H. reflexivity.
Qed.

Lemma prepare_norm qe g : norm g -> rw_curr_ticks (rg_rw g) <> TICKS_FOR_STOPPED_MOTOR ->
  rg_prepare qe g = g.
Proof.
  intros (H1 & H2 & H3 & H4 & H5) HC. unfold rg_prepare.
  destruct g as [p ro rw a]. destruct ro as [c t fs fi]. destruct c as [p0 X th cu].
  destruct p0. cbn in *. subst.
  unfold rg_take_parameters. cbn [rg_params]. rewrite H1.
  unfold rg_adjust_prus. cbn [rg_rw].
  destruct (Z.eqb_spec (rw_curr_ticks rw) TICKS_FOR_STOPPED_MOTOR); [contradiction|].
  cbn. unfold rg_new_target. cbn. reflexivity.
Qed.

Lemma with_rw_norm g rw : norm g -> norm (with_rw rw g).
Proof. exact (fun h => h). Qed.

(** the result of the run does not depend on the number of further iterations *)
Definition ends_at (strict : bool) (olds : nat -> next_command) (g : rampgen) (qe : queue_end)
  (Q : list command -> rampgen -> queue_end -> Prop) : Prop :=
  exists n cs g' qe', ramp_run A strict olds n g qe = Some (cs, g', qe') /\
    isRampGeneratorActive g' = false /\ Q cs g' qe'.

Lemma ends_idle strict olds g qe (Q : list command -> rampgen -> queue_end -> Prop) : isRampGeneratorActive g = false -> Q [] g qe ->
  ends_at strict olds g qe Q.
Proof. intros H HQ. exists O, [], g, qe. auto. Qed.

Lemma ends_step strict olds g qe cs g' qe' (Q : list command -> rampgen -> queue_end -> Prop) :
  isRampGeneratorActive g = true ->
  ramp_step A strict (olds O) g qe = Some (cs, g', qe') ->
  ends_at strict (fun k => olds (S k)) g' qe' (fun cs' => Q (cs ++ cs')) ->
  ends_at strict olds g qe Q.
Proof.
  intros Ha Hs (n & cs' & g'' & qe'' & Hr & Hi & HQ).
  exists (S n), (cs ++ cs'), g'', qe''. cbn [ramp_run]. rewrite Ha, Hs, Hr. auto.
Qed.

Lemma ends_weaken strict olds g qe (Q Q' : list command -> rampgen -> queue_end -> Prop) :
  (forall cs g qe, Q cs g qe -> Q' cs g qe) -> ends_at strict olds g qe Q -> ends_at strict olds g qe Q'.
Proof.
  intros H (n & cs & g' & qe' & H1 & H2 & H3). exists n, cs, g', qe'. auto.
Qed.

(** the same run, in which only the last call returns no command *)
Definition ends_soon (strict : bool) (olds : nat -> next_command) (g : rampgen) (qe : queue_end)
  (Q : list command -> rampgen -> queue_end -> Prop) : Prop :=
  exists n cs g' qe', ramp_run A strict olds n g qe = Some (cs, g', qe') /\
    isRampGeneratorActive g' = false /\ (n <= S (length cs))%nat /\ Q cs g' qe'.
Lemma ends_soon_at strict olds g qe Q : ends_soon strict olds g qe Q -> ends_at strict olds g qe Q.
Proof. intros (n & cs & g' & qe' & H1 & H2 & _ & H3). exists n, cs, g', qe'. auto. Qed.
Lemma soon_idle strict olds g qe (Q : list command -> rampgen -> queue_end -> Prop) :
  isRampGeneratorActive g = false -> Q [] g qe -> ends_soon strict olds g qe Q.
Proof. intros H HQ. exists O, [], g, qe. cbn. auto. Qed.
Lemma soon_last strict olds g qe g' qe' (Q : list command -> rampgen -> queue_end -> Prop) :
  isRampGeneratorActive g = true -> ramp_step A strict (olds O) g qe = Some ([], g', qe') ->
  isRampGeneratorActive g' = false -> Q [] g' qe' -> ends_soon strict olds g qe Q.
Proof. intros Ha Hs H HQ. exists 1%nat, [], g', qe'. cbn. rewrite Ha, Hs. auto. Qed.
Lemma soon_step strict olds g qe cs g' qe' (Q : list command -> rampgen -> queue_end -> Prop) :
  isRampGeneratorActive g = true -> cs <> [] ->
  ramp_step A strict (olds O) g qe = Some (cs, g', qe') ->
  ends_soon strict (fun k => olds (S k)) g' qe' (fun cs' => Q (cs ++ cs')) ->
  ends_soon strict olds g qe Q.
Proof.
  intros Ha Hc Hs (n & cs' & g'' & qe'' & Hr & Hi & Hn & HQ).
  exists (S n), (cs ++ cs'), g'', qe''. cbn [ramp_run]. rewrite Ha, Hs, Hr.
  split; [reflexivity|]. split; [exact Hi|]. split; [|exact HQ]. rewrite app_length. destruct cs; [contradiction|]. cbn. lia.
Qed.
Lemma soon_weaken strict olds g qe (Q Q' : list command -> rampgen -> queue_end -> Prop) :
  (forall cs g qe, Q cs g qe -> Q' cs g qe) -> ends_soon strict olds g qe Q -> ends_soon strict olds g qe Q'.
Proof.
  intros H (n & cs & g' & qe' & H1 & H2 & H3 & H4). exists n, cs, g', qe'. auto.
Qed.

Lemma active_not_idle g : rw_state (rg_rw g) <> RAMP_STATE_IDLE -> isRampGeneratorActive g = true.
Proof.
  intros H. unfold isRampGeneratorActive. destruct (Z.eqb_spec (rw_state (rg_rw g)) RAMP_STATE_IDLE);
    [contradiction|reflexivity].
Qed.

(** one step of a prepared generator *)
Lemma prepared_step qe g old B :
  let g1 := rg_prepare qe g in
  norm g1 -> sinv (rg_ro g1) (rg_rw g1) qe B -> cfg_ok A (ro_config (rg_ro g1)) B ->
  period_ok (rg_ro g1) (rg_rw g1) ->
  exists cs g2 qe2, ramp_step A false old g qe = Some (cs, g2, qe2) /\
    rg_ro g2 = rg_ro g1 /\ norm g2 /\
    (isRampGeneratorActive g2 = false /\ i32 (ro_target_pos (rg_ro g1) - qe_pos qe) = 0 /\
       cs = [] /\ qe2 = qe /\ rw_pause_left (rg_rw g1) = 0 \/
     exists c, cs = [c] /\ qe2 = enqueue c qe /\
     sinv (rg_ro g2) (rg_rw g2) qe2 B /\
     smeas (rg_ro g2) (rg_rw g2) qe2 < smeas (rg_ro g1) (rg_rw g1) qe /\
     rw_curr_ticks (rg_rw g2) <> TICKS_FOR_STOPPED_MOTOR /\ period_ok (rg_ro g2) (rg_rw g2)).
Proof.
  intros g1 Hn Hi Hc Hu. unfold ramp_step.
  rewrite getNext_prepare by (apply Hn). fold g1.
  destruct (sstep A HA (rg_ro g1) (rg_rw g1) qe old B Hi Hc Hu) as (n & -> & Hs).
  destruct Hs as [(E1 & E2 & E3 & E4)|(E1 & E2 & E3 & E4 & E5)].
  - rewrite E1. cbn [Z.eqb]. eexists _, _, _. split; [reflexivity|].
    split; [reflexivity|]. split; [exact Hn|]. left.
    unfold isRampGeneratorActive, rg_afterCommandEnqueued. cbn [with_rw rg_rw].
    rewrite E3. auto.
  - destruct (Z.eqb_spec (c_ticks (n_cmd n)) 0); [contradiction|]. cbn [andb].
    eexists _, _, _. split; [reflexivity|]. split; [reflexivity|]. split; [exact Hn|].
    right. exists (n_cmd n). repeat split; try apply E2; auto.
Qed.

Lemma prepared_active qe g : rw_state (rg_rw (rg_prepare qe g)) = rw_state (rg_rw g).
Proof.
  unfold rg_prepare, rg_adjust_prus, rg_take_parameters.
  destruct (apply (rg_params g)); cbn [rg_rw with_ro with_rw];
  destruct (_ =? TICKS_FOR_STOPPED_MOTOR); destruct (recalc_ramp_steps _); reflexivity.
Qed.

Theorem run_norm : forall k g qe olds B,
  smeas (rg_ro g) (rg_rw g) qe <= k ->
  norm g -> rw_curr_ticks (rg_rw g) <> TICKS_FOR_STOPPED_MOTOR ->
  sinv (rg_ro g) (rg_rw g) qe B -> cfg_ok A (ro_config (rg_ro g)) B ->
  period_ok (rg_ro g) (rg_rw g) ->
  ends_at false olds g qe (fun _ _ qe' => i32 (ro_target_pos (rg_ro g) - qe_pos qe') = 0).
Proof.
  intros k. induction k as [k IH] using (well_founded_induction (Zwf_well_founded (-1))).
  intros g qe olds B Hk Hn HC Hi Hc Hu.
  pose proof (prepare_norm qe g Hn HC) as E.
  destruct (prepared_step qe g (olds O) B) as (cs & g2 & qe2 & Hs & Hro & Hn2 & Hcase);
    rewrite ?E; try assumption.
  rewrite E in Hcase, Hro.
  eapply ends_step; [apply active_not_idle, Hi|exact Hs|].
  destruct Hcase as [(Hact & Hd & -> & -> & _)|(c & -> & -> & Hi2 & Hm & HC2 & Hu2)].
  - apply ends_idle; assumption.
  - pose proof (smeas_pos _ _ _ _ Hi2) as Hp.
    pose proof (smeas_pos _ _ _ _ Hi) as Hp0.
    apply (ends_weaken false _ _ _ (fun _ _ qe' => i32 (ro_target_pos (rg_ro g2) - qe_pos qe') = 0)).
    { intros _ _ q. rewrite Hro. auto. }
    rewrite Hro in Hu2.
    apply (IH (smeas (rg_ro g2) (rg_rw g2) (enqueue c qe))) with (B := B);
      try assumption; rewrite ?Hro; try assumption; try lia.
    + unfold Zwf. rewrite Hro in *. lia.
Qed.

Theorem run_prepared g qe olds B :
  let g1 := rg_prepare qe g in
  norm g1 -> sinv (rg_ro g1) (rg_rw g1) qe B -> cfg_ok A (ro_config (rg_ro g1)) B ->
  period_ok (rg_ro g1) (rg_rw g1) ->
  ends_at false olds g qe (fun _ _ qe' => i32 (ro_target_pos (rg_ro g1) - qe_pos qe') = 0).
Proof.
  intros g1 Hn Hi Hc Hu.
  destruct (prepared_step qe g (olds O) B Hn Hi Hc Hu) as (cs & g2 & qe2 & Hs & Hro & Hn2 & Hcase).
  fold g1 in Hro, Hcase.
  eapply ends_step; [apply active_not_idle; rewrite <- (prepared_active qe); apply Hi|exact Hs|].
  destruct Hcase as [(Hact & Hd & -> & -> & _)|(c & -> & -> & Hi2 & Hm & HC2 & Hu2)].
  - apply ends_idle; assumption.
  - rewrite <- Hro. eapply run_norm; try eassumption; rewrite ?Hro; try eassumption.
    apply Z.le_refl.
Qed.

Lemma cfg_ok_derived c a B :
  derived A c -> pmfl_accel (parameters c) = pmfl_from_u32 a ->
  1 <= a < 2147483648 -> 2 <= min_travel_ticks (parameters c) <= 1073741824 ->
  0 <= max_ramp_up_steps c < 4294967296 -> B < 1073741824 ->
  a * Z.max B 42000 <= 100000000000000 -> cfg_ok A c B.
Proof.
  intros Hs Ha HaR HM HX HB Hb. pose proof (accel_log_range a HaR) as L.
  split; [exact HM|]. split; [exact HX|]. split.
  - intros s Hss. apply ticks_ge1_linear with (a := a); try assumption; try lia. nia.
  - apply calc_le_derived; try assumption. rewrite Ha. exact L.
Qed.

Lemma calculate_ramp_steps_range c t : 0 <= calculate_ramp_steps A c t < 4294967296.
Proof.
  unfold calculate_ramp_steps. destruct (_ <=? _); [apply u32_range|apply to_u32_range].
Qed.
Lemma update_X c : 1 <= max_ramp_up_steps (update A c) < 4294967296.
Proof.
  unfold update. set (c' := if s_h (parameters c) >? 0 then _ else _).
  pose proof (calculate_ramp_steps_range c' (min_travel_ticks (parameters c))) as R.
  cbn [max_ramp_up_steps].
  destruct (Z.eqb_spec (calculate_ramp_steps A c' (min_travel_ticks (parameters c))) 0); lia.
Qed.

(** ** Effect of pending parameters *)
Definition target_of (p : params) (was_keep : bool) (old_target : Z) (pos : Z) : Z :=
  if move_absolute p then u32 (move_value p)
  else u32 ((if was_keep then u32 pos else old_target) + move_value p).

(** ramp steps at the start of the new parameters *)
Definition start_prus (p : params) (c : config) (rw : ramp_rw) : Z :=
  if rw_curr_ticks rw =? TICKS_FOR_STOPPED_MOTOR then s_jump p
  else if recalc_ramp_steps p then calculate_ramp_steps A c (rw_curr_ticks rw)
  else rw_prus rw.

Lemma prepare_pending qe g :
  let p := rg_params g in
  let ro := rg_ro g in
  let rw := rg_rw g in
  apply p = true -> any_change p = true -> keep_running p = false ->
  ro_force_stop ro = false -> ro_force_immediate ro = false ->
  (rw_curr_ticks rw = TICKS_FOR_STOPPED_MOTOR -> s_jump p = 0) ->
  let g1 := rg_prepare qe g in
  let c1 := ro_config (rg_ro g1) in
  norm g1 /\
  min_travel_ticks (parameters c1) = min_travel_ticks p /\
  s_h (parameters c1) = s_h p /\ pmfl_accel (parameters c1) = pmfl_accel p /\
  keep_running (parameters c1) = false /\
  max_ramp_up_steps c1 = max_ramp_up_steps (update A (set_parameters p (ro_config ro))) /\
  ro_target_pos (rg_ro g1) =
    target_of p (keep_running (parameters (ro_config ro))) (ro_target_pos ro) (qe_pos qe) /\
  rg_rw g1 = mkRw (rw_state rw)
    (start_prus p (update A (set_parameters p (ro_config ro))) rw)
    (rw_pause_left rw) (rw_curr_ticks rw).
Proof.
  intros p ro rw H1 H2 H3 H4 H5 H6 g1 c1. subst g1 c1. unfold rg_prepare.
  unfold rg_take_parameters. fold p. rewrite H1. fold ro.
  cbn [ro_force_immediate set_config]. rewrite H5.
  set (c0 := update A (set_parameters p (ro_config ro))).
  assert (Ep : parameters c0 = p) by (unfold c0; rewrite update_parameters; reflexivity).
  clearbody c0. destruct c0 as [p0 X th cu]. cbn [parameters] in Ep. subst p0.
  unfold rg_adjust_prus. cbn [rg_rw]. fold rw. clearbody p ro rw.
  destruct ro as [c t fs fi]. destruct p as [mv mt sh sj pa ap ac rc va vs ma kr kc].
  cbn in H1, H2, H3, H4, H5, H6. subst ap ac kr fs fi.
  cbn [rg_ro rg_rw rg_params set_config ro_config parameters].
  unfold start_prus, target_of, norm. cbn [s_jump recalc_ramp_steps move_absolute move_value].
  destruct (Z.eqb_spec (rw_curr_ticks rw) TICKS_FOR_STOPPED_MOTOR) as [EC|NC].
  - specialize (H6 EC). subst sj. cbn [Z.eqb negb andb]. destruct ma; cbn; repeat split; auto.
  - destruct rw as [st P pl C]. destruct rc, ma; cbn -[calculate_ramp_steps]; repeat split; auto.
Qed.

(** the derived fields always belong to the parameters *)
Lemma derived_same c c' : s_h (parameters c') = s_h (parameters c) ->
  pmfl_accel (parameters c') = pmfl_accel (parameters c) -> pmfl_ticks_h c' = pmfl_ticks_h c ->
  cubic c' = cubic c -> derived A c -> derived A c'.
Proof. intros E1 E2 E3 E4 D. unfold derived in *. rewrite E1, E2, E3, E4. exact D. Qed.

Lemma prepare_derived qe g :
  (apply (rg_params g) = true ->
    0 <= s_h (rg_params g) < 4294967294 /\ 0 <= pmfl_accel (rg_params g) <= 15872) ->
  (apply (rg_params g) = false -> derived A (ro_config (rg_ro g))) ->
  derived A (ro_config (rg_ro (rg_prepare qe g))).
Proof.
  intros H1 H2. unfold rg_prepare. set (g1 := rg_take_parameters A g).
  assert (D : derived A (ro_config (rg_ro g1))).
  { unfold g1, rg_take_parameters. destruct (apply (rg_params g)) eqn:E; [|apply H2; reflexivity].
    destruct (H1 eq_refl) as (Hs & Hl).
    assert (D : derived A (update A (set_parameters (rg_params g) (ro_config (rg_ro g))))).
    { apply update_derived; assumption. }
    cbn [rg_ro].
    repeat match goal with |- context [if ?b then _ else _] => destruct b end; exact D. }
  clearbody g1. clear H1 H2.
  set (g2 := rg_adjust_prus A g1).
  assert (D2 : derived A (ro_config (rg_ro g2))).
  { eapply derived_same; [| | | |exact D]; unfold g2, rg_adjust_prus;
      destruct (rw_curr_ticks (rg_rw g1) =? TICKS_FOR_STOPPED_MOTOR); cbn -[calculate_ticks calculate_ramp_steps];
      destruct (recalc_ramp_steps (parameters (ro_config (rg_ro g1)))); reflexivity. }
  clearbody g2. cbn [rg_ro].
  eapply derived_same; [| | | |exact D2]; unfold rg_new_target;
    repeat match goal with |- context [if ?b then _ else _] => destruct b end; reflexivity.
Qed.

(** ** Moves *)
Lemma i32_zero_pos t p : -2147483648 <= p < 2147483648 -> -2147483648 <= t < 2147483648 ->
  i32 (u32 t - p) = 0 -> p = t.
Proof.
  intros Hp Ht H. pose proof (proj1 (i32_eq_iff (u32 t - p) 0) H) as K.
  change (u32 0) with 0 in K. unfold u32 in K at 1.
  apply Z.mod_divide in K; [|lia]. destruct K as [q K].
  unfold u32 in K. pose proof (Z.div_mod t 4294967296 ltac:(lia)).
  assert (E : t - p = (q + t / 4294967296) * 4294967296) by lia.
  set (z := q + t / 4294967296) in *. lia.
Qed.
Lemma i32_u32_sub t p : i32 (u32 t - p) = i32 (t - p).
Proof.
  apply i32_eq_iff. unfold u32. rewrite Zminus_mod_idemp_l. reflexivity.
Qed.

Lemma run_qe_range strict : forall n olds g qe cs g' qe',
  -2147483648 <= qe_pos qe < 2147483648 ->
  ramp_run A strict olds n g qe = Some (cs, g', qe') -> -2147483648 <= qe_pos qe' < 2147483648.
Proof.
  induction n as [|n IH]; intros olds g qe cs g' qe' Hq H; cbn [ramp_run] in H.
  - injection H as <- <- <-. exact Hq.
  - destruct (isRampGeneratorActive g); [|injection H as <- <- <-; exact Hq].
    destruct (ramp_step A strict (olds O) g qe) as [[[cs1 g1] qe1]|] eqn:E; [|discriminate].
    destruct (ramp_run A strict (fun k => olds (S k)) n g1 qe1) as [[[cs2 g2] qe2]|] eqn:E2;
      [|discriminate].
    injection H as <- <- <-. eapply IH; [|exact E2].
    unfold ramp_step in E. destruct (rg_getNextCommand A qe (olds O) g) as [[g0 n0]|]; [|discriminate].
    destruct (_ =? 0); [injection E as <- <- <-; exact Hq|].
    destruct (strict && _); injection E as <- <- <-; [exact Hq|].
    cbn [enqueue qe_pos]. apply i32_range.
Qed.

(** general form: pending parameters of a move, any ramp state *)
Theorem move_ends g qe olds a :
  let p := rg_params g in
  let ro := rg_ro g in
  let rw := rg_rw g in
  let c := update A (set_parameters p (ro_config ro)) in
  let P := start_prus p c rw in
  let t := target_of p (keep_running (parameters (ro_config ro))) (ro_target_pos ro) (qe_pos qe) in
  let d := i32 (t - qe_pos qe) in
  apply p = true -> any_change p = true -> keep_running p = false ->
  ro_force_stop ro = false -> ro_force_immediate ro = false ->
  s_jump p = 0 -> 0 <= s_h p < 4294967294 -> pmfl_accel p = pmfl_from_u32 a -> 1 <= a < 2147483648 ->
  2 <= min_travel_ticks p <= 1073741824 ->
  (u16 (min_travel_ticks p) <> 0 \/ min_travel_ticks p <= rw_curr_ticks rw) ->
  isRampGeneratorActive g = true ->
  1 <= rw_curr_ticks rw -> 0 <= rw_prus rw -> 0 <= rw_pause_left rw < 4294967296 ->
  (rw_curr_ticks rw = TICKS_FOR_STOPPED_MOTOR /\ rw_pause_left rw = 0 \/
   rw_curr_ticks rw <= 2147483648) ->
  -2147483648 <= qe_pos qe < 2147483648 ->
  Z.abs d + P < 1073741824 ->
  a * Z.max (Z.abs d + P) 42000 <= 100000000000000 ->
  ends_at false olds g qe (fun _ _ qe' => qe_pos qe' = i32 t).
Proof.
  intros p ro rw c P t d H1 H2 H3 H4 H5 H6 H7 H8 HaR HM HuM Hact HC HPr Hp Hst Hq HB Hab.
  destruct (prepare_pending qe g H1 H2 H3 H4 H5 (fun _ => H6)) as
    (N & E1 & E2 & E3 & E4 & E5 & E6 & E7).
  fold p in E1, E2, E3, E5, E6, E7. fold ro in E5, E6, E7. fold rw in E7. fold c in E5, E7. fold P in E7.
  fold t in E6.
  assert (HP : 0 <= P).
  { unfold P, start_prus. destruct (_ =? _); [lia|]. destruct (recalc_ramp_steps p); [|exact HPr].
    pose proof (calculate_ramp_steps_range c (rw_curr_ticks rw)). lia. }
  assert (I : sinv (rg_ro (rg_prepare qe g)) (rg_rw (rg_prepare qe g)) qe (Z.abs d + P)).
  { split; rewrite ?E4, ?E6, ?E7; cbn [rw_prus rw_pause_left rw_curr_ticks rw_state]; try assumption.
    - reflexivity.
    - fold d. lia.
    - unfold isRampGeneratorActive in Hact. fold rw in Hact. intros K. rewrite K in Hact. discriminate. }
  assert (K : cfg_ok A (ro_config (rg_ro (rg_prepare qe g))) (Z.abs d + P)).
  { apply cfg_ok_derived with (a := a); rewrite ?E1, ?E2, ?E3; try assumption; try lia.
    { apply prepare_derived; fold p; [|congruence]. intros _. rewrite H8. pose proof (accel_log_range a HaR). auto. }
    rewrite E5. pose proof (update_X (set_parameters p (ro_config ro))). fold c. fold c in H. lia. }
  assert (O : period_ok (rg_ro (rg_prepare qe g)) (rg_rw (rg_prepare qe g))).
  { unfold period_ok. rewrite E1, E7. cbn [rw_curr_ticks rw_prus].
    destruct (Z.eq_dec (u16 (min_travel_ticks p)) 0) as [Z0|Z0]; [right|left; exact Z0].
    destruct HuM as [HuM|HuM]; [contradiction|].
    split.
    - split; [|exact HuM]. destruct (Z.le_gt_cases 65536 (min_travel_ticks p)); [assumption|].
      rewrite u16_id in Z0 by lia. lia.
    - intros K1. unfold P, start_prus. rewrite K1. rewrite Z.eqb_refl. exact H6. }
  destruct (run_prepared g qe olds (Z.abs d + P) N I K O) as (n & cs & g' & qe' & R1 & R2 & R3).
  exists n, cs, g', qe'. split; [exact R1|]. split; [exact R2|].
  rewrite E6 in R3.
  pose proof (run_qe_range false n olds g qe cs g' qe' Hq R1) as Hq'.
  assert (Ht : t = u32 (i32 t)).
  { rewrite u32_i32. unfold t, target_of. destruct (move_absolute p); unfold u32;
      rewrite Z.mod_mod by lia; reflexivity. }
  rewrite Ht in R3. apply i32_zero_pos; try assumption. apply i32_range.
Qed.
End WithArch.
