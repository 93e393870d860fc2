(** * P_Mcpwm: properties C80 to C83, the MCPWM/PCNT driver of the ESP32 *)
From Coq Require Import ZArith Bool List Lia.
From Verif Require Import Base Queue Mcpwm McpwmFacts McpwmProp.
Import ListNotations.
Open Scope Z_scope.

Definition m_add (c : command) (st : bool) : list mevent := [MBegin c st; MCommit].
Definition m_up (n : Z) : command := mkCommand 1000 n true.
Definition m_down (n : Z) : command := mkCommand 900 n false.

(** ** C80: the pulses *)
Theorem C80_stream_partial : forall HCU d evs,
  Forall mev_ok evs -> in_time HCU evs (minit d) ->
  let s := mrun HCU evs (minit d) in
  steady (false, 1) (m_acc s) ->
  exists rest, k_log (m_h s) ++ rest = stream HCU (m_acc s)
    /\ (m_run s = false -> rest = stream HCU (map me_c (m_q s))).
Proof.
  intros HCU d evs F T s G.
  assert (I : inv HCU [] [] (false, 1) false s).
  { apply mrun_inv; auto; [apply inv_init|]. now exists (m_acc s). }
  destruct (inv_log HCU [] [] (false, 1) false s I) as (l & rest & E1 & E2 & E3). cbn [app] in *. subst l. eauto.
Qed.
Definition ev80 : list mevent :=
  m_add (m_up 2) false ++ m_add (m_down 3) true ++ [MTea; MTez] ++ m_add (m_down 0) false ++ rounds 2
  ++ m_add (m_down 3) false ++ rounds 4.
Example C80_example :
  Forall mev_ok ev80 /\ in_time false ev80 (minit true)
  /\ steady (false, 1) (m_acc (mrun false ev80 (minit true)))
  /\ map (fun y => (y_pulse y, y_dir y, y_ticks y)) (k_log (m_h (mrun false ev80 (minit true))))
   = [(true, false, 1000); (true, false, 1000); (true, true, 900); (true, true, 900); (true, true, 900);
      (false, true, 900); (true, true, 900)].
Proof.
  split; [unfold ev80; cbn; repeat constructor; cbn; lia|].
  split; [vm_compute; intuition discriminate|].
  split; [vm_compute; intuition discriminate|]. vm_compute. reflexivity.
Qed.
(** interrupts in time, no forced stop: steps, pause, other number of steps, all of them queued in
    time *)
Theorem C80_pause_refuted : exists HCU d evs,
  Forall mev_ok evs /\ in_time HCU evs (minit d)
  /\ let s := mrun HCU evs (minit d) in
     m_run s = false /\ m_q s = [] /\ travelled HCU (stream HCU (m_acc s)) = 4
     /\ reading s = 4 /\ travelled HCU (k_log (m_h s)) = 2.
Proof.
  exists true, true,
    (m_add (m_up 1) false ++ m_add (m_up 0) false ++ m_add (m_up 3) false ++ [MNull] ++ rounds 5).
  split; [cbn; repeat constructor; cbn; lia|]. split; [vm_compute; intuition discriminate|].
  vm_compute. repeat split.
Qed.
(** ... or more pulses than commanded *)
Theorem C80_more_refuted : exists HCU d evs,
  Forall mev_ok evs /\ in_time HCU evs (minit d)
  /\ let s := mrun HCU evs (minit d) in
     m_run s = false /\ m_q s = [] /\ travelled HCU (stream HCU (m_acc s)) = 8
     /\ reading s = 8 /\ travelled HCU (k_log (m_h s)) = 10.
Proof.
  exists true, true,
    (m_add (m_up 5) false ++ m_add (m_up 0) false ++ m_add (m_up 3) false ++ [MNull] ++ rounds 12).
  split; [cbn; repeat constructor; cbn; lia|]. split; [vm_compute; intuition discriminate|].
  vm_compute. repeat split.
Qed.
(** a late interrupt at the end of the only command: an extra pulse *)
Theorem C80_late_refuted : exists HCU d evs,
  Forall mev_ok evs
  /\ let s := mrun HCU evs (minit d) in
     steady (false, 1) (m_acc s) /\ m_run s = false /\ m_q s = [] /\ t_on (k_t (m_h s)) = false
     /\ waiting_irq s = false /\ reading s = 3 /\ travelled HCU (k_log (m_h s)) = 4.
Proof.
  exists true, true,
    (m_add (m_up 3) true ++ rounds 2 ++ [MTea; MTez; MTea; MPcnt 0; MTez]).
  split; [cbn; repeat constructor; cbn; lia|].
  vm_compute. repeat split; intros; discriminate.
Qed.

(** ** C81: the correction for late interrupts *)
Theorem C81_dead : forall HCU d evs, Forall ev_fits evs -> Forall no_stop evs ->
  mrun HCU evs (minit d) = mrun_plain HCU evs (minit d).
Proof. intros. now apply plain_init. Qed.
Example C81_dead_example :
  let evs := m_add (m_up 3) true ++ m_add (m_up 4) false ++ [MTea; MTez; MTea; MTez; MTea; MTez; MTea; MPcnt 5] in
  Forall ev_fits evs /\ Forall no_stop evs
  /\ p_cnt (k_p (m_h (mrun true evs (minit true)))) = 0 /\ length (k_log (m_h (mrun true evs (minit true)))) = 4%nat.
Proof. vm_compute. repeat split; repeat constructor; intros; discriminate. Qed.
Theorem C81_window_partial : forall k e h,
  t_on (k_t h) = true -> t_busy (k_t h) = false -> g_high (k_g h) = true ->
  let n := c_steps (me_c e) in let c := p_cnt (k_p h) in
  2 <= n - c -> n <= 255 -> 0 <= c -> c + 1 < p_top (k_p h) -> p_lim (k_p h) <> n ->
  let h' := apply k e h in
  togo h' = n - c - (if came k then 1 else 0) /\ p_ev (k_p h') = p_ev (k_p h)
  /\ g_high (k_g h') = true /\ g_ena (k_g h') = false /\ t_busy (k_t h') = came k.
Proof. exact window. Qed.
Definition h81 (hi : bool) (c : Z) : hw :=
  mkHw (mkTimer true true false 1000 1000) (mkGen hi false true) (mkPcnt c 7 7 false) true [].
Example C81_window_example :
  togo (apply 6 (mkMe (m_up 5) false) (h81 true 2)) = 2 /\ togo (apply 99 (mkMe (m_up 5) false) (h81 true 2)) = 3.
Proof. vm_compute. repeat split. Qed.
(** One step to go: the limit becomes 0 with the interrupt of the timer switched off (line 227,
    "val2 > 0"). Hence neither the counter nor the timer ever asks for the next command. *)
Theorem C81_one_to_go_refuted : exists k e h,
  t_on (k_t h) = true /\ t_busy (k_t h) = false /\ g_high (k_g h) = true
  /\ p_cnt (k_p h) = 2 /\ c_steps (me_c e) = 3 /\ p_lim (k_p h) = 7 /\ p_top (k_p h) = 7
  /\ let h' := apply k e h in p_top (k_p h') = 0 /\ p_cnt (k_p h') = 0 /\ g_ena (k_g h') = false
     /\ g_high (k_g h') = true /\ length (k_log h') = 1%nat.
Proof. exists 6%nat, (mkMe (m_up 3) false), (h81 true 2). vm_compute. repeat split. Qed.
(** After a pause the cycle has no pulse: one step is taken off nevertheless. *)
Theorem C81_after_pause_refuted : exists k e h,
  t_on (k_t h) = true /\ t_busy (k_t h) = false /\ g_high (k_g h) = false /\ p_cnt (k_p h) = 0
  /\ c_steps (me_c e) = 3
  /\ let h' := apply k e h in togo h' = 2 /\ map y_pulse (k_log h') = [false].
Proof. exists 6%nat, (mkMe (m_up 3) false), (h81 false 0). vm_compute. repeat split. Qed.

(** ** C82: the position *)
Theorem C82_position_partial : forall HCU d evs evs',
  Forall mev_ok (evs ++ evs') -> in_time HCU (evs ++ evs') (minit d) ->
  let s := mrun HCU evs (minit d) in let s' := mrun HCU evs' s in
  steady (false, 1) (m_acc s') -> waiting_irq s' = false ->
  position s s' = travelled HCU (k_log (m_h s)) \/ position s s' = travelled HCU (k_log (m_h s')).
Proof.
  intros HCU d evs evs' F T s s' G W.
  assert (E : s' = mrun HCU (evs ++ evs') (minit d)) by (unfold s', s; now rewrite mrun_app).
  assert (I' : inv HCU [] [] (false, 1) false s').
  { rewrite E. apply mrun_inv; auto; [apply inv_init|]. exists (m_acc s'). rewrite <- E. auto. }
  assert (I : inv HCU [] [] (false, 1) false s).
  { apply Forall_app in F. destruct F as [F _]. apply mrun_inv; auto; [apply inv_init| |].
    - clear - T. revert T. generalize (minit d). induction evs as [|e evs IH]; intros x T; [exact I|].
      cbn [app in_time] in *. destruct T as [T1 T2]. split; auto.
    - exists (m_acc s). split; [reflexivity|]. destruct (acc_run HCU evs' s) as (l & El). fold s' in El.
      rewrite El in G. apply steady_app in G. apply G. }
  unfold position. destruct (Z.eqb_spec (p_cnt (k_p (m_h s))) 0) as [Z0|Z0].
  - right. apply reading_right; auto.
  - left. apply reading_right; auto.
Qed.
Example C82_example :
  let s := mrun false ev80 (minit true) in
  position s s = -2 /\ p_cnt (k_p (m_h s)) = 1 /\ length (m_q s) = 1%nat
  /\ let s1 := mrun false (m_add (m_down 3) false ++ m_add (m_up 2) true ++ rounds 3) (minit true) in
     position s1 s1 = -3 /\ p_cnt (k_p (m_h s1)) = 0 /\ waiting_irq s1 = false.
Proof. vm_compute. repeat split. Qed.
(** a single reading, the interrupt is waiting *)
Theorem C82_single_reading_refuted : exists HCU d evs,
  Forall mev_ok evs /\ in_time HCU evs (minit d)
  /\ let s := mrun HCU evs (minit d) in
     steady (false, 1) (m_acc s) /\ reading s = 0 /\ travelled HCU (k_log (m_h s)) = 3.
Proof.
  exists true, true, (m_add (m_up 3) true ++ rounds 2 ++ [MTea]).
  split; [cbn; repeat constructor; cbn; lia|]. split; [vm_compute; intuition discriminate|].
  vm_compute. repeat split; intros; discriminate.
Qed.
(** after a forced stop, adding a command without starting it moves the reported position *)
Theorem C82_after_stop_refuted : exists HCU d evs c,
  Forall ev_fits evs
  /\ let s := mrun HCU evs (minit d) in let s' := mrun HCU (m_add c false) s in
     m_q s = [] /\ m_run s = false /\ t_on (k_t (m_h s)) = false /\ waiting_irq s = false
     /\ position s s = 3 /\ position s' s' = 5 /\ k_log (m_h s') = k_log (m_h s).
Proof.
  exists true, true, (m_add (m_up 3) true ++ rounds 1 ++ halt), (m_up 4).
  split; [cbn; repeat constructor; cbn; lia|]. vm_compute. repeat split.
Qed.

(** ** C83: the end of the motion and forceStop() *)
Theorem C83_end_partial : forall HCU d evs,
  Forall mev_ok evs -> in_time HCU evs (minit d) ->
  let s := mrun HCU evs (minit d) in
  steady (false, 1) (m_acc s) -> m_run s = true ->
  exists k, (k <= S (length (stream HCU (m_acc s)) - length (k_log (m_h s))))%nat
    /\ let s1 := mrun HCU (rounds k) s in
       m_run s1 = false /\ m_q s1 = [] /\ t_on (k_t (m_h s1)) = false /\ k_log (m_h s1) = stream HCU (m_acc s)
       /\ in_time HCU (rounds k) s.
Proof.
  intros HCU d evs F T s G R.
  assert (Ga : good_acc [] (false, 1) s) by (now exists (m_acc s)).
  assert (I : inv HCU [] [] (false, 1) false s) by (apply mrun_inv; auto; apply inv_init).
  exact (drain_any HCU [] [] (false, 1) false s (m_acc s) I Ga R eq_refl).
Qed.
Example C83_example : m_run (mrun false ev80 (minit true)) = true
  /\ let s := mrun false (rounds 2) (mrun false ev80 (minit true)) in
     m_run s = false /\ t_on (k_t (m_h s)) = false /\ length (k_log (m_h s)) = 9%nat.
Proof. vm_compute. repeat split. Qed.
Theorem C83_stop : forall HCU s evs, m_pc s = None -> Forall hw_event evs ->
  let s1 := mrun HCU (MStop :: evs) s in
  (length (k_log (m_h s1)) <= S (length (k_log (m_h s))))%nat /\ m_run s1 = false /\ m_q s1 = [].
Proof.
  intros HCU s evs P F s1. destruct (stopped_run HCU _ evs (mstep HCU MStop s) (stop_stopped HCU s P) F) as (Q & R & _ & _ & L).
  change (mrun HCU evs (mstep HCU MStop s)) with s1 in *. repeat split; auto. lia.
Qed.
Theorem C83_stop_rest : forall HCU s, m_pc s = None ->
  let s1 := mrun HCU halt s in t_on (k_t (m_h s1)) = false /\ waiting_irq s1 = false.
Proof. intros HCU s P. exact (stopped_rest HCU _ _ (stop_stopped HCU s P)). Qed.
(** new commands after a forced stop, whatever has been before *)
Theorem C83_after_stop_partial : forall HCU d evs0 evs,
  Forall ev_fits evs0 -> let s0 := mrun HCU evs0 (minit d) in m_pc s0 = None ->
  let s1 := mrun HCU halt s0 in
  Forall mev_ok evs -> in_time HCU evs s1 -> let s := mrun HCU evs s1 in
  forall l, m_acc s = m_acc s1 ++ l -> steady (false, p_lim (k_p (m_h s1))) l ->
  exists rest, k_log (m_h s) ++ rest = k_log (m_h s1) ++ stream HCU l
    /\ (m_run s = false -> rest = stream HCU (map me_c (m_q s))).
Proof.
  intros HCU d evs0 evs F0 s0 P s1 F T s l El G.
  pose proof (after_halt HCU evs0 d F0 P) as I1. cbv zeta in I1. fold s0 in I1. fold s1 in I1.
  assert (I : inv HCU (m_acc s1) (k_log (m_h s1)) (false, p_lim (k_p (m_h s1))) true s).
  { apply mrun_inv; auto. now exists l. }
  destruct (inv_log HCU _ _ _ _ s I) as (l' & rest & E1 & E2 & E3).
  assert (l' = l). { apply (app_inv_head (m_acc s1)). exact (eq_trans (eq_sym E1) El). }
  subst l'. eauto.
Qed.
Definition ev83a : list mevent := m_add (m_up 5) true ++ rounds 2.
Definition ev83b : list mevent := m_add (m_down 2) true ++ rounds 3.
Example C83_stop_example :
  let s0 := mrun true ev83a (minit true) in let s1 := mrun true halt s0 in
  m_pc s0 = None /\ length (k_log (m_h s0)) = 2%nat /\ length (k_log (m_h s1)) = 3%nat
  /\ in_time true ev83b s1 /\ m_acc (mrun true ev83b s1) = m_acc s1 ++ [m_down 2]
  /\ steady (false, p_lim (k_p (m_h s1))) [m_down 2]
  /\ map (fun y => (y_pulse y, y_dir y)) (k_log (m_h (mrun true ev83b s1)))
   = [(true, true); (true, true); (true, true); (true, false); (true, false)].
Proof. vm_compute. intuition discriminate. Qed.

Print Assumptions C80_stream_partial.
Print Assumptions C80_pause_refuted.
Print Assumptions C80_more_refuted.
Print Assumptions C80_late_refuted.
Print Assumptions C81_dead.
Print Assumptions C81_window_partial.
Print Assumptions C81_one_to_go_refuted.
Print Assumptions C81_after_pause_refuted.
Print Assumptions C82_position_partial.
Print Assumptions C82_single_reading_refuted.
Print Assumptions C82_after_stop_refuted.
Print Assumptions C83_end_partial.
Print Assumptions C83_stop.
Print Assumptions C83_stop_rest.
Print Assumptions C83_after_stop_partial.
