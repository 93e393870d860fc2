(** * P_RmtV4: the ESP32 RMT driver for ESP-IDF 4: C73, C74, C75 *)
From Coq Require Import ZArith Bool List Lia.
From Verif Require Import Base Queue QueueFacts QueueHist Rmt RmtFacts RmtHist RmtCount
  RmtV4 RmtV4Facts RmtV4Hist RmtV4Count.
Import ListNotations.
Open Scope Z_scope.

Definition blank : Z -> entry := fun _ => mkEntry 0 false false false false false false 0 0.
Definition all_low : pins := fun _ => false.
Definition from_reset (new : bool) (evs : list vevent) : vst :=
  vrun new arch_esp32 true evs (vinit new arch_esp32 blank (fun _ => 0) all_low false).
(** a complete addQueueEntry() *)
Definition put_cmd (c : command) (start : bool) : list vevent := [VBegin c start; VCommit; VStart].

(** ** C73: pulses *)
(** ESP32, ESP32-S2 (PART_SIZE 31). [air]: what is on air while the parts of a command are sent,
    starting with the first ([two] = false) or second part of the memory, including the tick the
    hardware takes at the end of the memory. Pulses begin at 0, t, 2t, ..., (s-1)t, and the command
    lasts s*t ticks (t for a pause). *)
Theorem C73_pulses_partial : forall two s t, accepted s t ->
  (if t =? 65535 then s < 15
   else s < 31 \/ s mod 31 = 0 \/ 4 * (31 - (31 + s mod 31) / 2) < t / 2) ->
  Forall (fun p => Z.of_nat (length (snd p)) = 31 /\ Forall (fun h => 1 <= snd h <= 32767) (halves (snd p)))
    (v4_encoded false two s t)
  /\ rise_times 0 false (air false (v4_encoded false two s t)) = grid (Z.to_nat s) 0 t
  /\ total (air false (v4_encoded false two s t)) = (if s =? 0 then t else s * t).
Proof.
  exact (fun two s t Ha Hc =>
    let E := encoded4_good false two s t Ha Hc in
    conj (proj1 E) (proj1 (proj2 (proj2 E)) eq_refl)).
Qed.
(** ESP32-C3, ESP32-S3 (PART_SIZE 23): number of pulses right, but every part with less than 23 steps
    is 4 ticks too short. *)
Theorem C73_new_partial : forall two s t, accepted s t ->
  (if t =? 65535 then s < 11
   else s < 23 \/ s mod 23 = 0 \/ 4 * (23 - (23 + s mod 23) / 2) + 8 < t / 2) ->
  Forall (fun p => Z.of_nat (length (snd p)) = 23 /\ Forall (fun h => 1 <= snd h <= 32767) (halves (snd p)))
    (v4_encoded true two s t)
  /\ rises false (air true (v4_encoded true two s t)) = s
  /\ (0 < s -> t < 65535 ->
      total (air true (v4_encoded true two s t)) = s * t - 4 * short_parts true (v4_encoded true two s t)).
Proof.
  exact (fun two s t Ha Hc =>
    let E := encoded4_good true two s t Ha Hc in
    conj (proj1 E) (conj (proj1 (proj2 E)) (proj2 (proj2 (proj2 E)) eq_refl))).
Qed.
(** 146 ticks (at most 109589 steps/s) are always enough, unless there are 65535. *)
Theorem C73_slow : forall new s t, 146 <= t < 65535 -> spread4 new s t.
Proof.
  intros new s t H. apply spread4_slow. unfold psize. destruct new; lia.
Qed.
Example C73_example :
  accepted 50 200 /\ spread4 false 50 200 /\ ~ spread4 false 33 97
  /\ rise_times 0 false (air false (v4_encoded false false 3 2000)) = [0; 2000; 4000]
  /\ map (fun p => (fst p, total (on_air false (fst p) (snd p)))) (v4_encoded false true 50 200)
     = [(true, 5000); (false, 5000)]
  /\ map (fun p => (fst p, total (on_air true (fst p) (snd p)))) (v4_encoded true false 50 200)
     = [(false, 4600); (true, 2596); (false, 2796)]
  /\ total (air false (v4_encoded false true 0 3200)) = 3200
  /\ accepted 3 65535 /\ rise_times 0 false (air false (v4_encoded false true 3 65535)) = [0; 65535; 131070].
Proof.
  split; [repeat split; cbn; lia|]. split; [apply C73_slow; lia|].
  split; [unfold spread4; cbn; lia|]. split; [vm_compute; reflexivity|]. split; [vm_compute; reflexivity|].
  split; [vm_compute; reflexivity|]. split; [vm_compute; reflexivity|].
  split; [repeat split; cbn; lia|]. vm_compute. reflexivity.
Qed.

(** Over every history without forceStop: the rising edges in the parts sent, those in the part that
    comes next and the steps still queued are the steps of the accepted commands. *)
Theorem C73_history_partial : forall new A ext garbage mem p test evs, In A all_archs ->
  Forall (vev_fits new) evs ->
  let s := vrun new A ext evs (vinit new A garbage mem p test) in
  sum_chunks (v_log s) + waiting s + sum_left (pend A (v_q s)) = sum_steps (v_acc s).
Proof.
  exact (fun new A ext garbage mem p test evs HA H =>
    ki_sum _ _ _ (kinv_run new A HA ext evs _ (kinv_init new A HA garbage mem p test) H)).
Qed.
Definition up_50 : command := mkCommand 200 50 true.
Definition down_9 : command := mkCommand 400 9 false.
Definition turning : list vevent := [VSetDir 5 true] ++ put_cmd up_50 false ++ put_cmd down_9 true.
Example C73_history_example :
  Forall (vev_fits false) turning /\ Forall (vev_fits true) turning
  /\ map xedges (v_log (from_reset false (turning ++ sents 7))) = [25; 25; 0; 9; 0; 0]
  /\ map xedges (v_log (from_reset true (turning ++ sents 3))) = [23; 13; 14; 0]
  /\ waiting (from_reset true (turning ++ sents 3)) = 9
  /\ sum_steps (v_acc (from_reset true (turning ++ sents 3))) = 59.
Proof.
  assert (F : forall new, Forall (vev_fits new) turning).
  { intros new. unfold turning, put_cmd. cbn [app].
    repeat (apply Forall_cons; [cbn [vev_fits]; try exact I|]); [| | |apply Forall_nil].
    - right. reflexivity.
    - split; [repeat split; cbn; lia|apply C73_slow; cbn; lia].
    - split; [repeat split; cbn; lia|apply C73_slow; cbn; lia]. }
  split; [apply F|]. split; [apply F|]. repeat split; vm_compute; reflexivity.
Qed.
(** 20 steps of 65535 ticks on the ESP32, right after the start: only 30 of the 31 symbols of the first
    part are written; the last one still has a pulse of the test pattern: 21 pulses are sent. *)
Theorem C73_stale_symbol_refuted : exists c,
  accepted (c_steps c) (c_ticks c) /\ c_steps c = 20
  /\ let s := from_reset false (put_cmd c true ++ sents 5) in
     v_acc s = [c] /\ v_hw s = Off /\ sum_chunks (v_log s) = 21.
Proof.
  exists (mkCommand 65535 20 true). split; [repeat split; cbn; lia|]. split; [reflexivity|].
  repeat split; vm_compute; reflexivity.
Qed.
(** The same on the ESP32-C3/S3: the last symbol is what has been there before, here 0, which ends the
    transmission after 11 of 20 steps. *)
Theorem C73_stale_end_refuted : exists c,
  accepted (c_steps c) (c_ticks c) /\ c_steps c = 20
  /\ exists x l, v_log (from_reset true (put_cmd c true)) = x :: l
     /\ In (false, 0) (halves (x_words x)) /\ xedges x = 11.
Proof.
  exists (mkCommand 65535 20 true). split; [repeat split; cbn; lia|]. split; [reflexivity|].
  set (l := v_log (from_reset true (put_cmd (mkCommand 65535 20 true) true))). vm_compute in l.
  subst l. eexists. eexists. split; [reflexivity|]. split; [|vm_compute; reflexivity].
  vm_compute. tauto.
Qed.
(** ESP32-C3/S3: 9 steps of 400 ticks take 3596 ticks. *)
Theorem C73_short_refuted : exists s t, accepted s t /\ s * t = 3600
  /\ total (air true (v4_encoded true false s t)) = 3596.
Proof. exists 9, 400. split; [repeat split; cbn; lia|]. split; [reflexivity|]. vm_compute. reflexivity. Qed.
(** ESP32: 33 steps of 97 ticks: the low phase of the 16th step would have to be -12 ticks long; the
    pulse gets 32756 ticks longer instead. *)
Theorem C73_underflow_refuted : exists s t, accepted s t /\ s * t = 3201
  /\ total (air false (v4_encoded false false s t)) <> s * t
  /\ exists d, In (true, d) (air false (v4_encoded false false s t)) /\ 32700 < d.
Proof.
  exists 33, 97. split; [repeat split; cbn; lia|]. split; [reflexivity|].
  split; [vm_compute; congruence|]. exists 32756. split; [vm_compute; tauto|lia].
Qed.

(** ** C74: the direction pin *)
(** Whenever a part with steps is sent, the direction pin has the commanded level when the hardware
    begins with it, and the interrupt that fills the other part leaves it alone. *)
Theorem C74_direction : forall new A ext garbage mem p test evs c, In A all_archs ->
  Forall vev_ok evs -> In c (v_log (vrun new A ext evs (vinit new A garbage mem p test))) ->
  x_pin c = true -> 0 < xedges c -> x_before c = x_want c /\ x_after c = x_want c.
Proof.
  exact (fun new A ext garbage mem p test evs c HA H =>
    proj1 (Forall_forall _ _)
      (vi_log _ _ _ (vinv_run new A HA ext evs _ (vinv_init new A HA garbage mem p test) H)) c).
Qed.
Example C74_example :
  Forall vev_ok (turning ++ sents 7)
  /\ map (fun c => (xedges c, x_before c, x_after c)) (v_log (from_reset false (turning ++ sents 7)))
     = [(25, true, true); (25, true, true); (0, true, false); (9, false, false); (0, false, false);
        (0, false, false)].
Proof. split; [|vm_compute; reflexivity]. unfold turning. cbn. repeat constructor; cbn; lia. Qed.

(** Before the direction changes after a part with steps, the hardware gets a part without any edge. It
    lasts at least the minimum time of a command, and not more than one rounding step (two ticks per
    symbol) longer. *)
Theorem C74_pause_before_turn : forall new A w two, In A all_archs ->
  let q := r_q (w_r w) in
  q_rd q <> q_wr q -> e_toggle (head A q) = true -> b_steps (part_of (negb two) w) = true ->
  let b := part_of two (apply4 new A two w) in
  rises false (halves (b_words b)) = 0
  /\ MIN_CMD_TICKS A <= duration (b_words b) < MIN_CMD_TICKS A + 2 * psize new.
Proof. exact (fun new A w two HA => turn_pause new A HA two w). Qed.
Example C74_pause_example :
  let w := v_w (from_reset false turning) in
  exists two, q_rd (r_q (w_r w)) <> q_wr (r_q (w_r w)) /\ e_toggle (head arch_esp32 (r_q (w_r w))) = true
    /\ b_steps (part_of (negb two) w) = true.
Proof. exists false. vm_compute. repeat split; congruence. Qed.

(** ** C75: a transmission ends *)
(** If no command comes any more, the hardware is off after a bounded number of parts, the queue is
    empty and not running, and exactly the accepted steps have been sent. *)
Theorem C75_drained_partial : forall new A ext garbage mem p test evs, In A all_archs ->
  Forall (vev_fits new) evs ->
  let s := vrun new A ext evs (vinit new A garbage mem p test) in v_hw s <> Off ->
  exists k, Z.of_nat k <= 4 * fold_right Z.add 0 (map (fun e => e_steps e + 1) (pend A (v_q s))) + 6
    /\ let s' := vrun new A ext (sents k) s in
       v_hw s' = Off /\ q_running (v_q s') = false /\ pend A (v_q s') = []
       /\ sum_chunks (v_log s') = sum_steps (v_acc s').
Proof.
  exact (fun new A ext garbage mem p test evs HA H =>
    drained new A HA ext _ (kinv_run new A HA ext evs _ (kinv_init new A HA garbage mem p test) H)).
Qed.
(** forceStop(): at most two more parts, without steps; the queue is empty and not running then. *)
Theorem C75_stopped_partial : forall new A ext garbage mem p test evs, In A all_archs ->
  Forall vev_ok evs ->
  let s := vrun new A ext evs (vinit new A garbage mem p test) in v_pc s = Free -> v_hw s <> Off ->
  exists k, (1 <= k <= 2)%nat /\ let s' := vrun new A ext (VStop :: sents k) s in
    v_hw s' = Off /\ q_running (v_q s') = false /\ pend A (v_q s') = []
    /\ exists l, v_log s' = v_log s ++ l /\ Forall (fun c => xedges c = 0) l.
Proof.
  exact (fun new A ext garbage mem p test evs HA H =>
    stop_ends new A HA ext _ (vinv_run new A HA ext evs _ (vinv_init new A HA garbage mem p test) H)).
Qed.
Example C75_example :
  v_hw (from_reset false turning) = One
  /\ v_hw (from_reset false (turning ++ sents 8)) = Off
  /\ q_running (v_q (from_reset false (turning ++ sents 8))) = false
  /\ sum_chunks (v_log (from_reset false (turning ++ sents 8))) = 59
  /\ v_pc (from_reset true (turning ++ [VSent])) = Free
  /\ map xedges (v_log (from_reset true (turning ++ [VSent; VStop; VSent; VSent]))) = [23; 13]
  /\ q_running (v_q (from_reset true (turning ++ [VSent; VStop; VSent; VSent]))) = false.
Proof. repeat split; vm_compute; reflexivity. Qed.
(** If no command is left for the second part, then the part becomes a pause, the continuous mode ends and
    the driver takes no commands, until the end has been reached. On the ESP32 the pause has
    MIN_CMD_TICKS at least (31 symbols), as said by the comment in the code. *)
Theorem C75_last_pause_partial : forall A w, In A all_archs -> let q := r_q (w_r w) in q_rd q = q_wr q ->
  let w' := apply4 false A true w in
  r_stopped (w_r w') = true /\ w_conti w' = false /\ w_one w' = w_one w
  /\ rises false (halves (b_words (w_two w'))) = 0
  /\ MIN_CMD_TICKS A <= duration (b_words (w_two w')) < MIN_CMD_TICKS A + 62.
Proof.
  intros A w HA q H. destruct (stop_pause false A HA w H) as (H1 & H2 & H3 & H4 & H5).
  cbv zeta. repeat (split; [assumption|]). rewrite H5. change (psize false) with 31.
  pose proof (Z.div_mod (MIN_CMD_TICKS A + 61) 62 ltac:(lia)).
  pose proof (Z.mod_pos_bound (MIN_CMD_TICKS A + 61) 62 ltac:(lia)). lia.
Qed.
(** The drivers with 23 symbols per part use the same symbols: three quarters of it. *)
Theorem C75_last_pause_refuted : forall A w, In A all_archs -> let q := r_q (w_r w) in q_rd q = q_wr q ->
  let w' := apply4 true A true w in
  r_stopped (w_r w') = true /\ w_conti w' = false /\ w_one w' = w_one w
  /\ rises false (halves (b_words (w_two w'))) = 0
  /\ duration (b_words (w_two w')) < MIN_CMD_TICKS A
  /\ 4 * duration (b_words (w_two w')) < 3 * MIN_CMD_TICKS A + 184.
Proof.
  intros A w HA q H. destruct (stop_pause true A HA w H) as (H1 & H2 & H3 & H4 & H5).
  cbv zeta. repeat (split; [assumption|]). rewrite H5. change (psize true) with 23.
  clear - HA. revert A HA. apply arch_cases; vm_compute; split; reflexivity.
Qed.
Example C75_last_pause_example :
  let w := v_w (vinit false arch_esp32 blank (fun _ => 0) all_low false) in
  q_rd (r_q (w_r w)) = q_wr (r_q (w_r w))
  /\ duration (b_words (w_two (apply4 false arch_esp32 true w))) = 3224
  /\ duration (b_words (w_two (apply4 true arch_esp32 true w))) = 2392.
Proof. repeat split; vm_compute; reflexivity. Qed.
(** A state in which nothing is sent any more, though the queue is running, lasts until reset. *)
Theorem C75_hang : forall new A ext s evs, v_hw s = Off -> q_running (v_q s) = true ->
  let s' := vrun new A ext evs s in q_running (v_q s') = true /\ v_log s' = v_log s.
Proof.
  exact (fun new A ext s evs H1 H2 =>
    let E := hung_forever new A ext evs s (conj H1 H2) in conj (proj2 (proj1 E)) (proj2 E)).
Qed.
(** It is reached, if addQueueEntry() is called while commands are ignored (after forceStop()). *)
Theorem C75_ignored_refuted : forall new evs,
  let s := from_reset new ([VIgnore true] ++ put_cmd (mkCommand 400 9 true) true ++ [VIgnore false] ++ evs) in
  q_running (v_q s) = true /\ v_log s = [].
Proof.
  intros new evs. unfold from_reset. rewrite app_assoc, app_assoc, vrun_app. set (s0 := vrun _ _ _ (_ ++ _) _).
  assert (H : v_hw s0 = Off /\ q_running (v_q s0) = true /\ v_log s0 = [])
    by (unfold s0; destruct new; repeat split; vm_compute; reflexivity).
  destruct H as (H1 & H2 & <-). exact (C75_hang new arch_esp32 true s0 evs H1 H2).
Qed.
(** It is reached, too, if a running queue takes the command and gets empty before addQueueEntry()
    looks whether the queue must be started. *)
Definition late : list vevent :=
  put_cmd (mkCommand 400 9 true) true ++ [VBegin (mkCommand 400 9 true) true; VCommit] ++ sents 5 ++ [VStart].
Theorem C75_late_start_refuted : exists evs, Forall (vev_fits false) evs /\
  (forall ev, In ev evs -> forall b, ev <> VIgnore b) /\
  forall evs', let s := from_reset false (evs ++ evs') in
    q_running (v_q s) = true /\ sum_chunks (v_log s) = 18.
Proof.
  exists late. split; [|split].
  - unfold late, put_cmd, sents. cbn [app repeat].
    repeat (apply Forall_cons; [cbn [vev_fits]; try exact I|]); [| |apply Forall_nil];
      (split; [repeat split; cbn; lia|apply C73_slow; cbn; lia]).
  - intros ev H b ->. unfold late, put_cmd, sents in H. cbn [app repeat In] in H.
    repeat (destruct H as [H|H]; [discriminate|]). exact H.
  - intros evs'. unfold from_reset. rewrite vrun_app.
    assert (H : hung (vrun false arch_esp32 true late (vinit false arch_esp32 blank (fun _ => 0) all_low false)))
      by (split; vm_compute; reflexivity).
    destruct (hung_forever false arch_esp32 true evs' _ H) as [[_ H1] H2].
    split; [exact H1|]. rewrite H2. vm_compute. reflexivity.
Qed.
(** The ESP32 gets there, too, if the end of the memory is reached while forceStop() is between
    clearing the continuous mode and setting _rmtStopped. *)
Definition three : list vevent :=
  put_cmd (mkCommand 400 9 true) false ++ put_cmd (mkCommand 400 9 true) false ++ put_cmd (mkCommand 400 9 true) true.
Theorem C75_stop_race_refuted : forall evs,
  let s := from_reset false (three ++ [VSent; VStopA; VSent; VStopB] ++ evs) in
  q_running (v_q s) = true /\ sum_chunks (v_log s) = 18.
Proof.
  intros evs. unfold from_reset. rewrite app_assoc, vrun_app.
  assert (H : hung (vrun false arch_esp32 true (three ++ [VSent; VStopA; VSent; VStopB])
                      (vinit false arch_esp32 blank (fun _ => 0) all_low false)))
    by (split; vm_compute; reflexivity).
  destruct (hung_forever false arch_esp32 true evs _ H) as [[_ H1] H2].
  split; [exact H1|]. rewrite H2. vm_compute. reflexivity.
Qed.
(** And if the stepper task starts the queue in that gap, the hardware repeats the steps in the memory
    without end, though the queue is empty and not running. *)
Theorem C75_runaway_refuted : exists evs, forall k,
  let s := from_reset false (evs ++ sents k) in
  v_hw s = Loop /\ q_running (v_q s) = false /\ pend arch_esp32 (v_q s) = [] /\ bedges (w_one (v_w s)) = 9.
Proof.
  exists (put_cmd (mkCommand 400 9 true) false ++ [VStopA; VAddNull; VStopB; VSent; VSent]).
  intros k. unfold from_reset. rewrite vrun_app. set (s0 := vrun _ _ _ (_ ++ _) _).
  assert (H : v_hw s0 = Loop /\ q_running (v_q s0) = false /\ pend arch_esp32 (v_q s0) = []
              /\ bedges (w_one (v_w s0)) = 9) by (repeat split; vm_compute; reflexivity).
  clearbody s0. cbv zeta. rewrite (loop_stays false arch_esp32 true s0 k (proj1 H)). exact H.
Qed.

Print Assumptions C73_pulses_partial.
Print Assumptions C73_new_partial.
Print Assumptions C73_slow.
Print Assumptions C73_history_partial.
Print Assumptions C73_stale_symbol_refuted.
Print Assumptions C73_stale_end_refuted.
Print Assumptions C73_short_refuted.
Print Assumptions C73_underflow_refuted.
Print Assumptions C74_direction.
Print Assumptions C74_pause_before_turn.
Print Assumptions C75_drained_partial.
Print Assumptions C75_stopped_partial.
Print Assumptions C75_last_pause_partial.
Print Assumptions C75_last_pause_refuted.
Print Assumptions C75_hang.
Print Assumptions C75_ignored_refuted.
Print Assumptions C75_late_start_refuted.
Print Assumptions C75_stop_race_refuted.
Print Assumptions C75_runaway_refuted.
