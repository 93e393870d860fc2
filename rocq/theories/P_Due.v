(** * P_Due: properties C86 to C90, the driver for Atmel SAM (Arduino Due) *)
From Coq Require Import ZArith Bool List Lia.
From Verif Require Import Base Queue Due DueFacts DueExact DueProp DuePins.
Import ListNotations.
Open Scope Z_scope.

Definition d_add (c : command) (st : bool) : list devent := [DBegin c st; DCommit].
(** one period, handlers 100 ticks after its start *)
Definition d_round : list devent := [DPeriod; DWait 100; DPio; DPwm].
Definition d_first : list devent := [DWait 100; DPio; DPwm].
Definition d_rounds (n : nat) : list devent := concat (repeat d_round n).
Definition up (t n : Z) : command := mkCommand t n true.
Definition down (t n : Z) : command := mkCommand t n false.
Ltac run_ok := vm_compute; repeat split; intros; try discriminate; auto.

(** ** C86: the pulses *)
Theorem C86_pulses_partial : forall HCU d t evs,
  along HCU good evs (dinit d t) ->
  let s := drun HCU evs (dinit d t) in
  exists left, pulses (h_log (d_h s)) ++ left = pulses (stream HCU (d_acc s))
    /\ (d_run s = false -> left = pulses (stream HCU (map e_c (d_q s)))).
Proof. exact due_pulses. Qed.
(** steps, a turn, a pause, steps; the last ones not yet finished *)
Definition ev86 : list devent :=
  d_add (up 4500 2) true ++ d_first ++ d_add (down 5000 3) false ++ d_rounds 2 ++ d_add (down 6000 0) false
  ++ d_add (down 7000 3) false ++ d_rounds 4.
Example C86_example :
  along true good ev86 (dinit false 7)
  /\ h_log (d_h (drun true ev86 (dinit false 7)))
   = [Pulse true 4500; Pulse true 4500; Pulse false 5000; Pulse false 5000; Pulse false 5000; Gap 6000; Pulse false 7000].
Proof.
  split; [|vm_compute; reflexivity].
  run_ok. exists [], (mkDe (up 4500 2) 1 false). vm_compute. auto.
Qed.

(** A turn with a pause, as done for the delay after a direction change: interrupts prompt, started
    with steps, no forced stop *)
Definition fair (e : devent) (s : dst) : Prop :=
  ev_fits e s /\ no_stop e s /\ pio_in_time e s /\ prompt 100 e s /\ start_ok e s.
Theorem C86_turn_on_pause_refuted : exists HCU d t evs,
  along HCU fair evs (dinit d t)
  /\ let s := drun HCU evs (dinit d t) in
     d_acc s = [up 4500 2; down 21000 0; down 4500 2] /\ d_run s = false /\ d_q s = []
     /\ h_log (d_h s) = [Pulse HCU 4500; Pulse HCU 4500; Gap 21000; Pulse HCU 4500; Pulse HCU 4500]
     /\ reading s = 0 /\ travelled HCU (h_log (d_h s)) = 4.
Proof.
  exists true, false, 7, (d_add (up 4500 2) true ++ d_add (down 21000 0) false ++ d_add (down 4500 2) false ++ d_first ++ d_rounds 5).
  split; [run_ok|]. run_ok.
Qed.
(** A turn with the steps after a pause: these steps go the wrong way. *)
Theorem C86_turn_after_pause_refuted : exists HCU d t evs,
  along HCU fair evs (dinit d t)
  /\ let s := drun HCU evs (dinit d t) in
     d_acc s = [up 4500 2; up 21000 0; down 4500 2] /\ d_run s = false /\ d_q s = []
     /\ h_log (d_h s) = [Pulse HCU 4500; Pulse HCU 4500; Gap 21000; Pulse HCU 4500; Pulse HCU 4500]
     /\ reading s = 0 /\ travelled HCU (h_log (d_h s)) = 4.
Proof.
  exists true, false, 7, (d_add (up 4500 2) true ++ d_add (up 21000 0) false ++ d_add (down 4500 2) false ++ d_first ++ d_rounds 5).
  split; [run_ok|]. run_ok.
Qed.
(** A turn while the queue runs out: the direction is compared before, and the entry put into the
    queue after. Steps only. *)
Theorem C86_race_refuted : exists HCU d t evs,
  along HCU fair evs (dinit d t)
  /\ let s := drun HCU evs (dinit d t) in
     d_acc s = [up 4500 2; down 4500 3] /\ d_run s = false /\ d_q s = []
     /\ reading s = -1 /\ travelled HCU (h_log (d_h s)) = 5.
Proof.
  exists true, false, 7, (d_add (up 4500 2) true ++ d_first ++ [DPeriod; DWait 100; DBegin (down 4500 3) true; DPio; DCommit] ++ d_rounds 4).
  split; [run_ok|]. run_ok.
Qed.
(** The interrupt of the port more than a period late: two edges are counted as one. *)
Theorem C86_late_refuted : exists HCU d t evs,
  along HCU (fun e s => ev_fits e s /\ no_stop e s /\ turn_ok e s) evs (dinit d t)
  /\ let s := drun HCU evs (dinit d t) in
     d_acc s = [up 420 2] /\ d_run s = false /\ d_q s = []
     /\ reading s = 2 /\ travelled HCU (h_log (d_h s)) = 3.
Proof.
  exists true, false, 7, (d_add (up 420 2) true ++ [DPeriod; DPio; DPeriod; DPio]).
  split; [run_ok|]. run_ok.
Qed.

(** ** C87: pauses and periods *)
Theorem C87_exact_partial : forall HCU L d t evs,
  0 <= L <= 2000 -> along HCU (timely L) evs (dinit d t) ->
  let s := drun HCU evs (dinit d t) in
  exists left, h_log (d_h s) ++ left = stream HCU (d_acc s)
    /\ (d_run s = false -> left = stream HCU (map e_c (d_q s))).
Proof. exact due_exact. Qed.
Example C87_example : along true (timely 100) ev86 (dinit false 7).
Proof.
  run_ok.
  - exists [], (mkDe (up 4500 2) 1 false). vm_compute. auto.
  - destruct x1 as [|? [|]]; try discriminate x3. injection x3 as <-. vm_compute in x5. discriminate x5.
Qed.
(** Steps of less than 100 microseconds before a pause: the pause is twice as long. *)
Theorem C87_short_steps_refuted : exists HCU d t evs,
  along HCU (fun e s => good e s /\ prompt 100 e s /\ start_ok e s) evs (dinit d t)
  /\ let s := drun HCU evs (dinit d t) in
     d_acc s = [up 2000 3; up 50000 0; up 5000 1] /\ d_run s = false /\ d_q s = []
     /\ h_log (d_h s) = [Pulse HCU 2000; Pulse HCU 2000; Pulse HCU 2000; Gap 50000; Gap 50000; Pulse HCU 5000].
Proof.
  exists true, false, 7, (d_add (up 2000 3) true ++ d_add (up 50000 0) false ++ d_add (up 5000 1) false ++ d_first ++ d_rounds 6).
  split; [run_ok|]. run_ok.
Qed.
(** Started with a pause: twice as long. *)
Theorem C87_first_pause_refuted : exists HCU d t evs,
  along HCU (fun e s => good e s /\ prompt 100 e s) evs (dinit d t)
  /\ let s := drun HCU evs (dinit d t) in
     d_acc s = [up 50000 0; up 5000 1] /\ d_run s = false /\ d_q s = []
     /\ h_log (d_h s) = [Gap 50000; Gap 50000; Pulse HCU 5000].
Proof.
  exists true, false, 2100000, (d_add (up 50000 0) false ++ d_add (up 5000 1) true ++ d_first ++ d_rounds 3).
  split; [run_ok|]. run_ok.
Qed.
(** Started with a pause in the period of the last step: no pause at all *)
Theorem C87_restart_refuted : exists HCU d t evs,
  along HCU (fun e s => good e s /\ prompt 200 e s) evs (dinit d t)
  /\ let s := drun HCU evs (dinit d t) in
     d_acc s = [up 30000 2; up 50000 0; up 5000 1] /\ d_run s = false /\ d_q s = []
     /\ h_log (d_h s) = [Pulse HCU 30000; Pulse HCU 30000; Pulse HCU 5000].
Proof.
  exists true, false, 2100000, (d_add (up 30000 2) true ++ d_first ++ [DPeriod; DWait 100; DPio] ++ d_add (up 50000 0) false
    ++ d_add (up 5000 1) true ++ [DPwm] ++ d_rounds 2).
  split; [run_ok|]. run_ok.
Qed.
(** The interrupt of the PWM unit 108 microseconds late: the pause is left out *)
Theorem C87_late_refuted : exists HCU d t evs,
  along HCU (fun e s => good e s /\ prompt 2400 e s /\ start_ok e s) evs (dinit d t)
  /\ let s := drun HCU evs (dinit d t) in
     d_acc s = [up 30000 2; up 50000 0; up 5000 1] /\ d_run s = false /\ d_q s = []
     /\ h_log (d_h s) = [Pulse HCU 30000; Pulse HCU 30000; Pulse HCU 5000].
Proof.
  exists true, false, 7, (d_add (up 30000 2) true ++ d_add (up 50000 0) false ++ d_add (up 5000 1) false ++ [DPio]
    ++ [DPeriod; DWait 100; DPio; DWait 2270; DPwm] ++ d_rounds 2).
  split; [run_ok|]. run_ok.
Qed.
(** Another stepper is connected while one of the channels 0 to 3 is in a pause: the pause never ends. *)
Theorem C87_connect_refuted : exists HCU d t evs,
  along HCU (fun e s => good e s /\ start_ok e s) evs (dinit d t)
  /\ let s := drun HCU evs (dinit d t) in
     d_acc s = [up 30000 2; up 50000 0; up 5000 1]
     /\ forall n, let s' := drun HCU (pio_rounds n) s in
        d_run s' = true /\ map e_c (d_q s') = [up 50000 0; up 5000 1]
        /\ travelled HCU (pulses (h_log (d_h s'))) = 2 /\ served s'.
Proof.
  exists true, false, 7, (d_add (up 30000 2) true ++ d_add (up 50000 0) false ++ d_add (up 5000 1) false ++ d_first ++ d_rounds 1 ++ [DConnect]).
  split; [run_ok|]. cbv zeta. split; [reflexivity|]. intros n.
  match goal with |- context [drun true (pio_rounds n) ?s] => destruct (stuck_gap true n s) as (A & B & C & D); [vm_compute; reflexivity..|] end.
  rewrite A, B, C. split; [reflexivity|]. split; [vm_compute; reflexivity|]. split; [vm_compute; reflexivity|exact D].
Qed.

(** ** C88: forced stop *)
Theorem C88_stopped : forall HCU s evs,
  d_pc s = None -> Forall no_start evs ->
  h_log (d_h (drun HCU evs (dstep HCU DStop s))) = h_log (d_h s).
Proof. exact due_stopped. Qed.
Theorem C88_after_stop_partial : forall HCU d t evs evs',
  along HCU (fun e s => good e s \/ calm_stop e s) evs (dinit d t) ->
  let s := drun HCU evs (dinit d t) in
  calm_stop DStop s ->
  let s1 := dstep HCU DStop s in
  along HCU good evs' s1 ->
  let s2 := drun HCU evs' s1 in
  exists l left, d_acc s2 = d_acc s ++ l
    /\ pulses (h_log (d_h s2)) ++ left = pulses (h_log (d_h s)) ++ pulses (stream HCU l)
    /\ (d_run s2 = false -> left = pulses (stream HCU (map e_c (d_q s2)))).
Proof. exact due_after_stop. Qed.
Definition ev88a : list devent := d_add (up 4500 200) true ++ d_first ++ d_rounds 2.
Definition ev88b : list devent := d_rounds 2 ++ d_add (down 5000 2) true ++ d_first ++ d_rounds 3.
Example C88_example :
  let s := drun true ev88a (dinit false 7) in
  along true (fun e s => good e s \/ calm_stop e s) ev88a (dinit false 7) /\ calm_stop DStop s
  /\ along true good ev88b (dstep true DStop s)
  /\ h_log (d_h (drun true ev88b (dstep true DStop s)))
   = [Pulse true 4500; Pulse true 4500; Pulse true 4500; Pulse false 5000; Pulse false 5000].
Proof. cbv zeta. split; [|split; [|split]]; [vm_compute; repeat split; left; repeat split; intros; try discriminate; auto|run_ok..]. Qed.
(** A forced stop in a pause, all waiting interrupts served: the two steps commanded after it become
    pulses without end, and the position stays. *)
Theorem C88_runaway_refuted : exists HCU d t evs,
  along HCU (fun e s => e = DStop \/ good e s /\ prompt 100 e s /\ start_ok e s) evs (dinit d t)
  /\ let s := drun HCU evs (dinit d t) in
     d_acc s = [up 30000 1; up 50000 0; up 5000 2]
     /\ forall n, let s' := drun HCU (pio_rounds n) s in
        d_run s' = true /\ d_q s' = [mkDe (up 5000 2) 2 false]
        /\ length (pulses (h_log (d_h s'))) = (n + 2)%nat /\ served s'.
Proof.
  exists true, false, 7, (d_add (up 30000 1) true ++ d_add (up 50000 0) false ++ d_first ++ [DStop] ++ d_rounds 2
    ++ d_add (up 5000 2) true ++ d_first).
  split. { vm_compute. repeat split; try (left; reflexivity); right; repeat split; intros; try discriminate; auto. }
  cbv zeta. split; [reflexivity|]. intros n.
  match goal with |- context [drun true (pio_rounds n) ?s] => destruct (runaway true n s) as (A & B & C & D); [vm_compute; reflexivity..|] end.
  rewrite A, B, C. split; [reflexivity|]. split; [vm_compute; reflexivity|]. split; [vm_compute; reflexivity|exact D].
Qed.

(** ** C89: position and end *)
Theorem C89_position_partial : forall HCU d t evs,
  along HCU good evs (dinit d t) ->
  let s := drun HCU evs (dinit d t) in
  (h_edge (d_h s) = false -> reading s = travelled HCU (h_log (d_h s)))
  /\ Z.abs (reading s - travelled HCU (h_log (d_h s))) <= 1.
Proof. exact due_position. Qed.
Theorem C89_end_partial : forall HCU L d t evs,
  0 <= L <= 2000 -> along HCU (timely L) evs (dinit d t) ->
  let s := drun HCU evs (dinit d t) in
  (d_run s = true -> length (h_log (d_h (dstep HCU DPeriod s))) = S (length (h_log (d_h s))))
  /\ (served s -> (length (h_log (d_h s)) >= length (stream HCU (d_acc s)))%nat -> d_run s = false /\ d_q s = []).
Proof. exact due_end. Qed.
(** at the edge of the fifth step, before the interrupt; and at the end *)
Example C89_example :
  let s := drun true ev86 (dinit false 7) in
  let s' := drun true (ev86 ++ [DPeriod]) (dinit false 7) in
  let s'' := drun true (ev86 ++ d_rounds 2) (dinit false 7) in
  reading s = -2 /\ travelled true (h_log (d_h s)) = -2
  /\ reading s' = -2 /\ travelled true (h_log (d_h s')) = -3
  /\ reading s'' = -4 /\ travelled true (h_log (d_h s'')) = -4 /\ d_run s'' = false /\ served s''.
Proof. vm_compute. repeat split. Qed.

(** ** C90: pins and channels *)
Theorem C90_channels : forall l i j, let b := connects l in
  (i < length (b_pins b))%nat -> (j < length (b_pins b))%nat ->
  let c := fun k => pinToChannel (nth k (b_pins b) 0) in
  0 <= c i < 8 /\ (c i = c j -> i = j) /\ nth (Z.to_nat (c i)) (b_map b) 0 = Z.of_nat i
  /\ nth (Z.to_nat (c i)) (b_used b) false = true.
Proof. exact channels. Qed.
Theorem C90_accepted : forall l p, let b := connects l in
  snd (connect p b) <> None <->
  pinToChannel p < 8 /\ (forall i, (i < length (b_pins b))%nat -> pinToChannel (nth i (b_pins b) 0) <> pinToChannel p)
  /\ (length (b_pins b) < 6)%nat.
Proof. exact accepted. Qed.
Example C90_example :
  b_pins (connects [34; 35; 6; 5; 7; 45; 9; 8; 17; 40]) = [34; 6; 7; 9; 8; 17]
  /\ b_map (connects [34; 35; 6; 5; 7; 45; 9; 8; 17; 40]) = [0; 5; 0; 0; 3; 4; 2; 1].
Proof. vm_compute. split; reflexivity. Qed.
(** The groups documented in FastAccelStepper.h:136 *)
Definition documented : list (list Z) :=
  [[34; 67; 74; 35]; [17; 36; 72; 37; 42]; [40; 64; 69; 41]; [9]; [8; 44]; [7; 45]; [6]].
(** Two pins of one group exclude each other, pins of different groups do not. *)
Theorem C90_documented_partial : forall p q, In p (concat documented) -> In q (concat documented) -> p <> 74 -> q <> 74 ->
  pinToChannel p < 8
  /\ (pinToChannel p = pinToChannel q <-> exists g, In g documented /\ In p g /\ In q g).
Proof.
  intros p q Hp Hq Np Nq.
  set (same := fun p q => existsb (fun g => in_list p g && in_list q g) documented).
  assert (A : forallb (fun p => forallb (fun q => (p =? 74) || (q =? 74) ||
     (pinToChannel p <? 8) && Bool.eqb (pinToChannel p =? pinToChannel q) (same p q)) (concat documented)) (concat documented) = true)
    by (vm_compute; reflexivity).
  rewrite forallb_forall in A. specialize (A p Hp). rewrite forallb_forall in A. specialize (A q Hq).
  apply orb_prop in A. destruct A as [A|A]; [apply orb_prop in A; destruct A as [A|A]; apply Z.eqb_eq in A; contradiction|].
  apply andb_prop in A. destruct A as [A B]. apply Z.ltb_lt in A. apply eqb_prop in B. split; [exact A|].
  assert (I : forall x g, in_list x g = true <-> In x g).
  { intros x g. unfold in_list. rewrite existsb_exists. split; [intros (y & Y & E); apply Z.eqb_eq in E; now subst|].
    intros X. exists x. split; [exact X|apply Z.eqb_refl]. }
  rewrite <- Z.eqb_eq, B. unfold same. rewrite existsb_exists.
  split; intros (g & G & X); exists g; (split; [exact G|]); [apply andb_prop in X|]; rewrite <- !I in *; [exact X|]. now apply andb_true_intro.
Qed.
Theorem C90_pin74_refuted : exists p,
  (exists g, In g documented /\ In p g) /\ (forall l, snd (connect p (connects l)) = None).
Proof.
  exists 74. split; [exists [34; 67; 74; 35]; cbn; auto|]. intros l.
  destruct (snd (connect 74 (connects l))) eqn:E; [|reflexivity].
  assert (X : snd (connect 74 (connects l)) <> None) by (rewrite E; discriminate). apply accepted in X.
  destruct X as (X & _). vm_compute in X. discriminate.
Qed.

Print Assumptions C86_pulses_partial.
Print Assumptions C86_turn_on_pause_refuted.
Print Assumptions C86_turn_after_pause_refuted.
Print Assumptions C86_race_refuted.
Print Assumptions C86_late_refuted.
Print Assumptions C87_exact_partial.
Print Assumptions C87_short_steps_refuted.
Print Assumptions C87_first_pause_refuted.
Print Assumptions C87_restart_refuted.
Print Assumptions C87_late_refuted.
Print Assumptions C87_connect_refuted.
Print Assumptions C88_stopped.
Print Assumptions C88_after_stop_partial.
Print Assumptions C88_runaway_refuted.
Print Assumptions C89_position_partial.
Print Assumptions C89_end_partial.
Print Assumptions C90_channels.
Print Assumptions C90_accepted.
Print Assumptions C90_documented_partial.
Print Assumptions C90_pin74_refuted.
