(** * P_RmtV4Stack: a move on the ESP32 (RMT driver of ESP-IDF 4), from the call to the two parts of
    the symbol memory: C102 *)
From Coq Require Import ZArith Bool List Lia.
From Verif Require Import Base RampCalc RampGen RampRun RampMove RampSafe RampAcc RampUser RampPlan
  Queue QueueFacts QueueHist Stepper StepperHist FrontHist FrontProp FrontFill FrontTask FrontStart FrontMove FrontPause
  Rmt RmtFacts RmtHist RmtCount RmtStack RmtV4 RmtV4Facts RmtV4Hist RmtV4Count RmtV4Stack RmtV4End P_End P_Pause P_RmtStack.
Import ListNotations.
Open Scope Z_scope.

(** [N]: the newer variant of the driver (ESP32-C3, -S3). [seen_move4]: the parts with steps have the
    right level of the direction pin, which stays until they are sent; there are never more rising
    edges than steps, and exactly as many after the end. *)
Theorem C102_moveTo_on_the_line_partial : forall N EXT garbage p ep m s0 evs a M pos,
  conf_ok s0 -> Forall fev_ok evs -> -2147483648 <= pos < 2147483648 ->
  let x := frun arch_esp32 EXT evs (rdinit EXT garbage p ep m s0) in
  let q := fqueue x in
  let d := i32 (pos - qe_pos (q_end q)) in
  own_pin (q_pin q) -> q_running q = false -> pend arch_esp32 q = [] -> ready_to_move arch_esp32 (fst x) q a M d ->
  exists s1 cs, s_moveTo pos (fst x) q = (s1, MOVE_OK) /\ total_steps cs = Z.abs d
  /\ Forall (valid_cmd arch_esp32) cs /\ speed_ok M cs /\ (Forall (short_65535 N) cs ->
  forall fd lf tasks, (fd = true -> fed (fst x)) -> left_ok N lf ->
  exists y, ftrun N arch_esp32 EXT tasks (s1, v_begin lf (snd x)) = Some y /\
  seen_move4 N EXT (pin_level q (0 <? d)) (Z.abs d) pos cs (one_list fd (fst x) q cs) y).
Proof. exact moveTo_v4. Qed.
Theorem C102_move_on_the_line_partial : forall N EXT garbage p ep m s0 evs a M delta,
  conf_ok s0 -> Forall fev_ok evs -> -2147483648 <= delta < 2147483648 -> delta <> 0 ->
  let x := frun arch_esp32 EXT evs (rdinit EXT garbage p ep m s0) in
  let q := fqueue x in
  let g := s_rg (fst x) in
  let target := i32 (base_target g (q_end q) + pending_move g + delta) in
  let d := i32 (target - qe_pos (q_end q)) in
  own_pin (q_pin q) -> q_running q = false -> pend arch_esp32 q = [] -> ready_to_move arch_esp32 (fst x) q a M d ->
  (s_dirpin (fst x) = PIN_UNDEFINED -> 0 <= delta) ->
  exists s1 cs, s_move delta (fst x) = (s1, MOVE_OK) /\ total_steps cs = Z.abs d
  /\ Forall (valid_cmd arch_esp32) cs /\ speed_ok M cs /\ (Forall (short_65535 N) cs ->
  forall fd lf tasks, (fd = true -> fed (fst x)) -> left_ok N lf ->
  exists y, ftrun N arch_esp32 EXT tasks (s1, v_begin lf (snd x)) = Some y /\
  seen_move4 N EXT (pin_level q (0 <? d)) (Z.abs d) target cs (one_list fd (fst x) q cs) y).
Proof. exact move_v4. Qed.
(** The move ends, as in C101, with the ends of the parts as interrupts. *)
Theorem C102_moveTo_ends_partial : forall N EXT garbage p ep m s0 evs a M pos,
  conf_ok s0 -> Forall fev_ok evs -> -2147483648 <= pos < 2147483648 ->
  let x := frun arch_esp32 EXT evs (rdinit EXT garbage p ep m s0) in
  let q := fqueue x in
  let d := i32 (pos - qe_pos (q_end q)) in
  own_pin (q_pin q) -> q_running q = false -> pend arch_esp32 q = [] -> ready_to_move arch_esp32 (fst x) q a M d ->
  conf24 arch_esp32 (fst x) -> distinct_pins (fst x) ->
  exists s1 cs n, s_moveTo pos (fst x) q = (s1, MOVE_OK) /\ total_steps cs = Z.abs d /\ (n <= S (length cs))%nat /\
  (Forall (short_65535 N) cs -> forall lf rs, left_ok N lf -> Forall (round_ok4 (fst x)) rs -> (n <= length rs)%nat ->
  exists y, ftrun N arch_esp32 EXT (flat_map round_tasks4 rs) (s1, v_begin lf (snd x)) = Some y /\ ended4 (Z.abs d) pos y).
Proof. exact moveTo_ends4. Qed.
Theorem C102_move_ends_partial : forall N EXT garbage p ep m s0 evs a M delta,
  conf_ok s0 -> Forall fev_ok evs -> -2147483648 <= delta < 2147483648 -> delta <> 0 ->
  let x := frun arch_esp32 EXT evs (rdinit EXT garbage p ep m s0) in
  let q := fqueue x in
  let g := s_rg (fst x) in
  let target := i32 (base_target g (q_end q) + pending_move g + delta) in
  let d := i32 (target - qe_pos (q_end q)) in
  own_pin (q_pin q) -> q_running q = false -> pend arch_esp32 q = [] -> ready_to_move arch_esp32 (fst x) q a M d ->
  (s_dirpin (fst x) = PIN_UNDEFINED -> 0 <= delta) ->
  conf24 arch_esp32 (fst x) -> distinct_pins (fst x) ->
  exists s1 cs n, s_move delta (fst x) = (s1, MOVE_OK) /\ total_steps cs = Z.abs d /\ (n <= S (length cs))%nat /\
  (Forall (short_65535 N) cs -> forall lf rs, left_ok N lf -> Forall (round_ok4 (fst x)) rs -> (n <= length rs)%nat ->
  exists y, ftrun N arch_esp32 EXT (flat_map round_tasks4 rs) (s1, v_begin lf (snd x)) = Some y /\ ended4 (Z.abs d) target y).
Proof. exact move_ends4. Qed.

(** ** Example: the stepper of C97 with its direction pin *)
Definition f_pass : ftask := FFill None (fun _ => false) 40 (mkNext (mkCommand 7 7 true) (mkRw 0 0 0 0)) [].
Definition f_schedule : list ftask := [f_pass; FSent 5; f_pass; FSent 20; f_pass].
Definition old_left (N : bool) : left4 :=
  let b := mkBuf (times (psize N) 2147483649) true true in mkLeft true false b b.
Example C102_example : let q := fqueue motor3 in
  conf_ok (d_motor arch_esp32) /\ own_pin (q_pin q) /\ q_running q = false /\ pend arch_esp32 q = []
  /\ ready_to_move arch_esp32 (fst motor3) q 10000 8000 (-3) /\ fed (fst motor3) /\ pin_level q false = Some false
  /\ left_ok false (old_left false) /\ left_ok true (old_left true)
  /\ Forall (short_65535 true) turn3 /\
  forall N, match ftrun N arch_esp32 false f_schedule (fst (s_moveTo (-3) (fst motor3) q), v_begin (old_left N) (snd motor3)) with
  | Some y => let r := fq_s (snd y) in isRampGeneratorActive (s_rg (fst y)) = false
      /\ pend arch_esp32 (v_q r) = [] /\ v_hw r = Off /\ v_acc r = turn3
      /\ map xedges (v_log r) = [0; 1; 0; 1; 0; 1; 0; 0]
      /\ map (fun k => duration (x_words k)) (v_log r) =
         (if N then [3200; 56604; 56608; 56604; 56608; 56604; 56608; 2392]
          else [3200; 56607; 56608; 56607; 56608; 56607; 56608; 3224])
      /\ getCurrentPosition arch_esp32 0 (v_q r) = -3
  | None => False
  end.
Proof.
  split; [vm_compute; intuition congruence|]. split; [right; reflexivity|]. split; [reflexivity|]. split; [reflexivity|].
  split; [constructor; [split; [|right]| |right|..]; vm_compute; intuition congruence|].
  split; [right; left; vm_compute; discriminate|]. split; [reflexivity|].
  split; [split; reflexivity|]. split; [split; reflexivity|].
  split; [repeat constructor; intros K; vm_compute in K; discriminate|].
  intros []; vm_compute; intuition congruence.
Qed.
(** the other hypotheses of the theorems on the end; a run as in C102_example *)
Example C102_ends_example : conf24 arch_esp32 (fst motor3) /\ distinct_pins (fst motor3) /\
  forall ws k, Forall (round_ok4 (fst motor3))
    (repeat (mkRound4 None (fun _ => false) 40 (mkNext (mkCommand 7 7 true) (mkRw 0 0 0 0)) ws (Z.to_nat 32774)) k).
Proof.
  split; [vm_compute; intuition congruence|]. split; [vm_compute; intuition congruence|]. intros ws k.
  apply Forall_forall. intros r Hr. apply repeat_spec in Hr as ->.
  split; [cbn; lia|]. split; [reflexivity|]. split; [|cbn [rf_parts]; rewrite Z2Nat.id; lia].
  intros pin level [-> | ->]; vm_compute; congruence.
Qed.

Print Assumptions C102_moveTo_on_the_line_partial.
Print Assumptions C102_move_on_the_line_partial.
Print Assumptions C102_moveTo_ends_partial.
Print Assumptions C102_move_ends_partial.
