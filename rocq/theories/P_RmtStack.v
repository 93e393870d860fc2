(** * P_RmtStack: a move on the ESP32 (RMT driver of ESP-IDF 5), from the call to the symbols of the
    transmitter: C101 *)
From Coq Require Import ZArith Bool List Lia.
From Verif Require Import Base RampCalc RampGen RampRun RampMove RampSafe RampAcc RampUser RampPlan
  Queue QueueFacts QueueHist Stepper StepperHist FrontHist FrontProp FrontFill FrontTask FrontStart FrontMove FrontPause
  Rmt RmtFacts RmtHist RmtCount RmtStack RmtEnd P_End P_Pause.
Import ListNotations.
Open Scope Z_scope.

(** [seen_move]: the rising edges have the right level of the direction pin, the pin does not change
    while steps are sent, the symbols are those of the commands; after the end there are exactly
    as many edges as steps. *)
Theorem C101_moveTo_on_the_line_partial : forall P EXT garbage p ep m s0 evs a M pos, part_size P ->
  conf_ok s0 -> Forall fev_ok evs -> -2147483648 <= pos < 2147483648 ->
  let x := frun arch_esp32 EXT evs (rdinit EXT garbage p ep m s0) in
  let q := fqueue x in
  let d := i32 (pos - qe_pos (q_end q)) in
  own_pin (q_pin q) -> q_running q = false -> pend arch_esp32 q = [] -> ready_to_move arch_esp32 (fst x) q a M d ->
  exists s1 cs, s_moveTo pos (fst x) q = (s1, MOVE_OK) /\ total_steps cs = Z.abs d
  /\ Forall (valid_cmd arch_esp32) cs /\ speed_ok M cs /\
  forall fd stopped last tasks, (fd = true -> fed (fst x)) ->
  exists y, rtrun P arch_esp32 EXT tasks (s1, r_begin stopped last (snd x)) = Some y /\
  seen_move P (pin_level q (0 <? d)) (Z.abs d) pos cs (one_list fd (fst x) q cs) y.
Proof. exact (fun P EXT garbage p ep m s0 evs a M pos HP => moveTo_rmt P HP EXT garbage p ep m s0 evs a M pos). Qed.
Theorem C101_move_on_the_line_partial : forall P EXT garbage p ep m s0 evs a M delta, part_size P ->
  conf_ok s0 -> Forall fev_ok evs -> -2147483648 <= delta < 2147483648 -> delta <> 0 ->
  let x := frun arch_esp32 EXT evs (rdinit EXT garbage p ep m s0) in
  let q := fqueue x in
  let g := s_rg (fst x) in
  let target := i32 (base_target g (q_end q) + pending_move g + delta) in
  let d := i32 (target - qe_pos (q_end q)) in
  own_pin (q_pin q) -> q_running q = false -> pend arch_esp32 q = [] -> ready_to_move arch_esp32 (fst x) q a M d ->
  (s_dirpin (fst x) = PIN_UNDEFINED -> 0 <= delta) ->
  exists s1 cs, s_move delta (fst x) = (s1, MOVE_OK) /\ total_steps cs = Z.abs d
  /\ Forall (valid_cmd arch_esp32) cs /\ speed_ok M cs /\
  forall fd stopped last tasks, (fd = true -> fed (fst x)) ->
  exists y, rtrun P arch_esp32 EXT tasks (s1, r_begin stopped last (snd x)) = Some y /\
  seen_move P (pin_level q (0 <? d)) (Z.abs d) target cs (one_list fd (fst x) q cs) y.
Proof. exact (fun P EXT garbage p ep m s0 evs a M delta HP => move_rmt P HP EXT garbage p ep m s0 evs a M delta). Qed.
(** The move ends: [n] rounds, each of a pass of the task and of enough calls of the encoder to send
    the queue, lead to [ended]: ramp over, transmission over, exactly |d| edges, at the target. *)
Theorem C101_moveTo_ends_partial : forall P EXT garbage p ep m s0 evs a M pos, part_size P ->
  conf_ok s0 -> Forall fev_ok evs -> -2147483648 <= pos < 2147483648 ->
  let x := frun arch_esp32 EXT evs (rdinit EXT garbage p ep m s0) in
  let q := fqueue x in
  let d := i32 (pos - qe_pos (q_end q)) in
  own_pin (q_pin q) -> q_running q = false -> pend arch_esp32 q = [] -> ready_to_move arch_esp32 (fst x) q a M d ->
  conf24 arch_esp32 (fst x) -> distinct_pins (fst x) ->
  exists s1 cs n, s_moveTo pos (fst x) q = (s1, MOVE_OK) /\ total_steps cs = Z.abs d /\ (n <= S (length cs))%nat /\
  forall stopped last rs, Forall (round_ok (fst x)) rs -> (n <= length rs)%nat ->
  exists y, rtrun P arch_esp32 EXT (flat_map (round_tasks P) rs) (s1, r_begin stopped last (snd x)) = Some y
    /\ ended (Z.abs d) pos y.
Proof. exact (fun P EXT garbage p ep m s0 evs a M pos HP => moveTo_ends P HP EXT garbage p ep m s0 evs a M pos). Qed.
Theorem C101_move_ends_partial : forall P EXT garbage p ep m s0 evs a M delta, part_size P ->
  conf_ok s0 -> Forall fev_ok evs -> -2147483648 <= delta < 2147483648 -> delta <> 0 ->
  let x := frun arch_esp32 EXT evs (rdinit EXT garbage p ep m s0) in
  let q := fqueue x in
  let g := s_rg (fst x) in
  let target := i32 (base_target g (q_end q) + pending_move g + delta) in
  let d := i32 (target - qe_pos (q_end q)) in
  own_pin (q_pin q) -> q_running q = false -> pend arch_esp32 q = [] -> ready_to_move arch_esp32 (fst x) q a M d ->
  (s_dirpin (fst x) = PIN_UNDEFINED -> 0 <= delta) ->
  conf24 arch_esp32 (fst x) -> distinct_pins (fst x) ->
  exists s1 cs n, s_move delta (fst x) = (s1, MOVE_OK) /\ total_steps cs = Z.abs d /\ (n <= S (length cs))%nat /\
  forall stopped last rs, Forall (round_ok (fst x)) rs -> (n <= length rs)%nat ->
  exists y, rtrun P arch_esp32 EXT (flat_map (round_tasks P) rs) (s1, r_begin stopped last (snd x)) = Some y
    /\ ended (Z.abs d) target y.
Proof. exact (fun P EXT garbage p ep m s0 evs a M delta HP => move_ends P HP EXT garbage p ep m s0 evs a M delta). Qed.
(** The direction pin of the queue and its polarity are those set for the stepper. *)
Theorem C101_direction_pin : forall EXT garbage p ep m s0 evs, conf_ok s0 -> Forall fev_ok evs ->
  let q := fqueue (frun arch_esp32 EXT evs (rdinit EXT garbage p ep m s0)) in
  q_pin q = s_dirpin s0 /\ q_hcu q = s_hcu s0.
Proof. exact rdinit_pins. Qed.

(** ** Example: the stepper of C97 with its direction pin *)
Definition motor3 : stepper * hq := rdinit false no_entry low low 320 (d_motor arch_esp32).
Definition r_pass : rtask := RFill None (fun _ => false) 40 (mkNext (mkCommand 7 7 true) (mkRw 0 0 0 0)) [].
Definition r_schedule : list rtask :=
  [r_pass; RInts (repeat (REncode 32) 5); r_pass; RInts (repeat (REncode 32) 20 ++ [RDone]); r_pass].
Example C101_example : let q := fqueue motor3 in
  conf_ok (d_motor arch_esp32) /\ own_pin (q_pin q) /\ q_running q = false /\ pend arch_esp32 q = []
  /\ ready_to_move arch_esp32 (fst motor3) q 10000 8000 (-3) /\ fed (fst motor3) /\ pin_level q false = Some false /\
  match rtrun 32 arch_esp32 false r_schedule (fst (s_moveTo (-3) (fst motor3) q), r_begin true false (snd motor3)) with
  | Some y => let r := rq_s (snd y) in isRampGeneratorActive (s_rg (fst y)) = false
      /\ pend arch_esp32 (r_q (g_r r)) = [] /\ g_acc r = turn3
      /\ map edges (g_log r) = [0; 1; 0; 1; 0; 1; 0; 0]
      /\ map (fun k => duration (k_words k)) (g_log r) = [3200; 56608; 56608; 56608; 56608; 56608; 56608; 3150]
      /\ getCurrentPosition arch_esp32 0 (r_q (g_r r)) = -3
  | None => False
  end.
Proof.
  split; [vm_compute; intuition congruence|]. split; [right; reflexivity|]. split; [reflexivity|]. split; [reflexivity|].
  split; [constructor; [split; [|right]| |right|..]; vm_compute; intuition congruence|].
  split; [right; left; vm_compute; discriminate|]. split; [reflexivity|].
  vm_compute. intuition congruence.
Qed.
Lemma motor3_ready : ready_to_move arch_esp32 (fst motor3) (fqueue motor3) 10000 8000 (-3).
Proof. constructor; [split; [|right]| |right|..]; vm_compute; intuition congruence. Qed.
(** any rounds that are long enough end the move by 3 steps downwards *)
Definition round_any (ws : list rweather) : round :=
  mkRound None (fun _ => false) 40 (mkNext (mkCommand 7 7 true) (mkRw 0 0 0 0)) ws (Z.to_nat 16386).
Example C101_ends_example : exists s1 n, s_moveTo (-3) (fst motor3) (fqueue motor3) = (s1, MOVE_OK) /\
  forall ws k, (n <= k)%nat -> exists y,
    rtrun 32 arch_esp32 false (flat_map (round_tasks 32) (repeat (round_any ws) k)) (s1, r_begin true false (snd motor3)) = Some y
    /\ ended 3 (-3) y.
Proof.
  destruct (C101_moveTo_ends_partial 32 false no_entry low low 320 (d_motor arch_esp32) [] 10000 8000 (-3)) as (s1 & cs & n & K1 & _ & _ & K2).
  - left. reflexivity.
  - vm_compute. intuition congruence.
  - constructor.
  - lia.
  - right. reflexivity.
  - reflexivity.
  - reflexivity.
  - exact motor3_ready.
  - vm_compute. intuition congruence.
  - vm_compute. intuition congruence.
  - exists s1, n. split; [exact K1|]. intros ws k Hk. apply K2; [|now rewrite repeat_length].
    apply Forall_forall. intros r Hr. apply repeat_spec in Hr as ->.
    split; [cbn; lia|]. split; [reflexivity|]. split; [|cbn [round_any rd_calls]; rewrite Z2Nat.id; lia].
    intros pin level [-> | ->]; vm_compute; congruence.
Qed.

Print Assumptions C101_moveTo_on_the_line_partial.
Print Assumptions C101_move_on_the_line_partial.
Print Assumptions C101_moveTo_ends_partial.
Print Assumptions C101_move_ends_partial.
Print Assumptions C101_direction_pin.
