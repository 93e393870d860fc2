(** * P_Rmt: the ESP32 RMT driver: C44, C45 *)
From Coq Require Import ZArith Bool List Lia.
From Verif Require Import Base Queue QueueFacts QueueHist Rmt RmtFacts RmtHist RmtCount.
Import ListNotations.
Open Scope Z_scope.

Definition no_entry : Z -> entry := fun _ => mkEntry 0 false false false false false false 0 0.
Definition low : pins := fun _ => false.

(** ** C44: the symbols of a command *)
(** [spread P s t]: less than PART_SIZE steps, or a multiple of it, or
    4*(PART_SIZE - (PART_SIZE + steps mod PART_SIZE)/2) < ticks/2. Then all parts have PART_SIZE
    symbols without zero-length half, and the signal consists of the commanded pulses, one every [t]
    ticks (a pause is one low phase of [t] ticks). *)
Theorem C44_signal_partial : forall P s t, part_size P -> accepted s t ->
  s < P \/ s mod P = 0 \/ 4 * (P - (P + s mod P) / 2) < t / 2 ->
  Forall (fun ws => Z.of_nat (length ws) = P /\ Forall (fun h => 1 <= snd h <= 32767) (halves ws))
    (encoded P s t)
  /\ signal (concat (encoded P s t)) = (if s =? 0 then [(false, t)] else pulses s (width t) t).
Proof. exact (fun P s t HP => encoded_good P HP s t). Qed.
Theorem C44_counts_partial : forall P s t, part_size P -> accepted s t -> spread P s t ->
  rises false (halves (concat (encoded P s t))) = s
  /\ duration (concat (encoded P s t)) = (if s =? 0 then t else s * t).
Proof. exact (fun P s t HP => encoded_counts P HP s t). Qed.
(** The condition is exact: for all other accepted commands there is a half symbol of length zero
    or longer than the period. *)
Theorem C44_exact : forall P s t, part_size P -> accepted s t ->
  ((forall ws h, In ws (encoded P s t) -> In h (halves ws) -> 1 <= snd h <= t) <-> spread P s t).
Proof. exact (fun P s t HP => encoded_iff P HP s t). Qed.
(** 4*PART_SIZE + 2 ticks (at most 123076 steps/s with 32 symbols per part) are always enough. *)
Theorem C44_slow : forall P s t, part_size P -> 4 * P + 2 <= t -> spread P s t.
Proof. exact (fun P s t HP => spread_slow P HP s t). Qed.
Example C44_example :
  accepted 50 200 /\ spread 32 50 200 /\ ~ spread 32 33 97
  /\ map (fun ws => (Z.of_nat (length ws), duration ws)) (encoded 32 50 200) = [(32, 5000); (32, 5000)]
  /\ accepted 1 65535 /\ signal (concat (encoded 24 1 65535)) = [(true, 32767); (false, 32768)]
  /\ accepted 0 3200 /\ signal (concat (encoded 24 0 3200)) = [(false, 3200)].
Proof.
  split; [repeat split; cbn; lia|]. split; [apply C44_slow; [now left|lia]|].
  split; [unfold spread; cbn; lia|]. split; [reflexivity|].
  split; [repeat split; cbn; lia|]. split; [reflexivity|].
  split; [repeat split; cbn; lia|]. reflexivity.
Qed.

(** Over every history: the rising edges sent and the steps still queued are the steps of the
    accepted commands. *)
Theorem C44_history_partial : forall P A ext garbage p test evs, part_size P -> In A all_archs ->
  Forall (rev_fits P) evs ->
  let s := rrun P A ext evs (rinit A garbage p test) in
  sum_edges (g_log s) + sum_left (pend A (r_q (g_r s))) = sum_steps (g_acc s).
Proof.
  exact (fun P A ext garbage p test evs HP HA H =>
    ci_sum _ _ _ (cinv_run P HP A HA ext evs _ (cinv_init P A HA garbage p test) H)).
Qed.
Definition up50 : command := mkCommand 200 50 true.
Definition down9 : command := mkCommand 400 9 false.
Definition hist1 : list revent :=
  [RSetDir 5 true; RBegin up50 true; RCommit; RStart; REncode 64; RBegin down9 true; RCommit; RStart;
   REncode 32; REncode 32; REncode 32; REncode 32].
Example C44_history_example :
  Forall (rev_fits 32) hist1
  /\ let s := rrun 32 arch_esp32 true hist1 (rinit arch_esp32 no_entry low false) in
     map edges (g_log s) = [25; 25; 0; 9; 0] /\ sum_steps (g_acc s) = 59.
Proof.
  split; [|split; vm_compute; reflexivity].
  unfold hist1. repeat (apply Forall_cons; [cbn [rev_fits]; try exact I|]); [| | |apply Forall_nil].
  - right. reflexivity.
  - split; [|apply C44_slow; [now left|cbn; lia]]. repeat split; cbn; lia.
  - split; [|left; cbn; lia]. repeat split; cbn; lia.
Qed.

(** 33 steps of 97 ticks (accepted): the low phase of the 16th step would have to be -16 ticks
    long; the pulse gets longer than 32752 ticks instead. *)
Theorem C44_underflow_refuted : exists s t,
  accepted s t /\ s * t = 3201 /\ duration (concat (encoded 32 s t)) <> s * t
  /\ nth_error (signal (concat (encoded 32 s t))) 30 = Some (true, 32801).
Proof. exists 33, 97. repeat split; try lia; vm_compute; congruence. Qed.
(** 33 steps of 128 ticks: zero-length half symbol (end marker) after 16 of 33 steps. *)
Theorem C44_end_marker_refuted : exists s t,
  accepted s t /\ In (false, 0) (halves (hd [] (encoded 32 s t)))
  /\ rises false (halves (hd [] (encoded 32 s t))) = 16.
Proof. exists 33, 128. repeat split; try lia; try (vm_compute; congruence). vm_compute. tauto. Qed.
(** The pause inserted before a direction change has a zero-length half symbol, as its last symbol
    is truncated to 16 bit; it lasts 3150 instead of 3200 ticks. *)
Theorem C44_direction_pause_refuted : exists evs,
  Forall (rev_fits 32) evs
  /\ let s := rrun 32 arch_esp32 true evs (rinit arch_esp32 no_entry low false) in
     exists k, nth_error (g_log s) 2 = Some k
     /\ In (false, 0) (halves (k_words k)) /\ duration (k_words k) = 3150
     /\ MIN_CMD_TICKS arch_esp32 = 3200
     (* commands are still pending *)
     /\ nth_error (map edges (g_log s)) 3 = Some 9.
Proof.
  exists hist1. split; [exact (proj1 C44_history_example)|]. cbv zeta.
  eexists. split; [vm_compute; reflexivity|]. split; [vm_compute; tauto|].
  repeat split; vm_compute; reflexivity.
Qed.

(** forceStop(): the queue is empty and not running. A call of the encoder made afterwards finds
    _rmtStopped: no symbols, end of the transmission (or no room in the memory), nothing changes. *)
Theorem C44_force_stop : forall P A r free, let r' := stop_rmt r in
  pend A (r_q r') = [] /\ q_running (r_q r') = false /\ r_pins r' = r_pins r
  /\ encode P A free r' = (r', [], negb (free <? P)).
Proof.
  intros P A r free r'. split.
  { apply pend_nil. unfold queueEntries, r', stop_rmt, q_clear. cbn. now rewrite Z.sub_diag. }
  split; [reflexivity|]. split; [reflexivity|].
  unfold encode. destruct (free <? P); reflexivity.
Qed.
Example C44_force_stop_example :
  let r := g_r (rrun 32 arch_esp32 true hist1 (rinit arch_esp32 no_entry low false)) in
  let r' := stop_rmt r in encode 32 arch_esp32 64 r' = (r', [], true).
Proof. vm_compute. reflexivity. Qed.

(** ** C45: the direction pin and the steps *)
(** [a], [b]: consecutive calls of the encoder within one transmission. The call [b] happens while
    the symbols of [a] are sent and those before [a] have been sent. It toggles the pin only if
    [a] has no step; if [a] has steps, the pin is left alone. *)
Theorem C45_toggle : forall P A ext garbage p test evs l1 a b l2, part_size P -> In A all_archs ->
  Forall rev_ok evs -> g_log (rrun P A ext evs (rinit A garbage p test)) = l1 ++ a :: b :: l2 ->
  k_first b = false ->
  (k_toggled b = true -> edges a = 0) /\ (0 < edges a -> k_level b = k_level a).
Proof.
  exact (fun P A ext garbage p test evs l1 a b l2 HP HA H E =>
    pairs_split a b l2 l1 (eq_ind _ pairs_ok
      (ri_pairs _ _ (rinv_run P HP A HA ext evs _ (rinv_init A HA garbage p test) H)) _ E)).
Qed.
(** Steps are sent with the commanded direction; the first call of a transmission toggles nothing. *)
Theorem C45_direction : forall P A ext garbage p test evs k, part_size P -> In A all_archs ->
  Forall rev_ok evs -> In k (g_log (rrun P A ext evs (rinit A garbage p test))) ->
  (k_pin k = true -> 0 < edges k -> k_level k = k_want k) /\ (k_first k = true -> k_toggled k = false).
Proof.
  exact (fun P A ext garbage p test evs k HP HA H =>
    proj1 (Forall_forall _ _)
      (ri_calls _ _ (rinv_run P HP A HA ext evs _ (rinv_init A HA garbage p test) H)) k).
Qed.
Example C45_example :
  Forall rev_ok hist1
  /\ map (fun k => (k_first k, k_toggled k, k_level k, edges k))
       (g_log (rrun 32 arch_esp32 true hist1 (rinit arch_esp32 no_entry low false)))
     = [(true, false, true, 25); (false, false, true, 25); (false, false, true, 0); (false, true, false, 9);
        (false, false, false, 0)].
Proof. split; [repeat constructor; cbn; lia|vm_compute; reflexivity]. Qed.

Print Assumptions C44_signal_partial.
Print Assumptions C44_counts_partial.
Print Assumptions C44_exact.
Print Assumptions C44_slow.
Print Assumptions C44_history_partial.
Print Assumptions C44_underflow_refuted.
Print Assumptions C44_end_marker_refuted.
Print Assumptions C44_direction_pause_refuted.
Print Assumptions C44_force_stop.
Print Assumptions C45_toggle.
Print Assumptions C45_direction.
