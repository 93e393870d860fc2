(** * P_Esp32: C92 (pulse counter), C93 (set-up), C94 (detached pins), C95 (time of the disable) *)
From Coq Require Import ZArith Bool List Lia.
From Verif Require Import Base RampCalc RampGen Queue QueueHist Stepper StepperHist FrontHist Engine EngineFacts
  FrontProp EngineAuto UserFront Pcnt Esp32Setup Esp32Task.
From Verif Require Mcpwm McpwmProp.
Import ListNotations.
Open Scope Z_scope.
Ltac Zify.zify_post_hook ::= idtac.

(** ** C92: the free pulse counter *)
(** ESP-IDF 4: attached with -N and N, the angle is the number of steps modulo N, whatever other steppers
    and other units do *)
Theorem C92_angle : forall U i n N l w, 0 <= n < U -> 0 < N <= 32767 ->
  let w1 := fst (attach4 U i n (- N) N w) in
  all_leave U n i l w1 ->
  let r := read4 i (prun U l w1) in
  - N < r < N /\ angle N r = net (w_conf w i) l mod N.
Proof. exact angle_right. Qed.
(** with 0 and 0, an int16_t counter *)
Theorem C92_int16 : forall U i n l w, 0 <= n < U ->
  let w1 := fst (attach4 U i n 0 0 w) in
  all_leave U n i l w1 -> read4 i (prun U l w1) = i16 (net (w_conf w i) l).
Proof. exact int16_right. Qed.
(** the exact number of steps, as long as it stays between the limits *)
Theorem C92_exact : forall U i n low high l w, 0 <= n < U -> -32768 <= low < 0 -> 0 < high <= 32767 ->
  let w1 := fst (attach4 U i n low high w) in
  all_leave U n i l w1 -> within low high (w_conf w i) 0 l ->
  read4 i (prun U l w1) = net (w_conf w i) l.
Proof. exact exact_right. Qed.
(** clearPulseCounter() starts anew; without a unit the value is 0 *)
Theorem C92_clear : forall U i n N l1 l2 w, 0 <= n < U -> 0 < N <= 32767 ->
  let w1 := fst (attach4 U i n (- N) N w) in
  all_leave U n i l1 w1 ->
  let w2 := clear4 i (prun U l1 w1) in
  all_leave U n i l2 w2 ->
  read4 i w2 = 0 /\ angle N (read4 i (prun U l2 w2)) = net (w_conf w i) l2 mod N.
Proof. exact clear_right. Qed.
Theorem C92_unattached : forall i w, w_att w i = -1 -> read4 i w = 0 /\ clear4 i w = w.
Proof. intros i w E. unfold read4, clear4. rewrite E. split; reflexivity. Qed.
(** a unit the chip does not have is refused without any effect, others are not *)
Theorem C92_refused : forall U i n low high w,
  (snd (attach4 U i n low high w) = true <-> n < U)
  /\ (snd (attach4 U i n low high w) = false -> fst (attach4 U i n low high w) = w).
Proof.
  intros. unfold attach4. destruct (Z.geb_spec n U); cbn [fst snd]; split; try split; intros; auto; try discriminate; lia.
Qed.
Definition lv (dir : bool) : pins := fun p => if p =? 5 then dir else false.
Definition w92 : world :=
  mkWorld (fun _ => mkUnit 0 0 0 255 None Keep Keep) (fun _ => -1)
    (fun i => if i =? 0 then mkPconf 4 5 true else mkPconf 14 255 true).
Definition e92 : list pevent :=
  repeat (PEdge 4 (lv false)) 2 ++ [PAttach 1 7 0 0; PEdge 14 (lv true)] ++ repeat (PEdge 4 (lv false)) 5
  ++ repeat (PEdge 4 (lv true)) 3.
Example C92_example :
  all_leave 8 6 0 e92 (fst (attach4 8 0 6 (-6) 6 w92))
  /\ (let w := prun 8 e92 (fst (attach4 8 0 6 (-6) 6 w92)) in
      read4 0 w = 2 /\ angle 6 (read4 0 w) = 2 /\ read4 1 w = 1 /\ net (w_conf w92 0) e92 = -4)
  /\ all_leave 8 6 0 e92 (fst (attach4 8 0 6 0 0 w92)) /\ read4 0 (prun 8 e92 (fst (attach4 8 0 6 0 0 w92))) = -4
  /\ within (-8) 3 (w_conf w92 0) 0 e92
  /\ read4 0 (clear4 0 (prun 8 e92 (fst (attach4 8 0 6 (-6) 6 w92)))) = 0.
Proof. vm_compute. repeat split; intros; discriminate. Qed.

(** On the pulses of the MCPWM driver: a unit attached before the motor moves shows its position. *)
Definition edges_of (step dir : Z) (l : list Mcpwm.cycle) : list pevent :=
  flat_map (fun y => if Mcpwm.y_pulse y then [PEdge step (fun p => if p =? dir then Mcpwm.y_dir y else false)] else []) l.
Theorem C92_position : forall U i n N w l, 0 <= n < U -> 0 < N <= 32767 ->
  let f := w_conf w i in f_dir f <> PIN_UNDEFINED ->
  let w' := prun U (edges_of (f_step f) (f_dir f) l) (fst (attach4 U i n (- N) N w)) in
  angle N (read4 i w') = McpwmProp.travelled (f_hcu f) l mod N.
Proof.
  intros U i n N w l Hn HN f HD w'.
  assert (E : net f (edges_of (f_step f) (f_dir f) l) = McpwmProp.travelled (f_hcu f) l).
  { induction l as [|y l IH]; [reflexivity|]. cbn [edges_of flat_map McpwmProp.travelled fold_right].
    fold (edges_of (f_step f) (f_dir f) l). fold (McpwmProp.travelled (f_hcu f) l). unfold McpwmProp.way.
    destruct (Mcpwm.y_pulse y); cbn [app net]; [|rewrite IH; lia].
    rewrite Z.eqb_refl, IH. unfold dir_of. destruct (Z.eqb_spec (f_dir f) PIN_UNDEFINED); [congruence|].
    rewrite Z.eqb_refl. reflexivity. }
  rewrite <- E. apply (angle_right U i n N _ w Hn HN).
  generalize (fst (attach4 U i n (- N) N w)). clear. induction l as [|y l IH]; intros v; [exact I|].
  cbn [edges_of flat_map]. fold (edges_of (f_step f) (f_dir f) l).
  destruct (Mcpwm.y_pulse y); cbn [app all_leave leaves]; auto.
Qed.
Example C92_position_example :
  let up := Mcpwm.mkCycle true true 1000 in let down := Mcpwm.mkCycle true false 1000 in
  let no := Mcpwm.mkCycle false true 1000 in
  let l := [up; up; no; down; down; down] in
  McpwmProp.travelled true l = -1
  /\ read4 0 (prun 8 (edges_of 4 5 l) (fst (attach4 8 0 6 (-3200) 3200 w92))) = -1.
Proof. vm_compute. split; reflexivity. Qed.

(** limits that are not symmetric: the value is not the number of steps modulo anything *)
Theorem C92_asymmetric_refuted : exists low high l, all_leave 8 6 0 l (fst (attach4 8 0 6 low high w92))
  /\ net (w_conf w92 0) l = 0 /\ read4 0 (prun 8 l (fst (attach4 8 0 6 low high w92))) = -3.
Proof.
  exists (-10), 3, (repeat (PEdge 4 (lv true)) 3 ++ repeat (PEdge 4 (lv false)) 3). vm_compute.
  repeat split; intros; discriminate.
Qed.
(** the direction pin has been set after attaching the counter: it counts up only *)
Theorem C92_late_direction_refuted : exists w l, all_leave 8 6 1 l (fst (attach4 8 1 6 0 0 w))
  /\ let w' := prun 8 l (fst (attach4 8 1 6 0 0 w)) in net (w_conf w' 1) l = 0 /\ read4 1 w' = 4.
Proof.
  exists w92, (PSetDir 1 5 true :: repeat (PEdge 14 (lv true)) 2 ++ repeat (PEdge 14 (lv false)) 2). vm_compute.
  repeat split; intros; discriminate.
Qed.
(** two steppers with the same unit: no error, and it is cleared and set up anew for both *)
Theorem C92_shared_unit_refuted : exists w l, let w1 := fst (attach4 8 0 6 (-100) 100 w) in
  snd (attach4 8 1 6 (-100) 100 w1) = true /\ net (w_conf w 0) l = -2
  /\ let w2 := prun 8 l (fst (attach4 8 1 6 (-100) 100 w1)) in w_att w2 0 = 6 /\ read4 0 w2 = 3.
Proof.
  exists w92, (repeat (PEdge 4 (lv false)) 2 ++ repeat (PEdge 14 (lv false)) 3). vm_compute. repeat split.
Qed.
(** "Pulse counter 6 and 7 are not used by the stepper library": right for the ESP32, and those not
    needed by a stepper are free. *)
Theorem C92_free_units : forall A l h n,
  let is := given A (Select 6 8) l (e_init (Select 6 8)) in
  init_all (firstn 6 table) 6 8 is chip0 = Some h -> Z.of_nat (length is) <= n \/ 6 <= n -> ~ In (Pcnt n) (h_used h).
Proof.
  intros A l h n is E Hn K.
  assert (HK : In (Select 6 8) esp_layouts) by (left; reflexivity).
  destruct (setup_ok A (Select 6 8) l HK) as (h' & E' & X). cbn [mcpwm_queues rmt_queues] in *. fold is in E', X.
  assert (h' = h) by congruence. subst h'. apply X in K as (i & Hi & Ni). unfold needs in Ni.
  destruct (Nat.ltb_spec i 6) as [L|L]; [|discriminate].
  rewrite table_get in Ni by assumption. destruct Ni as [Ni|Ni]; [discriminate|]. injection Ni as ->.
  destruct Hn as [Hn|Hn]; [|lia].
  destruct (given_ordered A (Select 6 8) I ltac:(split; [cbn; lia|exact I]) l (e_init (Select 6 8)) []
    (e_init_inv (Select 6 8))) as [O _].
  { intros j. split; [intros []|]. intros [x Hx]. unfold e_init in Hx. cbn [e_slot] in Hx.
    apply nth_error_In in Hx. apply repeat_spec in Hx. discriminate. }
  cbn [mcpwm_queues] in O. fold is in O.
  assert (C : (i < length is)%nat); [|lia].
  assert (G : forall l done, ordered_from 6 done l -> In i l -> (forall j, (j <= i)%nat -> In j (rev l ++ done))).
  { clear - L. induction l as [|a l IH]; intros done O Hi j Hj; [destruct Hi|].
    cbn [ordered_from] in O. destruct O as [[_ O1] O2]. cbn [rev]. rewrite <- app_assoc. cbn [app].
    destruct Hi as [->|Hi]; [|exact (IH _ O2 Hi j Hj)]. apply in_or_app. right.
    destruct (Nat.eq_dec j i) as [->|N]; [left; reflexivity|right]. apply O1; lia. }
  assert (S : incl (seq 0 (i + 1)) is).
  { intros j Hj. apply in_seq in Hj. apply in_rev. rewrite <- (app_nil_r (rev is)). apply (G is [] O Hi). lia. }
  pose proof (NoDup_incl_length (seq_NoDup (i + 1) 0) S) as B. rewrite seq_length in B. lia.
Qed.
Definition conn (k : nat) : list cevent :=
  map (fun n => CConnect (Z.of_nat n) DRIVER_DONT_CARE true 0 (fun _ => mkEntry 0 false false false false false false 0 0))
    (seq 10 k).
Example C92_free_example :
  let is := given arch_esp32 (Select 6 8) (conn 5) (e_init (Select 6 8)) in
  is = [0; 1; 2; 3; 4]%nat /\ match init_all (firstn 6 table) 6 8 is chip0 with
     | Some h => length (h_used h) = 10%nat /\ taken (Pcnt 4) h = true /\ taken (Pcnt 5) h = false
     | None => False end.
Proof. vm_compute. repeat split. Qed.
(** ESP32-S3 (ESP-IDF 4): units 6 and 7 are refused, and with four steppers every other unit is in use *)
Theorem C92_s3_refuted : exists is,
  is = given arch_esp32 (Select 4 4) (conn 4) (e_init (Select 4 4))
  /\ match init_all (firstn 4 table) 4 4 is chip0 with
     | Some h => forall n, 0 <= n < 8 ->
         snd (attach4 4 0 n (-16384) 16384 w92) = false \/ taken (Pcnt n) h = true
     | None => False end.
Proof.
  eexists. split; [reflexivity|]. vm_compute init_all. intros n Hn.
  assert (C : n = 0 \/ n = 1 \/ n = 2 \/ n = 3 \/ 4 <= n) by lia.
  destruct C as [->|[->|[->|[->|C]]]]; [right; reflexivity..|left]. unfold attach4.
  destruct (Z.geb_spec n 4); [reflexivity|lia].
Qed.
(** ESP-IDF 5 *)
Theorem C92_idf5_angle : forall N f l rc s, 0 < N <= 32767 -> snd (attach5 (- N) N f rc s) = true ->
  let r := read5 (edges5 l (fst (attach5 (- N) N f rc s))) in
  - N < r < N /\ angle N r = net5 f l mod N.
Proof. exact angle5. Qed.
Theorem C92_idf5_failure : forall low high f rc s, snd (attach5 low high f rc s) = false ->
  t_att (fst (attach5 low high f rc s)) = t_att s.
Proof.
  intros low high f rc s. unfold attach5. destruct (negb (new_unit_ok _ _ _)); [reflexivity|].
  destruct (negb (r_chan rc)); [reflexivity|]. destruct (negb _); [reflexivity|discriminate].
Qed.
Definition good : rcs := mkRcs true true true true true true.
Example C92_idf5_example :
  let r := attach5 (-6) 6 (mkPconf 4 5 false) good (mkSys5 4 None) in
  snd r = true /\ read5 (edges5 (repeat (lv true) 7 ++ [lv false]) (fst r)) = 0
  /\ read5 (edges5 (repeat (lv true) 5) (fst r)) = -5.
Proof. vm_compute. repeat split. Qed.
(** the documented limits 0 and 0 are refused *)
Theorem C92_idf5_zero_refuted : forall f rc s, snd (attach5 0 0 f rc s) = false.
Proof. intros. reflexivity. Qed.
(** a call that fails behind the allocation: the unit is lost *)
Theorem C92_idf5_lost_refuted : exists rc f s, r_chan rc = true /\ snd (attach5 (-100) 100 f rc s) = false
  /\ t_free s = 4%nat /\ t_free (fst (attach5 (-100) 100 f rc s)) = 3%nat.
Proof.
  exists (mkRcs true true true false true true), (mkPconf 4 5 true), (mkSys5 4 None). vm_compute. repeat split.
Qed.
(** Attaching once more (other limits, other direction pin) takes another unit each time: a single stepper
    uses up all of them. *)
Theorem C92_idf5_units_refuted : forall f n,
  snd (attach5 (-100) 100 f good
    (Nat.iter n (fun s => fst (attach5 (-100) 100 f good s)) (mkSys5 n None))) = false.
Proof.
  intros f n.
  assert (G : forall m k a, t_free (Nat.iter m (fun s => fst (attach5 (-100) 100 f good s)) (mkSys5 (m + k) a)) = k).
  { intros m. induction m as [|m IH]; intros k a; [reflexivity|].
    replace (S m + k)%nat with (m + S k)%nat by lia. specialize (IH (S k) a).
    set (g := fun s => fst (attach5 (-100) 100 f good s)) in *.
    change (t_free (g (Nat.iter m g (mkSys5 (m + S k) a))) = k).
    generalize dependent (Nat.iter m g (mkSys5 (m + S k) a)). intros x IH. unfold g, attach5, new_unit_ok.
    rewrite IH. reflexivity. }
  specialize (G n 0%nat None). rewrite Nat.add_0_r in G. unfold attach5 at 1, new_unit_ok. rewrite G. reflexivity.
Qed.

(** ** C93: every stepper gets its own hardware, and this is switched on before *)
(** No step of the set-up fails: no module that is off, none that is reset while in use, nothing used
    twice; what is set up is what the queues need. *)
Theorem C93_setup : forall A k l, In k esp_layouts ->
  let is := given A k l (e_init k) in
  exists h, init_all (firstn (mcpwm_queues k) table) (mcpwm_queues k) (rmt_queues k) is chip0 = Some h
    /\ forall x, In x (h_used h) <-> exists i, In i is /\ needs (mcpwm_queues k) i x.
Proof. exact setup_ok. Qed.
Theorem C93_distinct : forall k i j x, In k esp_layouts -> i <> j ->
  needs (mcpwm_queues k) i x -> ~ needs (mcpwm_queues k) j x.
Proof.
  intros k i j x HK. apply needs_distinct. cbn in HK. intuition subst; cbn; lia.
Qed.
Definition mixed : list cevent :=
  map (fun x => CConnect (fst x) (snd x) true 0 (fun _ => mkEntry 0 false false false false false false 0 0))
    [(10, DRIVER_RMT); (11, DRIVER_DONT_CARE); (12, DRIVER_MCPWM_PCNT); (12, DRIVER_RMT); (13, DRIVER_RMT);
     (14, DRIVER_DONT_CARE); (15, DRIVER_DONT_CARE); (16, DRIVER_DONT_CARE); (17, DRIVER_DONT_CARE)].
Example C93_example :
  let is := given arch_esp32 (Select 4 4) mixed (e_init (Select 4 4)) in
  is = [4; 0; 1; 5; 2; 3; 6; 7]%nat
  /\ match init_all (firstn 4 table) 4 4 is chip0 with
     | Some h => taken (Timer 1 0) h = true /\ taken (Rmt 3) h = true /\ length (h_used h) = 12%nat
     | None => False end
  /\ init_all (firstn 4 table) 4 4 [1%nat] chip0 = None /\ init_all (firstn 4 table) 4 4 [4; 6]%nat chip0 <> None
  /\ init_all (firstn 4 table) 4 4 [6; 4]%nat chip0 = None.
Proof. vm_compute. repeat split. discriminate. Qed.

(** ** C94: detachFromPin() and reAttachToPin(), ESP-IDF 5 *)
Theorem C94_detach_partial : forall n l, polite true false l ->
  exists m, channels_ok n (attached_after true l) m (chrun l (init_ch (S n))).
Proof. exact (fun n l H => polite_ok n l true false _ H (init_ok n)). Qed.
Theorem C94_starts_partial : forall n l, polite true false l ->
  let s := chrun l (init_ch (S n)) in v_run (start_ch s) = attached_after true l \/ v_run s = true.
Proof.
  intros n l H s. destruct (polite_ok n l true false _ H (init_ok n)) as [m C]. fold s in C.
  unfold channels_ok in C. unfold start_ch. destruct (attached_after true l).
  - destruct C as (_ & (c & C & _) & _). rewrite C. auto.
  - destruct C as (_ & C & _ & _ & R & _). rewrite C. auto.
Qed.
Definition e94 : list chev := [ChDetach; ChAttach; ChStart; ChEnd; ChStart; ChForce; ChDetach].
Example C94_example : polite true false e94 /\ attached_after true e94 = false
  /\ v_pin (chrun e94 (init_ch 8)) = [] /\ v_free (chrun e94 (init_ch 8)) = 8%nat
  /\ v_pin (chrun (e94 ++ [ChAttach]) (init_ch 8)) = [2%nat].
Proof. split; [unfold e94; repeat constructor|]. vm_compute. repeat split. Qed.
(** after a move that came to its end, the pin stays with the driver *)
Theorem C94_moved_refuted : forall n,
  let s := chrun [ChStart; ChEnd] (init_ch (S n)) in
  v_run s = false /\ detach_pin s = s /\ v_pin (detach_pin s) <> [].
Proof. intros n. vm_compute. repeat split. discriminate. Qed.
(** ... and attaching it again takes another channel: after seven times a second stepper gets none and
    never starts *)
Theorem C94_channels_refuted :
  let s := chrun ([ChStart; ChEnd] ++ concat (repeat [ChDetach; ChAttach; ChStart; ChEnd] 7)) (init_ch 8) in
  v_free s = 0%nat /\ length (v_pin s) = 8%nat
  /\ let s2 := init_ch (v_free s) in v_chan s2 = None /\ start_ch s2 = s2 /\ v_run s2 = false.
Proof. vm_compute. repeat split. Qed.

(** ** C95: the time from the last step to disabled outputs *)
(** With a task rate of 4 ms and a tick of 1, 2 or 4 ms (ESP32), the outputs of an idle stepper stay on for
    all passes before and are off with a pass that is less than [ms] and more than [ms] - 8 milliseconds
    later (two passes, if less than 8 milliseconds have been asked for). *)
Theorem C95_time : forall P ms i s q ext l z d, In P [1; 2; 4] -> 1 <= ms <= 65535 ->
  s_cnt s = s_off (setDelayToDisable arch_esp32 ms s) ->
  s_isRunning s q = false -> distinct_pins s -> responsive s ext -> shares s s ->
  Forall (fun f => forall z, quiet_for i s z (f z)) l ->
  at_slot (fst z) i s q -> alone (fst z) i s ->
  let T := pass_ms 4 P in 0 <= d < T ->
  let k := Z.of_nat (length l) in
  (ms < 8 -> s_cnt s = 2) /\
  (k < s_cnt s -> forall w, en_pin s w -> snd (passes ext l z) w = snd z w)
  /\ (k = s_cnt s -> outputs_off s (snd (passes ext l z))
      /\ (8 <= ms -> ms - 8 < pass_time T d k < ms)).
Proof.
  intros P ms i s q ext l z d HP Hms Ec H1 H2 H3 H4 HF HS HA T Hd k.
  assert (ET : T = 4) by (cbn in HP; unfold T; intuition subst; reflexivity).
  assert (HAr : In arch_esp32 all_archs) by (cbn; auto 10).
  rewrite (delay_to_disable arch_esp32 ms s HAr) in Ec by lia.
  change (DELAY_MS_BASE arch_esp32) with 4 in Ec.
  destruct (Z.eqb_spec ms 0); [lia|].
  pose proof (Z.div_mod ms 4 ltac:(lia)). pose proof (Z.mod_pos_bound ms 4 ltac:(lia)).
  assert (C1 : 1 <= s_cnt s) by lia.
  destruct (passes_idle ext i s q H1 H2 H3 H4 l z HF HS HA C1) as [B1 B2]. fold k in B1, B2.
  split; [lia|]. split; [exact B1|]. intros E. split; [exact (B2 E)|]. intros H8.
  pose proof (off_time T d k Hd). rewrite ET in *. lia.
Qed.
Example C95_example :
  let s := st_cnt 2 (st_auto true 1 (st_enpins 6 7 (st_dir 5 true 0 (s_init arch_esp32 0 9)))) in
  let z := ([Some (s, q_init arch_esp32 (fun _ => mkEntry 0 false false false false false false 0 0) false)],
            fun w : Z => w =? 7) in
  s_cnt s = s_off (setDelayToDisable arch_esp32 9 s) /\ pass_ms 4 2 = 4 /\ pass_time 4 1 2 = 5
  /\ snd (passes None [fun z => z] z) 7 = true /\ snd (passes None [fun z => z; fun z => z] z) 7 = false
  /\ snd (passes None [fun z => z; fun z => z] z) 6 = true.
Proof. vm_compute. repeat split. Qed.
(** task_rate(20): five times as long; a tick of 10 ms (FreeRTOS default): more than twice as long *)
Theorem C95_task_rate_refuted : exists ms n,
  n = s_off (setDelayToDisable arch_esp32 ms (s_init arch_esp32 0 4)) /\ ms = 1000
  /\ forall d, 0 <= d < pass_ms 20 1 -> 4980 <= pass_time (pass_ms 20 1) d n.
Proof.
  exists 1000, 250. splits; auto. intros d Hd. change (pass_ms 20 1) with 20 in *. unfold pass_time. lia.
Qed.
Theorem C95_tick_refuted : exists ms n,
  n = s_off (setDelayToDisable arch_esp32 ms (s_init arch_esp32 0 4)) /\ ms = 1000
  /\ forall d, 0 <= d < pass_ms 4 10 -> 2490 <= pass_time (pass_ms 4 10) d n.
Proof.
  exists 1000, 250. splits; auto. intros d Hd. change (pass_ms 4 10) with 10 in *. unfold pass_time. lia.
Qed.
(** the delay between two passes: task_rate() rounded up to ticks *)
Theorem C95_rate : forall r P, 0 < P -> 0 <= r ->
  r <= pass_ms r P < r + P /\ (forall m, r = m * P -> pass_ms r P = r).
Proof.
  intros r P HP Hr. split; [exact (pass_ms_bounds r P HP Hr)|].
  intros m E. apply pass_ms_fits; eauto.
Qed.

Print Assumptions C92_angle.
Print Assumptions C92_int16.
Print Assumptions C92_exact.
Print Assumptions C92_clear.
Print Assumptions C92_unattached.
Print Assumptions C92_refused.
Print Assumptions C92_position.
Print Assumptions C92_asymmetric_refuted.
Print Assumptions C92_late_direction_refuted.
Print Assumptions C92_shared_unit_refuted.
Print Assumptions C92_free_units.
Print Assumptions C92_s3_refuted.
Print Assumptions C92_idf5_angle.
Print Assumptions C92_idf5_failure.
Print Assumptions C92_idf5_zero_refuted.
Print Assumptions C92_idf5_lost_refuted.
Print Assumptions C92_idf5_units_refuted.
Print Assumptions C93_setup.
Print Assumptions C93_distinct.
Print Assumptions C94_detach_partial.
Print Assumptions C94_starts_partial.
Print Assumptions C94_moved_refuted.
Print Assumptions C94_channels_refuted.
Print Assumptions C95_time.
Print Assumptions C95_task_rate_refuted.
Print Assumptions C95_tick_refuted.
Print Assumptions C95_rate.
