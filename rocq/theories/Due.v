(** * Due: the driver for Atmel SAM (Arduino Due)
    Model of src/StepperISR_due.cpp; line numbers without file refer to it.

    A channel of the PWM unit counts periods. At the start of each period the step pin rises, if the
    PWM unit drives it. The rising edge raises the interrupt of the port ("PIO"), which counts the
    steps down. In a pause the pin is driven low by the port, and the interrupt of the PWM unit at the
    start of a period moves on to the next command.

    Simplifications:
    - Time is counted in ticks of the PWM channel (21 per microsecond, src/fas_arch/arduino_sam.h:18). A handler runs at
      one instant. Several channels share the PWM interrupt: it may come at any time.
    - A new period register value (CPRDUPD) is used from the next period on (comment lines 357-359). A
      channel that is switched off finishes its period (comment lines 616-623 and the test of
      PWM_SR in line 625); it goes on if it is switched on again before.
    - Whenever the pin is handed over to the PWM unit, its output is low (the delay in line 282
      is for this), and the interrupt of the port is enabled (lines 291, 321). Hence the enable bit
      of the port interrupt is not modelled.
    - The ring buffer is a list here (see [Queue]); a direction pin of the MCU is assumed. *)
From Coq Require Import ZArith Bool List.
From Verif Require Import Base Queue.
Import ListNotations.
Open Scope Z_scope.

(** ** Hardware *)
(** A period: with a rising edge at its start (and the level of the direction pin then) or without;
    duration in ticks *)
Inductive slot := Pulse (d : bool) (t : Z) | Gap (t : Z).
(** [h_on]: the channel runs (PWM_SR). [h_dis]: it will stop at the end of the period. [h_per]: period
    in use. [h_upd]: CPRDUPD. [h_ev]: bit of PWM_ISR1 (cleared when read). [h_ie]: interrupt enabled
    (PWM_IMR1). [h_pwm]: the PWM unit drives the step pin, else it is low. [h_edge]: the interrupt of
    the port is waiting. [h_clk]: time at the start of the period, [h_off]: time since then. *)
Record hw := mkHw {
  h_on : bool; h_dis : bool; h_per : Z; h_upd : option Z; h_ev : bool; h_ie : bool;
  h_pwm : bool; h_edge : bool; h_dir : bool; h_clk : Z; h_off : Z; h_log : list slot
}.
Definition now (h : hw) : Z := h_clk h + h_off h.
(** Arduino's micros() *)
Definition micros (h : hw) : Z := u32 (now h / 21).

Definition w_dis (b : bool) (h : hw) : hw :=
  mkHw (h_on h) b (h_per h) (h_upd h) (h_ev h) (h_ie h) (h_pwm h) (h_edge h) (h_dir h) (h_clk h) (h_off h) (h_log h).
Definition w_upd (t : Z) (h : hw) : hw :=
  mkHw (h_on h) (h_dis h) (h_per h) (Some t) (h_ev h) (h_ie h) (h_pwm h) (h_edge h) (h_dir h) (h_clk h) (h_off h) (h_log h).
Definition w_per (t : Z) (h : hw) : hw :=
  mkHw (h_on h) (h_dis h) t (h_upd h) (h_ev h) (h_ie h) (h_pwm h) (h_edge h) (h_dir h) (h_clk h) (h_off h) (h_log h).
Definition w_ie (b : bool) (h : hw) : hw :=
  mkHw (h_on h) (h_dis h) (h_per h) (h_upd h) (h_ev h) b (h_pwm h) (h_edge h) (h_dir h) (h_clk h) (h_off h) (h_log h).
Definition w_pwm (b : bool) (h : hw) : hw :=
  mkHw (h_on h) (h_dis h) (h_per h) (h_upd h) (h_ev h) (h_ie h) b (h_edge h) (h_dir h) (h_clk h) (h_off h) (h_log h).
Definition w_dir (b : bool) (h : hw) : hw :=
  mkHw (h_on h) (h_dis h) (h_per h) (h_upd h) (h_ev h) (h_ie h) (h_pwm h) (h_edge h) b (h_clk h) (h_off h) (h_log h).
Definition clr_ev (h : hw) : hw :=
  mkHw (h_on h) (h_dis h) (h_per h) (h_upd h) false (h_ie h) (h_pwm h) (h_edge h) (h_dir h) (h_clk h) (h_off h) (h_log h).
Definition clr_edge (h : hw) : hw :=
  mkHw (h_on h) (h_dis h) (h_per h) (h_upd h) (h_ev h) (h_ie h) (h_pwm h) false (h_dir h) (h_clk h) (h_off h) (h_log h).

(** A period starts. *)
Definition begin_period (h : hw) : hw :=
  mkHw true false (h_per h) (h_upd h) (h_ev h) (h_ie h) (h_pwm h) (h_edge h || h_pwm h) (h_dir h) (h_clk h) (h_off h)
    (h_log h ++ [if h_pwm h then Pulse (h_dir h) (h_per h) else Gap (h_per h)]).
(** A period ends: the channel stops if told so, else the next period starts. *)
Definition end_period (h : hw) : hw :=
  let p := match h_upd h with Some t => t | None => h_per h end in
  let h1 := mkHw (negb (h_dis h)) false p None true (h_ie h) (h_pwm h) (h_edge h) (h_dir h)
              (h_clk h + h_per h) 0 (h_log h) in
  if h_dis h then h1 else begin_period h1.
(** PWM_ENA *)
Definition enable (h : hw) : hw :=
  if h_on h then w_dis false h
  else begin_period (mkHw true false (h_per h) (h_upd h) (h_ev h) (h_ie h) (h_pwm h) (h_edge h) (h_dir h) (now h) 0 (h_log h)).
(** PWM_DIS *)
Definition disable (h : hw) : hw := w_dis (h_on h) h.

(** ** The driver *)
(** An entry of the queue: the command, e->steps (counted down) and toggle_dir *)
Record de := mkDe { e_c : command; e_left : Z; e_tog : bool }.
Definition has_steps (c : command) : bool := c_steps c >? 0.

(** [d_run]: _hasISRactive. [d_pause]: _pauseCommanded. [d_en]: timePWMInterruptEnabled. [d_end]:
    queue_end.dir. [d_pc]: a command that has been prepared by addQueueEntry() and not yet been put into
    the queue, with the start flag. [d_acc], not in the code: all commands put into the queue. *)
Record dst := mkD {
  d_h : hw; d_q : list de; d_run : bool; d_pause : bool; d_en : Z; d_end : bool;
  d_pc : option (de * bool); d_acc : list command
}.
Definition with_h (h : hw) (s : dst) : dst :=
  mkD h (d_q s) (d_run s) (d_pause s) (d_en s) (d_end s) (d_pc s) (d_acc s).
Definition with_hq (h : hw) (q : list de) (run pause : bool) (en : Z) (s : dst) : dst :=
  mkD h q run pause en (d_end s) (d_pc s) (d_acc s).

(** lines 364-367 and 402-406 *)
Definition toggle (b : bool) (h : hw) : hw := w_dir (xorb (h_dir h) b) h.
(** disconnectPWMPeriphal(): lines 304-311 *)
Definition disconnect (h : hw) : hw := w_pwm false (disable h).

(** The interrupt of the port, DUE_STEPPER_ISR: lines 327-409 *)
Definition pio_next (e : de) (q : list de) (h : hw) (s : dst) : dst :=
  match q with
  | [] => with_hq (disconnect h) [] false (d_pause s) (d_en s) s
  | e2 :: r =>
    if (e_left e2 =? 0) || negb (has_steps (e_c e2)) then
      with_hq (w_upd (c_ticks (e_c e2)) (w_pwm false (w_ie true h))) q (d_run s) true (micros h) s
    else
      with_hq (toggle (e_tog e2) (w_upd (c_ticks (e_c e2)) h))
        (mkDe (e_c e2) (e_left e2) false :: r) (d_run s) (d_pause s) (d_en s) s
  end.
Definition pio_count (e : de) (q : list de) (h : hw) (s : dst) : dst :=
  if u8 (e_left e - 1) =? 0 then pio_next e q (toggle (e_tog e) h) s
  else with_hq h (mkDe (e_c e) (u8 (e_left e - 1)) (e_tog e) :: q) (d_run s) (d_pause s) (d_en s) s.
Definition pio_isr (s : dst) : dst :=
  if h_edge (d_h s) then
    let h := clr_edge (d_h s) in
    if negb (d_run s) || d_pause s then with_h h s
    else match d_q s with [] => with_h h s | e :: q => pio_count e q h s end
  else s.

(** The time since the interrupt has been enabled: lines 202-209 *)
Definition elapsed (t en : Z) : Z := if t <? en then u32 (4294967295 - en + t) else u32 (t - en).
(** PWM_Handler() for this channel: lines 121-302 *)
Definition pwm_next (q : list de) (h : hw) (s : dst) : dst :=
  match q with
  | [] => with_h h s
  | [_] => with_hq (disconnect (w_ie false h)) [] false false (d_en s) s
  | _ :: e :: r =>
    let h := w_upd (c_ticks (e_c e)) h in
    if e_left e >? 0 then with_hq (w_pwm true (w_ie false h)) (e :: r) (d_run s) false (d_en s) s
    else with_hq h (e :: r) (d_run s) (d_pause s) (d_en s) s
  end.
Definition pwm_isr (s : dst) : dst :=
  if h_ev (d_h s) then
    let h := clr_ev (d_h s) in
    if elapsed (micros h) (d_en s) <? 100 then with_h h s
    else if d_pause s then pwm_next (d_q s) h s
    else with_h (w_ie false h) s
  else s.

(** startQueue(): lines 605-687; only called with a command in the queue *)
Definition start_steps (h : hw) : hw := enable (w_pwm true (w_ie false h)).
Definition start_pause (h : hw) : hw := w_ie true (enable (w_pwm false h)).
Definition start (s : dst) : dst :=
  match d_q s with
  | [] => s
  | e :: _ =>
    let h := if h_on (d_h s) then w_upd (c_ticks (e_c e)) (d_h s) else w_per (c_ticks (e_c e)) (d_h s) in
    if (e_left e >? 0) || has_steps (e_c e)
    then with_hq (start_steps h) (d_q s) true (d_pause s) (d_en s) s
    else with_hq (start_pause h) (d_q s) true true (d_en s) s
  end.
(** forceStop(): lines 689-697 *)
Definition force_stop (s : dst) : dst :=
  with_hq (disable (d_h s)) [] false (d_pause s) (d_en s) s.

Section Hist.
(** dirHighCountsUp *)
Variable HCU : bool.
Definition level_of (c : command) : bool := Bool.eqb (c_up c) HCU.

(** addQueueEntry(): src/StepperISR.cpp:5-151. The first part, up to line 120: the direction pin is
    written directly if the queue is empty and not running. Full queues and too fast commands are
    refused before (see [Queue]). isReadyForCommands() is constantly true: src/StepperISR.h:102 *)
Definition idle (s : dst) : bool := negb (d_run s) && match d_q s with [] => true | _ => false end.
Definition add_begin (c : command) (st : bool) (s : dst) : dst :=
  if idle s then
    mkD (w_dir (level_of c) (d_h s)) (d_q s) (d_run s) (d_pause s) (d_en s) (level_of c)
      (Some (mkDe c (c_steps c) false, st)) (d_acc s)
  else
    mkD (d_h s) (d_q s) (d_run s) (d_pause s) (d_en s) (d_end s)
      (Some (mkDe c (c_steps c) (negb (Bool.eqb (level_of c) (d_end s))), st)) (d_acc s).
(** The second part, src/StepperISR.cpp:122-141 *)
Definition add_commit (s : dst) : dst :=
  match d_pc s with
  | None => s
  | Some (e, st) =>
    let s1 := mkD (d_h s) (d_q s ++ [e]) (d_run s) (d_pause s) (d_en s) (level_of (e_c e)) None (d_acc s ++ [e_c e]) in
    if negb (d_run s) && st then start s1 else s1
  end.
(** addQueueEntry(NULL): src/StepperISR.cpp:11-22 *)
Definition add_null (s : dst) : dst := if d_run s then s else start s.

Inductive devent :=
| DBegin (c : command) (st : bool)
| DCommit
| DNull
| DWait (n : Z)        (* time passes; a running period does not end *)
| DPeriod              (* the period ends *)
| DPio                 (* interrupt of the port, if waiting *)
| DPwm                 (* interrupt of the PWM unit, for this or for another channel *)
| DStop                (* forceStop() *)
| DConnect.            (* connect() of another stepper: lines 539-540, 546-547, 578-579. The mask 0x00FFFF0F
                          contains channels 0 to 3. *)
Definition wait (n : Z) (h : hw) : hw :=
  mkHw (h_on h) (h_dis h) (h_per h) (h_upd h) (h_ev h) (h_ie h) (h_pwm h) (h_edge h) (h_dir h) (h_clk h) (h_off h + n) (h_log h).
Definition dstep (e : devent) (s : dst) : dst :=
  match e with
  | DBegin c st => match d_pc s with None => add_begin c st s | Some _ => s end
  | DCommit => add_commit s
  | DNull => match d_pc s with None => add_null s | Some _ => s end
  | DWait n => with_h (wait n (d_h s)) s
  | DPeriod => if h_on (d_h s) then with_h (end_period (d_h s)) s else s
  | DPio => pio_isr s
  | DPwm => pwm_isr s
  | DStop => match d_pc s with None => force_stop s | Some _ => s end
  | DConnect => with_h (w_ie false (d_h s)) s
  end.
Fixpoint drun (evs : list devent) (s : dst) : dst :=
  match evs with [] => s | e :: t => drun t (dstep e s) end.
(** init(), connect(): lines 455-580. [d]: level of the direction pin, and queue_end.dir. [t]: time *)
Definition dinit (d : bool) (t : Z) : dst :=
  mkD (mkHw false false 65535 None false false true false d t 0 []) [] false false 0 d None [].

(** All events of a run meet [P] in the state before. *)
Fixpoint along (P : devent -> dst -> Prop) (evs : list devent) (s : dst) : Prop :=
  match evs with [] => True | e :: t => P e s /\ along P t (dstep e s) end.
End Hist.
