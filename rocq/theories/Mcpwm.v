(** * Mcpwm: the ESP32 MCPWM/PCNT driver for ESP-IDF 4
    Model of src/StepperISR_idf4_esp32_mcpwm_pcnt.cpp; line numbers without file refer to it.

    A timer counts up and down again and again. One cycle takes as many ticks as the period register
    says (lines 407-412). At the value 1 on the way up (compare event "TEA") the step pin rises or
    stays low (field [utea] of the generator), at the top it falls. The pulse counter counts the
    rising edges. At its limit it starts from zero, takes the new limit over and raises an interrupt,
    which sets up the next command.

    Simplifications:
    - Time is divided at the two events of a cycle: TEA, and the value 0 ("TEZ"). An interrupt handler
      runs at once, except that a TEA may come at any point of apply_command(). The handler is late, if
      it runs after the TEZ. The two values 0 and 1 of the timer are one; so are the rising edge and
      its count.
    - The limit of the pulse counter is taken over when the counter gets zero (at the limit or by
      being cleared) and not afterwards: comments in lines 98, 165-170, 197.
    - The ring buffer is a list here (see [Queue]); a direction pin of the MCU is assumed. Hence
      there are no repeated entries (lines 273, 294-296). *)
From Coq Require Import ZArith Bool List.
From Verif Require Import Base Queue.
Import ListNotations.
Open Scope Z_scope.

(** ** Hardware *)
(** [t_on]: not stopped. [t_cont]: mode.start is 2 (run), else 0 (stop at TEZ).
    [t_busy]: between TEA and TEZ (value above 1). [t_act]: period in use. [t_per]: register. *)
Record timer := mkTimer { t_on : bool; t_cont : bool; t_busy : bool; t_act : Z; t_per : Z }.
(** [g_high]: utea is 2 (a pulse), else 1. [g_flag]: raw TEA flag. [g_ena]: TEA interrupt enabled. *)
Record gen := mkGen { g_high : bool; g_flag : bool; g_ena : bool }.
(** [p_lim]: register of the limit. [p_top]: limit in use. [p_ev]: interrupt requested. *)
Record pcnt := mkPcnt { p_cnt : Z; p_lim : Z; p_top : Z; p_ev : bool }.
(** A cycle of the timer: pulse or not, level of the direction pin at the rising edge, duration *)
Record cycle := mkCycle { y_pulse : bool; y_dir : bool; y_ticks : Z }.
Record hw := mkHw { k_t : timer; k_g : gen; k_p : pcnt; k_dir : bool; k_log : list cycle }.

Definition on_t (f : timer -> timer) (h : hw) : hw := mkHw (f (k_t h)) (k_g h) (k_p h) (k_dir h) (k_log h).
Definition on_g (f : gen -> gen) (h : hw) : hw := mkHw (k_t h) (f (k_g h)) (k_p h) (k_dir h) (k_log h).
Definition on_p (f : pcnt -> pcnt) (h : hw) : hw := mkHw (k_t h) (k_g h) (f (k_p h)) (k_dir h) (k_log h).
Definition clr_flag (g : gen) : gen := mkGen (g_high g) false (g_ena g).
Definition set_ena (b : bool) (g : gen) : gen := mkGen (g_high g) (g_flag g) b.
Definition set_high (b : bool) (g : gen) : gen := mkGen b (g_flag g) (g_ena g).
(** the limit register has 16 bits *)
Definition set_lim (n : Z) (p : pcnt) : pcnt := mkPcnt (p_cnt p) n (p_top p) (p_ev p).
(** isr_pcnt_counter_clear(), pcnt_counter_clear(): lines 107-109 *)
Definition clear (p : pcnt) : pcnt := mkPcnt 0 (p_lim p) (p_lim p) (p_ev p).

(** A rising edge at the pulse counter *)
Definition count (p : pcnt) : pcnt :=
  if p_cnt p + 1 =? p_top p then mkPcnt 0 (p_lim p) (p_lim p) true
  else mkPcnt (u16 (p_cnt p + 1)) (p_lim p) (p_top p) (p_ev p).
(** The timer reaches 1 on its way up. *)
Definition tea (h : hw) : hw :=
  let t := k_t h in let g := k_g h in
  if t_on t && negb (t_busy t) then
    mkHw (mkTimer true (t_cont t) true (t_act t) (t_per t)) (mkGen (g_high g) true (g_ena g))
      (if g_high g then count (k_p h) else k_p h) (k_dir h)
      (k_log h ++ [mkCycle (g_high g) (k_dir h) (t_act t)])
  else h.
(** The timer reaches 0: it stops if told so, and the period register is taken over. *)
Definition tez (h : hw) : hw :=
  let t := k_t h in
  if t_on t && t_busy t then on_t (fun t => mkTimer (t_cont t) (t_cont t) false (t_per t) (t_per t)) h else h.

(** ** The driver *)
(** An entry of the queue: the command and toggle_dir *)
Record me := mkMe { me_c : command; me_tog : bool }.

(** The period: lines 123-145. While the timer is at 0 or 1 it is updated at once. *)
Definition set_period (p : Z) (t : timer) : timer :=
  mkTimer (t_on t) (t_cont t) (t_busy t) (if t_busy t then t_act t else p) p.
Definition on_dir (b : bool) (h : hw) : hw := mkHw (k_t h) (k_g h) (k_p h) b (k_log h).
(** A TEA comes in at point [i], if [k] is this point. *)
Definition tea_at (k i : nat) (h : hw) : hw := if Nat.eqb k i then tea h else h.
(** The limit is adjusted to the pulses that have come already. [val1] has been read; [disable] is
    disable_mcpwm_interrupt: lines 177-231 *)
Definition take_over (k : nat) (val2 : Z) (h : hw) : hw :=
  tea_at k 7 (on_p clear (tea_at k 6 (on_p (set_lim val2) (tea_at k 5 h)))).
Definition check_flag (k : nat) (val2 : Z) (h : hw) : hw * bool :=
  if g_flag (k_g h) && (p_cnt (k_p h) =? 0)
  then (on_p clear (tea_at k 8 (on_p (set_lim (u16 (val2 - 1))) h)), val2 >? 0)
  else (h, true).
Definition with_val2 (k : nat) (val1 val2 : Z) (h : hw) : hw * bool :=
  check_flag k val2 (take_over k val2 (if val1 =? val2 then h else on_g clr_flag h)).
Definition second_read (k : nat) (steps val1 : Z) (h : hw) : hw * bool :=
  with_val2 k val1 (u16 (steps - p_cnt (k_p h))) h.
(** lines 155-231 *)
Definition adjust_limit (k : nat) (steps : Z) (h : hw) : hw * bool :=
  if p_lim (k_p h) =? steps then (h, true)
  else second_read k steps (u16 (steps - p_cnt (k_p h))) (tea_at k 4 (on_g clr_flag (tea_at k 3 h))).
(** A pause: lines 146-154 *)
Definition apply_pause (k : nat) (h : hw) : hw :=
  on_g (set_ena true) (tea_at k 4 (on_g clr_flag (tea_at k 3 (on_g (set_high false) h)))).
(** Steps: lines 155-242 *)
Definition disable_irq (disable : bool) (h : hw) : hw := if disable then on_g (set_ena false) h else h.
Definition apply_steps (k : nat) (r : hw * bool) : hw :=
  on_g (set_high true) (tea_at k 10 (disable_irq (snd r) (tea_at k 9 (fst r)))).
(** lines 120-145 *)
Definition apply_first (k : nat) (e : me) (h : hw) : hw :=
  on_t (set_period (c_ticks (me_c e))) (tea_at k 1 (on_dir (xorb (k_dir h) (me_tog e)) (tea_at k 0 h))).
(** apply_command(): lines 111-243. [k]: where a TEA comes in (0 to 10; none if larger or the timer is
    past it) *)
Definition apply (k : nat) (e : me) (h : hw) : hw :=
  let h := tea_at k 2 (apply_first k e h) in
  if c_steps (me_c e) =? 0 then apply_pause k h
  else apply_steps k (adjust_limit k (c_steps (me_c e)) h).

(** The queue and the driver. [m_end]: queue_end.dir. [m_pc]: a command that has been prepared by
    addQueueEntry() and not yet been put into the queue, with the start flag. [m_acc], not in the code:
    all commands put into the queue. *)
Record mst := mkM {
  m_h : hw; m_q : list me; m_run : bool; m_prep : bool; m_end : bool;
  m_pc : option (me * bool); m_acc : list command
}.
Definition with_h (h : hw) (s : mst) : mst :=
  mkM h (m_q s) (m_run s) (m_prep s) (m_end s) (m_pc s) (m_acc s).

(** prepare_for_next_command(): lines 91-105 *)
Definition prepare (e : me) (h : hw) : hw :=
  if c_steps (me_c e) >? 0 then on_p (set_lim (c_steps (me_c e))) h else h.
(** init_stop(): lines 245-262, without _isRunning *)
Definition stop_hw (h : hw) : hw :=
  on_g (set_ena false) (on_t (fun t => mkTimer (t_on t) false (t_busy t) (t_act t) (t_per t)) h).
(** what_is_next(): lines 264-302 *)
Definition next (k : nat) (s : mst) : mst :=
  match m_q s with
  | _ :: e :: q =>
    let h := if m_prep s then m_h s else on_p clear (prepare e (m_h s)) in
    let h := apply k e h in
    mkM (match q with e2 :: _ => prepare e2 h | [] => h end) (e :: q) (m_run s)
      (match q with _ :: _ => true | [] => false end) (m_end s) (m_pc s) (m_acc s)
  | _ => mkM (stop_hw (m_h s)) [] false false (m_end s) (m_pc s) (m_acc s)
  end.
(** pcnt_isr_service(): lines 304-307. The ESP-IDF service clears the request before the call. *)
Definition pcnt_isr (k : nat) (s : mst) : mst :=
  let p := k_p (m_h s) in
  if p_ev p then next k (with_h (on_p (fun p => mkPcnt (p_cnt p) (p_lim p) (p_top p) false) (m_h s)) s) else s.
(** MCPWM_SERVICE: lines 312-345 *)
Definition mcpwm_isr (k : nat) (s : mst) : mst :=
  let g := k_g (m_h s) in if g_flag g && g_ena g then next k s else s.

(** startQueue(): lines 511-537; only called with a command in the queue *)
Definition start_hw (e : me) (h : hw) : hw :=
  let h := apply 99 e (on_p clear h) in
  on_t (fun t => mkTimer true true (t_busy t) (t_act t) (t_per t)) h.
Definition start (s : mst) : mst :=
  match m_q s with
  | [] => s
  | e :: _ => mkM (start_hw e (m_h s)) (m_q s) true false (m_end s) (m_pc s) (m_acc s)
  end.
(** forceStop(): lines 538-541 *)
Definition force_stop (s : mst) : mst :=
  mkM (stop_hw (m_h s)) [] false (m_prep s) (m_end s) (m_pc s) (m_acc s).
(** isReadyForCommands(): lines 542-557 *)
Definition is_ready (s : mst) : bool := m_run s || negb (t_busy (k_t (m_h s))).

Section Hist.
(** dirHighCountsUp *)
Variable HCU : bool.
Definition level_of (c : command) : bool := Bool.eqb (c_up c) HCU.

(** addQueueEntry(): src/StepperISR.cpp:5-151. The first part, up to line 120: the direction pin is
    written directly if the queue is empty and not running. Full queues and too fast commands are
    refused before (see [Queue]). *)
Definition add_begin (c : command) (st : bool) (s : mst) : mst :=
  if is_ready s then
    if negb (m_run s) && (match m_q s with [] => true | _ => false end) then
      let h := m_h s in
      mkM (mkHw (k_t h) (k_g h) (k_p h) (level_of c) (k_log h)) (m_q s) (m_run s) (m_prep s) (level_of c)
        (Some (mkMe c false, st)) (m_acc s)
    else mkM (m_h s) (m_q s) (m_run s) (m_prep s) (m_end s)
           (Some (mkMe c (negb (Bool.eqb (level_of c) (m_end s))), st)) (m_acc s)
  else s.
(** The second part, src/StepperISR.cpp:122-141 *)
Definition add_commit (s : mst) : mst :=
  match m_pc s with
  | None => s
  | Some (e, st) =>
    if is_ready s then
      let s1 := mkM (m_h s) (m_q s ++ [e]) (m_run s) (m_prep s) (level_of (me_c e)) None (m_acc s ++ [me_c e]) in
      if negb (m_run s) && st then start s1 else s1
    else mkM (m_h s) (m_q s) (m_run s) (m_prep s) (m_end s) None (m_acc s)
  end.
(** addQueueEntry(NULL): src/StepperISR.cpp:11-22 *)
Definition add_null (s : mst) : mst := if is_ready s && negb (m_run s) then start s else s.

Inductive mevent :=
| MBegin (c : command) (st : bool)
| MCommit
| MNull
| MTea                  (* the timer reaches 1 on its way up *)
| MTez                  (* the timer reaches 0 *)
| MPcnt (k : nat)       (* interrupt of the pulse counter, if requested *)
| MMcpwm (k : nat)      (* interrupt of the timer, if requested *)
| MStop.                (* forceStop() *)
Definition mstep (e : mevent) (s : mst) : mst :=
  match e with
  | MBegin c st => match m_pc s with None => add_begin c st s | Some _ => s end
  | MCommit => add_commit s
  | MNull => match m_pc s with None => add_null s | Some _ => s end
  | MTea => with_h (tea (m_h s)) s
  | MTez => with_h (tez (m_h s)) s
  | MPcnt k => pcnt_isr k s
  | MMcpwm k => mcpwm_isr k s
  | MStop => match m_pc s with None => force_stop s | Some _ => s end
  end.
Fixpoint mrun (evs : list mevent) (s : mst) : mst :=
  match evs with [] => s | e :: t => mrun t (mstep e s) end.
(** init: lines 363-388, 428-453. [d]: level of the direction pin, and queue_end.dir *)
Definition minit (d : bool) : mst :=
  mkM (mkHw (mkTimer false false false 400 400) (mkGen false false false) (mkPcnt 0 1 1 false) d [])
    [] false false d None [].

(** An interrupt is waiting *)
Definition waiting_irq (s : mst) : bool :=
  p_ev (k_p (m_h s)) || g_flag (k_g (m_h s)) && g_ena (k_g (m_h s)).
(** No interrupt is late: all have been served before the end of the cycle. *)
Fixpoint in_time (evs : list mevent) (s : mst) : Prop :=
  match evs with
  | [] => True
  | e :: t => (e = MTez -> waiting_irq s = false) /\ in_time t (mstep e s)
  end.
End Hist.
