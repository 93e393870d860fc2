(** * Engine: several steppers
    Model of class FastAccelStepperEngine: src/FastAccelStepper.cpp:22-212.

    Stepper [i] uses queue [i] (src/FastAccelStepper.cpp:117: the same index). *)
From Coq Require Import ZArith Bool List Lia.
From Verif Require Import Base RampCalc RampGen Queue QueueHist Stepper StepperHist FrontHist.
Import ListNotations.
Open Scope Z_scope.

(** ** stepperConnectToPin: src/FastAccelStepper.cpp:67-126 *)

(** How a queue is chosen. [Fixed]: AVR, one step pin per timer channel
    (src/StepperISR_avr.cpp:317-345, src/AVRStepperPins.h); [Flexible]: the next one
    (queueNumForStepPin returns -1: SAM, ESP32 with one driver type, PC);
    [Select]: ESP32 with SUPPORT_SELECT_DRIVER_TYPE, the first [mcpwm] queues use
    MCPWM/PCNT, the others RMT. *)
Inductive layout :=
| Fixed (channels : list Z)
| Flexible (n : nat)
| Select (mcpwm rmt : nat).
(** MAX_STEPPER *)
Definition max_stepper (k : layout) : nat :=
  match k with Fixed l => length l | Flexible n => n | Select m r => m + r end.

(** src/FastAccelStepper.h:90-92 *)
Definition DRIVER_MCPWM_PCNT : Z := 0.
Definition DRIVER_RMT : Z := 1.
Definition DRIVER_DONT_CARE : Z := 2.

(** One connected stepper with its queue *)
Definition axis : Type := stepper * queue.
Record engine := mkEngine {
  e_slot : list (option axis);     (* _stepper[], fas_stepper[], fas_queue[] *)
  e_cnt : Z                        (* _stepper_cnt, uint8_t *)
}.
(** init(): src/FastAccelStepper.cpp:22-39 *)
Definition e_init (k : layout) : engine := mkEngine (repeat None (max_stepper k)) 0.

(** position of [x] in a list *)
Fixpoint index_of (x : Z) (l : list Z) : option nat :=
  match l with
  | [] => None
  | y :: l' => if y =? x then Some O
               else match index_of x l' with Some i => Some (S i) | None => None end
  end.
(** lines 102-108: first free slot among [n] slots starting at [from] *)
Fixpoint first_free (from n : nat) (l : list (option axis)) : option nat :=
  match n with
  | O => None
  | S n' => match nth_error l from with
            | Some None => Some from
            | _ => first_free (S from) n' l
            end
  end.
Fixpoint set_nth {T} (i : nat) (x : T) (l : list T) : list T :=
  match l, i with
  | [], _ => []
  | _ :: l', O => x :: l'
  | y :: l', S i' => y :: set_nth i' x l'
  end.

Definition is_connected (pin : Z) (l : list (option axis)) : bool :=
  existsb (fun o => match o with Some (s, _) => s_steppin s =? pin | None => false end) l.

(** Lines 85-112 and _isValidStepPin (44-46). [valid] is the result of isValidStepPin()
    where it depends on the hardware (ESP32: gpio capabilities, src/StepperISR_esp32.cpp;
    SAM: src/StepperISR_due.cpp; PC: always true). AVR: one of the channels. *)
Definition choose (k : layout) (pin driver : Z) (valid : bool) (e : engine) : option nat :=
  match k with
  | Fixed ch => index_of pin ch
  | Flexible n => if negb valid then None
                  else if e_cnt e >=? Z.of_nat n then None else Some (Z.to_nat (e_cnt e))
  | Select m r =>
    if negb valid then None
    else if driver =? DRIVER_MCPWM_PCNT then first_free 0 m (e_slot e)
    else if driver =? DRIVER_RMT then first_free m r (e_slot e)
    else first_free 0 (m + r) (e_slot e)
  end.

Section WithArch.
Variable A : arch.
Variable EXT : bool.

(** adjustSpeedToStepperCount(): src/StepperISR_avr.cpp:346-361,
    src/StepperISR_esp32.cpp:122-124, src/StepperISR_due.cpp:712-714,
    extras/tests/pc_based/StepperISR_test.cpp:17; AVR is the only one which depends on the number *)
Definition limit_for (cnt : Z) : Z :=
  if FASTEST A =? 320 then
    if cnt =? 1 then TICKS_PER_S A / 50000
    else if cnt =? 2 then 426
    else TICKS_PER_S A / 20000
  else FASTEST A.
Definition adjust (cnt : Z) (o : option axis) : option axis :=
  match o with Some (s, q) => Some (s, set_max (limit_for cnt) q) | None => None end.

(** [garbage], [g]: uninitialised memory of the new queue and ramp generator. Result: the
    number of the stepper, [None] = NULL *)
Definition connect (k : layout) (pin driver : Z) (valid : bool) (g : Z) (garbage : Z -> entry)
  (e : engine) : engine * option nat :=
  if is_connected pin (e_slot e) then (e, None)
  else
    match choose k pin driver valid e with
    | None => (e, None)
    | Some i =>
      let cnt := u8 (e_cnt e + 1) in
      let x := (s_init A g pin, q_init A garbage false) in
      (mkEngine (map (adjust cnt) (set_nth i (Some x) (e_slot e))) cnt, Some i)
    end.

(** Histories: connects, and anything else the connected steppers do; nothing changes
    [_stepPin] after init() *)
Inductive cevent :=
| CConnect (pin driver : Z) (valid : bool) (g : Z) (garbage : Z -> entry)
| CWork (i : nat) (x : axis).
Definition cstep (k : layout) (ev : cevent) (e : engine) : engine :=
  match ev with
  | CConnect pin driver valid g garbage => fst (connect k pin driver valid g garbage e)
  | CWork i x =>
    match nth_error (e_slot e) i with
    | Some (Some (s, _)) =>
      if s_steppin s =? s_steppin (fst x) then mkEngine (set_nth i (Some x) (e_slot e)) (e_cnt e) else e
    | _ => e
    end
  end.
Definition crun (k : layout) (l : list cevent) (e : engine) : engine :=
  fold_left (fun e ev => cstep k ev e) l e.
End WithArch.

(** ** Automatic disabling: src/FastAccelStepper.cpp:160-211 *)
Definition uses (s : stepper) (hi lo : Z) : bool := usesAutoEnablePin s hi || usesAutoEnablePin s lo.
(** lines 170-184; [k] is the index of the first element of [l] *)
Fixpoint all_agree (i k : nat) (hi lo : Z) (l : list (option axis)) : bool :=
  match l with
  | [] => true
  | None :: l' => all_agree i (S k) hi lo l'
  | Some (s, q) :: l' =>
    (if negb (Nat.eqb i k) && uses s hi lo then agreeWithAutoDisable s q else true)
    && all_agree i (S k) hi lo l'
  end.
(** lines 186-197 *)
Fixpoint disable_group (ext : extcall) (hi lo : Z) (l : list (option axis)) (p : pins)
  : list (option axis) * pins :=
  match l with
  | [] => ([], p)
  | None :: l' => let r := disable_group ext hi lo l' p in (None :: fst r, snd r)
  | Some (s, q) :: l' =>
    let d := if uses s hi lo then fst (disableOutputs ext s q p) else (s, p) in
    let r := disable_group ext hi lo l' (snd d) in
    (Some (fst d, q) :: fst r, snd r)
  end.
(** lines 162-199 for stepper [i] *)
Definition disable_check (ext : extcall) (i : nat) (z : list (option axis) * pins)
  : list (option axis) * pins :=
  match nth_error (fst z) i with
  | Some (Some (s, q)) =>
    if needAutoDisable s q && all_agree i 0 (s_high s) (s_low s) (fst z)
    then disable_group ext (s_high s) (s_low s) (fst z) (snd z) else z
  | _ => z
  end.
Definition disable_checks (ext : extcall) (is : list nat) (z : list (option axis) * pins)
  : list (option axis) * pins :=
  fold_left (fun z i => disable_check ext i z) is z.
(** one pass of the background task after the queues have been filled *)
Definition auto_pass (ext : extcall) (z : list (option axis) * pins) : list (option axis) * pins :=
  let z := disable_checks ext (seq 0 (length (fst z))) z in
  (map (fun o => match o with Some (s, q) => Some (updateAutoDisable s q, q) | None => None end) (fst z),
   snd z).

(** ** Shared direction pin *)

(** isDirPinBusy(): src/FastAccelStepper.cpp:50-65, on direction pin and isQueueRunning() of
    the connected steppers *)
Fixpoint busy_from (k : nat) (pin : Z) (except : nat) (l : list (Z * bool)) : bool :=
  match l with
  | [] => false
  | (d, running) :: l' =>
    (negb (Nat.eqb k except) && (d =? pin) && running) || busy_from (S k) pin except l'
  end.

Section Shared.
Variable A : arch.
Variable EXT : bool.

Definition view (x : stepper * hq) : Z * bool := (s_dirpin (fst x), q_running (fqueue x)).
Definition isDirPinBusy (pin : Z) (except : nat) (l : list (stepper * hq)) : bool :=
  busy_from 0 pin except (map view l).

(** Each history keeps its own copy of the pin levels. [sync]: the level [lvl] of the
    direction pin [pin] becomes visible to a stepper which uses this pin, too. External pins
    are not operated by the queue and are left out here. *)
Definition with_level (lvl : bool) (h : hst) : hst :=
  mkH (h_q h) (upd (h_pins h) (q_pin (h_q h)) lvl) (h_pc h) (h_done h) (h_base h) (h_started h)
    (h_clean h) (h_acc h) (h_left h) (h_res h) (h_log h).
Definition sync (pin : Z) (lvl : bool) (x : stepper * hq) : stepper * hq :=
  let h := hq_h (snd x) in
  if has_pin (h_q h) && (q_pin (h_q h) =? pin) && negb (Bool.eqb (h_pins h pin) lvl)
  then (fst x, set_h (with_level lvl h) (snd x)) else x.

(** [EvDo]: stepper [i] does [e], where addQueueEntry reads isDirPinBusy() at once. [EvOld]:
    the reading of isDirPinBusy() is the one given in [e]; it may be outdated, as lines
    238-246 of src/FastAccelStepper.cpp are not in a critical section. *)
Inductive eevent :=
| EvDo (i : nat) (e : fevent)
| EvOld (i : nat) (e : fevent).
Definition with_busy (b : bool) (e : fevent) : fevent :=
  match e with FAdd ext _ c start ws => FAdd ext b c start ws | _ => e end.
Definition do_step (i : nat) (e : fevent) (l : list (stepper * hq)) : list (stepper * hq) :=
  match nth_error l i with
  | None => l
  | Some x =>
    let y := fstep A EXT e x in
    let pin := q_pin (fqueue y) in
    map (sync pin (h_pins (hq_h (snd y)) pin)) (set_nth i y l)
  end.
Definition estep (ev : eevent) (l : list (stepper * hq)) : list (stepper * hq) :=
  match ev with
  | EvDo i e =>
    match nth_error l i with
    | None => l
    | Some x => do_step i (with_busy (isDirPinBusy (s_dirpin (fst x)) i l) e) l
    end
  | EvOld i e => do_step i e l
  end.
Fixpoint erun (evs : list eevent) (l : list (stepper * hq)) : list (stepper * hq) :=
  match evs with [] => l | ev :: evs' => erun evs' (estep ev l) end.

(** Start: freshly connected steppers after all setDirectionPin() calls. [p]: the levels of
    the direction pins, the same for all steppers; each call has switched its pin, so that
    the last one determines the level of a shared pin. *)
Definition einit1 (garbage : Z -> entry) (p ep : pins) (m : Z) (s : stepper) : stepper * hq :=
  let x := finit A garbage p ep m s in
  (fst x, set_h (hstep A EXT (EOther (p (s_dirpin s)))
                  (hstep A EXT (ESetDir (s_dirpin s) (s_hcu s)) (hq_h (snd x)))) (snd x)).
End Shared.
