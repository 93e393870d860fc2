(** * Base: machine integers, bounded sweeps, architectures *)
From Coq Require Import ZArith Bool List Lia.
From Coq Require Import ZifyBool ZifyNat ZifyN.
Import ListNotations.
Open Scope Z_scope.

Ltac Zify.zify_post_hook ::= Z.div_mod_to_equations.

(** ** Machine integers

    C integer types are modelled by [Z]; storing into a variable of a fixed
    width type applies the wrap function of the type. *)
Definition u8  (x : Z) : Z := x mod 256.
Definition u16 (x : Z) : Z := x mod 65536.
Definition u32 (x : Z) : Z := x mod 4294967296.
Definition i8  (x : Z) : Z := (x + 128) mod 256 - 128.
Definition i16 (x : Z) : Z := (x + 32768) mod 65536 - 32768.
Definition i32 (x : Z) : Z := (x + 2147483648) mod 4294967296 - 2147483648.

Definition is_u8  (x : Z) : Prop := 0 <= x < 256.
Definition is_u16 (x : Z) : Prop := 0 <= x < 65536.
Definition is_u32 (x : Z) : Prop := 0 <= x < 4294967296.
Definition is_i16 (x : Z) : Prop := -32768 <= x < 32768.
Definition is_i32 (x : Z) : Prop := -2147483648 <= x < 2147483648.

Lemma u8_range x : 0 <= u8 x < 256.
Proof. unfold u8. apply Z.mod_pos_bound. lia. Qed.
Lemma u16_range x : 0 <= u16 x < 65536.
Proof. unfold u16. apply Z.mod_pos_bound. lia. Qed.
Lemma u32_range x : 0 <= u32 x < 4294967296.
Proof. unfold u32. apply Z.mod_pos_bound. lia. Qed.
Lemma i16_range x : -32768 <= i16 x < 32768.
Proof. unfold i16. pose proof (Z.mod_pos_bound (x + 32768) 65536). lia. Qed.
Lemma i32_range x : -2147483648 <= i32 x < 2147483648.
Proof. unfold i32. pose proof (Z.mod_pos_bound (x + 2147483648) 4294967296). lia. Qed.
Lemma u8_id x : 0 <= x < 256 -> u8 x = x.
Proof. unfold u8. intros. apply Z.mod_small. lia. Qed.
Lemma u16_id x : 0 <= x < 65536 -> u16 x = x.
Proof. unfold u16. intros. apply Z.mod_small. lia. Qed.
Lemma u32_id x : 0 <= x < 4294967296 -> u32 x = x.
Proof. unfold u32. intros. apply Z.mod_small. lia. Qed.
Lemma i16_id x : -32768 <= x < 32768 -> i16 x = x.
Proof. unfold i16. intros. rewrite Z.mod_small; lia. Qed.
Lemma i32_id x : -2147483648 <= x < 2147483648 -> i32 x = x.
Proof. unfold i32. intros. rewrite Z.mod_small; lia. Qed.

(** [i32] is a section of [u32] *)
Lemma i32_u32 x : i32 (u32 x) = i32 x.
Proof.
  unfold i32, u32.
  rewrite Z.add_mod_idemp_l by lia. reflexivity.
Qed.
Lemma u32_i32 x : u32 (i32 x) = u32 x.
Proof.
  unfold i32, u32.
  rewrite Zminus_mod_idemp_l. f_equal. lia.
Qed.
Lemma i32_eq_iff x y : i32 x = i32 y <-> u32 x = u32 y.
Proof.
  split; intro H.
  - rewrite <- (u32_i32 x), <- (u32_i32 y). now f_equal.
  - rewrite <- (i32_u32 x), <- (i32_u32 y). now f_equal.
Qed.

(** C integer division truncates toward zero: [Z.quot]. *)
Definition cdiv (x y : Z) : Z := Z.quot x y.

(** [fas_min], [fas_max], [fas_abs]: src/fas_arch/common.h (macros). *)
Definition fas_min (a b : Z) : Z := if a >? b then b else a.
Definition fas_max (a b : Z) : Z := if a >? b then a else b.

Lemma fas_min_spec a b : fas_min a b = Z.min a b.
Proof. unfold fas_min. destruct (Z.gtb_spec a b); lia. Qed.
Lemma fas_max_spec a b : fas_max a b = Z.max a b.
Proof. unfold fas_max. destruct (Z.gtb_spec a b); lia. Qed.

(** ** Complete sweeps of finite domains *)
Fixpoint all_from (f : Z -> bool) (start : Z) (n : nat) : bool :=
  match n with
  | O => true
  | S k => if f start then all_from f (start + 1) k else false
  end.

Lemma all_from_spec f : forall n start,
  all_from f start n = true ->
  forall x, start <= x < start + Z.of_nat n -> f x = true.
Proof.
  induction n as [|n IH]; cbn [all_from]; intros start H x Hx.
  - lia.
  - destruct (f start) eqn:E; [|discriminate].
    destruct (Z.eq_dec x start) as [->|]; [assumption|].
    apply (IH _ H). lia.
Qed.

(** sweep of [lo, hi) *)
Definition sweep (f : Z -> bool) (lo hi : Z) : bool := all_from f lo (Z.to_nat (hi - lo)).
Lemma sweep_spec f lo hi :
  sweep f lo hi = true -> forall x, lo <= x < hi -> f x = true.
Proof.
  unfold sweep. intros H x Hx. apply (all_from_spec _ _ _ H).
  rewrite Z2Nat.id; lia.
Qed.
Global Opaque sweep.

(** ** Architectures

    The constants of src/fas_arch/{arduino_avr,arduino_esp32,common_esp32,
    arduino_sam,test_pc}.h and src/fas_arch/common.h. *)
Record arch := mkArch {
  QUEUE_LEN : Z;            (* number of queue entries, a power of two *)
  TICKS_PER_S : Z;          (* timer frequency *)
  MIN_CMD_TICKS : Z;        (* shortest duration of one command *)
  MIN_DIR_DELAY_US : Z;
  MAX_DIR_DELAY_US : Z;
  DELAY_MS_BASE : Z;        (* period of the background task in ms *)
  MAX_STEPPER : Z;
  TICKS_PER_US : Z;         (* US_TO_TICKS multiplier, RampCalculator.h:13,19 *)
  PMF_TICKS_PER_S : Z;      (* RampCalculator.h:10,16 *)
  PMF_TICKS_PER_S_DIV_SQRT_OF_2 : Z;
  PMF_ACCEL_FACTOR : Z;
  END_POS : bool;           (* SUPPORT_QUEUE_ENTRY_END_POS_U16 vs START_POS *)
  FASTEST : Z               (* smallest max_speed_in_ticks used on this arch *)
}.

(** src/fas_arch/test_pc.h; FASTEST: StepperISR.h / StepperISR_test.cpp *)
Definition arch_pc : arch :=
  mkArch 16 16000000 3200 200 4095 1 2 16 12253 11997 23994 true 80.
(** src/fas_arch/arduino_avr.h with F_CPU = 16 MHz; FASTEST:
    StepperISR_avr.cpp:346-361 *)
Definition arch_avr : arch :=
  mkArch 16 16000000 640 40 4095 4 3 16 12253 11997 23994 true 320.
(** src/fas_arch/common_esp32.h, arduino_esp32.h *)
Definition arch_esp32 : arch :=
  mkArch 32 16000000 3200 200 4095 4 14 16 12253 11997 23994 false 80.
(** src/fas_arch/arduino_sam.h; 21 MHz timer *)
Definition arch_sam : arch :=
  mkArch 32 21000000 4200 200 3120 2 6 21 12454 12198 24396 true 420.

Definition all_archs : list arch := [arch_pc; arch_avr; arch_esp32; arch_sam].

(** A property of the architectures only needs to be checked on four values. *)
Lemma arch_cases (P : arch -> Prop) :
  P arch_pc -> P arch_avr -> P arch_esp32 -> P arch_sam ->
  forall a, In a all_archs -> P a.
Proof. intros H1 H2 H3 H4 a [<-|[<-|[<-|[<-|[]]]]]; assumption. Qed.

Definition TICKS_FOR_STOPPED_MOTOR : Z := 4294967295.

(** struct stepper_command_s: src/fas_arch/common.h:28-42 *)
Record command := mkCommand {
  c_ticks : Z;     (* uint16_t *)
  c_steps : Z;     (* uint8_t *)
  c_up : bool
}.

(** struct queue_end_s: src/fas_arch/common.h:50-54 *)
Record queue_end := mkQueueEnd {
  qe_pos : Z;      (* int32_t *)
  qe_up : bool;
  qe_dir : bool
}.
