(** * Esp32Task: detached step pins and the rate of the background task
    src/StepperISR_idf5_esp32_rmt.cpp:189-345 (channels of the ESP-IDF 5 RMT driver),
    src/StepperISR_esp32.cpp:103-124 (task), src/FastAccelStepper.h:103-123 (task_rate). *)
From Coq Require Import ZArith Bool List Lia.
From Verif Require Import Base RampCalc RampGen Queue QueueHist Stepper Engine EngineFacts EngineAuto UserFront.
Import ListNotations.
Open Scope Z_scope.
Ltac Zify.zify_post_hook ::= idtac.

(** ** Channels of the RMT driver, ESP-IDF 5
    Lines without file: src/StepperISR_idf5_esp32_rmt.cpp. The system gives channels away and takes
    them back. [v_free]: channels left. [v_pin]: channels that have been given away for the step pin
    and drive it. [v_chan]: the member "channel", NULL is [None]. [v_ena]: _channel_enabled,
    [v_run]: _isRunning, [v_stop]: _rmtStopped.

    Simplifications: a channel is a number. rmt_new_tx_channel() fails exactly if no channel is left
    and leaves the handle as it is then. *)
Record rch := mkRch {
  v_free : nat; v_next : nat; v_pin : list nat;
  v_chan : option nat; v_ena : bool; v_run : bool; v_stop : bool
}.
(** connect_rmt(): lines 228-247 *)
Definition attach_pin (s : rch) : rch :=
  match v_free s with
  | O => mkRch O (v_next s) (v_pin s) (v_chan s) false (v_run s) (v_stop s)
  | S n => mkRch n (S (v_next s)) (v_next s :: v_pin s) (Some (v_next s)) false (v_run s) (v_stop s)
  end.
(** disconnect_rmt(): lines 249-255. rmt_del_channel(NULL) has no effect. *)
Definition detach_pin (s : rch) : rch :=
  if v_ena s || v_run s || negb (v_stop s) then s
  else match v_chan s with
       | None => s
       | Some c => mkRch (S (v_free s)) (v_next s) (remove Nat.eq_dec c (v_pin s)) None (v_ena s) (v_run s) (v_stop s)
       end.
(** startQueue_rmt() with a command in the queue: lines 285-330 *)
Definition start_ch (s : rch) : rch :=
  match v_chan s with
  | None => s
  | Some _ => mkRch (v_free s) (v_next s) (v_pin s) (v_chan s) true true false
  end.
(** The queue has been sent: the encoder sets _rmtStopped (line 54), queue_done() clears _isRunning
    (lines 10-16). *)
Definition end_ch (s : rch) : rch :=
  if v_run s then mkRch (v_free s) (v_next s) (v_pin s) (v_chan s) (v_ena s) false true else s.
(** forceStop_rmt(): lines 331-339 *)
Definition force_ch (s : rch) : rch :=
  mkRch (v_free s) (v_next s) (v_pin s) (v_chan s) false false true.
(** init_rmt() of a stepper when [n] channels are left: lines 189-226 *)
Definition init_ch (n : nat) : rch :=
  let s := attach_pin (mkRch n 0 [] None false false false) in
  mkRch (v_free s) (v_next s) (v_pin s) (v_chan s) (v_ena s) false true.

Inductive chev := ChStart | ChEnd | ChForce | ChDetach | ChAttach.
Definition chstep (e : chev) (s : rch) : rch :=
  match e with
  | ChStart => start_ch s | ChEnd => end_ch s | ChForce => force_ch s
  | ChDetach => detach_pin s | ChAttach => attach_pin s
  end.
Definition chrun (l : list chev) (s : rch) : rch := fold_left (fun s e => chstep e s) l s.

(** reAttachToPin() only after a detachFromPin(), which only of a motor that has been stopped by
    forceStop() or has not moved since the pin was attached *)
Inductive polite : bool -> bool -> list chev -> Prop :=
(* attached?, moved? *)
| po_nil a m : polite a m []
| po_start m l : polite true true l -> polite true m (ChStart :: l)
| po_end a m l : polite a m l -> polite a m (ChEnd :: l)
| po_force a m l : polite a false l -> polite a m (ChForce :: l)
| po_detach l : polite false false l -> polite true false (ChDetach :: l)
| po_attach l : polite true false l -> polite false false (ChAttach :: l).

(** exactly the attached pin is driven, by one channel, and no channel is lost *)
Definition channels_ok (n : nat) (a m : bool) (s : rch) : Prop :=
  if a then v_free s = n /\ (exists c, v_chan s = Some c /\ v_pin s = [c] /\ c < v_next s)%nat
            /\ (m = false -> v_ena s = false /\ v_run s = false /\ v_stop s = true)
  else v_free s = S n /\ v_chan s = None /\ v_pin s = [] /\ v_ena s = false /\ v_run s = false
       /\ v_stop s = true.
Fixpoint attached_after (a : bool) (l : list chev) : bool :=
  match l with
  | [] => a
  | ChDetach :: l => attached_after false l
  | ChAttach :: l => attached_after true l
  | _ :: l => attached_after a l
  end.
Lemma polite_ok n : forall l a m s, polite a m l -> channels_ok n a m s ->
  exists m', channels_ok n (attached_after a l) m' (chrun l s).
Proof.
  induction l as [|e l IH]; intros a m s P C; cbn [chrun fold_left attached_after].
  { exists m. exact C. }
  fold (chrun l (chstep e s)).
  inversion P as [|m0 l0 P0|a0 m0 l0 P0|a0 m0 l0 P0|l0 P0|l0 P0]; subst; cbn [chstep attached_after].
  - eapply IH; [exact P0|]. unfold channels_ok in *. destruct C as (C1 & (c & C2 & C3 & C4) & _).
    unfold start_ch. rewrite C2. cbn. split; [auto|]. split; [exists c; auto|discriminate].
  - eapply IH; [exact P0|]. unfold channels_ok, end_ch in *. destruct a.
    + destruct C as (C1 & (c & C2 & C3 & C4) & C5). destruct (v_run s) eqn:E; cbn; [|rewrite ?E; eauto 10].
      split; [auto|]. split; [exists c; auto|]. intros Hm. destruct (C5 Hm) as (? & ? & ?). congruence.
    + destruct C as (C1 & C2 & C3 & C4 & C5 & C6). rewrite C5. auto 10.
  - eapply IH; [exact P0|]. unfold channels_ok, force_ch in *. destruct a; cbn.
    + destruct C as (C1 & (c & C2 & C3 & C4) & C5). split; [auto|]. split; [exists c; auto|auto].
    + destruct C as (C1 & C2 & C3 & C4 & C5 & C6). auto 10.
  - eapply IH; [exact P0|]. unfold channels_ok, detach_pin in *.
    destruct C as (C1 & (c & C2 & C3 & C4) & C5). destruct (C5 eq_refl) as (E1 & E2 & E3).
    rewrite E1, E2, E3, C2, C3. cbn. destruct (Nat.eq_dec c c); [|congruence]. auto 10.
  - eapply IH; [exact P0|]. unfold channels_ok, attach_pin in *.
    destruct C as (C1 & C2 & C3 & C4 & C5 & C6). rewrite C1. cbn.
    split; [auto|]. split; [|auto]. exists (v_next s). rewrite C3. auto.
Qed.
Lemma init_ok n : channels_ok n true false (init_ch (S n)).
Proof. unfold channels_ok, init_ch. cbn. split; [auto|]. split; [exists 0%nat; auto|auto]. Qed.

(** ** Time of the passes
    The task sleeps between two passes. portTICK_PERIOD_MS is [P]: src/StepperISR_esp32.cpp:103-120;
    [r] is the argument of task_rate(), 4 by default (line 134). The time of the pass itself is not
    counted. *)
Definition pass_ms (r P : Z) : Z := ((r + P - 1) / P) * P.

(** Passes [T] apart (any unit). The motor becomes idle at time 0; the first pass after that is at
    time [d], 0 <= d < T. *)
Definition pass_time (T d : Z) (k : Z) : Z := d + (k - 1) * T.

Lemma pass_ms_bounds r P : 0 < P -> 0 <= r -> r <= pass_ms r P < r + P.
Proof.
  intros HP Hr. unfold pass_ms. pose proof (Z.div_mod (r + P - 1) P ltac:(lia)).
  pose proof (Z.mod_pos_bound (r + P - 1) P HP). lia.
Qed.
Lemma pass_ms_fits r P : 0 < P -> (exists m, r = m * P) -> pass_ms r P = r.
Proof.
  intros HP [m ->]. unfold pass_ms. f_equal. symmetry. apply Z.div_unique with (P - 1); lia.
Qed.
(** time at which the outputs are switched off, for a counter of [n] *)
Lemma off_time T d n : 0 <= d < T -> (n - 1) * T <= pass_time T d n < n * T.
Proof. unfold pass_time. intros. nia. Qed.
