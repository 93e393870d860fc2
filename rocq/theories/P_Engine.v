(** * P_Engine: several steppers: C41, C42, C43, C49, C50 *)
From Coq Require Import ZArith Bool List Lia.
From Verif Require Import Base RampCalc RampGen Queue QueueFacts QueueHist Stepper StepperHist FrontHist
  FrontProp Engine EngineFacts EngineAuto EngineShare.
Import ListNotations.
Open Scope Z_scope.

Definition no_entry : Z -> entry := fun _ => mkEntry 0 false false false false false false 0 0.
Definition low : pins := fun _ => false.
Definition up2 : command := mkCommand 1600 2 true.
Definition down2 : command := mkCommand 1600 2 false.
(** auto enable, counter [n], enable pins *)
Definition a_axis (pin_low pin_high n : Z) (q : queue) : option axis :=
  Some (st_cnt n (st_auto true 1 (st_enpins pin_low pin_high (st_dir 5 true 0 (s_init arch_pc 0 9)))), q).
Definition q0 : queue := set_max 80 (q_init arch_pc no_entry false).

(** ** C41: the background task does not disable the outputs of a running stepper *)
Theorem C41_running_partial : forall ext l p k s q w, transitive l -> at_slot l k s q ->
  s_isRunning s q = true -> en_pin s w -> snd (auto_pass ext (l, p)) w = p w.
Proof. exact auto_pass_safe. Qed.
(** the assumption holds if every stepper has only one enable pin *)
Theorem C41_one_pin : forall ext l p k s q w, (forall i s q, at_slot l i s q -> one_pin s) ->
  at_slot l k s q -> s_isRunning s q = true -> en_pin s w -> snd (auto_pass ext (l, p)) w = p w.
Proof. exact (fun ext l p k s q w H => auto_pass_safe ext l p k s q w (one_pin_transitive l H)). Qed.
(** the pass changes nothing but the counters of the steppers *)
Theorem C41_frame : forall ext l p, akin l (fst (auto_pass ext (l, p))).
Proof. exact (fun ext l p => auto_pass_akin ext (l, p)). Qed.
Example C41_example :
  let l busy := [a_axis 6 255 1 q0; None; a_axis 6 255 0 (set_running busy q0)] in
  (forall i s q, at_slot (l true) i s q -> one_pin s)
  /\ snd (auto_pass None (l true, low)) 6 = false /\ snd (auto_pass None (l false, low)) 6 = true.
Proof.
  cbv zeta. splits; try reflexivity.
  intros [|[|[|[|i]]]] s q H; vm_compute in H; try discriminate; injection H as <- <-; right; left; reflexivity.
Qed.
(** Stepper 0 (pins 10 and 11) is to be disabled; stepper 1 (10, 12) agrees, stepper 2 (12) is
    running and is not asked, as it does not use 10 or 11. Pin 12 is switched off. *)
Theorem C41_chain_refuted : exists l p k s q w,
  at_slot l k s q /\ s_isRunning s q = true /\ en_pin s w
  /\ p w = false /\ w = s_low s /\ snd (auto_pass None (l, p)) w = true.
Proof.
  exists [a_axis 11 10 1 q0; a_axis 12 10 0 q0; a_axis 12 255 0 (set_running true q0)], low, 2%nat.
  do 2 eexists. exists 12. splits; try reflexivity. split; [discriminate|now right].
Qed.
(** Race: all steppers have agreed; then stepper 1 gets a command; then stepper 0 disables the
    common enable pin. *)
Theorem C41_race_refuted : exists l s q p,
  (* stepper 0 is due, all agree *)
  (exists s0 q1, at_slot l 0 s0 q1 /\ needAutoDisable s0 q1 = true
                 /\ all_agree 0 0 (s_high s0) (s_low s0) l = true
  (* now stepper 1 gets a command *)
  /\ at_slot l 1 s q
  /\ let r := s_add arch_pc _ (plain arch_pc false) None false up2 true s (q, p) in
     snd r = AQE_OK
     /\ let s' := fst (fst r) in let q' := fst (snd (fst r)) in let p' := snd (snd (fst r)) in
        s_isRunning s' q' = true /\ p' (s_low s') = false
  (* stepper 0 goes on *)
        /\ snd (disable_group None (s_high s0) (s_low s0) (set_nth 1 (Some (s', q')) l) p') (s_low s') = true).
Proof.
  exists [a_axis 6 255 1 q0; a_axis 6 255 0 q0]. do 2 eexists. exists low. do 2 eexists.
  splits; [reflexivity..|]. vm_compute. repeat split.
Qed.

(** ** C42: stepperConnectToPin *)
Theorem C42_connect : forall A k l pin driver valid g garbage, layout_ok k ->
  let e := crun A k l (e_init k) in
  let r := connect A k pin driver valid g garbage e in
  connect_spec k pin driver valid e (fst r) (snd r).
Proof.
  exact (fun A k l pin driver valid g garbage HL =>
    proj1 (connect_ok A k pin driver valid g garbage _ HL (crun_inv A k l _ HL (e_init_inv k)))).
Qed.
Theorem C42_distinct : forall A k l i j pin, layout_ok k ->
  let e := crun A k l (e_init k) in
  pin_at (e_slot e) i pin -> pin_at (e_slot e) j pin -> i = j.
Proof. exact (fun A k l i j pin HL => ci_pin _ _ (crun_inv A k l _ HL (e_init_inv k)) i j pin). Qed.
Theorem C42_count : forall A k l, layout_ok k ->
  let e := crun A k l (e_init k) in
  length (e_slot e) = max_stepper k /\ e_cnt e = connected (e_slot e)
  /\ e_cnt e <= Z.of_nat (max_stepper k).
Proof.
  intros A k l HL e. pose proof (crun_inv A k l _ HL (e_init_inv k)) as I. fold e in I.
  pose proof (connected_le (e_slot e)) as H. destruct I. rewrite ci_cnt. rewrite ci_len in *. tauto.
Qed.
(** AVR: each stepper has the step pin of its timer channel *)
Theorem C42_channel : forall A ch l i pin, NoDup ch -> (length ch <= 255)%nat ->
  pin_at (e_slot (crun A (Fixed ch) l (e_init (Fixed ch)))) i pin -> nth_error ch i = Some pin.
Proof.
  exact (fun A ch l i pin H1 H2 =>
    ci_kind _ _ (crun_inv A (Fixed ch) l _ (conj H2 H1) (e_init_inv (Fixed ch))) i pin).
Qed.
Definition results (k : layout) (l : list (Z * Z * bool)) : list (option nat) :=
  snd (fold_left (fun z x => let '(pin, driver, valid) := x in
         let r := connect arch_avr k pin driver valid 0 no_entry (fst z) in (fst r, snd z ++ [snd r]))
       l (e_init k, [])).
Example C42_example :
  results (Fixed [9; 10]) [(10, 2, true); (10, 2, true); (9, 2, true); (11, 2, true)]
    = [Some 1%nat; None; Some 0%nat; None]
  /\ results (Select 1 1) [(4, 1, true); (5, 1, true); (6, 2, false); (6, 2, true); (7, 0, true)]
    = [Some 1%nat; None; None; Some 0%nat; None]
  /\ results (Flexible 2) [(4, 2, true); (4, 2, true); (5, 2, true); (6, 2, true)]
    = [Some 0%nat; None; Some 1%nat; None].
Proof. vm_compute. repeat split. Qed.

(** ** C68: the highest speed on AVR depends on the number of steppers (README.md:114-128) *)
(** ticks per step for the advertised number of steps per second *)
Definition advertised (n ticks : Z) : Prop :=
  (n = 1 -> 50000 * ticks = 16000000)
  /\ (n = 2 -> 37000 * ticks <= 16000000 < 38000 * ticks)
  /\ (n = 3 -> 20000 * ticks = 16000000).
Theorem C68_limit : forall k l pin driver valid g garbage e' i, layout_ok k ->
  connect arch_avr k pin driver valid g garbage (crun arch_avr k l (e_init k)) = (e', Some i) ->
  forall j s q, nth_error (e_slot e') j = Some (Some (s, q)) ->
  advertised (connected (e_slot e')) (q_max q).
Proof.
  intros k l pin driver valid g garbage e' i HL E j s q Hq.
  pose proof (connect_limit arch_avr k pin driver valid g garbage _ HL
    (crun_inv arch_avr k l _ HL (e_init_inv k))) as H.
  cbv zeta in H. rewrite E in H. rewrite (H ltac:(discriminate) j s q Hq).
  cbn [fst]. unfold advertised. split; [|split]; intros Hn; rewrite Hn; vm_compute; intuition congruence.
Qed.
(** on the other architectures the number of steppers does not matter *)
Theorem C68_others : forall A k l pin driver valid g garbage e' i, layout_ok k ->
  In A [arch_pc; arch_esp32; arch_sam] ->
  connect A k pin driver valid g garbage (crun A k l (e_init k)) = (e', Some i) ->
  forall j s q, nth_error (e_slot e') j = Some (Some (s, q)) -> q_max q = FASTEST A.
Proof.
  intros A k l pin driver valid g garbage e' i HL HA E j s q Hq.
  pose proof (connect_limit A k pin driver valid g garbage _ HL
    (crun_inv A k l _ HL (e_init_inv k))) as H.
  cbv zeta in H. rewrite E in H. rewrite (H ltac:(discriminate) j s q Hq).
  destruct HA as [<-|[<-|[<-|[]]]]; reflexivity.
Qed.
Definition limits (n : nat) : list Z :=
  map (fun o => match o with Some (_, q) => q_max q | None => 0 end)
    (e_slot (crun arch_avr (Fixed [9; 10; 11])
      (firstn n [CConnect 10 2 true 0 no_entry; CConnect 9 2 true 0 no_entry; CConnect 11 2 true 0 no_entry])
      (e_init (Fixed [9; 10; 11])))).
Example C68_example : map limits [1; 2; 3]%nat = [[0; 320; 0]; [426; 426; 0]; [800; 800; 800]].
Proof. vm_compute. reflexivity. Qed.

(** ** C43: a common direction pin *)
(** a command for an idle stepper is refused while another one on its direction pin is running *)
Theorem C43_refused : forall A EXT l i x j y ext c start ws,
  nth_error l i = Some x -> nth_error l j = Some y -> j <> i ->
  s_dirpin (fst x) <> PIN_UNDEFINED -> s_dirpin (fst y) = s_dirpin (fst x) ->
  q_running (fqueue y) = true -> q_running (fqueue x) = false ->
  exists code, s_add A hq (hacc A EXT) ext (isDirPinBusy (s_dirpin (fst x)) i l) c start (fst x) (set_w ws (snd x))
     = (fst x, set_w ws (snd x), code)
  /\ code <> AQE_OK /\ (q_max (fqueue x) <= c_ticks c -> code = AQE_DIR_PIN_IS_BUSY).
Proof. exact busy_refused. Qed.
(** Every step of every stepper is performed with the level of the direction pin it was commanded
    with, and at most one stepper of a direction pin is active *)
Theorem C43_direction_partial : forall A EXT garbage p ep m ss evs, In A all_archs ->
  Forall conf_ok ss -> Forall eev_ok evs -> legal_run A EXT evs (start_all A EXT garbage p ep m ss) ->
  Forall (fun x => Forall (fun e => fst e = snd e) (h_log (hq_h (snd x))))
    (erun A EXT evs (start_all A EXT garbage p ep m ss)).
Proof. exact (fun A EXT garbage p ep m ss evs HA => shared_log A EXT HA garbage p ep m ss evs). Qed.
Theorem C43_exclusive_partial : forall A EXT garbage p ep m ss evs i j x y, In A all_archs ->
  Forall conf_ok ss -> Forall eev_ok evs -> legal_run A EXT evs (start_all A EXT garbage p ep m ss) ->
  let l := erun A EXT evs (start_all A EXT garbage p ep m ss) in
  nth_error l i = Some x -> nth_error l j = Some y -> i <> j ->
  s_dirpin (fst x) = s_dirpin (fst y) -> s_dirpin (fst x) <> PIN_UNDEFINED ->
  is_external (s_dirpin (fst x)) = false -> idle x \/ idle y.
Proof. exact (fun A EXT garbage p ep m ss evs i j x y HA => shared_exclusive A EXT HA garbage p ep m ss evs i j x y). Qed.
(** the assumption holds if all commands are started at once on a ready device *)
Theorem C43_prompt : forall A EXT garbage p ep m ss evs, In A all_archs ->
  Forall conf_ok ss -> Forall eev_ok evs -> Forall prompt_ev evs ->
  legal_run A EXT evs (start_all A EXT garbage p ep m ss).
Proof. exact (fun A EXT garbage p ep m ss evs HA => prompt_legal A EXT HA garbage p ep m ss evs). Qed.

(** two steppers on direction pin 5 *)
Definition two : list stepper := [st_dir 5 true 0 (s_init arch_avr 0 9); st_dir 5 true 0 (s_init arch_avr 0 10)].
Definition duo (evs : list eevent) : list (stepper * hq) :=
  erun arch_avr false evs (start_all arch_avr false no_entry (fun _ => true) low 320 two).
Definition logs (l : list (stepper * hq)) : list (list (bool * bool)) := map (fun x => h_log (hq_h (snd x))) l.
Definition codes (l : list (stepper * hq)) : list nat := map (fun x => length (accepted_cmds x)) l.
Definition add (start : bool) (c : command) : fevent := FAdd None false c start [].
Example C43_example :
  let evs := [EvDo 0 (add true down2); EvDo 1 (add true up2); EvDo 0 (FIsr [EPop; EStop]);
              EvDo 1 (add true up2); EvDo 1 (FIsr [EPop; EStop])] in
  Forall prompt_ev evs /\ codes (duo (firstn 2 evs)) = [1; 0]%nat /\ codes (duo evs) = [1; 1]%nat
  /\ logs (duo evs) = [[(false, false)]; [(true, true)]].
Proof. cbv zeta. splits; try reflexivity. repeat constructor. Qed.
(** isDirPinBusy() does not see queued commands: stepper 0 is prepared to move down, then stepper
    1 to move up; then stepper 0 is started *)
Theorem C43_waiting_refuted : exists evs,
  Forall (fun ev => match ev with EvDo _ _ => True | EvOld _ _ => False end) evs
  /\ logs (duo evs) = [[(true, false)]; []].
Proof.
  exists [EvDo 0 (add false down2); EvDo 1 (add false up2); EvDo 0 (FNull true []); EvDo 0 (FIsr [EPop])].
  split; [repeat constructor|vm_compute; reflexivity].
Qed.
(** Race: stepper 1 has read isDirPinBusy() = false, then stepper 0 is started by another task,
    then stepper 1 switches the pin *)
Theorem C43_race_refuted : exists e1 e2 e3 e4,
  isDirPinBusy 5 1 (duo []) = false
  /\ logs (duo [EvDo 0 e1; EvOld 1 (FAdd None false e2 e3 e4); EvDo 0 (FIsr [EPop])]) = [[(true, false)]; []].
Proof. exists (add true down2), up2, true, []. vm_compute. split; reflexivity. Qed.

(** ** C49: outputs are disabled after the configured number of passes

    Stepper [i] is idle and does not share its enable pins; its counter is [s_cnt s]. Between
    the passes anything may happen to the other steppers. *)
Theorem C49_disable_delay : forall ext i s q l z,
  s_isRunning s q = false -> distinct_pins s -> responsive s ext -> shares s s ->
  Forall (fun f => forall z, quiet_for i s z (f z)) l ->
  at_slot (fst z) i s q -> alone (fst z) i s -> 1 <= s_cnt s ->
  (Z.of_nat (length l) < s_cnt s -> forall w, en_pin s w -> snd (passes ext l z) w = snd z w)
  /\ (Z.of_nat (length l) = s_cnt s -> outputs_off s (snd (passes ext l z))).
Proof.
  exact (fun ext i s q l z H1 H2 H3 H4 => passes_idle ext i s q H1 H2 H3 H4 l z).
Qed.
Example C49_example :
  let l := [a_axis 6 7 3 q0; a_axis 8 255 1 q0] in let z := (l, upd (upd low 6 false) 7 true) in
  let idf : list (option axis) * pins -> list (option axis) * pins := fun z => z in
  snd (passes None [idf; idf] z) 6 = false /\ snd (passes None [idf; idf] z) 7 = true
  /\ snd (passes None [idf; idf; idf] z) 6 = true /\ snd (passes None [idf; idf; idf] z) 7 = false.
Proof. vm_compute. repeat split. Qed.

(** ** C50: the outputs of a stepper without auto enable are left alone *)
Theorem C50_manual_partial : forall ext z i s q, at_slot (fst z) i s q -> alone (fst z) i s ->
  s_cnt s = 0 -> forall w, en_pin s w -> snd (auto_pass ext z) w = snd z w.
Proof. exact pass_manual. Qed.
(** stepper 0 without auto enable has been enabled by enableOutputs(); stepper 1 with auto enable
    uses the same pin 6. The pass switches off pin 6 and also pin 7, which only stepper 0 has. *)
Theorem C50_shared_refuted : exists s0 q p0 o1,
  s_auto s0 = false /\ s_low s0 = 6 /\ s_high s0 = 7
  /\ let p := fst (enableOutputs None s0 p0) in
     p 6 = false /\ p 7 = true
     /\ let p' := snd (auto_pass None ([Some (s0, q); o1], p)) in p' 6 = true /\ p' 7 = false.
Proof.
  exists (st_enpins 6 7 (s_init arch_pc 0 9)), q0, low, (a_axis 6 255 1 q0). vm_compute. repeat split.
Qed.

Print Assumptions C41_running_partial.
Print Assumptions C41_one_pin.
Print Assumptions C41_frame.
Print Assumptions C41_chain_refuted.
Print Assumptions C41_race_refuted.
Print Assumptions C42_connect.
Print Assumptions C42_distinct.
Print Assumptions C42_count.
Print Assumptions C42_channel.
Print Assumptions C68_limit.
Print Assumptions C68_others.
Print Assumptions C43_refused.
Print Assumptions C43_direction_partial.
Print Assumptions C43_exclusive_partial.
Print Assumptions C43_prompt.
Print Assumptions C43_waiting_refuted.
Print Assumptions C43_race_refuted.
Print Assumptions C49_disable_delay.
Print Assumptions C50_manual_partial.
Print Assumptions C50_shared_refuted.
