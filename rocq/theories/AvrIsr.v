(** * AvrIsr: the AVR interrupt driver

    src/StepperISR_avr.cpp. The timer is abstracted to absolute time in ticks: a compare
    event with the enabled interrupt happens at [v_next], raises the step pin if the
    output mode is "one", and runs the interrupt routine without delay. (OCR += ticks is
    16 bit; as 0 < ticks < 65536 the next match is exactly [ticks] later.) *)
From Coq Require Import ZArith Znumtheory Bool List Lia ZifyBool.
From Verif Require Import Base Queue QueueFacts QueuePos QueueHist QueueProp.
Import ListNotations.
Open Scope Z_scope.
Ltac Zify.zify_post_hook ::= idtac.

Notation A := arch_avr.
Ltac splits := repeat match goal with |- _ /\ _ => split end.
(** a step pulse: time and level of the direction pin, if the queue drives one *)
Definition pulse : Type := Z * option bool.

Record avr := mkAvr {
  v_q : queue;
  v_pins : pins;
  v_pc : pc;          (* where the (single) producer is inside addQueueEntry *)
  v_one : bool;       (* output mode: set the pin on the next compare event *)
  v_irq : bool;       (* compare interrupt enabled *)
  v_next : Z;         (* time of the next compare event *)
  v_nomore : bool     (* _noMoreCommands *)
}.

Definition level (v : avr) : option bool :=
  if has_pin (v_q v) then Some (v_pins v (q_pin (v_q v))) else None.

(** Compare event and AVR_STEPPER_ISR: src/StepperISR_avr.cpp:146-205 *)
Definition avr_isr (v : avr) : avr * list pulse :=
  let out := if v_one v then [(v_next v, level v)] else [] in
  let q := v_q v in
  if q_rd q =? q_wr q then
    (mkAvr (set_running false q) (v_pins v) (v_pc v) false false (v_next v) false, out)
  else
    let e := head A q in
    if e_steps e >? 1 then
      (mkAvr (q_dec A 1 q) (v_pins v) (v_pc v) true (v_irq v) (v_next v + e_ticks e) (v_nomore v), out)
    else if v_nomore v then
      (mkAvr q (toggled e q (v_pins v)) (v_pc v) (negb (e_steps e =? 0)) (v_irq v)
         (v_next v + (if e_steps e =? 0 then e_ticks e else 10)) false, out)
    else if e_repeat e then
      (mkAvr q (toggled e q (v_pins v)) (v_pc v) (negb (e_steps e =? 0)) (v_irq v)
         (v_next v + e_ticks e) false, out)
    else
      let q1 := q_pop q in
      if q_rd q1 =? q_wr q1 then
        (mkAvr q1 (v_pins v) (v_pc v) false (v_irq v) (v_next v + e_ticks e) true, out)
      else
        let e1 := head A q1 in
        (mkAvr q1 (toggled e1 q1 (v_pins v)) (v_pc v) (negb (e_steps e1 =? 0)) (v_irq v)
           (v_next v + e_ticks e) false, out).

(** startQueue() at time [now]: src/StepperISR_avr.cpp:239-285. It takes the entry at the
    read index also if the queue is empty. *)
Definition avr_start (now : Z) (v : avr) : avr :=
  let e := head A (v_q v) in
  mkAvr (set_running true (v_q v)) (toggled e (v_q v) (v_pins v)) Free (negb (e_steps e =? 0)) true
    (now + 10) (v_nomore v).
(** forceStop(): src/StepperISR_avr.cpp:287-314; _noMoreCommands is not changed *)
Definition avr_forceStop (v : avr) : avr :=
  mkAvr (q_clear (v_q v)) (v_pins v) (v_pc v) false false (v_next v) (v_nomore v).

(** The events: the pieces of addQueueEntry (see QueueHist), the compare event *)
Inductive vevent :=
| VBegin (c : command) (start : bool)
| VCommit
| VStart (now : Z)
| VNull (start : bool) (now : Z)
| VIsr.
Section WithExt.
Variable EXT : bool.
Definition vstep (ev : vevent) (v : avr) : avr * list pulse :=
  let q := v_q v in
  match ev with
  | VBegin c start =>
    match v_pc v with
    | Free =>
      if add_check A true c q =? AQE_OK
      then (mkAvr (fst (add_prepare A EXT c q (v_pins v))) (snd (add_prepare A EXT c q (v_pins v)))
              (Prepared c (next_end c q) start) (v_one v) (v_irq v) (v_next v) (v_nomore v), [])
      else (v, [])
    | _ => (v, [])
    end
  | VCommit =>
    match v_pc v with
    | Prepared c ne start =>
      (mkAvr (fst (add_commit true ne q)) (v_pins v) (Committed start) (v_one v) (v_irq v) (v_next v)
         (v_nomore v), [])
    | _ => (v, [])
    end
  | VStart now =>
    match v_pc v with
    | Committed start =>
      if add_starts start q then (avr_start now v, [])
      else (mkAvr q (v_pins v) Free (v_one v) (v_irq v) (v_next v) (v_nomore v), [])
    | _ => (v, [])
    end
  | VNull start now =>
    match v_pc v with
    | Free => if a_started (q_add_null true start q (v_pins v)) then (avr_start now v, []) else (v, [])
    | _ => (v, [])
    end
  | VIsr => if v_irq v then avr_isr v else (v, [])
  end.
Fixpoint vrun (evs : list vevent) (v : avr) : avr * list pulse :=
  match evs with
  | [] => (v, [])
  | ev :: t => let r := vstep ev v in let r2 := vrun t (fst r) in (fst r2, snd r ++ snd r2)
  end.
(** the commands taken into the queue during the events *)
Fixpoint taken (evs : list vevent) (v : avr) : list command :=
  match evs with
  | [] => []
  | ev :: t =>
    (match ev, v_pc v with
     | VCommit, Prepared c _ _ => if q_ignore (v_q v) then [] else [c]
     | _, _ => []
     end) ++ taken t (fst (vstep ev v))
  end.
(** One session: commands are added only while the queue is not empty (and running), and
    the queue is not started again. *)
Fixpoint calm (evs : list vevent) (v : avr) : Prop :=
  match evs with
  | [] => True
  | ev :: t =>
    match ev with
    | VBegin c _ => cmd_ok c
    | VCommit => nonempty (v_q v) && q_running (v_q v) = true
    | VStart _ | VNull _ _ => q_running (v_q v) = true
    | VIsr => True
    end /\ calm t (fst (vstep ev v))
  end.
End WithExt.

(** ** Specification: the pulses of a list of commands that starts at time [t]. The
    pulses of one command are [c_ticks] apart, the next command starts one period after
    the last pulse, a pause lasts one period. *)
Fixpoint train (n : nat) (t p : Z) (dir : option bool) : list pulse :=
  match n with O => [] | S n' => (t, dir) :: train n' (t + p) p dir end.
Fixpoint pulses (t : Z) (dir : bool -> option bool) (cs : list command) : list pulse :=
  match cs with
  | [] => []
  | c :: cs' => train (Z.to_nat (c_steps c)) t (c_ticks c) (dir (c_up c))
                ++ pulses (t + c_ticks c * Z.max 1 (c_steps c)) dir cs'
  end.
Fixpoint end_time (t : Z) (cs : list command) : Z :=
  match cs with [] => t | c :: cs' => end_time (t + c_ticks c * Z.max 1 (c_steps c)) cs' end.
(** number of compare events *)
Fixpoint count (cs : list command) : nat :=
  match cs with [] => O | c :: cs' => (Nat.max 1 (Z.to_nat (c_steps c)) + count cs')%nat end.
(** the level for a direction *)
Definition dir_of (q : queue) (up : bool) : option bool :=
  if has_pin q then Some (Bool.eqb up (q_hcu q)) else None.
(** what is left of the pending commands *)
Definition rest (q : queue) : list command := map (cmd_of 0) (pend A q).

Lemma HA : In A all_archs.
Proof. right. left. reflexivity. Qed.

Lemma pulses_app dir : forall cs t cs2,
  pulses t dir (cs ++ cs2) = pulses t dir cs ++ pulses (end_time t cs) dir cs2.
Proof.
  induction cs as [|c cs IH]; intros t cs2; cbn [app pulses end_time]; [reflexivity|].
  now rewrite IH, app_assoc.
Qed.
Lemma end_time_app : forall cs t cs2, end_time t (cs ++ cs2) = end_time (end_time t cs) cs2.
Proof. induction cs as [|c cs IH]; intros t cs2; cbn [app end_time]; auto. Qed.

Lemma pulses_cmd dir t e l : pulses t dir (cmd_of 0 e :: l) =
  train (Z.to_nat (e_steps e)) t (e_ticks e) (dir (e_up e)) ++
  pulses (t + e_ticks e * Z.max 1 (e_steps e)) dir l.
Proof. reflexivity. Qed.
Lemma end_time_cmd t e l : end_time t (cmd_of 0 e :: l) = end_time (t + e_ticks e * Z.max 1 (e_steps e)) l.
Proof. reflexivity. Qed.

Lemma count_cmd e l : count (cmd_of 0 e :: l) = (Nat.max 1 (Z.to_nat (e_steps e)) + count l)%nat.
Proof. reflexivity. Qed.

(** ** Entries repeat only with an external direction pin *)
Section Repeat.
Variable EXT : bool.
Definition plain (q : queue) : Prop := EXT && is_external (q_pin q) = false.
Definition rep_inv (s : hst) : Prop := plain (h_q s) ->
  Forall (fun e => e_repeat e = false) (pend A (h_q s)) /\
  match h_pc s with
  | Prepared _ _ _ => e_repeat (q_ent (h_q s) (slot A (q_wr (h_q s)))) = false
  | _ => True
  end.
Lemma rep_start s : rep_inv s -> rep_inv (start_head A s).
Proof.
  intros H. unfold start_head. destruct (_ && _); [|exact H]. exact H.
Qed.
Lemma pend_dec s k : inv A s -> nonempty (h_q s) = true ->
  exists e t, pend A (h_q s) = e :: t /\ head A (h_q s) = e /\
    pend A (q_dec A k (h_q s)) =
    mkEntry (u8 (e_steps e - k)) (e_toggle e) (e_up e) (e_more e) (e_has e) (e_repeat e)
       (e_dirstate e) (e_ticks e) (e_pos16 e) :: t.
Proof.
  intros Hi Hn. apply nonempty_iff in Hn. pose proof (iv_wf A s Hi) as Hw.
  pose proof (pend_pop A HA _ Hw Hn) as Hp. rewrite Hp.
  eexists _, _. split; [reflexivity|]. split; [reflexivity|].
  exact (pend_set_head A HA _ _ Hw Hn).
Qed.
Lemma rep_step s ev : inv A s -> rep_inv s -> rep_inv (hstep A EXT ev s).
Proof.
  intros Hi H. unfold rep_inv in *. destruct ev; cbn [hstep].
  - destruct (h_pc s) eqn:Epc; [|rewrite Epc; auto|rewrite Epc; auto].
    destruct (Z.eqb_spec (add_check A ready c (h_q s)) AQE_OK) as [E|E]; cbn [h_q h_pc]; [|auto].
    apply check_ok in E. destruct E as (_ & Hnf & _).
    assert (Hlt : queueEntries (h_q s) < QUEUE_LEN A) by (destruct (iv_wf A s Hi) as (_ & _ & ?); lia).
    assert (Ep : pend A (fst (add_prepare A EXT c (h_q s) (h_pins s))) = pend A (h_q s)).
    { transitivity (pend A (set_ent (upd (q_ent (h_q s)) (slot A (q_wr (h_q s))) (new_entry A EXT c (h_q s))) (h_q s))).
      - unfold add_prepare. destruct (direct_dir (h_q s)); reflexivity.
      - apply pend_upd_free; [exact HA|apply (iv_wf A s Hi)|assumption]. }
    rewrite Ep. intros Hpl.
    assert (Hpl' : plain (h_q s)).
    { unfold plain, add_prepare in *. destruct (direct_dir (h_q s)); exact Hpl. }
    split; [apply H; assumption|].
    replace (q_ent (fst (add_prepare A EXT c (h_q s) (h_pins s)))
        (slot A (q_wr (fst (add_prepare A EXT c (h_q s) (h_pins s)))))) with (new_entry A EXT c (h_q s)).
    + unfold new_entry. cbn [e_repeat]. unfold to_repeat. unfold plain in Hpl'.
      destruct EXT; [|reflexivity]. cbn [andb] in *. rewrite Hpl'. apply andb_false_r.
    + unfold add_prepare. destruct (direct_dir (h_q s)); cbn [fst set_end set_ent q_ent q_wr]; unfold upd;
        now rewrite Z.eqb_refl.
  - pose proof (iv_prep A s Hi) as Hp.
    destruct (h_pc s) as [|c ne st|] eqn:Epc; [rewrite Epc; auto| |rewrite Epc; auto].
    cbn [h_q h_pc]. unfold add_commit. destruct (q_ignore (h_q s)); cbn [fst snd].
    + intros Hpl. split; [apply H; assumption|]. destruct (_ =? _); exact I.
    + destruct ready; cbn [fst snd].
      * intros Hpl. destruct (H Hpl) as [H1 H2].
        split; [|destruct (_ =? _); exact I].
        rewrite pend_commit; [|exact HA|apply (iv_wf A s Hi)|apply Hp].
        apply Forall_app. split; [assumption|]. constructor; [exact H2|constructor].
      * intros Hpl. split; [apply H; assumption|]. destruct (_ =? _); exact I.
  - destruct (h_pc s) eqn:Epc; rewrite ?Epc; auto. destruct (add_starts _ _).
    + apply rep_start. unfold rep_inv. cbn. intros Hpl. split; [apply H; exact Hpl|exact I].
    + cbn. intros Hpl. split; [apply H; exact Hpl|exact I].
  - destruct (_ && _); auto. apply rep_start. exact H.
  - destruct (nonempty (h_q s)) eqn:En; cbn [andb]; [|exact H].
    destruct (_ && _); auto. cbn [h_q h_pc].
    destruct (pend_dec s k Hi En) as (e & t & Hp & Hh & Ep). rewrite Ep.
    intros Hpl. destruct (H Hpl) as [H1 H2]. rewrite Hp in H1.
    split. { inversion H1; subst. constructor; assumption. }
    destruct (h_pc s) eqn:Epc; auto.
    change (q_wr (q_dec A k (h_q s))) with (q_wr (h_q s)).
    match goal with |- e_repeat (q_ent (q_dec A k ?q) _) = _ =>
      change (q_dec A k q) with (set_head A (mkEntry (u8 (e_steps (head A q) - k)) (e_toggle (head A q))
        (e_up (head A q)) (e_more (head A q)) (e_has (head A q)) (e_repeat (head A q))
        (e_dirstate (head A q)) (e_ticks (head A q)) (e_pos16 (head A q))) q) end.
    rewrite free_set_head; [exact H2|exact HA|apply (iv_wf A s Hi)|apply nonempty_iff; assumption|].
    pose proof (iv_prep A s Hi) as Hpr. rewrite Epc in Hpr. apply Hpr.
  - destruct (nonempty (h_q s)) eqn:En; cbn [andb]; [|exact H].
    destruct (_ && _); auto. apply rep_start. unfold rep_inv. cbn [h_q h_pc].
    intros Hpl. destruct (H Hpl) as [H1 H2]. split; [|exact H2].
    rewrite (pend_pop A HA) in H1; [|apply (iv_wf A s Hi)|apply nonempty_iff; assumption].
    now inversion H1.
  - destruct (_ && _); auto. apply rep_start. exact H.
  - destruct (_ && _); auto.
  - destruct (is_free (h_pc s)); auto. cbn [h_q h_pc]. intros Hpl.
    destruct (wf_clear A HA (h_q s) (iv_wf A s Hi)) as [_ ->]. split; [constructor|exact I].
  - cbn. exact H.
  - destruct (idle_q s) eqn:Ei; auto. cbn [h_q h_pc]. intros _.
    unfold idle_q in Ei. apply andb_true_iff in Ei. destruct Ei as [Ei Ef].
    apply andb_true_iff in Ei. destruct Ei as [En _]. apply negb_true_iff in En.
    apply (nonempty_false A) in En. change (pend A (set_dir pin hcu (h_q s))) with (pend A (h_q s)).
    rewrite En. split; [constructor|]. destruct (h_pc s); [exact I|discriminate|exact I].
  - destruct (is_free (h_pc s)); auto.
  - destruct (idle_q s); auto.
Qed.
Lemma rep_run : forall evs s, inv A s -> Forall ev_ok evs -> rep_inv s -> rep_inv (hrun A EXT evs s).
Proof.
  induction evs as [|ev evs IH]; intros s Hi Ho H; cbn [hrun]; [assumption|].
  inversion Ho; subst. apply IH; auto. { apply inv_step; auto. apply HA. } apply rep_step; auto.
Qed.
Lemma rep_init garbage p test : rep_inv (hinit A garbage p test).
Proof. intros _. split; [constructor|exact I]. Qed.

(** ** The machine follows the queue history *)
(** running with a current entry, or waiting for the end of the last one, or stopped *)
Inductive mode := MRun | MDrain | MIdle.
Definition in_mode (m : mode) (v : avr) (h : hst) : Prop :=
  h_q h = v_q v /\ h_pins h = v_pins v /\ h_pc h = v_pc v /\ inv A h /\ rep_inv h /\ plain (h_q h) /\
  match m with
  | MRun => v_irq v = true /\ q_running (v_q v) = true /\ v_nomore v = false /\
            nonempty (v_q v) = true /\ h_started h = true /\
            v_one v = negb (e_steps (head A (v_q v)) =? 0)
  | MDrain => v_irq v = true /\ q_running (v_q v) = true /\ v_nomore v = true /\
            nonempty (v_q v) = false /\ v_one v = false
  | MIdle => v_irq v = false /\ q_running (v_q v) = false /\ v_nomore v = false /\ v_one v = false /\
            h_started h = false
  end.
Lemma run_level v h : in_mode MRun v h -> level v = dir_of (v_q v) (e_up (head A (v_q v))).
Proof.
  intros (Hq & Hpi & Hpc & Hi & Hr & Hpl & H1 & H2 & H3 & H4 & H5 & H6).
  unfold level, dir_of. destruct (has_pin (v_q v)) eqn:Ehp; [|reflexivity]. f_equal.
  pose proof (iv_sync A h Hi) as Hs. rewrite Hq in Hs.
  specialize (Hs Ehp (or_introl H4)). unfold synced in Hs. rewrite Hq, Hpi, H5 in Hs.
  pose proof (pend_pop A HA (v_q v)) as Hp. rewrite Hp in Hs.
  - apply Hs.
  - rewrite <- Hq. apply (iv_wf A h Hi).
  - now apply nonempty_iff.
Qed.
Lemma hd_in v h : in_mode MRun v h ->
  exists t, pend A (v_q v) = head A (v_q v) :: t /\ t = pend A (q_pop (v_q v)) /\
    e_repeat (head A (v_q v)) = false /\ ent_ok (head A (v_q v)).
Proof.
  intros (Hq & Hpi & Hpc & Hi & Hr & Hpl & H1 & H2 & H3 & H4 & H5 & H6).
  assert (Hp : pend A (v_q v) = head A (v_q v) :: pend A (q_pop (v_q v))).
  { apply pend_pop; [exact HA|rewrite <- Hq; apply (iv_wf A h Hi)|now apply nonempty_iff]. }
  eexists. split; [exact Hp|]. split; [reflexivity|].
  destruct (Hr Hpl) as [Hf _]. rewrite Hq, Hp in Hf. split; [now inversion Hf|].
  pose proof (iv_ent A h Hi) as He. rewrite Hq, Hp in He. now inversion He.
Qed.

(** one interrupt in [MRun] *)
Lemma isr_run_ev v h : in_mode MRun v h ->
  let v' := fst (avr_isr v) in
  exists m ev, (ev = EDec 1 \/ ev = EPop) /\ in_mode m v' (hstep A EXT ev h) /\
    (m = MRun \/ (m = MDrain /\ rest (v_q v') = [])) /\
    snd (avr_isr v) ++ pulses (v_next v') (dir_of (v_q v)) (rest (v_q v')) =
      pulses (v_next v) (dir_of (v_q v)) (rest (v_q v)) /\
    end_time (v_next v') (rest (v_q v')) = end_time (v_next v) (rest (v_q v)) /\
    S (count (rest (v_q v'))) = count (rest (v_q v)) /\
    q_hcu (v_q v') = q_hcu (v_q v) /\ q_pin (v_q v') = q_pin (v_q v).
Proof.
  intros Hm. pose proof (run_level v h Hm) as Hlv. destruct (hd_in v h Hm) as (t & Hp & Ht & Hrep & He).
  destruct Hm as (Hq & Hpi & Hpc & Hi & Hr & Hpl & H1 & H2 & H3 & H4 & H5 & H6).
  cbn zeta. unfold avr_isr.
  assert (Hne : (q_rd (v_q v) =? q_wr (v_q v)) = false).
  { apply Z.eqb_neq. intros K. apply (empty_iff A) in K.
    - apply nonempty_iff in H4. contradiction.
    - rewrite <- Hq. apply (iv_wf A h Hi). }
  rewrite Hne, H6, Hlv. destruct He as [Het Hes].
  set (e := head A (v_q v)) in *.
  destruct (Z.gtb_spec (e_steps e) 1) as [Hs|Hs].
  - (* another step *)
    cbn [fst snd v_q v_next]. exists MRun, (EDec 1). split; [now left|].
    assert (En : nonempty (h_q h) = true) by now rewrite Hq.
    assert (Eh : hstep A EXT (EDec 1) h =
      mkH (q_dec A 1 (h_q h)) (h_pins h) (h_pc h) (h_done h + 1) (h_base h) (h_started h) (h_clean h)
           (h_acc h) (h_left h) (h_res h) (h_log h ++ log_line A (h_q h) h)).
    { cbn [hstep]. rewrite En, H5. rewrite Hq at 1 2. fold e. rewrite H2.
      destruct (Z.leb_spec 1 (e_steps e)); [|lia]. reflexivity. }
    assert (I' : inv A (hstep A EXT (EDec 1) h)) by (apply inv_step; [exact HA|exact Hi|exact I]).
    pose proof (rep_step h (EDec 1) Hi Hr) as R'.
    destruct (pend_dec h 1 Hi En) as (e' & t' & Hp' & Hh' & Hd').
    rewrite Hq in Hp', Hh', Hd'. fold e in Hh'. subst e'.
    assert (Et : t' = t) by congruence. subst t'.
    assert (U : u8 (e_steps e - 1) = e_steps e - 1) by (unfold u8; apply Z.mod_small; lia).
    rewrite U in Hd'.
    split.
    + rewrite Eh in *. unfold in_mode. cbn [h_q h_pins h_pc v_q v_pins v_pc v_irq v_nomore v_one].
      split; [now rewrite Hq|]. split; [assumption|]. split; [assumption|].
      split; [exact I'|]. split; [exact R'|].
      split. { unfold plain in *. exact Hpl. }
      split; [assumption|]. split; [exact H2|]. split; [assumption|]. split; [exact H4|].
      split; [assumption|].
      pose proof (head_ent A HA (q_dec A 1 (v_q v))) as Hhe.
      assert (Hw' : wf A (q_dec A 1 (v_q v))). { rewrite <- Hq. apply (iv_wf A _ I'). }
      pose proof (pend_pop A HA _ Hw') as Hpp. rewrite Hd' in Hpp.
      assert (K : queueEntries (q_dec A 1 (v_q v)) <> 0).
      { apply nonempty_iff in H4. exact H4. }
      specialize (Hpp K).
      pose proof (f_equal (fun l => match l with x :: _ => e_steps x | [] => 0 end) Hpp) as Hh2.
      cbn beta iota in Hh2. rewrite <- Hh2. cbn [e_steps].
      destruct (Z.eqb_spec (e_steps e - 1) 0); [lia|reflexivity].
    + split; [now left|]. unfold rest. rewrite Hd', Hp. cbn [map]. rewrite !pulses_cmd, !end_time_cmd, !count_cmd.
      cbn [e_steps e_ticks e_up].
      destruct (Z.eqb_spec (e_steps e) 0) as [?|_]; [lia|]. cbn [negb].
      replace (v_next v + e_ticks e + e_ticks e * Z.max 1 (e_steps e - 1))
        with (v_next v + e_ticks e * Z.max 1 (e_steps e)) by (rewrite !Z.max_r by lia; lia).
      replace (Z.to_nat (e_steps e)) with (S (Z.to_nat (e_steps e - 1))) by lia.
      cbn [train]. repeat split; try reflexivity. lia.
  - (* next entry *)
    rewrite H3, Hrep.
    assert (En : nonempty (h_q h) = true) by now rewrite Hq.
    assert (Eh : hstep A EXT EPop h = start_head A (mkH (q_pop (h_q h)) (h_pins h) (h_pc h) 0
           (h_base h + sdelta (cmd_of (h_done h) (head A (h_q h)))) false
           (h_clean h || (queueEntries (h_q h) =? 1))
           (h_acc h) (h_left h ++ [cmd_of (h_done h) (head A (h_q h))]) (h_res h)
           (if e_steps (head A (h_q h)) >? 0 then h_log h ++ log_line A (h_q h) h else h_log h))).
    { cbn [hstep]. rewrite En, H5. rewrite Hq at 1. rewrite H2. reflexivity. }
    assert (I' : inv A (hstep A EXT EPop h)) by (apply inv_step; [exact HA|exact Hi|exact I]).
    pose proof (rep_step h EPop Hi Hr) as R'.
    assert (Hw1 : wf A (q_pop (v_q v))).
    { apply wf_pop; [rewrite <- Hq; apply (iv_wf A h Hi)|now apply nonempty_iff]. }
    assert (Eout : (if negb (e_steps e =? 0) then [(v_next v, dir_of (v_q v) (e_up e))] else []) =
                   train (Z.to_nat (e_steps e)) (v_next v) (e_ticks e) (dir_of (v_q v) (e_up e))).
    { assert (e_steps e = 0 \/ e_steps e = 1) as [->| ->] by lia; reflexivity. }
    rewrite Eout.
    assert (Erest : rest (v_q v) = cmd_of 0 e :: rest (q_pop (v_q v))).
    { unfold rest. rewrite Hp, Ht. reflexivity. }
    assert (Emax : e_ticks e * Z.max 1 (e_steps e) = e_ticks e) by (rewrite Z.max_l by lia; lia).
    assert (Ecnt : Nat.max 1 (Z.to_nat (e_steps e)) = 1%nat) by lia.
    destruct (Z.eqb_spec (q_rd (q_pop (v_q v))) (q_wr (q_pop (v_q v)))) as [Ee|Ee].
    + (* that was the last one *)
      apply (empty_iff A _ Hw1) in Ee. pose proof Ee as Ep0. apply (pend_nil A) in Ep0.
      cbn [fst snd v_q v_next]. exists MDrain, EPop. split; [now right|].
      split.
      * rewrite Eh in *. unfold start_head in *. rewrite Hq in *.
        assert (Ez : nonempty (q_pop (v_q v)) = false) by (apply (nonempty_false A); exact Ep0).
        cbn [h_q] in *. rewrite Ez in *. cbn [andb] in *.
        unfold in_mode. cbn [h_q h_pins h_pc v_q v_pins v_pc v_irq v_nomore v_one].
        split; [reflexivity|]. split; [assumption|]. split; [assumption|].
        split; [exact I'|]. split; [exact R'|]. split; [exact Hpl|].
        split; [assumption|]. split; [exact H2|]. split; [reflexivity|]. split; [exact Ez|reflexivity].
      * split. { right. split; [reflexivity|]. unfold rest. now rewrite Ep0. }
        rewrite Erest. unfold rest. rewrite Ep0. cbn [map]. rewrite pulses_cmd, end_time_cmd, count_cmd, Emax, Ecnt.
        repeat split; reflexivity.
    + (* the next one starts *)
      assert (Hn1 : queueEntries (q_pop (v_q v)) <> 0).
      { intros K. apply (empty_iff A _ Hw1) in K. contradiction. }
      cbn [fst snd v_q v_next]. exists MRun, EPop. split; [now right|].
      split.
      * rewrite Eh in *. unfold start_head in *. rewrite Hq in *.
        assert (Ez : nonempty (q_pop (v_q v)) = true) by (apply nonempty_iff; exact Hn1).
        cbn [h_q h_started] in *. rewrite Ez in *. cbn [andb negb] in *.
        unfold in_mode. cbn [h_q h_pins h_pc h_started v_q v_pins v_pc v_irq v_nomore v_one] in *.
        split; [reflexivity|]. split; [now rewrite Hpi|]. split; [assumption|].
        split; [exact I'|]. split; [exact R'|]. split; [exact Hpl|].
        split; [assumption|]. split; [exact H2|]. split; [reflexivity|]. split; [exact Ez|].
        split; reflexivity.
      * split; [now left|].
        rewrite Erest, pulses_cmd, end_time_cmd, count_cmd, Emax, Ecnt.
        repeat split; reflexivity.
Qed.
Lemma isr_run v h : in_mode MRun v h ->
  let v' := fst (avr_isr v) in
  exists m h', in_mode m v' h' /\
    (m = MRun \/ (m = MDrain /\ rest (v_q v') = [])) /\
    snd (avr_isr v) ++ pulses (v_next v') (dir_of (v_q v)) (rest (v_q v')) =
      pulses (v_next v) (dir_of (v_q v)) (rest (v_q v)) /\
    end_time (v_next v') (rest (v_q v')) = end_time (v_next v) (rest (v_q v)) /\
    S (count (rest (v_q v'))) = count (rest (v_q v)) /\
    q_hcu (v_q v') = q_hcu (v_q v) /\ q_pin (v_q v') = q_pin (v_q v).
Proof.
  intros Hm. destruct (isr_run_ev v h Hm) as (m & ev & _ & H). exists m, (hstep A EXT ev h). exact H.
Qed.

(** the other events *)
Lemma head_pend q e t : wf A q -> pend A q = e :: t -> head A q = e /\ nonempty q = true.
Proof.
  intros Hw Hp. assert (Hn : queueEntries q <> 0) by (intros K; apply (pend_nil A) in K; congruence).
  rewrite (pend_pop A HA q Hw Hn) in Hp. split; [congruence|]. now apply nonempty_iff.
Qed.
Lemma hstep_inv h ev : inv A h -> rep_inv h -> ev_ok ev -> inv A (hstep A EXT ev h) /\ rep_inv (hstep A EXT ev h).
Proof. intros Hi Hr Hok. split; [apply inv_step; auto; apply HA|apply rep_step; auto]. Qed.

Lemma begin_mode m v h c start : in_mode m v h -> cmd_ok c ->
  let v' := fst (vstep EXT (VBegin c start) v) in
  snd (vstep EXT (VBegin c start) v) = [] /\
  exists h', in_mode m v' h' /\ pend A (v_q v') = pend A (v_q v) /\ v_next v' = v_next v /\
    q_hcu (v_q v') = q_hcu (v_q v) /\ q_pin (v_q v') = q_pin (v_q v).
Proof.
  intros Hm Hc. cbn zeta. cbn [vstep].
  destruct (v_pc v) eqn:Epc; [|cbn [fst snd]; split; [reflexivity|]; exists h; auto|cbn [fst snd]; split; [reflexivity|]; exists h; auto].
  destruct (Z.eqb_spec (add_check A true c (v_q v)) AQE_OK) as [E|E];
    [|cbn [fst snd]; split; [reflexivity|]; exists h; auto].
  cbn [fst snd]. split; [reflexivity|].
  destruct Hm as (Hq & Hpi & Hpc & Hi & Hr & Hpl & Hm).
  destruct (hstep_inv h (EBegin c start true) Hi Hr Hc) as [I' R'].
  exists (hstep A EXT (EBegin c start true) h). cbn [v_q v_next].
  pose proof E as E0. apply check_ok in E0. destruct E0 as (_ & Hnf & _).
  assert (Hlt : queueEntries (v_q v) < QUEUE_LEN A).
  { rewrite <- Hq in *. destruct (iv_wf A h Hi) as (_ & _ & ?); lia. }
  assert (Ep : pend A (fst (add_prepare A EXT c (v_q v) (v_pins v))) = pend A (v_q v)).
  { transitivity (pend A (set_ent (upd (q_ent (v_q v)) (slot A (q_wr (v_q v))) (new_entry A EXT c (v_q v))) (v_q v))).
    - unfold add_prepare. destruct (direct_dir (v_q v)); reflexivity.
    - apply pend_upd_free; [exact HA|rewrite <- Hq; apply (iv_wf A h Hi)|assumption]. }
  assert (Eh : hstep A EXT (EBegin c start true) h =
    mkH (fst (add_prepare A EXT c (v_q v) (v_pins v))) (snd (add_prepare A EXT c (v_q v) (v_pins v)))
             (Prepared c (next_end c (v_q v)) start) (h_done h) (h_base h) (h_started h) (h_clean h)
             (h_acc h) (h_left h) (h_res h) (h_log h)).
  { cbn [hstep]. rewrite Hpc, Epc, Hq, Hpi, E. reflexivity. }
  assert (Eset : exists qe, fst (add_prepare A EXT c (v_q v) (v_pins v)) =
     set_end qe (set_ent (upd (q_ent (v_q v)) (slot A (q_wr (v_q v))) (new_entry A EXT c (v_q v))) (v_q v))).
  { unfold add_prepare. destruct (direct_dir (v_q v)); eexists; [reflexivity|].
    cbn [fst]. instantiate (1 := q_end (v_q v)). destruct (v_q v); reflexivity. }
  destruct Eset as [qe Eset].
  rewrite Eh in *. split.
  - unfold in_mode. cbn [h_q h_pins h_pc h_started v_q v_pins v_pc v_irq v_nomore v_one].
    split; [reflexivity|]. split; [reflexivity|]. split; [reflexivity|]. split; [exact I'|].
    split; [exact R'|].
    split. { unfold plain in *. rewrite Hq in Hpl. rewrite Eset. exact Hpl. }
    assert (Erun : q_running (fst (add_prepare A EXT c (v_q v) (v_pins v))) = q_running (v_q v)) by now rewrite Eset.
    assert (Ene : nonempty (fst (add_prepare A EXT c (v_q v) (v_pins v))) = nonempty (v_q v)) by now rewrite Eset.
    rewrite Erun. destruct m.
    + destruct Hm as (M1 & M2 & M3 & M4 & M5 & M6). rewrite Ene. splits; auto. rewrite M6.
      pose proof (pend_pop A HA (v_q v)) as Hpp.
      rewrite Hpp in Ep; [|rewrite <- Hq; apply (iv_wf A h Hi)|now apply nonempty_iff].
      destruct (head_pend _ _ _ (iv_wf A _ I') Ep) as [Hh _]. cbn [h_q] in Hh. now rewrite Hh.
    + destruct Hm as (M1 & M2 & M3 & M4 & M5). rewrite Ene. splits; auto.
    + assumption.
  - rewrite Ep, Eset. splits; reflexivity.
Qed.
Lemma commit_mode v h : in_mode MRun v h ->
  let v' := fst (vstep EXT VCommit v) in
  snd (vstep EXT VCommit v) = [] /\
  exists h', in_mode MRun v' h' /\ rest (v_q v') = rest (v_q v) ++ taken EXT [VCommit] v /\
    v_next v' = v_next v /\ q_hcu (v_q v') = q_hcu (v_q v) /\ q_pin (v_q v') = q_pin (v_q v).
Proof.
  intros Hm. cbn zeta. cbn [vstep taken]. rewrite app_nil_r.
  destruct (v_pc v) as [|c ne st|] eqn:Epc; cbn [fst snd];
    [split; [reflexivity|]; exists h; rewrite app_nil_r; auto| |split; [reflexivity|]; exists h; rewrite app_nil_r; auto].
  split; [reflexivity|].
  destruct Hm as (Hq & Hpi & Hpc & Hi & Hr & Hpl & M1 & M2 & M3 & M4 & M5 & M6).
  destruct (hstep_inv h (ECommit true) Hi Hr I) as [I' R'].
  exists (hstep A EXT (ECommit true) h).
  pose proof (iv_prep A h Hi) as Hp. rewrite Hpc, Epc, Hq in Hp.
  destruct Hp as (Hc & Hlt & Hne & He). cbn zeta in He. destruct He as (He1 & He2 & He3 & _).
  assert (Hw : wf A (v_q v)) by (rewrite <- Hq; apply (iv_wf A h Hi)).
  cbn [hstep] in *. rewrite Hpc, Epc, Hq in *. unfold add_commit in *.
  pose proof (pend_pop A HA (v_q v) Hw (proj1 (nonempty_iff _) M4)) as Hpp.
  destruct (q_ignore (v_q v)) eqn:Eig; cbn [fst snd v_q v_next] in *.
  - change (AQE_OK =? AQE_OK) with true in *. cbn [v_q].
    split.
    + unfold in_mode. cbn [h_q h_pins h_pc h_started v_q v_pins v_pc v_irq v_nomore v_one]. splits; auto.
    + rewrite app_nil_r. auto.
  - change (AQE_OK =? AQE_OK) with true in *.
    assert (Ep : pend A (set_end ne (set_wr (u8 (q_wr (v_q v) + 1)) (v_q v))) =
                 pend A (v_q v) ++ [q_ent (v_q v) (slot A (q_wr (v_q v)))]).
    { apply pend_commit; auto. apply HA. }
    pose proof Ep as Ep2. rewrite Hpp in Ep2. cbn [app] in Ep2.
    destruct (head_pend _ _ _ (iv_wf A _ I') Ep2) as [Hh Hne2]. cbn [h_q] in Hh, Hne2.
    split.
    + unfold in_mode. cbn [h_q h_pins h_pc h_started v_q v_pins v_pc v_irq v_nomore v_one].
      splits; auto; now rewrite Hh.
    + unfold rest. rewrite Ep, map_app. cbn [map]. split; [|splits; reflexivity].
      f_equal. unfold cmd_of. rewrite He1, He2, He3. destruct c; reflexivity.
Qed.
Lemma nostart_mode m v h now : in_mode m v h -> q_running (v_q v) = true ->
  let v' := fst (vstep EXT (VStart now) v) in
  snd (vstep EXT (VStart now) v) = [] /\
  exists h', in_mode m v' h' /\ v_q v' = v_q v /\ v_next v' = v_next v.
Proof.
  intros Hm Hrun. cbn zeta. cbn [vstep].
  destruct (v_pc v) as [|c ne st|st] eqn:Epc; cbn [fst snd];
    [split; [reflexivity|]; exists h; auto|split; [reflexivity|]; exists h; auto|].
  unfold add_starts. rewrite Hrun. cbn [negb andb fst snd]. split; [reflexivity|].
  destruct Hm as (Hq & Hpi & Hpc & Hi & Hr & Hpl & Hm).
  destruct (hstep_inv h EStartQ Hi Hr I) as [I' R'].
  exists (hstep A EXT EStartQ h). cbn [hstep] in *. rewrite Hpc, Epc in *.
  unfold add_starts in *. rewrite Hq in *. rewrite Hrun in *. cbn [negb andb] in *.
  split; [|split; reflexivity].
  unfold in_mode. cbn [with_pc h_q h_pins h_pc h_started v_q v_pins v_pc v_irq v_nomore v_one] in *.
  splits; auto; [now rewrite Hq|]. now rewrite Hrun.
Qed.
Lemma null_mode v start now : q_running (v_q v) = true ->
  vstep EXT (VNull start now) v = (v, []).
Proof.
  intros Hrun. cbn [vstep]. destruct (v_pc v); auto. unfold q_add_null. cbn [negb].
  rewrite Hrun. cbn [negb]. rewrite andb_false_r. reflexivity.
Qed.
Lemma isr_drain_ev v h : in_mode MDrain v h ->
  snd (avr_isr v) = [] /\
  in_mode MIdle (fst (avr_isr v)) (hstep A EXT EStop h) /\ v_next (fst (avr_isr v)) = v_next v /\
    pend A (v_q (fst (avr_isr v))) = pend A (v_q v) /\
    q_hcu (v_q (fst (avr_isr v))) = q_hcu (v_q v) /\ q_pin (v_q (fst (avr_isr v))) = q_pin (v_q v).
Proof.
  intros (Hq & Hpi & Hpc & Hi & Hr & Hpl & M1 & M2 & M3 & M4 & M5).
  assert (Hw : wf A (v_q v)) by (rewrite <- Hq; apply (iv_wf A h Hi)).
  assert (E : (q_rd (v_q v) =? q_wr (v_q v)) = true).
  { apply Z.eqb_eq. apply (empty_iff A _ Hw). apply (pend_nil A). now apply (nonempty_false A). }
  unfold avr_isr. rewrite E, M5. cbn [fst snd]. split; [reflexivity|].
  destruct (hstep_inv h EStop Hi Hr I) as [I' R'].
  cbn [hstep] in *. rewrite Hq in *. rewrite M2, M4 in *. cbn [negb andb] in *.
  split; [|splits; reflexivity].
  unfold in_mode. cbn [with_q h_q h_pins h_pc h_started v_q v_pins v_pc v_irq v_nomore v_one] in *.
  splits; auto. apply (iv_started A h Hi). rewrite Hq. now apply (nonempty_false A).
Qed.
Lemma isr_drain v h : in_mode MDrain v h ->
  snd (avr_isr v) = [] /\
  exists h', in_mode MIdle (fst (avr_isr v)) h' /\ v_next (fst (avr_isr v)) = v_next v /\
    pend A (v_q (fst (avr_isr v))) = pend A (v_q v) /\
    q_hcu (v_q (fst (avr_isr v))) = q_hcu (v_q v) /\ q_pin (v_q (fst (avr_isr v))) = q_pin (v_q v).
Proof.
  intros Hm. destruct (isr_drain_ev v h Hm) as (H1 & H2). split; [exact H1|]. exists (hstep A EXT EStop h). exact H2.
Qed.

Lemma dir_of_ext q q' : q_hcu q' = q_hcu q -> q_pin q' = q_pin q -> dir_of q' = dir_of q.
Proof. intros H1 H2. unfold dir_of, has_pin. now rewrite H1, H2. Qed.

Lemma session : forall es m v h, in_mode m v h -> (m = MRun \/ rest (v_q v) = []) -> calm EXT es v ->
  let v' := fst (vrun EXT es v) in
  exists m' h', in_mode m' v' h' /\ (m' = MRun \/ rest (v_q v') = []) /\
    snd (vrun EXT es v) ++ pulses (v_next v') (dir_of (v_q v)) (rest (v_q v')) =
      pulses (v_next v) (dir_of (v_q v)) (rest (v_q v) ++ taken EXT es v) /\
    end_time (v_next v') (rest (v_q v')) = end_time (v_next v) (rest (v_q v) ++ taken EXT es v).
Proof.
  induction es as [|ev es IH]; intros m v h Hm Hrest Hc; cbn zeta; cbn [vrun taken fst snd].
  - exists m, h. rewrite app_nil_r. auto.
  - cbn [calm] in Hc. destruct Hc as [Hev Hc].
    (* one step *)
    assert (S1 : exists m1 h1, in_mode m1 (fst (vstep EXT ev v)) h1 /\
      (m1 = MRun \/ rest (v_q (fst (vstep EXT ev v))) = []) /\
      snd (vstep EXT ev v) ++ pulses (v_next (fst (vstep EXT ev v))) (dir_of (v_q v))
         (rest (v_q (fst (vstep EXT ev v)))) =
        pulses (v_next v) (dir_of (v_q v)) (rest (v_q v) ++ taken EXT [ev] v) /\
      end_time (v_next (fst (vstep EXT ev v))) (rest (v_q (fst (vstep EXT ev v)))) =
        end_time (v_next v) (rest (v_q v) ++ taken EXT [ev] v) /\
      q_hcu (v_q (fst (vstep EXT ev v))) = q_hcu (v_q v) /\ q_pin (v_q (fst (vstep EXT ev v))) = q_pin (v_q v)).
    { destruct ev; cbn [taken].
      - rewrite !app_nil_r. destruct (begin_mode m v h c start Hm Hev) as (E0 & h1 & K1 & K2 & K3 & K4 & K5).
        exists m, h1. unfold rest. rewrite E0, K2, K3. splits; auto.
      - apply andb_true_iff in Hev. destruct Hev as [Hne Hrun].
        assert (m = MRun).
        { destruct Hrest as [?|Hr0]; [assumption|]. unfold rest in Hr0. apply map_eq_nil in Hr0.
          exfalso. apply (nonempty_false A) in Hr0. congruence. }
        subst m. destruct (commit_mode v h Hm) as (E0 & h1 & K1 & K2 & K3 & K4 & K5).
        exists MRun, h1. cbn [taken] in K2. rewrite app_nil_r in *. rewrite E0, K2, K3. splits; auto.
      - rewrite !app_nil_r. destruct (nostart_mode m v h now Hm Hev) as (E0 & h1 & K1 & K2 & K3).
        exists m, h1. rewrite E0, K2, K3. splits; auto.
      - rewrite !app_nil_r. rewrite null_mode by assumption. exists m, h. cbn [fst snd]. splits; auto.
      - rewrite !app_nil_r. cbn [vstep]. destruct (v_irq v) eqn:Eirq.
        + destruct m.
          * destruct (isr_run v h Hm) as (m1 & h1 & K1 & K2 & K3 & K4 & _ & K5 & K6).
            exists m1, h1. splits; auto. tauto.
          * destruct Hrest as [?|Hr0]; [discriminate|].
            destruct (isr_drain v h Hm) as (E0 & h1 & K1 & K2 & K3 & K4 & K5).
            exists MIdle, h1. unfold rest in *. rewrite E0, K3, K2. splits; auto.
          * exfalso. destruct Hm as (_ & _ & _ & _ & _ & _ & M1 & _). congruence.
        + exists m, h. cbn [fst snd]. splits; auto. }
    destruct S1 as (m1 & h1 & K1 & K2 & K3 & K4 & K5 & K6).
    destruct (IH m1 _ h1 K1 K2 Hc) as (m2 & h2 & J1 & J2 & J3 & J4).
    rewrite (dir_of_ext _ _ K5 K6) in J3.
    exists m2, h2. split; [exact J1|]. split; [exact J2|].
    cbn [taken] in K3, K4. rewrite app_nil_r in K3, K4.
    split.
    + rewrite <- app_assoc, J3, pulses_app, K4.
      rewrite !app_assoc, K3, <- !app_assoc. rewrite <- pulses_app. now rewrite app_assoc.
    + rewrite J4, end_time_app, K4, <- end_time_app. now rewrite app_assoc.
Qed.

(** ** A stopped queue has no started entry *)
Definition stopped_inv (s : hst) : Prop := q_running (h_q s) = false -> h_started s = false.
Lemma sh_running s : h_q (start_head A s) = h_q s.
Proof. unfold start_head. destruct (_ && _); reflexivity. Qed.
Lemma stopped_step s ev : inv A s -> stopped_inv s -> stopped_inv (hstep A EXT ev s).
Proof.
  unfold stopped_inv. intros Hi H. destruct ev; cbn [hstep]; auto.
  - destruct (h_pc s); auto. destruct (_ =? _); auto. cbn [h_q h_started].
    unfold add_prepare. destruct (direct_dir (h_q s)); exact H.
  - destruct (h_pc s); auto. cbn [h_q h_started]. unfold add_commit.
    destruct (q_ignore (h_q s)); [exact H|]. destruct ready; exact H.
  - destruct (h_pc s); auto. destruct (add_starts _ _); [|exact H].
    rewrite sh_running. cbn. discriminate.
  - destruct (_ && _); auto. rewrite sh_running. cbn. discriminate.
  - destruct (_ && _); auto.
  - destruct (nonempty (h_q s)); cbn [andb]; auto. destruct (q_running (h_q s)) eqn:Er; cbn [andb]; [|now rewrite Er].
    destruct (h_started s); [|now rewrite Er]. rewrite sh_running. cbn [h_q q_pop set_rd q_running]. congruence.
  - destruct (nonempty (h_q s)); cbn [andb]; auto. destruct (q_running (h_q s)) eqn:Er; [|now rewrite Er].
    rewrite sh_running. congruence.
  - destruct (nonempty (h_q s)) eqn:En; cbn [andb negb]; auto. destruct (q_running (h_q s)) eqn:Er; [|now rewrite Er].
    intros _. cbn. apply (iv_started A s Hi). now apply (nonempty_false A).
  - destruct (is_free _); auto.
  - destruct (idle_q s); auto.
  - destruct (is_free _); auto.
  - destruct (idle_q s); auto.
Qed.
Lemma stopped_run : forall evs s, inv A s -> Forall ev_ok evs -> stopped_inv s -> stopped_inv (hrun A EXT evs s).
Proof.
  induction evs as [|ev evs IH]; intros s Hi Ho H; cbn [hrun]; [assumption|].
  inversion Ho; subst. apply IH; auto. { apply inv_step; auto. apply HA. } apply stopped_step; auto.
Qed.

(** ** Starting *)
Definition v_of (h : hst) : avr := mkAvr (h_q h) (h_pins h) (h_pc h) false false 0 false.
Lemma idle_of garbage p test evs : Forall ev_ok evs ->
  let h := hrun A EXT evs (hinit A garbage p test) in
  plain (h_q h) -> q_running (h_q h) = false -> in_mode MIdle (v_of h) h.
Proof.
  intros Hok h Hpl Hr. unfold in_mode, v_of. cbn [v_q v_pins v_pc v_irq v_nomore v_one].
  pose proof (inv_init A HA garbage p test) as Hi0.
  splits; auto.
  - apply inv_run; auto. apply HA.
  - apply rep_run; auto. apply rep_init.
  - apply stopped_run; auto. intros _. reflexivity.
Qed.
Lemma start_mode v h now : in_mode MIdle v h -> nonempty (v_q v) = true ->
  v_pc v = Free \/ v_pc v = Committed true ->
  exists h', in_mode MRun (avr_start now v) h'.
Proof.
  intros (Hq & Hpi & Hpc & Hi & Hr & Hpl & M1 & M2 & M3 & M4 & M5) Hn Hf.
  set (q1 := set_running true (v_q v)).
  set (h1 := mkH q1 (toggled (head A q1) q1 (h_pins h)) Free (h_done h) (h_base h) true (h_clean h)
    (h_acc h) (h_left h) (h_res h) (h_log h)).
  assert (X : exists ev, ev_ok ev /\ hstep A EXT ev h = h1).
  { destruct Hf as [Hf|Hf].
    - exists (EAddNull true true). split; [exact I|]. cbn [hstep]. rewrite Hpc, Hf, Hq.
      unfold q_add_null. rewrite M2. cbn [negb andb is_free].
      destruct (Z.eqb_spec (q_wr (v_q v)) (q_rd (v_q v))) as [E|E].
      + exfalso. symmetry in E. apply (empty_iff A) in E; [|rewrite <- Hq; apply (iv_wf A h Hi)].
        apply nonempty_iff in Hn. contradiction.
      + cbn [a_started]. unfold start_head. cbn [with_q h_q h_started].
        change (nonempty (set_running true (v_q v))) with (nonempty (v_q v)). rewrite Hn, M5. cbn [andb negb].
        unfold h1, with_q. cbn [h_pins h_pc h_done h_base h_clean h_acc h_left h_res h_log]. rewrite Hpc, Hf. reflexivity.
    - exists EStartQ. split; [exact I|]. cbn [hstep]. rewrite Hpc, Hf, Hq. unfold add_starts. rewrite M2.
      cbn [negb andb]. unfold start_head. cbn [with_pc with_q h_q h_started].
      change (nonempty (set_running true (v_q v))) with (nonempty (v_q v)). rewrite Hn, M5. cbn [andb negb].
      reflexivity. }
  destruct X as (ev & Hev & Eh).
  destruct (hstep_inv h ev Hi Hr Hev) as [I' R']. rewrite Eh in I', R'.
  exists h1. unfold in_mode, avr_start.
  cbn [h_q h_pins h_pc h_started v_q v_pins v_pc v_irq v_nomore v_one h1].
  splits; auto.
  - rewrite Hpi. reflexivity.
  - unfold plain in *. rewrite Hq in Hpl. exact Hpl.
Qed.

(** ** The driver stops *)
Lemma terminates : forall n v h, in_mode MRun v h -> (count (rest (v_q v)) <= n)%nat ->
  exists h', in_mode MIdle (fst (vrun EXT (repeat VIsr (S (count (rest (v_q v))))) v)) h'.
Proof.
  induction n as [|n IH]; intros v h Hm Hn.
  - exfalso. destruct (hd_in v h Hm) as (t & Hp & _). unfold rest in Hn. rewrite Hp in Hn.
    cbn [map] in Hn. rewrite count_cmd in Hn. lia.
  - destruct (isr_run v h Hm) as (m1 & h1 & K1 & K2 & _ & _ & Kc & _).
    rewrite <- Kc in *. cbn [repeat vrun fst]. cbn [vstep].
    assert (Ei : v_irq v = true) by (destruct Hm as (_ & _ & _ & _ & _ & _ & ? & _); assumption).
    rewrite Ei.
    destruct K2 as [->|[-> K2]].
    + destruct (IH _ h1 K1 ltac:(lia)) as [h2 J]. exists h2. exact J.
    + rewrite K2. cbn [count repeat vrun fst]. cbn [vstep].
      assert (Ei1 : v_irq (fst (avr_isr v)) = true) by (destruct K1 as (_ & _ & _ & _ & _ & _ & ? & _); assumption).
      rewrite Ei1. destruct (isr_drain _ h1 K1) as (_ & h2 & J & _). exists h2. exact J.
Qed.

(** ** Forced stop *)
Lemma force_stop v h m : in_mode m v h -> v_nomore v = false -> v_pc v = Free ->
  exists h', in_mode MIdle (avr_forceStop v) h' /\ rest (v_q (avr_forceStop v)) = [].
Proof.
  intros (Hq & Hpi & Hpc & Hi & Hr & Hpl & _) Hnm Hf.
  destruct (hstep_inv h EClear Hi Hr I) as [I' R'].
  exists (hstep A EXT EClear h). cbn [hstep] in *. rewrite Hpc, Hf in *. cbn [is_free] in *.
  unfold avr_forceStop. split.
  - unfold in_mode. cbn [h_q h_pins h_pc h_started v_q v_pins v_pc v_irq v_nomore v_one].
    rewrite Hq in *. splits; auto.
  - cbn [v_q]. unfold rest. destruct (wf_clear A HA (v_q v)) as [_ ->]; [|reflexivity].
    rewrite <- Hq. apply (iv_wf A h Hi).
Qed.

(** ** Refilling during the last period *)
Lemma refill v h c start : in_mode MDrain v h -> v_pc v = Free -> q_ignore (v_q v) = false ->
  cmd_ok c -> MIN_CMD_TICKS A <= c_ticks c * Z.max 1 (c_steps c) -> c_steps c <= 1 ->
  let v1 := fst (vrun EXT [VBegin c start; VCommit; VStart 0] v) in
  snd (vrun EXT [VBegin c start; VCommit; VStart 0; VIsr] v) = [] /\
  exists h', in_mode MRun (fst (avr_isr v1)) h' /\ rest (v_q (fst (avr_isr v1))) = [c] /\
    v_next (fst (avr_isr v1)) = v_next v + (if c_steps c =? 0 then c_ticks c else 10) /\
    v_irq v1 = true.
Proof.
  intros Hm Hf Hig Hc Hmin Hs.
  destruct (begin_mode MDrain v h c start Hm Hc) as (E0 & h1 & K1 & K2 & K3 & K4 & K5).
  assert (Hempty : pend A (v_q v) = []).
  { destruct Hm as (_ & _ & _ & _ & _ & _ & _ & _ & _ & M4 & _). now apply (nonempty_false A). }
  (* after VBegin *)
  remember (fst (vstep EXT (VBegin c start) v)) as va eqn:Eva.
  assert (Hva : v_pc va = Prepared c (next_end c (v_q v)) start /\ q_ignore (v_q va) = false).
  { subst va. cbn [vstep]. rewrite Hf.
    assert (Ek : add_check A true c (v_q v) = AQE_OK).
    { unfold add_check, isQueueFull. cbn [negb]. apply (pend_nil A) in Hempty. rewrite Hempty.
      change (0 =? QUEUE_LEN A) with false. cbn iota.
      rewrite (rate_eq c Hc). destruct (Z.ltb_spec (c_ticks c * Z.max 1 (c_steps c)) (MIN_CMD_TICKS A)); [lia|reflexivity]. }
    rewrite Ek. cbn [fst v_pc v_q]. split; [reflexivity|].
    unfold add_prepare. destruct (direct_dir (v_q v)); exact Hig. }
  destruct Hva as [Hpa Hia].
  destruct K1 as (Hq & Hpi & Hpc & Hi & Hr & Hpl & M1 & M2 & M3 & M4 & M5).
  (* after VCommit *)
  destruct (hstep_inv h1 (ECommit true) Hi Hr I) as [I1 R1].
  pose proof (iv_prep A h1 Hi) as Hp. rewrite Hpc, Hpa, Hq in Hp.
  destruct Hp as (_ & Hlt & Hne & He). cbn zeta in He. destruct He as (He1 & He2 & He3 & _).
  set (e := q_ent (v_q va) (slot A (q_wr (v_q va)))) in *.
  set (qb := set_end (next_end c (v_q v)) (set_wr (u8 (q_wr (v_q va) + 1)) (v_q va))).
  assert (Hwa : wf A (v_q va)) by (rewrite <- Hq; apply (iv_wf A h1 Hi)).
  assert (Epb : pend A qb = [e]).
  { unfold qb. rewrite (pend_commit A HA) by assumption. rewrite K2, Hempty. reflexivity. }
  assert (Eh1 : hstep A EXT (ECommit true) h1 =
    mkH qb (h_pins h1) (Committed start) (h_done h1) (h_base h1) (h_started h1) (h_clean h1)
      (h_acc h1 ++ [c]) (h_left h1) (h_res h1 ++ [(c, AQE_OK)]) (h_log h1)).
  { cbn [hstep]. rewrite Hpc, Hpa, Hq. unfold add_commit. rewrite Hia. reflexivity. }
  rewrite Eh1 in I1, R1.
  destruct (head_pend qb e [] (iv_wf A _ I1) Epb) as [Hhb Hnb].
  (* after VStart *)
  destruct (hstep_inv _ EStartQ I1 R1 I) as [I2 R2]. cbn [hstep h_pc h_q] in I2, R2.
  assert (Erun : q_running qb = true) by exact M2.
  unfold add_starts in I2, R2. rewrite Erun in I2, R2. cbn [negb andb] in I2, R2.
  (* resume *)
  destruct (hstep_inv _ EResume I2 R2 I) as [I3 R3]. cbn [hstep with_pc h_q] in I3, R3.
  rewrite Hnb, Erun in I3, R3. cbn [andb] in I3, R3. unfold start_head in I3, R3.
  cbn [with_pc h_q h_started] in I3, R3. rewrite Hnb in I3, R3.
  assert (Hst : h_started h1 = false).
  { apply (iv_started A h1 Hi). rewrite Hq, K2. exact Hempty. }
  rewrite Hst in I3, R3. cbn [with_pc negb andb h_pins h_pc h_done h_base h_clean h_acc h_left h_res h_log] in I3, R3.
  assert (V1 : fst (vrun EXT [VBegin c start; VCommit; VStart 0] v) =
    mkAvr qb (v_pins va) Free (v_one va) (v_irq va) (v_next va) (v_nomore va)).
  { cbn [vrun fst]. rewrite <- Eva. cbn [vstep]. rewrite Hpa. cbn [fst v_pc v_q].
    unfold add_commit. rewrite Hia. cbn [fst]. fold qb. unfold add_starts. rewrite Erun. reflexivity. }
  cbn zeta.
  assert (Esnd : snd (vrun EXT [VBegin c start; VCommit; VStart 0; VIsr] v) =
    snd (vstep EXT VIsr (fst (vrun EXT [VBegin c start; VCommit; VStart 0] v)))).
  { cbn [vrun fst snd]. rewrite E0, <- Eva. cbn [app]. cbn [vstep]. rewrite Hpa. cbn [fst snd app v_pc v_q].
    unfold add_commit. rewrite Hia. cbn [fst]. fold qb. unfold add_starts. rewrite Erun. cbn [negb andb fst snd app].
    now rewrite app_nil_r. }
  rewrite Esnd, V1. cbn [vstep v_irq]. rewrite M1.
  unfold avr_isr. cbn [v_q v_one v_next v_pins v_pc v_nomore].
  assert (Hrw : (q_rd qb =? q_wr qb) = false).
  { apply Z.eqb_neq. intros K. apply (empty_iff A) in K; [|apply (iv_wf A _ I1)].
    apply nonempty_iff in Hnb. contradiction. }
  rewrite Hrw, Hhb, M5, M3, He2. destruct (Z.gtb_spec (c_steps c) 1); [lia|].
  cbn [fst snd]. split; [reflexivity|].
  exists (mkH qb (toggled (head A qb) qb (h_pins h1)) Free (h_done h1) (h_base h1) true (h_clean h1)
    (h_acc h1 ++ [c]) (h_left h1) (h_res h1 ++ [(c, AQE_OK)]) (h_log h1)).
  split.
  - unfold in_mode. cbn [h_q h_pins h_pc h_started v_q v_pins v_pc v_irq v_nomore v_one].
    rewrite Hhb in *. rewrite Hpi in *. splits; auto.
    + unfold plain in *. rewrite Hq in Hpl. exact Hpl.
    + now rewrite He2.
  - cbn [v_q v_next v_irq]. split; [|split; [|first [assumption|reflexivity]]].
    + unfold rest. rewrite Epb. cbn [map]. unfold cmd_of. rewrite He1, He2, He3. destruct c; reflexivity.
    + rewrite K3, He1. reflexivity.
Qed.
End Repeat.

(** ** The statements for P_Avr *)
Lemma session_start EXT v h now es : in_mode EXT MIdle v h -> nonempty (v_q v) = true ->
  v_pc v = Free \/ v_pc v = Committed true ->
  let v0 := avr_start now v in
  calm EXT es v0 ->
  let v2 := fst (vrun EXT es v0) in
  exists m' h', in_mode EXT m' v2 h' /\ (m' = MRun \/ rest (v_q v2) = []) /\
    snd (vrun EXT es v0) ++ pulses (v_next v2) (dir_of (v_q v)) (rest (v_q v2)) =
      pulses (now + 10) (dir_of (v_q v)) (rest (v_q v) ++ taken EXT es v0) /\
    end_time (v_next v2) (rest (v_q v2)) = end_time (now + 10) (rest (v_q v) ++ taken EXT es v0).
Proof.
  intros Hm Hn Hf v0 Hc v2. destruct (start_mode EXT v h now Hm Hn Hf) as [h1 H1].
  exact (session EXT es MRun v0 h1 H1 (or_introl eq_refl) Hc).
Qed.
Lemma avr_restart EXT v h now es : in_mode EXT MIdle v h -> nonempty (v_q v) = true ->
  v_pc v = Free \/ v_pc v = Committed true ->
  let v0 := avr_start now v in
  calm EXT es v0 ->
  let v2 := fst (vrun EXT es v0) in
  snd (vrun EXT es v0) ++ pulses (v_next v2) (dir_of (v_q v)) (rest (v_q v2)) =
    pulses (now + 10) (dir_of (v_q v)) (rest (v_q v) ++ taken EXT es v0).
Proof.
  intros Hm Hn Hf v0 Hc v2.
  destruct (session_start EXT v h now es Hm Hn Hf Hc) as (m & h' & _ & _ & K & _). exact K.
Qed.
Lemma avr_session EXT garbage p test hevs now es : Forall ev_ok hevs ->
  let h := hrun arch_avr EXT hevs (hinit arch_avr garbage p test) in
  plain EXT (h_q h) -> h_pc h = Free -> q_running (h_q h) = false -> nonempty (h_q h) = true ->
  let v0 := avr_start now (v_of h) in
  calm EXT es v0 ->
  let v := fst (vrun EXT es v0) in
  let emitted := snd (vrun EXT es v0) in
  let commands := rest (h_q h) ++ taken EXT es v0 in
  emitted ++ pulses (v_next v) (dir_of (h_q h)) (rest (v_q v)) =
    pulses (now + 10) (dir_of (h_q h)) commands /\
  (v_irq v = false ->
     emitted = pulses (now + 10) (dir_of (h_q h)) commands /\
     v_next v = end_time (now + 10) commands /\
     q_running (v_q v) = false /\ v_nomore v = false).
Proof.
  intros Hok h Hpl Hpc Hr Hn v0 Hc v emitted commands.
  pose proof (idle_of EXT garbage p test hevs Hok Hpl Hr) as Hm. fold h in Hm.
  destruct (session_start EXT (v_of h) h now es Hm Hn (or_introl Hpc) Hc) as (m & h' & K1 & K2 & K3 & K4).
  fold v0 in K1, K2, K3, K4. fold v in K1, K2, K3, K4.
  split; [exact K3|]. intros Hirq.
  assert (m = MIdle).
  { destruct m; [| |reflexivity]; destruct K1 as (_ & _ & _ & _ & _ & _ & M1 & _); congruence. }
  subst m. destruct K2 as [?|K2]; [discriminate|]. rewrite K2 in K3, K4. cbn [pulses end_time] in K3, K4.
  rewrite app_nil_r in K3. destruct K1 as (_ & _ & _ & _ & _ & _ & M1 & M2 & M3 & _).
  splits; assumption.
Qed.
Lemma avr_stops EXT garbage p test hevs now : Forall ev_ok hevs ->
  let h := hrun arch_avr EXT hevs (hinit arch_avr garbage p test) in
  plain EXT (h_q h) -> h_pc h = Free -> q_running (h_q h) = false -> nonempty (h_q h) = true ->
  let v := fst (vrun EXT (repeat VIsr (S (count (rest (h_q h))))) (avr_start now (v_of h))) in
  v_irq v = false /\ q_running (v_q v) = false /\ v_nomore v = false /\ rest (v_q v) = [].
Proof.
  intros Hok h Hpl Hpc Hr Hn v.
  pose proof (idle_of EXT garbage p test hevs Hok Hpl Hr) as Hm. fold h in Hm.
  destruct (start_mode EXT (v_of h) h now Hm Hn (or_introl Hpc)) as [h1 H1].
  destruct (terminates EXT _ _ h1 H1 (le_n _)) as [h2 H2].
  change (fst (vrun EXT (repeat VIsr (S (count (rest (v_q (avr_start now (v_of h))))))) (avr_start now (v_of h))))
    with v in H2.
  assert (Hcalm : forall n w, calm EXT (repeat VIsr n) w).
  { induction n; intros w; cbn; auto. }
  destruct (session EXT (repeat VIsr (S (count (rest (h_q h))))) MRun _ h1 H1 (or_introl eq_refl) (Hcalm _ _))
    as (m & h' & K1 & K2 & _). fold v in K1, K2.
  destruct H2 as (_ & _ & _ & _ & _ & _ & M1 & M2 & M3 & _).
  splits; auto. destruct K2 as [->|?]; [|assumption].
  exfalso. destruct K1 as (_ & _ & _ & _ & _ & _ & M1' & _). congruence.
Qed.
Lemma vrun_app EXT : forall e1 e2 v, vrun EXT (e1 ++ e2) v =
  (fst (vrun EXT e2 (fst (vrun EXT e1 v))), snd (vrun EXT e1 v) ++ snd (vrun EXT e2 (fst (vrun EXT e1 v)))).
Proof.
  induction e1 as [|ev e1 IH]; intros e2 v; cbn [app vrun fst snd].
  - destruct (vrun EXT e2 v); reflexivity.
  - rewrite IH. cbn [fst snd]. now rewrite app_assoc.
Qed.
Lemma avr_refill EXT v h c start es : in_mode EXT MDrain v h -> v_pc v = Free -> q_ignore (v_q v) = false ->
  cmd_ok c -> MIN_CMD_TICKS arch_avr <= c_ticks c * Z.max 1 (c_steps c) -> c_steps c <= 1 ->
  let v1 := fst (vrun EXT [VBegin c start; VCommit; VStart 0; VIsr] v) in
  calm EXT es v1 ->
  let v2 := fst (vrun EXT es v1) in
  snd (vrun EXT [VBegin c start; VCommit; VStart 0; VIsr] v) = [] /\
  snd (vrun EXT es v1) ++ pulses (v_next v2) (dir_of (v_q v1)) (rest (v_q v2)) =
    pulses (v_next v + (if c_steps c =? 0 then c_ticks c else 10)) (dir_of (v_q v1)) (c :: taken EXT es v1).
Proof.
  intros Hm Hf Hi Hc Hmin Hs v1 Hcalm v2.
  destruct (refill EXT v h c start Hm Hf Hi Hc Hmin Hs) as (E0 & h' & K1 & K2 & K3 & K4).
  assert (E1 : v1 = fst (avr_isr (fst (vrun EXT [VBegin c start; VCommit; VStart 0] v)))).
  { unfold v1. change [VBegin c start; VCommit; VStart 0; VIsr] with ([VBegin c start; VCommit; VStart 0] ++ [VIsr]).
    rewrite vrun_app. cbn [fst]. set (w := fst (vrun EXT [VBegin c start; VCommit; VStart 0] v)) in *.
    cbn [vrun fst vstep]. now rewrite K4. }
  rewrite <- E1 in K1, K2, K3. split; [exact E0|].
  destruct (session EXT es MRun v1 h' K1 (or_introl eq_refl) Hcalm) as (m & h2 & _ & _ & J & _).
  fold v2 in J. rewrite J, K2, K3. reflexivity.
Qed.
Lemma start_not_empty EXT r1 r2 c start q p : wf arch_avr q -> q_ignore q = false ->
  let r := q_add arch_avr EXT r1 r2 c start q p in
  a_started r = true -> nonempty (a_q r) = true.
Proof.
  intros Hw Hi. cbn zeta. unfold q_add.
  destruct (Z.eqb_spec (add_check A r1 c q) AQE_OK) as [E|E]; [|cbn; discriminate].
  apply check_ok in E. destruct E as (_ & Hnf & _).
  assert (Hlt : queueEntries q < QUEUE_LEN A) by (destruct Hw as (_ & _ & ?); lia).
  assert (Eset : exists qe e p1, add_prepare A EXT c q p = (set_end qe (set_ent e q), p1)).
  { unfold add_prepare. destruct (direct_dir q); [eauto|].
    exists (q_end q), (upd (q_ent q) (slot A (q_wr q)) (new_entry A EXT c q)), p. destruct q; reflexivity. }
  destruct Eset as (qe & e & p1 & ->). unfold add_commit. cbn [set_end set_ent q_ignore]. rewrite Hi.
  destruct r2; [|cbn; discriminate]. change (AQE_OK =? AQE_OK) with true. cbn iota. intros _.
  cbn [a_q]. unfold add_start. pose proof (entries_commit A HA q (next_end c q) Hw Hlt) as Ee.
  apply nonempty_iff. pose proof (entries_range q).
  destruct (add_starts _ _); match goal with |- queueEntries ?x <> 0 =>
    change (queueEntries x) with (queueEntries (set_end (next_end c q) (set_wr (u8 (q_wr q + 1)) q))) end; lia.
Qed.
