(** * QueueHist: histories of one command queue

    Producer (API or background task) and consumer (interrupt) interleave. The
    producer's addQueueEntry is split at its critical section
    (src/StepperISR.cpp:11-120 | 122-133 | 135-141), so the interrupt may run between
    the pieces. There is one producer. The events are no-ops when not enabled, so that
    every list of events is a history. *)
From Coq Require Import ZArith Znumtheory Bool List Lia ZifyBool.
From Verif Require Import Base Queue QueueFacts QueuePos.
Import ListNotations.
Open Scope Z_scope.
Ltac Zify.zify_post_hook ::= idtac.

Inductive pc :=
| Free
| Prepared (c : command) (ne : queue_end) (start : bool)
| Committed (start : bool).

(** [h_done], [h_base], [h_started], [h_clean], [h_acc], [h_left], [h_res], [h_log]
    record what happened; the code does not have them. *)
Record hst := mkH {
  h_q : queue;
  h_pins : pins;
  h_pc : pc;
  h_done : Z;                     (* steps performed of the oldest command *)
  h_base : Z;                     (* position before the oldest pending command *)
  h_started : bool;               (* the oldest command is being executed *)
  h_clean : bool;                 (* no position change while commands were pending *)
  h_acc : list command;           (* commands taken into the queue *)
  h_left : list command;          (* commands that left the queue, as executed *)
  h_res : list (command * Z);     (* results of the calls of addQueueEntry *)
  h_log : list (bool * bool)      (* per performed step(s): pin level, commanded level *)
}.

Inductive event :=
| EBegin (c : command) (start ready : bool)
| ECommit (ready : bool)
| EStartQ
| EAddNull (start ready : bool)
| EDec (k : Z)
| EPop
| EResume
| EStop
| EClear
| EIgnore (b : bool)
| ESetDir (pin : Z) (hcu : bool)
| ESetPos (p : Z)
| EOther (level : bool).

Definition sgn (up : bool) (n : Z) : Z := if up then n else - n.
Definition sdelta (c : command) : Z := sgn (c_up c) (c_steps c).

Section WithArch.
Variable A : arch.
Variable EXT : bool.
Notation L := (QUEUE_LEN A).

Definition nonempty (q : queue) : bool := negb (queueEntries q =? 0).
Definition toggled (e : entry) (q : queue) (p : pins) : pins :=
  if e_toggle e then upd p (q_pin q) (negb (p (q_pin q))) else p.
(** [cmd_of d e]: the command of an entry, of which [d] steps are already done *)
Definition cmd_of (d : Z) (e : entry) : command := mkCommand (e_ticks e) (d + e_steps e) (e_up e).
Definition pend_cmds (d : Z) (l : list entry) : list command :=
  match l with [] => [] | e :: t => cmd_of d e :: map (cmd_of 0) t end.

(** startQueue(), or the interrupt advancing to a new oldest entry: the direction
    pin is toggled if requested (src/StepperISR_avr.cpp:34-37, 196-198, 261-285) *)
Definition start_head (s : hst) : hst :=
  if nonempty (h_q s) && negb (h_started s)
  then mkH (h_q s) (toggled (head A (h_q s)) (h_q s) (h_pins s)) (h_pc s) (h_done s) (h_base s)
         true (h_clean s) (h_acc s) (h_left s) (h_res s) (h_log s)
  else s.

Definition with_q q s := mkH q (h_pins s) (h_pc s) (h_done s) (h_base s) (h_started s) (h_clean s)
  (h_acc s) (h_left s) (h_res s) (h_log s).
Definition with_pc p s := mkH (h_q s) (h_pins s) p (h_done s) (h_base s) (h_started s) (h_clean s)
  (h_acc s) (h_left s) (h_res s) (h_log s).
(** one line of the log, if there is a direction pin driven by the queue *)
Definition has_pin (q : queue) : bool := negb (q_pin q =? PIN_UNDEFINED) && negb (is_external (q_pin q)).
Definition log_line (q : queue) (s : hst) : list (bool * bool) :=
  if has_pin q then [(h_pins s (q_pin q), Bool.eqb (e_up (head A q)) (q_hcu q))] else [].
Definition is_free (p : pc) : bool := match p with Free => true | _ => false end.
Definition idle_q (s : hst) : bool :=
  negb (nonempty (h_q s)) && negb (q_running (h_q s)) && is_free (h_pc s).

Definition hstep (ev : event) (s : hst) : hst :=
  let q := h_q s in
  match ev with
  | EBegin c start ready =>
    match h_pc s with
    | Free =>
      if add_check A ready c q =? AQE_OK
      then mkH (fst (add_prepare A EXT c q (h_pins s))) (snd (add_prepare A EXT c q (h_pins s)))
             (Prepared c (next_end c q) start) (h_done s) (h_base s) (h_started s) (h_clean s)
             (h_acc s) (h_left s) (h_res s) (h_log s)
      else mkH q (h_pins s) Free (h_done s) (h_base s) (h_started s) (h_clean s)
             (h_acc s) (h_left s) (h_res s ++ [(c, add_check A ready c q)]) (h_log s)
    | _ => s
    end
  | ECommit ready =>
    match h_pc s with
    | Prepared c ne start =>
      let r := add_commit ready ne q in
      mkH (fst r) (h_pins s) (if snd r =? AQE_OK then Committed start else Free) (h_done s) (h_base s)
        (h_started s) (h_clean s)
        (if q_ignore q then h_acc s else if ready then h_acc s ++ [c] else h_acc s)
        (h_left s) (h_res s ++ [(c, snd r)]) (h_log s)
    | _ => s
    end
  | EStartQ =>
    match h_pc s with
    | Committed start =>
      if add_starts start q then start_head (with_pc Free (with_q (set_running true q) s))
      else with_pc Free s
    | _ => s
    end
  | EAddNull start ready =>
    if is_free (h_pc s) && a_started (q_add_null ready start q (h_pins s))
    then start_head (with_q (set_running true q) s) else s
  | EDec k =>
    if nonempty q && q_running q && h_started s && (0 <? k) && (k <=? e_steps (head A q))
    then mkH (q_dec A k q) (h_pins s) (h_pc s) (h_done s + k) (h_base s) (h_started s) (h_clean s)
           (h_acc s) (h_left s) (h_res s) (h_log s ++ log_line q s)
    else s
  | EPop =>
    if nonempty q && q_running q && h_started s
    then start_head (mkH (q_pop q) (h_pins s) (h_pc s) 0
           (h_base s + sdelta (cmd_of (h_done s) (head A q))) false
           (h_clean s || (queueEntries q =? 1))
           (h_acc s) (h_left s ++ [cmd_of (h_done s) (head A q)]) (h_res s)
           (if e_steps (head A q) >? 0 then h_log s ++ log_line q s else h_log s))
    else s
  | EResume =>
    if nonempty q && q_running q then start_head s else s
  | EStop =>
    if negb (nonempty q) && q_running q then with_q (set_running false q) s else s
  | EClear =>
    if is_free (h_pc s)
    then mkH (q_clear q) (h_pins s) Free 0 (qe_pos (q_end q)) false true
           (h_acc s) (h_left s ++ pend_cmds (h_done s) (pend A q)) (h_res s) (h_log s)
    else s
  | EIgnore b => with_q (set_ignore b q) s
  | ESetDir pin hcu =>
    if idle_q s
    then mkH (set_dir pin hcu q)
           (if (pin =? PIN_UNDEFINED) || is_external pin then h_pins s else upd (h_pins s) pin hcu)
           (h_pc s) (h_done s) (h_base s) (h_started s) (h_clean s)
           (h_acc s) (h_left s) (h_res s) (h_log s)
    else s
  | ESetPos p =>
    if is_free (h_pc s)
    then mkH (set_end (mkQueueEnd p (qe_up (q_end q)) (qe_dir (q_end q))) q) (h_pins s) (h_pc s)
           (h_done s) (h_base s + (p - qe_pos (q_end q))) (h_started s)
           (h_clean s && negb (nonempty q)) (h_acc s) (h_left s) (h_res s) (h_log s)
    else s
  | EOther level =>
    if idle_q s
    then mkH q (upd (h_pins s) (q_pin q) level) (h_pc s) (h_done s) (h_base s) (h_started s) (h_clean s)
           (h_acc s) (h_left s) (h_res s) (h_log s)
    else s
  end.

Fixpoint hrun (evs : list event) (s : hst) : hst :=
  match evs with [] => s | e :: t => hrun t (hstep e s) end.

(** a fresh queue: _initVars() *)
Definition hinit (garbage : Z -> entry) (p : pins) (test : bool) : hst :=
  mkH (q_init A garbage test) p Free 0 0 false true [] [] [] [].

(** well-formed arguments: the C types *)
Definition cmd_ok (c : command) : Prop := 0 <= c_ticks c < 65536 /\ 0 <= c_steps c < 256.
Definition ev_ok (ev : event) : Prop :=
  match ev with
  | EBegin c _ _ => cmd_ok c
  | ESetPos p => -2147483648 <= p < 2147483648
  | _ => True
  end.

(** ** Invariant *)
Fixpoint chain (pos_end : Z) (base d : Z) (l : list entry) : Prop :=
  match l with
  | [] => i32 base = pos_end
  | e :: t =>
    e_pos16 e = u16 (if END_POS A then base + sgn (e_up e) (d + e_steps e) else base) /\
    chain pos_end (base + sgn (e_up e) (d + e_steps e)) 0 t
  end.
(** flags of an entry agree with its (remaining) steps *)
Definition flags_ok (d : Z) (e : entry) : Prop :=
  e_more e = (d + e_steps e >? 1) /\ e_has e = (d + e_steps e >? 0).
Fixpoint all_flags (d : Z) (l : list entry) : Prop :=
  match l with [] => True | e :: t => flags_ok d e /\ all_flags 0 t end.

(** pin levels while the entries are executed *)
Fixpoint levels (hcu dir_end lvl : bool) (l : list entry) : Prop :=
  match l with
  | [] => lvl = dir_end
  | e :: t => xorb lvl (e_toggle e) = Bool.eqb (e_up e) hcu /\
              levels hcu dir_end (xorb lvl (e_toggle e)) t
  end.
Definition synced (s : hst) : Prop :=
  let q := h_q s in
  match pend A q with
  | [] => h_pins s (q_pin q) = qe_dir (q_end q)
  | e :: t => if h_started s
              then h_pins s (q_pin q) = Bool.eqb (e_up e) (q_hcu q) /\
                   levels (q_hcu q) (qe_dir (q_end q)) (h_pins s (q_pin q)) t
              else levels (q_hcu q) (qe_dir (q_end q)) (h_pins s (q_pin q)) (pend A q)
  end.
Record inv (s : hst) : Prop := mkInv {
  iv_wf : wf A (h_q s);
  iv_pos : -2147483648 <= qe_pos (q_end (h_q s)) < 2147483648;
  iv_ent : Forall ent_ok (pend A (h_q s));
  iv_done : 0 <= h_done s /\ (pend A (h_q s) = [] -> h_done s = 0) /\
            match pend A (h_q s) with [] => True | e :: _ => h_done s + e_steps e < 256 end;
  iv_started : pend A (h_q s) = [] -> h_started s = false;
  iv_fresh : h_started s = false -> h_done s = 0;
  iv_flags : all_flags (h_done s) (pend A (h_q s));
  iv_fifo : h_acc s = h_left s ++ pend_cmds (h_done s) (pend A (h_q s));
  iv_chain : h_clean s = true -> chain (qe_pos (q_end (h_q s))) (h_base s) (h_done s) (pend A (h_q s));
  iv_base : i32 (h_base s + fold_right Z.add 0 (map sdelta (pend_cmds (h_done s) (pend A (h_q s)))))
            = qe_pos (q_end (h_q s));
  iv_clean : pend A (h_q s) = [] -> h_clean s = true;
  iv_prep : match h_pc s with
            | Prepared c ne _ =>
              cmd_ok c /\ queueEntries (h_q s) < L /\
              ne = next_end c (h_q s) /\
              (let e := q_ent (h_q s) (slot A (q_wr (h_q s))) in
               e_ticks e = c_ticks c /\ e_steps e = c_steps c /\ e_up e = c_up c /\
               e_more e = (c_steps c >? 1) /\ e_has e = (c_steps c >? 0) /\
               e_pos16 e = u16 (if END_POS A then next_pos c (h_q s) else qe_pos (q_end (h_q s))) /\
               (has_pin (h_q s) = true -> e_toggle e = xorb (qe_dir (q_end (h_q s))) (cmd_dir c (h_q s))))
            | _ => True
            end;
  iv_sync : has_pin (h_q s) = true ->
            nonempty (h_q s) = true \/ q_running (h_q s) = true \/ h_pc s <> Free -> synced s;
  iv_log : Forall (fun x => fst x = snd x) (h_log s)
}.


Hypothesis HA : In A all_archs.

Lemma nonempty_iff q : nonempty q = true <-> queueEntries q <> 0.
Proof. unfold nonempty. lia. Qed.
Lemma nonempty_false q : nonempty q = false <-> pend A q = [].
Proof. rewrite pend_nil. unfold nonempty. lia. Qed.
Lemma pend_ne q : nonempty q = true -> pend A q <> [].
Proof. intros H K. apply nonempty_false in K. congruence. Qed.

Lemma pend_cmds_snoc d l e : (l = [] -> d = 0) ->
  pend_cmds d (l ++ [e]) = pend_cmds d l ++ [cmd_of 0 e].
Proof.
  intros H. destruct l as [|x l]; cbn.
  - now rewrite H.
  - now rewrite map_app.
Qed.
Lemma i32_add_i32 a b : i32 (i32 a + b) = i32 (a + b).
Proof.
  apply i32_eq_iff. unfold i32.
  set (q := (a + 2147483648) / 4294967296).
  replace ((a + 2147483648) mod 4294967296) with ((a + 2147483648) - 4294967296 * q)
    by (unfold q; pose proof (Z.div_mod (a + 2147483648) 4294967296 ltac:(lia)); lia).
  replace (a + 2147483648 - 4294967296 * q - 2147483648 + b) with ((a + b) + (-q) * 4294967296) by lia.
  apply Z.mod_add. lia.
Qed.
Lemma i32_range x : -2147483648 <= i32 x < 2147483648.
Proof. unfold i32. pose proof (Z.mod_pos_bound (x + 2147483648) 4294967296). lia. Qed.
Lemma i32_small x : -2147483648 <= x < 2147483648 -> i32 x = x.
Proof. intros. unfold i32. rewrite Z.mod_small by lia. lia. Qed.
Lemma u16_i32 x : u16 (i32 x) = u16 x.
Proof.
  unfold u16, i32.
  set (q := (x + 2147483648) / 4294967296).
  replace ((x + 2147483648) mod 4294967296) with ((x + 2147483648) - 4294967296 * q)
    by (unfold q; pose proof (Z.div_mod (x + 2147483648) 4294967296 ltac:(lia)); lia).
  replace (x + 2147483648 - 4294967296 * q - 2147483648) with (x + (- q * 65536) * 65536) by lia.
  apply Z.mod_add. lia.
Qed.

Lemma chain_snoc pe pe' e : forall l base d,
  chain pe base d l ->
  e_pos16 e = u16 (if END_POS A then pe' else pe) ->
  pe' = i32 (pe + sgn (e_up e) (e_steps e)) ->
  (l = [] -> d = 0) ->
  chain pe' base d (l ++ [e]).
Proof.
  induction l as [|x l IH]; intros base d H H1 H2 H3; cbn [app chain] in *.
  - rewrite (H3 eq_refl). subst pe. rewrite i32_add_i32 in H2. split.
    + rewrite H1. destruct (END_POS A).
      * rewrite H2, u16_i32. f_equal.
      * apply u16_i32.
    + now rewrite H2.
  - destruct H as [Ha Hb]. split; [assumption|]. apply IH; auto.
Qed.
Lemma levels_snoc hcu dir dir' e : forall l lvl,
  levels hcu dir lvl l -> e_toggle e = xorb dir dir' -> dir' = Bool.eqb (e_up e) hcu ->
  levels hcu dir' lvl (l ++ [e]).
Proof.
  induction l as [|x l IH]; intros lvl H H1 H2; cbn [app levels] in *.
  - subst lvl. rewrite H1. split; [rewrite <- H2|]; destruct dir, dir'; reflexivity.
  - destruct H as [Ha Hb]. split; [assumption|]. now apply IH.
Qed.
Lemma flags_snoc e : forall l d, all_flags d l -> flags_ok 0 e -> (l = [] -> d = 0) ->
  all_flags d (l ++ [e]).
Proof.
  intros [|x l] d H H1 H2; cbn [app all_flags] in *.
  - rewrite H2; auto.
  - destruct H as [Ha Hb]. split; [assumption|].
    clear - Hb H1. induction l as [|y l IH]; cbn in *; auto. tauto.
Qed.
Lemma map_cmd0_flags : forall l, all_flags 0 l -> Forall (flags_ok 0) l.
Proof. induction l; cbn; intros H; constructor; tauto. Qed.

Definition sumd (l : list command) : Z := fold_right Z.add 0 (map sdelta l).
Lemma sumd_app l1 l2 : sumd (l1 ++ l2) = sumd l1 + sumd l2.
Proof. unfold sumd. induction l1; cbn; [lia|]. cbn in IHl1. lia. Qed.

(** *** starting the oldest entry *)
Lemma inv_start s : inv s -> q_running (h_q s) = true -> inv (start_head s).
Proof.
  intros H Hr. unfold start_head.
  destruct (nonempty (h_q s)) eqn:En; [|exact H].
  destruct (h_started s) eqn:Es; [exact H|]. cbn [andb negb].
  destruct H. pose proof (pend_ne _ En) as Hne.
  constructor; cbn [h_q h_pins h_pc h_done h_base h_started h_clean h_acc h_left h_log]; auto.
  - intros K. contradiction.
  - intros Hp _.
    assert (Hs : synced s) by auto. unfold synced in *. cbn [h_q h_pins h_started].
    rewrite Es in Hs. unfold toggled.
    pose proof (pend_pop A HA _ iv_wf0 (proj1 (nonempty_iff _) En)) as Hh. rewrite Hh in *.
    set (e := head A (h_q s)) in *. set (t := pend A (q_pop (h_q s))) in *.
    destruct Hs as [Ha Hb].
    destruct (e_toggle e).
    + unfold upd. rewrite Z.eqb_refl. rewrite xorb_true_r in Ha, Hb. split; assumption.
    + rewrite xorb_false_r in Ha, Hb. split; assumption.
Qed.

(** *** the events *)
Lemma check_ok ready c q : add_check A ready c q = AQE_OK ->
  ready = true /\ queueEntries q <> L /\ MIN_CMD_TICKS A <= command_rate_ticks c.
Proof.
  unfold add_check, isQueueFull, AQE_OK, AQE_DEVICE_NOT_READY, AQE_QUEUE_FULL, AQE_ERROR_TICKS_TOO_LOW.
  destruct ready; cbn [negb]; [|discriminate].
  destruct (Z.eqb_spec (queueEntries q) L); [discriminate|].
  destruct (Z.ltb_spec (command_rate_ticks c) (MIN_CMD_TICKS A)); [discriminate|]. auto.
Qed.

Lemma inv_begin s c start ready : inv s -> cmd_ok c -> inv (hstep (EBegin c start ready) s).
Proof.
  intros H Hc. cbn [hstep]. destruct (h_pc s) eqn:Epc; try exact H.
  destruct (Z.eqb_spec (add_check A ready c (h_q s)) AQE_OK) as [Ek|Ek].
  2:{ destruct H; constructor; cbn [h_q h_pins h_pc h_done h_base h_started h_clean h_acc h_left h_log]; auto.
      intros H1 H2. rewrite Epc in iv_sync0. apply iv_sync0; auto. }
  apply check_ok in Ek. destruct Ek as (_ & Hnf & Hmin).
  assert (Hlt : queueEntries (h_q s) < L) by (destruct H as [Hw]; destruct Hw as (_ & _ & ?); lia).
  set (q := h_q s) in *.
  assert (HQ : exists qe p,
    add_prepare A EXT c q (h_pins s) =
      (set_end qe (set_ent (upd (q_ent q) (slot A (q_wr q)) (new_entry A EXT c q)) q), p) /\
    qe_pos qe = qe_pos (q_end q) /\
    (has_pin q = true -> new_entry A EXT c q = new_entry A EXT c q /\
        e_toggle (new_entry A EXT c q) = xorb (qe_dir qe) (cmd_dir c q) /\
        (nonempty q = true \/ q_running q = true -> qe = q_end q /\ p = h_pins s) /\
        (nonempty q = false /\ q_running q = false -> p (q_pin q) = qe_dir qe))).
  { unfold add_prepare. destruct (direct_dir q) eqn:Ed.
    - eexists _, _. split; [reflexivity|]. split; [reflexivity|].
      intros Hp. split; [reflexivity|]. cbn [qe_dir].
      split. { unfold new_entry. cbn [e_toggle]. unfold dir_differs. rewrite Ed.
               cbn [negb]. rewrite andb_false_r. cbn [andb]. now destruct (cmd_dir c q). }
      split.
      + intros K. exfalso. unfold direct_dir, isQueueEmpty in Ed. unfold nonempty in K.
        destruct (queueEntries q =? 0), (q_running q); cbn in *; rewrite ?andb_false_r in Ed; cbn in Ed;
          intuition congruence.
      + intros _. unfold upd. now rewrite Z.eqb_refl.
    - exists (q_end q), (h_pins s). split; [destruct q; reflexivity|]. split; [reflexivity|].
      intros Hp. split; [reflexivity|]. unfold has_pin in Hp.
      apply andb_true_iff in Hp. destruct Hp as [Hp1 Hp2].
      split. { unfold new_entry. cbn [e_toggle]. unfold to_repeat, dir_differs. rewrite Ed, Hp1.
               rewrite negb_true_iff in Hp2. rewrite Hp2. cbn [negb andb]. rewrite andb_false_r.
               cbn [negb]. rewrite andb_true_r.
               now destruct (cmd_dir c q), (qe_dir (q_end q)). }
      split; [auto|].
      intros [K1 K2]. exfalso. unfold direct_dir, isQueueEmpty in Ed. unfold nonempty in K1.
      rewrite Hp1, Hp2, K2 in Ed. apply negb_false_iff in K1. rewrite K1 in Ed. discriminate. }
  destruct HQ as (qe & p & Eq & Hpos & Hpin). rewrite Eq. cbn [fst snd].
  set (q1 := set_end qe (set_ent (upd (q_ent q) (slot A (q_wr q)) (new_entry A EXT c q)) q)).
  assert (Epend : pend A q1 = pend A q).
  { change (pend A q1) with (pend A (set_ent (upd (q_ent q) (slot A (q_wr q)) (new_entry A EXT c q)) q)).
    destruct H. now apply pend_upd_free. }
  destruct H; fold q in iv_wf0, iv_pos0, iv_ent0, iv_done0, iv_started0, iv_fresh0, iv_flags0, iv_fifo0, iv_chain0,
    iv_base0, iv_clean0, iv_prep0, iv_sync0.
  constructor; cbn [h_q h_pins h_pc h_done h_base h_started h_clean h_acc h_left h_log];
    rewrite ?Epend; auto.
  - change (q_end q1) with qe. lia.
  - change (q_end q1) with qe. rewrite Hpos. assumption.
  - change (q_end q1) with qe. rewrite Hpos. assumption.
  - split; [assumption|]. split; [exact Hlt|].
    assert (Enp : next_pos c q1 = next_pos c q).
    { unfold next_pos. change (q_end q1) with qe. now rewrite Hpos. }
    split. { unfold next_end. rewrite Enp. reflexivity. }
    cbn zeta. change (q_wr q1) with (q_wr q).
    assert (Ee : q_ent q1 (slot A (q_wr q)) = new_entry A EXT c q).
    { unfold q1. cbn [set_end set_ent q_ent]. unfold upd. now rewrite Z.eqb_refl. }
    rewrite Ee. split; [reflexivity|]. split; [reflexivity|]. split; [reflexivity|].
    split; [reflexivity|]. split; [reflexivity|].
    split. { rewrite Enp. change (q_end q1) with qe. rewrite Hpos. reflexivity. }
    intros Hp. change (has_pin q1) with (has_pin q) in Hp. specialize (Hpin Hp).
    destruct Hpin as (_ & Ht & _). exact Ht.
  - intros Hp _. change (has_pin q1) with (has_pin q) in Hp. specialize (Hpin Hp).
    destruct Hpin as (_ & Ht & Hk1 & Hk2).
    unfold synced. cbn [h_q h_pins h_started]. rewrite Epend.
    change (q_pin q1) with (q_pin q). change (q_hcu q1) with (q_hcu q). change (q_end q1) with qe.
    destruct (nonempty q) eqn:En.
    + destruct (Hk1 (or_introl eq_refl)) as [-> ->]. apply iv_sync0; auto.
    + destruct (q_running q) eqn:Er.
      * destruct (Hk1 (or_intror eq_refl)) as [-> ->]. apply iv_sync0; auto.
      * pose proof En as En'. apply nonempty_false in En'. rewrite En'. apply Hk2; auto.
Qed.

Lemma inv_commit s ready : inv s -> inv (hstep (ECommit ready) s).
Proof.
  intros H. cbn [hstep]. destruct (h_pc s) as [|c ne start|] eqn:Epc; try exact H.
  unfold add_commit. destruct (q_ignore (h_q s)) eqn:Ei; cbn [fst snd].
  { change (AQE_OK =? AQE_OK) with true. cbv iota.
    destruct H; constructor; cbn [h_q h_pins h_pc h_done h_base h_started h_clean h_acc h_left h_log]; auto.
    intros H1 H2. rewrite Epc in iv_sync0. apply iv_sync0; auto. right. right. discriminate. }
  destruct ready; cbn [fst snd].
  2:{ change (AQE_DEVICE_NOT_READY =? AQE_OK) with false. cbv iota.
    destruct H; constructor; cbn [h_q h_pins h_pc h_done h_base h_started h_clean h_acc h_left h_log]; auto.
    intros H1 H2. rewrite Epc in iv_sync0. apply iv_sync0; auto. right. right. discriminate. }
  change (AQE_OK =? AQE_OK) with true. cbv iota.
  set (q := h_q s) in *.
  set (q1 := set_end ne (set_wr (u8 (q_wr q + 1)) q)).
  destruct H. fold q in iv_wf0, iv_pos0, iv_ent0, iv_done0, iv_started0, iv_fresh0, iv_flags0, iv_fifo0, iv_chain0,
    iv_base0, iv_clean0, iv_prep0, iv_sync0. rewrite Epc in iv_prep0, iv_sync0.
  destruct iv_prep0 as (Hc & Hlt & Hne & Ht & Hst & Hu & Hm & Hh & Hp16 & Htog).
  set (e := q_ent q (slot A (q_wr q))) in *.
  assert (Epend : pend A q1 = pend A q ++ [e]) by (now apply pend_commit).
  assert (Hd0 : pend A q = [] -> h_done s = 0) by tauto.
  assert (Ecmd : cmd_of 0 e = c).
  { unfold cmd_of. rewrite Ht, Hst, Hu. destruct c. reflexivity. }
  constructor; cbn [h_q h_pins h_pc h_done h_base h_started h_clean h_acc h_left h_log]; rewrite ?Epend; auto.
  - now apply wf_commit.
  - change (q_end q1) with ne. rewrite Hne. cbn [next_end qe_pos]. unfold next_pos. apply i32_range.
  - apply Forall_app. split; [assumption|]. constructor; [|constructor].
    unfold ent_ok. rewrite Ht, Hst. exact Hc.
  - destruct iv_done0 as (Hda & Hdb & Hdc). split; [assumption|].
    split. { intros K. destruct (pend A q); discriminate. }
    destruct (pend A q) as [|x l]; cbn [app].
    + rewrite Hd0 by reflexivity. rewrite Hst. destruct Hc. lia.
    + assumption.
  - intros K. destruct (pend A q); discriminate.
  - apply flags_snoc; auto. unfold flags_ok. rewrite Hst, Hm, Hh. split; reflexivity.
  - rewrite pend_cmds_snoc by assumption. rewrite Ecmd, app_assoc, <- iv_fifo0. reflexivity.
  - intros Hcl. apply chain_snoc with (pe := qe_pos (q_end q)); auto.
    + rewrite Hp16. change (q_end q1) with ne. rewrite Hne. cbn [next_end qe_pos].
      destruct (END_POS A); reflexivity.
    + change (q_end q1) with ne. rewrite Hne. cbn [next_end qe_pos]. unfold next_pos.
      rewrite Hu, Hst. unfold sgn. destruct (c_up c); f_equal; lia.
  - rewrite pend_cmds_snoc by assumption. rewrite Ecmd.
    change (fold_right Z.add 0 (map sdelta ?l)) with (sumd l) in *.
    rewrite sumd_app.
    rewrite Z.add_assoc, <- i32_add_i32, iv_base0.
    change (q_end q1) with ne. rewrite Hne. cbn [next_end qe_pos]. unfold next_pos.
    cbn [sumd fold_right map]. unfold sdelta, sgn. destruct (c_up c); f_equal; lia.
  - intros K. destruct (pend A q); discriminate.
  - intros Hp _. change (has_pin q1) with (has_pin q) in Hp. specialize (Htog Hp).
    assert (Hs : synced s). { apply iv_sync0; auto. right. right. discriminate. }
    unfold synced in *. cbn [h_q h_pins h_started]. fold q in Hs.
    change (q_pin q1) with (q_pin q). change (q_hcu q1) with (q_hcu q). change (q_end q1) with ne.
    rewrite Epend. rewrite Hne. cbn [next_end qe_dir].
    assert (Hcd : cmd_dir c q = Bool.eqb (e_up e) (q_hcu q)) by (unfold cmd_dir; now rewrite Hu).
    destruct (pend A q) as [|x l] eqn:El; cbn [app].
    + rewrite iv_started0 by reflexivity. rewrite Hs. cbn [levels].
      rewrite Htog, Hcd. split; destruct (qe_dir (q_end q)), (Bool.eqb (e_up e) (q_hcu q)); reflexivity.
    + destruct (h_started s).
      * destruct Hs as [Hs1 Hs2]. split; [assumption|].
        apply levels_snoc with (dir := qe_dir (q_end q)); assumption.
      * change (x :: l ++ [e]) with ((x :: l) ++ [e]).
        apply levels_snoc with (dir := qe_dir (q_end q)); assumption.
Qed.

Lemma inv_running s b p : inv s -> (b = true -> nonempty (h_q s) = true \/ q_running (h_q s) = true \/ h_pc s <> Free) ->
  (p <> h_pc s -> p = Free) -> (p = Free \/ p = h_pc s) -> 
  (b = false -> q_running (h_q s) = true) ->
  inv (with_pc p (with_q (set_running b (h_q s)) s)).
Proof.
  intros H Hb Hp1 Hp2 Hf. destruct H.
  constructor; cbn [with_pc with_q h_q h_pins h_pc h_done h_base h_started h_clean h_acc h_left h_log]; auto.
  - destruct Hp2 as [-> | ->]; [exact I|]. exact iv_prep0.
  - intros Hp K. change (has_pin (set_running b (h_q s))) with (has_pin (h_q s)) in Hp.
    assert (Hs : synced s).
    { apply iv_sync0; auto. cbn [q_running set_running] in K.
      destruct b; [auto|]. right. left. auto. }
    exact Hs.
Qed.

Lemma inv_dec s k : inv s -> inv (hstep (EDec k) s).
Proof.
  intros H. cbn [hstep]. set (q := h_q s) in *.
  destruct (nonempty q && q_running q && h_started s && (0 <? k) && (k <=? e_steps (head A q))) eqn:E; [|exact H].
  repeat (apply andb_true_iff in E; destruct E as [E ?]).
  rename E into En.
  destruct H. fold q in iv_wf0, iv_pos0, iv_ent0, iv_done0, iv_started0, iv_fresh0, iv_flags0, iv_fifo0, iv_chain0,
    iv_base0, iv_clean0, iv_prep0, iv_sync0.
  assert (Hn0 : queueEntries q <> 0) by (now apply nonempty_iff).
  pose proof (pend_pop A HA q iv_wf0 Hn0) as Hh. set (e := head A q) in *. set (t := pend A (q_pop q)) in *.
  rewrite Hh in *.
  set (e' := mkEntry (u8 (e_steps e - k)) (e_toggle e) (e_up e) (e_more e) (e_has e) (e_repeat e)
       (e_dirstate e) (e_ticks e) (e_pos16 e)).
  change (q_dec A k q) with (set_head A e' q).
  pose proof (pend_set_head A HA q e' iv_wf0 Hn0) as Ep. fold t in Ep.
  pose proof (Forall_inv iv_ent0) as He. pose proof (Forall_inv_tail iv_ent0) as Hte.
  assert (Hst : u8 (e_steps e - k) = e_steps e - k).
  { unfold u8. apply Z.mod_small. destruct He. lia. }
  assert (Es : e_steps e' = e_steps e - k) by exact Hst.
  assert (Ecmd : cmd_of (h_done s + k) e' = cmd_of (h_done s) e).
  { unfold cmd_of. rewrite Es. cbn [e_ticks e_up e']. f_equal. lia. }
  assert (Esum : h_done s + k + e_steps e' = h_done s + e_steps e) by lia.
  assert (Hsync : has_pin q = true -> synced s).
  { intros Hp. apply iv_sync0; [assumption|]. left. assumption. }
  constructor; cbn [h_q h_pins h_pc h_done h_base h_started h_clean h_acc h_left h_log]; rewrite ?Ep; auto.
  - constructor; [|assumption]. destruct He. split; [assumption|]. rewrite Es. lia.
  - split; [lia|]. split; [discriminate|]. destruct iv_done0 as (_ & _ & ?). lia.
  - discriminate.
  - intros K. congruence.
  - cbn [all_flags] in *. destruct iv_flags0 as [[Hf1 Hf2] Hf3]. split; [|assumption].
    unfold flags_ok. rewrite Esum. split; assumption.
  - cbn [pend_cmds] in *. rewrite Ecmd. assumption.
  - cbn [chain] in *. rewrite Esum. exact iv_chain0.
  - cbn [pend_cmds] in *. rewrite Ecmd. assumption.
  - discriminate.
  - destruct (h_pc s) as [|c ne st|]; auto.
    destruct iv_prep0 as (Hc & Hlt & Hne & Hrest). split; [assumption|]. split; [exact Hlt|].
    split; [exact Hne|]. cbn zeta in *.
    change (q_wr (set_head A e' q)) with (q_wr q).
    rewrite free_set_head by assumption. exact Hrest.
  - intros Hp _. change (has_pin (set_head A e' q)) with (has_pin q) in Hp.
    specialize (Hsync Hp). unfold synced in *. cbn [h_q h_pins h_started]. fold q in Hsync.
    rewrite Ep. rewrite Hh in Hsync. exact Hsync.
  - apply Forall_app. split; [assumption|]. unfold log_line. destruct (has_pin q) eqn:Hp; [|constructor].
    constructor; [|constructor]. cbn [fst snd].
    specialize (Hsync eq_refl). unfold synced in Hsync. fold q in Hsync. rewrite Hh in Hsync.
    match goal with K : h_started s = true |- _ => rewrite K in Hsync end.
    exact (proj1 Hsync).
Qed.

Lemma start_head_q s : h_q (start_head s) = h_q s.
Proof. unfold start_head. destruct (_ && _); reflexivity. Qed.

Lemma inv_pop s : inv s -> inv (hstep EPop s).
Proof.
  intros H. cbn [hstep]. set (q := h_q s) in *.
  destruct (nonempty q && q_running q && h_started s) eqn:E; [|exact H].
  repeat (apply andb_true_iff in E; destruct E as [E ?]). rename E into En.
  apply inv_start; [|cbn [h_q]; assumption].
  destruct H. fold q in iv_wf0, iv_pos0, iv_ent0, iv_done0, iv_started0, iv_fresh0, iv_flags0, iv_fifo0, iv_chain0,
    iv_base0, iv_clean0, iv_prep0, iv_sync0.
  assert (Hn0 : queueEntries q <> 0) by (now apply nonempty_iff).
  pose proof (pend_pop A HA q iv_wf0 Hn0) as Hh. set (e := head A q) in *. set (t := pend A (q_pop q)) in *.
  pose proof (entries_pop A q iv_wf0 Hn0) as Hpe.
  rewrite Hh in *.
  pose proof (Forall_inv iv_ent0) as He. pose proof (Forall_inv_tail iv_ent0) as Hte.
  assert (Hsync : has_pin q = true -> synced s).
  { intros Hp. apply iv_sync0; [assumption|]. left. assumption. }
  assert (Epc : pend_cmds 0 t = map (cmd_of 0) t) by (destruct t; reflexivity).
  constructor; cbn [h_q h_pins h_pc h_done h_base h_started h_clean h_acc h_left h_log]; fold t; auto.
  - now apply wf_pop.
  - split; [lia|]. split; [auto|]. destruct t as [|x t']; [exact I|].
    pose proof (Forall_inv Hte) as [_ ?]. lia.
  - cbn [all_flags] in iv_flags0. tauto.
  - rewrite iv_fifo0. cbn [pend_cmds]. rewrite <- app_assoc, Epc. reflexivity.
  - intros Hcl. apply orb_true_iff in Hcl. destruct Hcl as [Hcl|Hcl].
    + specialize (iv_chain0 Hcl). cbn [chain] in iv_chain0. tauto.
    + assert (Et : t = []). { apply pend_nil. lia. }
      rewrite Et in *. cbn [chain]. cbn [pend_cmds map fold_right] in iv_base0.
      change (q_end (q_pop q)) with (q_end q). rewrite <- iv_base0. f_equal. lia.
  - rewrite Epc. cbn [pend_cmds map fold_right] in iv_base0.
    change (q_end (q_pop q)) with (q_end q). rewrite <- iv_base0. f_equal. lia.
  - intros Et. apply orb_true_iff. right. apply pend_nil in Et. lia.
  - destruct (h_pc s) as [|c ne st|]; auto.
    destruct iv_prep0 as (Hc & Hlt & Hne & Hrest). split; [assumption|]. split; [lia|].
    split; [exact Hne|]. exact Hrest.
  - intros Hp _. change (has_pin (q_pop q)) with (has_pin q) in Hp.
    specialize (Hsync Hp). unfold synced in *. cbn [h_q h_pins h_started]. fold q in Hsync. fold t.
    rewrite Hh in Hsync.
    match goal with K : h_started s = true |- _ => rewrite K in Hsync end.
    destruct Hsync as [Hs1 Hs2].
    change (q_pin (q_pop q)) with (q_pin q). change (q_hcu (q_pop q)) with (q_hcu q).
    change (q_end (q_pop q)) with (q_end q).
    destruct t; exact Hs2.
  - destruct (e_steps e >? 0); [|assumption].
    apply Forall_app. split; [assumption|]. unfold log_line. destruct (has_pin q) eqn:Hp; [|constructor].
    constructor; [|constructor]. cbn [fst snd].
    specialize (Hsync eq_refl). unfold synced in Hsync. fold q in Hsync. rewrite Hh in Hsync.
    match goal with K : h_started s = true |- _ => rewrite K in Hsync end.
    exact (proj1 Hsync).
Qed.

Theorem inv_step s ev : inv s -> ev_ok ev -> inv (hstep ev s).
Proof.
  intros H Hok. destruct ev; cbn [ev_ok] in Hok.
  - now apply inv_begin.
  - now apply inv_commit.
  - cbn [hstep]. destruct (h_pc s) as [| |start] eqn:Epc; try exact H.
    destruct (add_starts start (h_q s)).
    + apply inv_start; [|reflexivity]. apply inv_running; auto; try discriminate.
      intros _. right. right. rewrite Epc. discriminate.
    + destruct H; constructor; cbn [with_pc h_q h_pins h_pc h_done h_base h_started h_clean h_acc h_left h_log]; auto.
      intros Hp K. apply iv_sync0; auto. rewrite Epc. right. right. discriminate.
  - cbn [hstep]. destruct (is_free (h_pc s) && a_started (q_add_null ready start (h_q s) (h_pins s))) eqn:E; [|exact H].
    apply andb_true_iff in E. destruct E as [E1 E2].
    assert (Hne : nonempty (h_q s) = true).
    { unfold q_add_null in E2. destruct ready; cbn [negb] in E2; [|discriminate].
      destruct (start && negb (q_running (h_q s))); [|discriminate].
      destruct (Z.eqb_spec (q_wr (h_q s)) (q_rd (h_q s))) as [K|K]; [discriminate|].
      apply nonempty_iff. intros K2. apply (empty_iff A) in K2; [congruence|]. now destruct H. }
    apply inv_start; [|reflexivity].
    replace (with_q (set_running true (h_q s)) s)
      with (with_pc (h_pc s) (with_q (set_running true (h_q s)) s)) by (destruct s; reflexivity).
    apply inv_running; auto; try discriminate. intros K; contradiction.
  - now apply inv_dec.
  - now apply inv_pop.
  - cbn [hstep]. destruct (nonempty (h_q s) && q_running (h_q s)) eqn:E; [|exact H].
    apply inv_start; [exact H|]. now apply andb_true_iff in E.
  - cbn [hstep]. destruct (negb (nonempty (h_q s)) && q_running (h_q s)) eqn:E; [|exact H].
    apply andb_true_iff in E. destruct E as [E1 E2].
    replace (with_q (set_running false (h_q s)) s)
      with (with_pc (h_pc s) (with_q (set_running false (h_q s)) s)) by (destruct s; reflexivity).
    apply inv_running; auto; try discriminate. intros K; contradiction.
  - cbn [hstep]. destruct (h_pc s) eqn:Epc; cbn [is_free]; try exact H.
    destruct H. destruct (wf_clear A HA _ iv_wf0) as [Hw Hp].
    constructor; cbn [h_q h_pins h_pc h_done h_base h_started h_clean h_acc h_left h_log]; rewrite ?Hp; auto.
    + repeat split; auto. lia.
    + rewrite iv_fifo0. cbn. now rewrite app_nil_r.
    + cbn [chain]. intros _. apply i32_small. exact iv_pos0.
    + cbn. rewrite Z.add_0_r. apply i32_small. exact iv_pos0.
    + intros _ [K|[K|K]]; exfalso.
      * apply pend_ne in K. contradiction.
      * discriminate.
      * congruence.
  - cbn [hstep]. destruct H; constructor;
      cbn [with_q h_q h_pins h_pc h_done h_base h_started h_clean h_acc h_left h_log]; auto.
  - cbn [hstep]. destruct (idle_q s) eqn:E; [|exact H].
    unfold idle_q in E. repeat (apply andb_true_iff in E; destruct E as [E ?]).
    apply negb_true_iff in E. 
    assert (Epc : h_pc s = Free) by (destruct (h_pc s); auto; discriminate).
    destruct H; constructor;
      cbn [with_q h_q h_pins h_pc h_done h_base h_started h_clean h_acc h_left h_log]; auto.
    + rewrite Epc. exact I.
    + intros _ [K|[K|K]]; exfalso.
      * change (nonempty (h_q s) = true) in K. congruence.
      * cbn [set_dir q_running] in K. rewrite K in *. discriminate.
      * congruence.
  - cbn [hstep]. destruct (h_pc s) eqn:Epc; cbn [is_free]; try exact H.
    destruct H; constructor;
      cbn [set_end h_q h_pins h_pc h_done h_base h_started h_clean h_acc h_left h_log q_end qe_pos]; auto.
    + intros Hcl. apply andb_true_iff in Hcl. destruct Hcl as [Hcl Hne].
      apply negb_true_iff in Hne. pose proof Hne as Hn2. apply nonempty_false in Hn2.
      change (pend A (set_end _ (h_q s))) with (pend A (h_q s)).
      change (chain p (h_base s + (p - qe_pos (q_end (h_q s)))) (h_done s) (pend A (h_q s))).
      specialize (iv_chain0 Hcl). rewrite Hn2 in *. cbn [chain] in *.
      rewrite <- i32_add_i32, iv_chain0. rewrite i32_small; lia.
    + change (i32 (h_base s + (p - qe_pos (q_end (h_q s))) +
                   sumd (pend_cmds (h_done s) (pend A (h_q s)))) = p).
      change (fold_right Z.add 0 (map sdelta ?l)) with (sumd l) in iv_base0.
      replace (h_base s + (p - qe_pos (q_end (h_q s))) + sumd (pend_cmds (h_done s) (pend A (h_q s))))
        with (h_base s + sumd (pend_cmds (h_done s) (pend A (h_q s))) + (p - qe_pos (q_end (h_q s)))) by lia.
      rewrite <- i32_add_i32, iv_base0. rewrite i32_small; lia.
    + intros K. change (pend A (h_q s) = []) in K. apply andb_true_iff. split; [auto|].
      apply nonempty_false in K. now rewrite K.
    + rewrite Epc in iv_sync0. exact iv_sync0.
  - cbn [hstep]. destruct (idle_q s) eqn:E; [|exact H].
    unfold idle_q in E. repeat (apply andb_true_iff in E; destruct E as [E ?]).
    apply negb_true_iff in E. 
    assert (Epc : h_pc s = Free) by (destruct (h_pc s); auto; discriminate).
    destruct H; constructor;
      cbn [with_q h_q h_pins h_pc h_done h_base h_started h_clean h_acc h_left h_log]; auto.
    intros _ [K|[K|K]]; exfalso; try congruence.
    rewrite K in *. discriminate.
Qed.

Theorem inv_run : forall evs s, inv s -> Forall ev_ok evs -> inv (hrun evs s).
Proof.
  induction evs as [|ev evs IH]; intros s H Hok; cbn [hrun]; [assumption|].
  apply IH; [apply inv_step|]; inversion Hok; auto.
Qed.

Lemma inv_init garbage p test : inv (hinit garbage p test).
Proof.
  assert (E : queueEntries (q_init A garbage test) = 0) by reflexivity.
  assert (Ep : pend A (q_init A garbage test) = []) by (apply pend_nil; exact E).
  constructor; cbn [hinit h_q h_pins h_pc h_done h_base h_started h_clean h_acc h_left h_log]; rewrite ?Ep; auto.
  - split; [cbn; lia|]. split; [cbn; lia|]. rewrite E. destruct (ql_cases A HA); lia.
  - cbn. lia.
  - repeat split; auto. lia.
  - exact I.
  - intros _ [K|[K|K]]; exfalso; try discriminate. congruence.
Qed.
End WithArch.
