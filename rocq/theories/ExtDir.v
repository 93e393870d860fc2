(** * ExtDir: the direction pin behind an external function
    Model of the pieces that handle a direction pin with PIN_EXTERNAL_FLAG: the flag
    repeat_entry set by addQueueEntry() (Queue.v), the interrupt that repeats a flagged
    entry, and externalDirPinChangeCompletedIfNeeded() called by the task.

    The actions may come in any order (in particular the interrupt and the task may run
    between preparing and committing a command). *)
From Coq Require Import ZArith Bool List Lia.
From Verif Require Import Base Queue QueueFacts.
Import ListNotations.
Open Scope Z_scope.
Ltac Zify.zify_post_hook ::= idtac.

(** One stepper with external direction pin. [x_lvl]: level the external function has
    reported last; [x_pc]: command prepared in the free slot, not yet committed, with its
    queue end; [x_log]: for every step made, the level of the direction pin at that time
    and the level the command asks for, newest first; [x_again]: steps made by repeating
    an entry that has steps *)
Record xst := mkX {
  x_q : queue;
  x_lvl : bool;
  x_pc : option (command * queue_end);
  x_log : list (bool * bool);
  x_again : Z
}.

Section WithArch.
Variable A : arch.

(** src/StepperISR.h:126-135 *)
Definition isOnRepeatingEntry (q : queue) : bool := e_repeat (head A q).
Definition dirPinState (q : queue) : bool := e_dirstate (head A q).
Definition clearRepeatingFlag (q : queue) : queue :=
  let e := head A q in
  set_ent (upd (q_ent q) (slot A (q_rd q))
    (mkEntry (e_steps e) (e_toggle e) (e_up e) (e_more e) (e_has e) false
       (e_dirstate e) (e_ticks e) (e_pos16 e))) q.

(** externalDirPinChangeCompletedIfNeeded(): src/FastAccelStepper.cpp:335-353. [f] is
    [_engine->_externalCallForPin]. Result: queue, level of the pin, return value. *)
Definition extDirStep (f : option (Z -> bool -> bool)) (q : queue) (lvl : bool)
  : queue * bool * bool :=
  if negb (q_pin q =? PIN_UNDEFINED) && is_external (q_pin q) then
    if isOnRepeatingEntry q then
      match f with
      | Some g =>
        let ns := g (q_pin q) (dirPinState q) in
        if negb (Bool.eqb ns (dirPinState q)) then (q, ns, false)
        else (clearRepeatingFlag q, ns, true)
      | None => (q, lvl, true)
      end
    else (q, lvl, true)
  else (q, lvl, true).

(** src/FastAccelStepper.cpp:529-542 with src/StepperISR.h:47-50: setDirectionPin() tells
    the external function the level for counting up; queue_end is left as it is *)
Definition x_setDirectionPin (f : option (Z -> bool -> bool)) (pin : Z) (hcu : bool)
    (s : xst) : xst :=
  mkX (set_dir pin hcu (x_q s))
      (match f with Some g => g pin hcu | None => x_lvl s end)
      (x_pc s) (x_log s) (x_again s).

(** Actions *)
Inductive xev :=
| XBegin (ready : bool) (c : command)   (* addQueueEntry up to src/StepperISR.cpp:120 *)
| XCommit (ready : bool)                (* src/StepperISR.cpp:122-133 *)
| XDec (k : Z)                          (* interrupt: k steps of the current entry *)
| XEnd                                  (* interrupt: the current entry is through *)
| XTask (f : option (Z -> bool -> bool))
| XClear                                (* StepperQueue::forceStop(), called by forceStopAndNewPosition() *)
| XIgnore (b : bool).                   (* forceStop() sets, fill_queue() clears it *)

(** The interrupt at the end of an entry: src/StepperISR_avr.cpp:74, 177-199;
    src/StepperISR_idf5_esp32_rmt.cpp:176-184; src/StepperISR_idf4_esp32_mcpwm_pcnt.cpp:273-290:
    a flagged entry is not removed. Its last step, if it has one, is made again and
    again. *)
Definition x_end (s : xst) : xst :=
  let q := x_q s in
  if queueEntries q =? 0 then s
  else
    let e := head A q in
    let log := if e_steps e =? 0 then x_log s
               else (x_lvl s, Bool.eqb (e_up e) (q_hcu q)) :: x_log s in
    if e_repeat e
    then mkX q (x_lvl s) (x_pc s) log (x_again s + e_steps e)
    else mkX (q_pop q) (x_lvl s) (x_pc s) log (x_again s).

Definition xstep (e : xev) (s : xst) : xst :=
  let q := x_q s in
  match e with
  | XBegin ready c =>
    match x_pc s with
    | Some _ => s
    | None =>
      if add_check A ready c q =? AQE_OK
      then mkX (fst (add_prepare A true c q (fun _ => false))) (x_lvl s)
               (Some (c, next_end c q)) (x_log s) (x_again s)
      else s
    end
  | XCommit ready =>
    match x_pc s with
    | None => s
    | Some (_, ne) => mkX (fst (add_commit ready ne q)) (x_lvl s) None (x_log s) (x_again s)
    end
  | XDec k =>
    if queueEntries q =? 0 then s
    else if (0 <? k) && (k <? e_steps (head A q)) then
      mkX (q_dec A k q) (x_lvl s) (x_pc s)
          ((x_lvl s, Bool.eqb (e_up (head A q)) (q_hcu q)) :: x_log s) (x_again s)
    else s
  | XEnd => x_end s
  | XTask f =>
    let '(q', lvl', _) := extDirStep f q (x_lvl s) in
    mkX q' lvl' (x_pc s) (x_log s) (x_again s)
  | XClear =>
    match x_pc s with
    | Some _ => s
    | None => mkX (q_clear q) (x_lvl s) None (x_log s) (x_again s)
    end
  | XIgnore b => mkX (set_ignore b q) (x_lvl s) (x_pc s) (x_log s) (x_again s)
  end.

Fixpoint xrun (evs : list xev) (s : xst) : xst :=
  match evs with [] => s | e :: t => xrun t (xstep e s) end.

(** ** What is asked of the history
    A command that makes steps has the direction of the command before it (the front end
    puts pauses in between); a command that turns the direction is not dropped when it is
    committed; the forced stop comes only when no turn is pending; the external function
    reports what it was asked to set, or leaves the pin alone. *)
Definition good_call (lvl : bool) (f : option (Z -> bool -> bool)) (q : queue) : Prop :=
  match f with
  | None => True
  | Some g => let l := e_dirstate (head A q) in g (q_pin q) l = l \/ g (q_pin q) l = lvl
  end.
Definition fine (e : xev) (s : xst) : Prop :=
  let q := x_q s in
  match e with
  | XBegin _ c => 0 <= c_steps c < 256 /\ (c_steps c = 0 \/ c_up c = qe_up (q_end q))
  | XCommit r => match x_pc s with
                 | None => True
                 | Some (c, _) => (q_ignore q = false /\ r = true) \/ c_up c = qe_up (q_end q)
                 end
  | XTask f => good_call (x_lvl s) f q
  | XClear => Forall (fun e => e_repeat e = false) (pend A q)
  | _ => True
  end.
Fixpoint all_fine (evs : list xev) (s : xst) : Prop :=
  match evs with [] => True | e :: t => fine e s /\ all_fine t (xstep e s) end.

(** The start: nothing in the queue, no flag set in the array, an external pin at the
    level belonging to the direction of the queue end *)
Definition xstart (s : xst) : Prop :=
  wf A (x_q s) /\ queueEntries (x_q s) = 0 /\ x_pc s = None /\
  (forall i, e_repeat (q_ent (x_q s) i) = false) /\
  q_pin (x_q s) <> PIN_UNDEFINED /\ is_external (q_pin (x_q s)) = true /\
  qe_dir (q_end (x_q s)) = Bool.eqb (qe_up (q_end (x_q s))) (q_hcu (x_q s)) /\
  x_lvl s = qe_dir (q_end (x_q s)) /\ x_log s = [] /\ x_again s = 0.

Hypothesis HA : In A all_archs.
Notation L := (QUEUE_LEN A).
Ltac splits := repeat match goal with |- _ /\ _ => split end.

(** ** The invariant *)
Fixpoint lv (hcu : bool) (l : bool) (es : list entry) (fin : bool) : Prop :=
  match es with
  | [] => l = fin
  | e :: t =>
    let l' := if e_repeat e then e_dirstate e else l in
    l' = Bool.eqb (e_up e) hcu /\ (e_repeat e = true -> e_steps e = 0) /\ lv hcu l' t fin
  end.
Definition clean (q : queue) (busy : bool) : Prop :=
  forall k, queueEntries q <= Z.of_nat k < L -> (busy = true -> Z.of_nat k <> queueEntries q) ->
  e_repeat (ent_at A q k) = false.
Definition free (q : queue) : entry := q_ent q (slot A (q_wr q)).

Definition xinv (s : xst) : Prop :=
  let q := x_q s in
  wf A q /\
  q_pin q <> PIN_UNDEFINED /\ is_external (q_pin q) = true /\
  qe_dir (q_end q) = Bool.eqb (qe_up (q_end q)) (q_hcu q) /\
  clean q (match x_pc s with None => false | _ => true end) /\
  match x_pc s with
  | None => lv (q_hcu q) (x_lvl s) (pend A q) (qe_dir (q_end q))
  | Some (c, ne) =>
    queueEntries q < L /\
    ne = next_end c q /\
    (c_up c = qe_up (q_end q) -> e_repeat (free q) = false) /\
    lv (q_hcu q) (x_lvl s) (pend A q ++ [free q]) (cmd_dir c q)
  end /\
  Forall (fun p => fst p = snd p) (x_log s) /\ x_again s = 0.

Lemma lv_app hcu : forall a l b fin, lv hcu l (a ++ b) fin <->
  exists m, lv hcu l a m /\ lv hcu m b fin.
Proof.
  induction a as [|e a IH]; intros l b fin; cbn [app lv].
  - split; [intros H; exists l; auto | intros (m & -> & H); exact H].
  - split.
    + intros (H1 & H2 & H3). apply IH in H3. destruct H3 as (m & H3 & H4).
      exists m. splits; auto.
    + intros (m & (H1 & H2 & H3) & H4). splits; auto. apply IH. exists m. auto.
Qed.

Lemma HL : 0 < L.
Proof. destruct (ql_cases A HA); lia. Qed.

Lemma lv_same hcu : forall es l fin, Forall (fun e => e_repeat e = false) es ->
  lv hcu l es fin -> l = fin.
Proof.
  induction es as [|e es IH]; intros l fin H; cbn [lv]; [auto|].
  inversion H as [|? ? He Hes]; subst. rewrite He. intros (_ & _ & H3). exact (IH _ _ Hes H3).
Qed.

Lemma inv_start s : xstart s -> xinv s.
Proof.
  intros (H1 & H2 & H3 & H4 & H5 & H6 & H7 & H8 & H9 & H10). unfold xinv. rewrite H3, H9.
  splits; auto.
  - intros k _ _. apply H4.
  - rewrite (proj2 (pend_nil A (x_q s)) H2). cbn [lv]. exact H8.
Qed.

Lemma ent_at_upd_free q e k : wf A q -> queueEntries q < L -> Z.of_nat k < L ->
  Z.of_nat k <> queueEntries q ->
  ent_at A (set_ent (upd (q_ent q) (slot A (q_wr q)) e) q) k = ent_at A q k.
Proof.
  intros Hw Hl Hk Hn. unfold ent_at. cbn [set_ent q_ent q_rd]. unfold upd.
  rewrite (slot_wr A HA q Hw).
  destruct (Z.eqb_spec ((q_rd q + Z.of_nat k) mod L) ((q_rd q + queueEntries q) mod L)) as [E|E];
    [|reflexivity].
  exfalso. apply Hn. pose proof (entries_range q).
  apply (slot_inj A HA (q_rd q)); auto; lia.
Qed.
Lemma ent_at_upd_head q e k : wf A q -> Z.of_nat k < L -> (k <> 0)%nat ->
  ent_at A (set_ent (upd (q_ent q) (slot A (q_rd q)) e) q) k = ent_at A q k.
Proof.
  intros Hw Hk Hn. unfold ent_at. cbn [set_ent q_ent q_rd]. unfold upd.
  rewrite (slot_mod A HA).
  destruct (Z.eqb_spec ((q_rd q + Z.of_nat k) mod L) (q_rd q mod L)) as [E|E]; [|reflexivity].
  exfalso. apply Hn. replace (q_rd q mod L) with ((q_rd q + 0) mod L) in E by (f_equal; lia).
  pose proof HL. apply (slot_inj A HA (q_rd q)) in E; lia.
Qed.
Lemma free_ent q : wf A q -> free q = ent_at A q (Z.to_nat (queueEntries q)).
Proof.
  intros Hw. unfold free, ent_at. pose proof (entries_range q).
  rewrite (slot_wr A HA q Hw). rewrite Z2Nat.id by lia. reflexivity.
Qed.
Lemma free_upd q e : free (set_ent (upd (q_ent q) (slot A (q_wr q)) e) q) = e.
Proof. unfold free. cbn [set_ent q_ent q_wr]. unfold upd. rewrite Z.eqb_refl. reflexivity. Qed.

Lemma not_direct q : is_external (q_pin q) = true -> direct_dir q = false.
Proof. intros H. unfold direct_dir. rewrite H. cbn. apply andb_false_r. Qed.

Lemma inv_begin ready c s : xinv s -> fine (XBegin ready c) s -> xinv (xstep (XBegin ready c) s).
Proof.
  intros I F. cbn [xstep]. destruct (x_pc s) as [pc|] eqn:EP; [exact I|].
  destruct (Z.eqb_spec (add_check A ready c (x_q s)) AQE_OK) as [EC|EC]; [|exact I].
  destruct I as (Hw & Hp & Hx & Hd & Hc & Hlv & Hlog & Hag). rewrite EP in Hc, Hlv.
  cbn [fine] in F. destruct F as (Fr & F).
  set (q := x_q s) in *.
  assert (Hfull : queueEntries q < L).
  { unfold add_check in EC. destruct ready; cbn [negb] in EC; [|discriminate EC].
    unfold isQueueFull in EC. destruct (Z.eqb_spec (queueEntries q) L) as [E|E]; [discriminate EC|].
    destruct Hw as (_ & _ & Hw). lia. }
  unfold add_prepare. rewrite (not_direct q Hx). cbn [fst].
  unfold xinv. cbn [x_q x_pc x_lvl x_log x_again].
  set (q' := set_ent (upd (q_ent q) (slot A (q_wr q)) (new_entry A true c q)) q).
  assert (Erep : to_repeat true c q = negb (Bool.eqb (cmd_dir c q) (qe_dir (q_end q)))).
  { unfold to_repeat, dir_differs. rewrite (not_direct q Hx), Hx.
    destruct (Z.eqb_spec (q_pin q) PIN_UNDEFINED) as [E|E]; [contradiction|].
    cbn. now rewrite andb_true_r. }
  splits; auto.
  - intros k Hk Hn. unfold q'. rewrite ent_at_upd_free;
      [apply Hc; [exact Hk|discriminate]|exact Hw|exact Hfull|lia|].
    apply Hn. reflexivity.
  - unfold q'. rewrite free_upd. intros E. unfold new_entry. cbn [e_repeat].
    rewrite Erep, Hd.
    unfold cmd_dir. cbn [set_ent q_end] in E. rewrite E.
    destruct (qe_up (q_end q)), (q_hcu q); reflexivity.
  - unfold q'. rewrite pend_upd_free by auto. rewrite free_upd.
    apply lv_app. exists (qe_dir (q_end q)). split; [exact Hlv|].
    change (lv (q_hcu q) (qe_dir (q_end q)) [new_entry A true c q] (cmd_dir c q)).
    cbn [lv].
    change (e_repeat (new_entry A true c q)) with (to_repeat true c q).
    change (e_dirstate (new_entry A true c q)) with (cmd_dir c q).
    change (e_steps (new_entry A true c q)) with (c_steps c).
    change (e_up (new_entry A true c q)) with (c_up c).
    rewrite Erep.
    assert (Ec : (if negb (Bool.eqb (cmd_dir c q) (qe_dir (q_end q))) then cmd_dir c q
                  else qe_dir (q_end q)) = cmd_dir c q)
      by (destruct (cmd_dir c q), (qe_dir (q_end q)); reflexivity).
    rewrite Ec. splits; try reflexivity.
    intros E. destruct F as [F|F]; [exact F|].
    exfalso. rewrite Hd in E. unfold cmd_dir in E. rewrite F in E.
    destruct (qe_up (q_end q)), (q_hcu q); discriminate E.
Qed.

Lemma inv_commit ready s : xinv s -> fine (XCommit ready) s -> xinv (xstep (XCommit ready) s).
Proof.
  intros I F. cbn [xstep]. destruct (x_pc s) as [[c ne]|] eqn:EP; [|exact I].
  destruct I as (Hw & Hp & Hx & Hd & Hc & Hlv & Hlog & Hag). rewrite EP in Hc, Hlv.
  cbn [fine] in F. rewrite EP in F. destruct Hlv as (Hfull & -> & Hre & Hlv).
  set (q := x_q s) in *.
  assert (Cup : c_up c = qe_up (q_end q) -> cmd_dir c q = qe_dir (q_end q))
    by (intros E; rewrite Hd; unfold cmd_dir; now rewrite E).
  assert (Drop : c_up c = qe_up (q_end q) ->
    xinv (mkX q (x_lvl s) None (x_log s) (x_again s))).
  { intros E. unfold xinv. cbn [x_q x_pc x_lvl x_log x_again]. splits; auto.
    - intros k Hk _. destruct (Z.eq_dec (Z.of_nat k) (queueEntries q)) as [Ek|Ek].
      + rewrite <- (Hre E), free_ent by assumption. rewrite <- Ek, Nat2Z.id. reflexivity.
      + apply Hc; auto.
    - apply lv_app in Hlv. destruct Hlv as (m & H1 & H2). cbn [lv] in H2.
      rewrite (Hre E) in H2. destruct H2 as (H2 & _ & H3). rewrite <- (Cup E), <- H3. exact H1. }
  unfold add_commit. destruct (q_ignore q) eqn:EI.
  - apply Drop. destruct F as [[F _]|F]; [discriminate F|exact F].
  - destruct ready; cbn [fst].
    + unfold xinv. cbn [x_q x_pc x_lvl x_log x_again].
      splits; auto.
      * now apply wf_commit.
      * intros k Hk _. rewrite (entries_commit A HA) in Hk by auto.
        change (e_repeat (ent_at A q k) = false). apply Hc; lia.
      * rewrite pend_commit by auto. exact Hlv.
    + apply Drop. destruct F as [[_ F]|F]; [discriminate F|exact F].
Qed.

(** replacing the current entry *)
Lemma clean_head q e b : wf A q -> queueEntries q <> 0 -> clean q b ->
  clean (set_head A e q) b.
Proof.
  intros Hw Hn Hc k Hk Hb. unfold set_head in *. pose proof (entries_range q).
  rewrite ent_at_upd_head; auto.
  - lia.
  - change (queueEntries (set_ent (upd (q_ent q) (slot A (q_rd q)) e) q)) with (queueEntries q) in Hk. lia.
Qed.

Lemma inv_dec k s : xinv s -> xinv (xstep (XDec k) s).
Proof.
  intros I. cbn [xstep]. destruct (Z.eqb_spec (queueEntries (x_q s)) 0) as [E0|E0]; [exact I|].
  destruct ((0 <? k) && (k <? e_steps (head A (x_q s)))) eqn:EK; [|exact I].
  apply andb_true_iff in EK. destruct EK as [K1 K2]. apply Z.ltb_lt in K1, K2.
  destruct I as (Hw & Hp & Hx & Hd & Hc & Hlv & Hlog & Hag).
  set (q := x_q s) in *.
  set (e' := mkEntry (u8 (e_steps (head A q) - k)) (e_toggle (head A q)) (e_up (head A q))
     (e_more (head A q)) (e_has (head A q)) (e_repeat (head A q)) (e_dirstate (head A q))
     (e_ticks (head A q)) (e_pos16 (head A q))).
  assert (Eq : q_dec A k q = set_head A e' q) by reflexivity.
  assert (Hh : forall t fin, lv (q_hcu q) (x_lvl s) (head A q :: t) fin ->
     e_repeat (head A q) = false /\ x_lvl s = Bool.eqb (e_up (head A q)) (q_hcu q) /\
     lv (q_hcu q) (x_lvl s) (e' :: t) fin).
  { intros t fin. cbn [lv]. intros (H1 & H2 & H3).
    assert (Er : e_repeat (head A q) = false).
    { destruct (e_repeat (head A q)); [|reflexivity]. specialize (H2 eq_refl). lia. }
    unfold e'. cbn [e_repeat e_up e_steps e_dirstate]. rewrite Er in *. splits; auto.
    intros; discriminate. }
  unfold xinv. cbn [x_q x_pc x_lvl x_log x_again]. rewrite Eq.
  assert (Hp1 := pend_pop A HA q Hw E0). assert (Hp2 := pend_set_head A HA q e' Hw E0).
  destruct (x_pc s) as [[c ne]|].
  - destruct Hlv as (Hfull & Hne & Hre & Hlv). rewrite Hp1 in Hlv. cbn [app] in Hlv.
    destruct (Hh _ _ Hlv) as (Er & El & Hlv').
    splits; auto.
    + apply clean_head; auto.
    + unfold free. change (q_wr (set_head A e' q)) with (q_wr q). rewrite free_set_head by auto. exact Hre.
    + rewrite Hp2. unfold free. change (q_wr (set_head A e' q)) with (q_wr q).
      rewrite free_set_head by auto. exact Hlv'.
  - rewrite Hp1 in Hlv. destruct (Hh _ _ Hlv) as (Er & El & Hlv').
    splits; auto.
    + apply clean_head; auto.
    + rewrite Hp2. exact Hlv'.
Qed.

Lemma clean_pop q b : wf A q -> queueEntries q <> 0 -> e_repeat (head A q) = false ->
  clean q b -> clean (q_pop q) b.
Proof.
  intros Hw Hn Hr Hc k Hk Hb. rewrite (entries_pop A) in * by auto.
  assert (E : ent_at A (q_pop q) k = q_ent q ((q_rd q + (Z.of_nat k + 1)) mod L)).
  { unfold ent_at, q_pop. cbn [set_rd q_ent q_rd]. rewrite (mod_u8_add A HA). f_equal. f_equal. lia. }
  rewrite E. destruct (Z.eq_dec (Z.of_nat k + 1) L) as [El|El].
  - rewrite El. replace ((q_rd q + L) mod L) with ((q_rd q + 0) mod L).
    + rewrite (head_ent A HA) in Hr. exact Hr.
    + rewrite Z.add_0_r. replace (q_rd q + L) with (q_rd q + 1 * L) by lia.
      symmetry. apply Z_mod_plus_full.
  - replace (Z.of_nat k + 1) with (Z.of_nat (S k)) by lia.
    apply Hc; lia.
Qed.

Lemma inv_end s : xinv s -> xinv (xstep XEnd s).
Proof.
  intros I. cbn [xstep]. unfold x_end.
  destruct (Z.eqb_spec (queueEntries (x_q s)) 0) as [E0|E0]; [exact I|].
  destruct I as (Hw & Hp & Hx & Hd & Hc & Hlv & Hlog & Hag).
  set (q := x_q s) in *. set (h := head A q) in *.
  assert (Hh : exists t fin, lv (q_hcu q) (x_lvl s) (h :: t) fin).
  { destruct (x_pc s) as [[c ne]|].
    - destruct Hlv as (_ & _ & _ & Hlv). rewrite (pend_pop A HA q Hw E0) in Hlv.
      cbn [app] in Hlv. eexists _, _. exact Hlv.
    - rewrite (pend_pop A HA q Hw E0) in Hlv. eexists _, _. exact Hlv. }
  destruct Hh as (t0 & f0 & Hh). cbn [lv] in Hh. destruct Hh as (H1 & H2 & _).
  assert (Hlog' : Forall (fun p : bool * bool => fst p = snd p)
    (if e_steps h =? 0 then x_log s else (x_lvl s, Bool.eqb (e_up h) (q_hcu q)) :: x_log s)).
  { destruct (Z.eqb_spec (e_steps h) 0) as [Es|Es]; [exact Hlog|].
    constructor; [|exact Hlog]. cbn [fst snd].
    destruct (e_repeat h); [exfalso; apply Es; apply H2; reflexivity|exact H1]. }
  destruct (e_repeat h) eqn:Er.
  - unfold xinv. cbn [x_q x_pc x_lvl x_log x_again]. splits; auto.
    rewrite (H2 eq_refl). lia.
  - unfold xinv. cbn [x_q x_pc x_lvl x_log x_again].
    assert (Hlv' : forall t fin, lv (q_hcu q) (x_lvl s) (h :: t) fin -> lv (q_hcu q) (x_lvl s) t fin).
    { intros t fin. cbn [lv]. rewrite Er. tauto. }
    assert (Hw' := wf_pop A q Hw E0).
    splits; auto.
    + apply clean_pop; auto.
    + rewrite (pend_pop A HA q Hw E0) in Hlv. destruct (x_pc s) as [[c ne]|].
      * destruct Hlv as (Hfull & Hne & Hre & Hlv). cbn [app] in Hlv. apply Hlv' in Hlv.
        splits; [rewrite (entries_pop A) by auto; lia|exact Hne|exact Hre|exact Hlv].
      * apply Hlv' in Hlv. exact Hlv.
Qed.

Lemma inv_task f s : xinv s -> fine (XTask f) s -> xinv (xstep (XTask f) s).
Proof.
  intros I F. cbn [xstep]. unfold extDirStep.
  destruct (negb (q_pin (x_q s) =? PIN_UNDEFINED) && is_external (q_pin (x_q s)));
    [|destruct s; exact I].
  destruct (isOnRepeatingEntry (x_q s)) eqn:ER; [|destruct s; exact I].
  destruct f as [g|]; [|destruct s; exact I].
  cbn [fine good_call] in F. unfold isOnRepeatingEntry in ER. unfold dirPinState.
  set (q := x_q s) in *. set (h := head A q) in *.
  destruct (Bool.eqb (g (q_pin q) (e_dirstate h)) (e_dirstate h)) eqn:EG; cbn [negb].
  2:{ destruct F as [F|F]; [rewrite F, Bool.eqb_reflx in EG; discriminate EG|].
      rewrite F. destruct s; exact I. }
  apply Bool.eqb_prop in EG. rewrite EG. clear F.
  destruct I as (Hw & Hp & Hx & Hd & Hc & Hlv & Hlog & Hag). fold q in Hw, Hp, Hx, Hd, Hc, Hlv.
  set (e' := mkEntry (e_steps h) (e_toggle h) (e_up h) (e_more h) (e_has h) false
       (e_dirstate h) (e_ticks h) (e_pos16 h)).
  assert (Eq : clearRepeatingFlag q = set_head A e' q) by reflexivity.
  rewrite Eq. unfold xinv. cbn [x_q x_pc x_lvl x_log x_again].
  assert (Hh : forall t fin, lv (q_hcu q) (x_lvl s) (h :: t) fin ->
     lv (q_hcu q) (e_dirstate h) (e' :: t) fin).
  { intros t fin. cbn [lv]. rewrite ER. unfold e'. cbn [e_repeat e_up].
    intros (H1 & H2 & H3). splits; auto. }
  destruct (Z.eq_dec (queueEntries q) 0) as [E0|E0].
  - (* empty: the flag belongs to the prepared command *)
    assert (EH : h = free q).
    { unfold h, free, head. f_equal. f_equal. apply (empty_iff A q Hw). exact E0. }
    assert (En : pend A q = []) by (now apply pend_nil).
    assert (En' : pend A (set_head A e' q) = []) by (now apply pend_nil).
    assert (Ef : free (set_head A e' q) = e').
    { unfold free, set_head. cbn [set_ent q_ent q_wr]. unfold upd.
      rewrite (proj2 (empty_iff A q Hw) E0), Z.eqb_refl. reflexivity. }
    destruct (x_pc s) as [[c ne]|].
    + destruct Hlv as (Hfull & Hne & Hre & Hlv). rewrite En in Hlv. cbn [app] in Hlv.
      splits; auto.
      * intros k Hk Hn. unfold set_head. rewrite ent_at_upd_head;
          [apply Hc; [exact Hk|exact Hn]|exact Hw|lia|].
        intros ->. apply Hn; [reflexivity|]. exact (eq_sym E0).
      * rewrite Ef. intros _. reflexivity.
      * rewrite En', Ef. cbn [app]. rewrite <- EH in Hlv. apply Hh. exact Hlv.
    + exfalso. specialize (Hc 0%nat).
      assert (e_repeat (ent_at A q 0) = false) by (pose proof HL; apply Hc; [lia|discriminate]).
      rewrite <- (head_ent A HA) in H. fold h in H. congruence.
  - assert (Hp1 := pend_pop A HA q Hw E0). assert (Hp2 := pend_set_head A HA q e' Hw E0).
    destruct (x_pc s) as [[c ne]|].
    + destruct Hlv as (Hfull & Hne & Hre & Hlv). rewrite Hp1 in Hlv. cbn [app] in Hlv.
      splits; auto.
      * apply clean_head; auto.
      * unfold free. change (q_wr (set_head A e' q)) with (q_wr q). rewrite free_set_head by auto. exact Hre.
      * rewrite Hp2. unfold free. change (q_wr (set_head A e' q)) with (q_wr q).
        rewrite free_set_head by auto. cbn [app]. apply Hh. exact Hlv.
    + rewrite Hp1 in Hlv. splits; auto.
      * apply clean_head; auto.
      * rewrite Hp2. apply Hh. exact Hlv.
Qed.

Lemma inv_clear s : xinv s -> fine XClear s -> xinv (xstep XClear s).
Proof.
  intros I F. cbn [xstep]. destruct (x_pc s) eqn:EP; [exact I|].
  destruct I as (Hw & Hp & Hx & Hd & Hc & Hlv & Hlog & Hag). rewrite EP in Hc, Hlv.
  cbn [fine] in F. set (q := x_q s) in *.
  destruct (wf_clear A HA q Hw) as [Hw' Hn].
  unfold xinv. cbn [x_q x_pc x_lvl x_log x_again]. splits; auto.
  - intros k Hk _. pose proof HL. pose proof (entries_range q).
    assert (E : ent_at A (q_clear q) k = q_ent q ((q_rd q + (queueEntries q + Z.of_nat k)) mod L)).
    { unfold ent_at, q_clear. cbn [set_running set_rd q_ent q_rd]. rewrite (wr_eq A q Hw) at 1.
      rewrite (mod_u8_add A HA). f_equal. f_equal. lia. }
    rewrite E. destruct (Z_lt_ge_dec (queueEntries q + Z.of_nat k) L) as [G|G].
    + specialize (Hc (Z.to_nat (queueEntries q + Z.of_nat k))). unfold ent_at in Hc.
      rewrite Z2Nat.id in Hc by lia. apply Hc; [lia|discriminate].
    + replace (q_rd q + (queueEntries q + Z.of_nat k))
        with (q_rd q + Z.of_nat (Z.to_nat (queueEntries q + Z.of_nat k - L)) + 1 * L)
        by (rewrite Z2Nat.id by lia; lia).
      rewrite Z_mod_plus_full.
      rewrite Forall_forall in F. apply F. unfold pend.
      change (q_ent q ((q_rd q + Z.of_nat (Z.to_nat (queueEntries q + Z.of_nat k - L))) mod L))
        with (ent_at A q (Z.to_nat (queueEntries q + Z.of_nat k - L))).
      apply in_map. apply in_seq. destruct Hw as (_ & _ & Hw).
      change (queueEntries (q_clear q)) with (u8 (q_wr q - q_wr q)) in Hk. lia.
  - rewrite Hn. cbn [lv]. exact (lv_same _ _ _ _ F Hlv).
Qed.

Lemma inv_xstep e s : xinv s -> fine e s -> xinv (xstep e s).
Proof.
  intros I F. destruct e.
  - now apply inv_begin.
  - now apply inv_commit.
  - now apply inv_dec.
  - now apply inv_end.
  - now apply inv_task.
  - now apply inv_clear.
  - exact I.
Qed.

Lemma inv_xrun : forall evs s, xinv s -> all_fine evs s -> xinv (xrun evs s).
Proof.
  induction evs as [|e t IH]; intros s I F; [exact I|].
  cbn [xrun all_fine] in *. destruct F as [F1 F2]. apply IH; [|exact F2].
  apply inv_xstep; assumption.
Qed.

(** Every step is made at the level its command asks for, and no step is repeated *)
Theorem ext_levels s evs : xstart s -> all_fine evs s ->
  Forall (fun p => fst p = snd p) (x_log (xrun evs s)) /\ x_again (xrun evs s) = 0.
Proof.
  intros S F. pose proof (inv_xrun evs s (inv_start s S) F) as I.
  destruct I as (_ & _ & _ & _ & _ & _ & H1 & H2). auto.
Qed.

(** After setDirectionPin() with dirHighCountsUp = true on a fresh queue the start
    condition holds, if the external function obeys *)
Lemma start_up g pin garbage test : pin <> PIN_UNDEFINED -> is_external pin = true ->
  g pin true = true -> (forall i, e_repeat (garbage i) = false) ->
  xstart (x_setDirectionPin (Some g) pin true (mkX (q_init A garbage test) false None [] 0)).
Proof.
  intros H1 H2 H3 H4. unfold xstart, x_setDirectionPin. cbn [x_q x_lvl x_pc x_log x_again].
  unfold set_dir. cbn [q_init q_rd q_wr q_ent q_pin q_end q_hcu qe_dir qe_up].
  assert (HE : forall q, q_rd q = 0 -> q_wr q = 0 -> wf A q /\ queueEntries q = 0).
  { intros q E1 E2. unfold wf, queueEntries. rewrite E1, E2. change (u8 (0 - 0)) with 0.
    pose proof HL. lia. }
  splits; auto; apply HE; reflexivity.
Qed.

(** The task: on a flagged entry it asks the external function for the level of that
    entry; if the answer agrees, the flag is gone and the next end of the entry removes
    it; if not, it reports so (and the caller does not fill the queue) *)
Theorem ext_task g q lvl : q_pin q <> PIN_UNDEFINED -> is_external (q_pin q) = true ->
  wf A q -> queueEntries q <> 0 -> e_repeat (head A q) = true ->
  let want := e_dirstate (head A q) in
  (g (q_pin q) want = want ->
     exists q', extDirStep (Some g) q lvl = (q', want, true) /\
       e_repeat (head A q') = false /\ pend A (q_pop q') = pend A (q_pop q)) /\
  (g (q_pin q) want = negb want ->
     extDirStep (Some g) q lvl = (q, negb want, false)).
Proof.
  intros H1 H2 Hw H0 H3 want. unfold extDirStep, isOnRepeatingEntry, dirPinState.
  rewrite H2, H3. destruct (Z.eqb_spec (q_pin q) PIN_UNDEFINED) as [E|E]; [contradiction|].
  cbn [negb andb]. fold want. split; intros G; rewrite G.
  - rewrite Bool.eqb_reflx. cbn [negb]. eexists. split; [reflexivity|]. split.
    + unfold head, clearRepeatingFlag. cbn [set_ent q_ent q_rd]. unfold upd. rewrite Z.eqb_refl.
      reflexivity.
    + match goal with |- pend A (q_pop (clearRepeatingFlag q)) = _ =>
        change (clearRepeatingFlag q) with (set_head A (mkEntry (e_steps (head A q))
          (e_toggle (head A q)) (e_up (head A q)) (e_more (head A q)) (e_has (head A q)) false
          (e_dirstate (head A q)) (e_ticks (head A q)) (e_pos16 (head A q))) q) end.
      set (e' := mkEntry _ _ _ _ _ _ _ _ _).
      assert (Hw' : wf A (set_head A e' q)) by exact Hw.
      pose proof (pend_pop A HA (set_head A e' q) Hw' H0) as P1.
      rewrite (pend_set_head A HA q e' Hw H0) in P1. injection P1 as _ P1. now rewrite P1.
  - destruct want; reflexivity.
Qed.

End WithArch.
