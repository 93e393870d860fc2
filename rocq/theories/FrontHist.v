(** * FrontHist: properties of addQueueEntry of class FastAccelStepper over histories *)
From Coq Require Import ZArith Bool List Lia ZifyBool.
From Verif Require Import Base RampCalc RampGen Queue QueueFacts QueuePos QueueHist Stepper StepperHist.
Import ListNotations.
Open Scope Z_scope.
Ltac Zify.zify_post_hook ::= idtac.

(** ** Histories of one stepper

    [FAdd] is one call of addQueueEntry() by the application, by moveTimed(), by
    performOneStep() or by the background task (fill_queue); [FNull] is the delayed start
    at the end of fill_queue or a call without a command; [FRg] is anything that happens in
    the ramp generator; [FTick] is the automatic disabling by the background task of an
    engine with this stepper only. *)
Inductive fevent :=
| FAdd (ext : extcall) (busy : bool) (c : command) (start : bool) (ws : list weather)
| FNull (start : bool) (ws : list weather)
| FIsr (evs : list event)
| FIgnore (b : bool)
| FClear
| FSetPos (p : Z)
| FEnable (ext : extcall)
| FDisable (ext : extcall)
| FAuto (b : bool)
| FOn (us : Z)
| FOff (ms : Z)
| FRg (g : rampgen)
| FTick (ext : extcall).

Section WithArch.
Variable A : arch.
Variable EXT : bool.
Notation L := (QUEUE_LEN A).
Notation X := (hacc A EXT).
Notation step := (hstep A EXT).

Definition set_w (ws : list weather) (t : hq) : hq := mkHq (hq_h t) (hq_p t) ws.
Definition set_h (h : hst) (t : hq) : hq := mkHq h (hq_p t) (hq_w t).
Definition tick (ext : extcall) (s : stepper) (q : queue) (p : pins) : stepper * pins :=
  let r := if needAutoDisable s q
           then let '(s, p, _) := disableOutputs ext s q p in (s, p) else (s, p) in
  (updateAutoDisable (fst r) q, snd r).
Definition fstep (e : fevent) (x : stepper * hq) : stepper * hq :=
  let '(s, t) := x in
  let q := h_q (hq_h t) in
  match e with
  | FAdd ext busy c start ws =>
    let '(s, t, _) := s_add A hq X ext busy c start s (set_w ws t) in (s, t)
  | FNull start ws => (s, fst (t_null hq X start (set_w ws t)))
  | FIsr evs => (s, set_h (isr A EXT evs (hq_h t)) t)
  | FIgnore b => (s, t_ignore hq X b t)
  | FClear => (s, set_h (step EClear (hq_h t)) t)
  | FSetPos p => (s, set_h (step (ESetPos p) (hq_h t)) t)
  | FEnable ext => (s, t_setpins hq X (fst (enableOutputs ext s (hq_p t))) t)
  | FDisable ext => let '(s, p, _) := disableOutputs ext s q (hq_p t) in (s, t_setpins hq X p t)
  | FAuto b => (setAutoEnable b s, t)
  | FOn us => (fst (setDelayToEnable A us s), t)
  | FOff ms => (setDelayToDisable A ms s, t)
  | FRg g => (st_rg g s, t)
  | FTick ext => let r := tick ext s q (hq_p t) in (fst r, t_setpins hq X (snd r) t)
  end.
Fixpoint frun (l : list fevent) (x : stepper * hq) : stepper * hq :=
  match l with [] => x | e :: l' => frun l' (fstep e x) end.

(** Start: a freshly initialised queue with speed limit [m] (adjustSpeedToStepperCount,
    setAbsoluteSpeedLimit); the configuration of the stepper is arbitrary *)
Definition finit (garbage : Z -> entry) (p ep : pins) (m : Z) (s : stepper) : stepper * hq :=
  let h := hinit A garbage p false in (s, mkHq (with_q (set_max m (h_q h)) h) ep []).
(** the commands accepted by the queue so far *)
Definition accepted_cmds (x : stepper * hq) : list command := h_acc (hq_h (snd x)).
Definition fqueue (x : stepper * hq) : queue := h_q (hq_h (snd x)).

(** the C types of the arguments *)
Definition fev_ok (e : fevent) : Prop :=
  match e with
  | FAdd _ _ c _ _ => cmd_ok c
  | FSetPos p => -2147483648 <= p < 2147483648
  | _ => True
  end.

Hypothesis HA : In A all_archs.

(** ** One call *)
(** the part of the state, which is changed by a call only through the queue's addQueueEntry *)
Definition good (t : hq) : Prop := inv A (hq_h t) /\ h_pc (hq_h t) = Free.
Lemma good_w ws t : good t -> good (set_w ws t).
Proof. auto. Qed.
Lemma good_p p t : good t -> good (t_setpins hq X p t).
Proof. auto. Qed.

Definition tqueue (t : hq) : queue := h_q (hq_h t).
Record same_conf (t t' : hq) : Prop := mkSame {
  sc_ign : q_ignore (tqueue t') = q_ignore (tqueue t);
  sc_pin : q_pin (tqueue t') = q_pin (tqueue t);
  sc_hcu : q_hcu (tqueue t') = q_hcu (tqueue t);
  sc_max : q_max (tqueue t') = q_max (tqueue t)
}.
Lemma same_refl t : same_conf t t. Proof. constructor; reflexivity. Qed.
Lemma same_trans t u v : same_conf t u -> same_conf u v -> same_conf t v.
Proof. intros [] []. constructor; congruence. Qed.

Definition acc_of (t : hq) : list command := h_acc (hq_h t).
Definition up_of (t : hq) : bool := qe_up (q_end (tqueue t)).
Definition pos_of (t : hq) : Z := qe_pos (q_end (tqueue t)).
Definition n_of (t : hq) : Z := queueEntries (tqueue t).

Record add_spec (c : command) (start : bool) (t : hq) : Prop := mkAdd {
  as_good : good (fst (t_add hq X c start t));
  as_same : same_conf t (fst (t_add hq X c start t));
  as_pins : hq_p (fst (t_add hq X c start t)) = hq_p t;
  as_w : hq_w (fst (t_add hq X c start t)) = tl (hq_w t);
  as_ok : snd (t_add hq X c start t) = AQE_OK -> q_ignore (tqueue t) = false ->
    acc_of (fst (t_add hq X c start t)) = acc_of t ++ [c]
    /\ up_of (fst (t_add hq X c start t)) = c_up c /\ long_cmd A c
    /\ pos_of (fst (t_add hq X c start t)) = i32 (pos_of t + sdelta c);
  as_no : snd (t_add hq X c start t) <> AQE_OK \/ q_ignore (tqueue t) = true ->
    acc_of (fst (t_add hq X c start t)) = acc_of t
    /\ up_of (fst (t_add hq X c start t)) = up_of t
    /\ pos_of (fst (t_add hq X c start t)) = pos_of t
    /\ n_of (fst (t_add hq X c start t)) <= n_of t;
  as_n : n_of (fst (t_add hq X c start t)) <= n_of t + 1;
  as_ready : ready (weather1 t) -> n_of t < L -> long_cmd A c ->
    snd (t_add hq X c start t) = AQE_OK;
  as_code : long_cmd A c -> 0 <= snd (t_add hq X c start t)
}.
Lemma add_ok c start t : good t -> cmd_ok c -> add_spec c start t.
Proof.
  intros [HI HP] Hc.
  destruct (hcall_spec A EXT HA (weather1 t) c start (hq_h t) HI Hc HP) as [HC HR].
  apply (call_isr A EXT HA c _ _ _ (w_i3 (weather1 t))) in HC. destruct HC.
  constructor; cbn [fst snd t_add hacc h_add hq_p hq_w]; auto.
  - split; assumption.
  - constructor; assumption.
Qed.
(** accepted or not, in one formula *)
Definition grows (c : command) (t t' : hq) : Prop :=
  acc_of t' = acc_of t ++ [c] /\ up_of t' = c_up c /\ long_cmd A c
  \/ acc_of t' = acc_of t /\ up_of t' = up_of t.
Lemma add_grows c start t : good t -> cmd_ok c -> grows c t (fst (t_add hq X c start t)).
Proof.
  intros Hg Hc. destruct (add_ok c start t Hg Hc).
  destruct (Z.eq_dec (snd (t_add hq X c start t)) AQE_OK) as [E|E].
  - destruct (q_ignore (tqueue t)) eqn:Ei.
    + right. destruct as_no0; [now right|]. tauto.
    + left. destruct as_ok0; auto. tauto.
  - right. destruct as_no0; [now left|]. tauto.
Qed.

(** the call without a command *)
Record null_spec (start : bool) (t : hq) : Prop := mkNull {
  ns_good : good (fst (t_null hq X start t));
  ns_same : same_conf t (fst (t_null hq X start t));
  ns_pins : hq_p (fst (t_null hq X start t)) = hq_p t;
  ns_w : hq_w (fst (t_null hq X start t)) = tl (hq_w t);
  ns_acc : acc_of (fst (t_null hq X start t)) = acc_of t;
  ns_end : q_end (tqueue (fst (t_null hq X start t))) = q_end (tqueue t);
  ns_n : n_of (fst (t_null hq X start t)) <= n_of t
}.
Lemma null_ok start t : good t -> null_spec start t.
Proof.
  intros [HI HP].
  destruct (isr_kept A EXT HA (w_i0 (weather1 t)) (hq_h t) HI) as [I0 K0].
  assert (K : forall h, h_pc h = Free -> kept h (step (EAddNull start (w_r1 (weather1 t))) h)).
  { intros h Hp. cbn [hstep]. destruct (_ && _); [|apply kept_refl].
    eapply kept_trans; [|apply start_head_kept]. constructor; auto. apply Z.le_refl. }
  assert (P0 : h_pc (isr A EXT (w_i0 (weather1 t)) (hq_h t)) = Free) by (rewrite (k_pc _ _ K0); assumption).
  specialize (K _ P0). pose proof (kept_trans _ _ _ K0 K) as KK.
  assert (I1 : inv A (step (EAddNull start (w_r1 (weather1 t))) (isr A EXT (w_i0 (weather1 t)) (hq_h t)))) by (apply inv_step; auto; exact I).
  destruct (isr_kept A EXT HA (w_i3 (weather1 t)) _ I1) as [I2 K2].
  pose proof (kept_trans _ _ _ KK K2) as K3. clear KK K2. destruct K3.
  constructor; cbn [fst snd t_null hacc h_null hq_p hq_w]; auto.
  - split; [exact I2|cbn [hq_h]; congruence].
  - constructor; assumption.
Qed.

(** the pauses of the enable delay *)
Lemma pauses_grow up : forall l t, good t -> Forall (fun d => 0 <= d < 65536) l ->
  let t' := add_pauses hq X up l t in
  good t' /\ same_conf t t' /\ hq_p t' = hq_p t /\
  exists l', acc_of t' = acc_of t ++ map (fun d => mkCommand d 0 up) l' /\ incl l' l
    /\ up_of t' = match l' with [] => up_of t | _ => up end.
Proof.
  induction l as [|d l IH]; intros t Hg Hl; cbn [add_pauses].
  - splits; auto; [apply same_refl|]. exists []. splits; auto; [rewrite app_nil_r; reflexivity|intros x []].
  - inversion Hl as [|? ? Hd Hl']; subst.
    assert (Hc : cmd_ok (mkCommand d 0 up)) by (split; cbn; lia).
    pose proof (add_ok (mkCommand d 0 up) false t Hg Hc) as S.
    pose proof (add_grows (mkCommand d 0 up) false t Hg Hc) as G.
    set (t1 := fst (t_add hq X (mkCommand d 0 up) false t)) in *.
    destruct (IH t1 (as_good _ _ _ S) Hl') as (Gg & Gs & Gp & l' & E & Hi & U).
    pose proof (as_same _ _ _ S) as S1. pose proof (as_pins _ _ _ S) as S2. fold t1 in S1, S2.
    split; [exact Gg|]. split; [eapply same_trans; eassumption|]. split; [rewrite Gp; exact S2|].
    destruct G as [(G1 & G2 & _)|(G1 & G2)].
    + exists (d :: l'). rewrite E, G1, <- app_assoc. splits; auto.
      * intros x [<-|Hx]; [now left|right; auto].
      * rewrite U. cbn [c_up] in G2. destruct l'; [assumption|reflexivity].
    + exists l'. rewrite E, G1. splits; auto.
      * intros x Hx. right. auto.
      * rewrite U. destruct l'; [assumption|reflexivity].
Qed.

(** ** The pieces of the enable delay *)
Lemma on_pieces_spec : forall fuel d, 0 < d < 4294967296 -> d / 32768 + 1 <= Z.of_nat fuel ->
  let l := on_pieces fuel d in
  fold_right Z.add 0 l = d
  /\ (d <= 65535 -> l = [d])
  /\ (65536 <= d -> Forall (fun x => 32768 <= x <= 65535) l)
  /\ Z.of_nat (length l) <= (d + 65534) / 65535
  /\ l <> [].
Proof.
  induction fuel as [|fuel IH]; intros d Hd Hf.
  - pose proof (Z.div_pos d 32768). lia.
  - cbn [on_pieces].
    destruct (Z.gtb_spec d 0); [|lia].
    unfold on_piece. rewrite Z.shiftr_div_pow2 by lia. change (2 ^ 1) with 2.
    pose proof (Z.div_mod d 2). pose proof (Z.mod_pos_bound d 2).
    destruct (Z.gtb_spec (d / 2) 65535) as [B|B].
    + assert (E : u32 (d - 65535) = d - 65535) by (unfold u32; apply Z.mod_small; lia).
      rewrite E.
      assert (Hf' : (d - 65535) / 32768 + 1 <= Z.of_nat fuel).
      { assert ((d - 65535) / 32768 <= (d - 32768) / 32768) by (apply Z.div_le_mono; lia).
        replace (d - 32768) with (d + (-1) * 32768) in * by lia. rewrite Z.div_add in * by lia. lia. }
      destruct (IH (d - 65535)) as (I1 & I2 & I3 & I4 & I5); [lia|lia|].
      cbn [fold_right length]. splits; try lia.
      * intros _. constructor; [lia|]. apply I3. lia.
      * discriminate.
    + destruct (Z.ltb_spec (d / 2) 32768) as [C|C].
      * assert (Eu : u16 d = d) by (unfold u16; apply Z.mod_small; lia).
        rewrite Eu. replace (u32 (d - d)) with 0 by (rewrite Z.sub_diag; reflexivity).
        assert (Ez : on_pieces fuel 0 = []) by (destruct fuel; reflexivity).
        rewrite Ez. cbn [fold_right length]. splits; try lia; auto.
        discriminate.
      * assert (Eu : u16 (d / 2) = d / 2) by (unfold u16; apply Z.mod_small; lia).
        rewrite Eu.
        assert (E : u32 (d - d / 2) = d - d / 2) by (unfold u32; apply Z.mod_small; lia).
        rewrite E.
        assert (Hf' : (d - d / 2) / 32768 + 1 <= Z.of_nat fuel).
        { assert ((d - d / 2) / 32768 <= (d - 32768) / 32768) by (apply Z.div_le_mono; lia).
          replace (d - 32768) with (d + (-1) * 32768) in * by lia. rewrite Z.div_add in * by lia. lia. }
        destruct (IH (d - d / 2)) as (I1 & I2 & I3 & I4 & I5); [lia|lia|].
        cbn [fold_right length]. splits; try lia.
        -- intros _. constructor; [lia|].
           destruct (Z.le_gt_cases (d - d / 2) 65535); [|apply I3; lia].
           rewrite I2 by lia. constructor; [lia|constructor].
        -- discriminate.
Qed.
Lemma on_pieces_ok d : 0 < d < 4294967296 ->
  let l := on_pieces (on_fuel d) d in
  fold_right Z.add 0 l = d /\ Forall (fun x => Z.min d 32768 <= x <= 65535) l
  /\ Z.of_nat (length l) <= (d + 65534) / 65535 /\ l <> [].
Proof.
  intros Hd. destruct (on_pieces_spec (on_fuel d) d Hd) as (I1 & I2 & I3 & I4 & I5).
  - unfold on_fuel. pose proof (Z.div_pos d 32768). lia.
  - cbv zeta in *. splits; auto.
    destruct (Z.le_gt_cases d 65535).
    + rewrite I2 by lia. constructor; [lia|constructor].
    + assert (H1 : 65536 <= d) by lia. specialize (I3 H1).
      revert I3. apply Forall_impl. intros a. lia.
Qed.
Lemma on_pieces_zero fuel : on_pieces fuel 0 = [].
Proof. destruct fuel; reflexivity. Qed.

(** ** The second half of addQueueEntry: a list of commands, until one is refused *)
Fixpoint adds (start : bool) (l : list command) (t : hq) : hq * Z :=
  match l with
  | [] => (t, AQE_OK)
  | c :: l' =>
    let r := t_add hq X c start t in
    if snd r =? AQE_OK then adds start l' (fst r) else r
  end.
(** the pauses in front of a command *)
Definition pre_pauses (c : command) (s : stepper) (up : bool) : list command :=
  if Bool.eqb up (c_up c) then []
  else if is_external (s_dirpin s) then [ext_pause A c; ext_pause A c]
  else if negb (s_dirdelay s =? 0) && negb (c_steps c =? 0) then [dir_pause c s]
  else [].
Definition no_room (c : command) (s : stepper) (t : hq) : bool :=
  negb (Bool.eqb (up_of t) (c_up c)) && is_external (s_dirpin s) && (n_of t >? L - 2).
Definition after_add (code : Z) (s : stepper) : stepper :=
  if s_auto s && (code =? AQE_OK) then st_cnt (s_off s) s else s.

Lemma add_second_eq c start s t :
  add_second A hq X c start s t =
  if no_room c s t then (s, t, AQE_QUEUE_FULL)
  else let r := adds start (pre_pauses c s (up_of t) ++ [c]) t in (after_add (snd r) s, fst r, snd r).
Proof.
  assert (EL : forall start c s t, (let r := adds start [c] t in (after_add (snd r) s, fst r, snd r))
                 = add_last hq X c start s t).
  { intros. unfold add_last. cbn [adds]. unfold after_add.
    destruct (t_add hq X c0 start0 t0) as [t1 code]. cbn [fst snd].
    destruct (code =? AQE_OK) eqn:E; cbn [fst snd]; [|rewrite E; reflexivity].
    apply Z.eqb_eq in E. subst code. reflexivity. }
  assert (ES : forall start k l s t, (let r := adds start (k :: l) t in (after_add (snd r) s, fst r, snd r))
     = let r := t_add hq X k start t in
       if negb (snd r =? AQE_OK) then (s, fst r, snd r)
       else let r := adds start l (fst r) in (after_add (snd r) s, fst r, snd r)).
  { intros. cbn [adds]. destruct (t_add hq X k start0 t0) as [t1 code]. cbn [fst snd].
    unfold after_add. destruct (code =? AQE_OK) eqn:E; cbn [fst snd negb]; [reflexivity|].
    rewrite E, andb_false_r. reflexivity. }
  unfold add_second, no_room, pre_pauses, up_of, n_of, tqueue.
  change (t_q hq X t) with (h_q (hq_h t)).
  destruct (Bool.eqb (qe_up (q_end (h_q (hq_h t)))) (c_up c)); cbn [negb andb app].
  - symmetry. apply EL.
  - destruct (is_external (s_dirpin s)); cbn [andb].
    + destruct (queueEntries (h_q (hq_h t)) >? L - 2); [reflexivity|].
      cbn [app]. rewrite ES. cbv zeta.
      destruct (negb (snd (t_add hq X (ext_pause A c) start t) =? AQE_OK)); [reflexivity|].
      rewrite ES. cbv zeta.
      destruct (negb (snd (t_add hq X (ext_pause A c) start (fst (t_add hq X (ext_pause A c) start t))) =? AQE_OK)); [reflexivity|].
      symmetry. apply EL.
    + destruct (negb (s_dirdelay s =? 0) && negb (c_steps c =? 0)).
      * cbn [app]. rewrite ES. cbv zeta.
        destruct (negb (snd (t_add hq X (dir_pause c s) start t) =? AQE_OK)); [reflexivity|].
        symmetry. apply EL.
      * symmetry. apply EL.
Qed.

Definition end_up (u : bool) (l : list command) : bool := fold_left (fun _ c => c_up c) l u.
Lemma end_up_app u l1 l2 : end_up u (l1 ++ l2) = end_up (end_up u l1) l2.
Proof. apply fold_left_app. Qed.
Definition all_ready (t : hq) : Prop := Forall ready (hq_w t).
Lemma all_ready1 t : all_ready t -> ready (weather1 t).
Proof.
  unfold all_ready, weather1. destruct (hq_w t); intros H; [split; reflexivity|now inversion H].
Qed.
Lemma tl_Forall {Y} (P : Y -> Prop) l : Forall P l -> Forall P (tl l).
Proof. destruct 1; cbn; auto. Qed.

Record adds_spec (l : list command) (t : hq) (r : hq * Z) : Prop := mkAdds {
  ad_good : good (fst r);
  ad_same : same_conf t (fst r);
  ad_pins : hq_p (fst r) = hq_p t;
  ad_w : all_ready t -> all_ready (fst r);
  ad_ign : q_ignore (tqueue t) = true -> acc_of (fst r) = acc_of t /\ up_of (fst r) = up_of t;
  ad_acc : q_ignore (tqueue t) = false -> exists l1 l2, l = l1 ++ l2
     /\ acc_of (fst r) = acc_of t ++ l1 /\ up_of (fst r) = end_up (up_of t) l1
     /\ Forall (long_cmd A) l1 /\ (snd r = AQE_OK -> l2 = []);
  ad_n : n_of (fst r) <= n_of t + Z.of_nat (length l);
  ad_ready : all_ready t -> n_of t + Z.of_nat (length l) <= L -> Forall (long_cmd A) l ->
     snd r = AQE_OK
}.
Lemma adds_ok start : forall l t, good t -> Forall cmd_ok l -> adds_spec l t (adds start l t).
Proof.
  induction l as [|c l IH]; intros t Hg Hl; cbn [adds].
  - constructor; cbn [fst snd length]; auto.
    + apply same_refl.
    + intros _. exists [], []. splits; auto. rewrite app_nil_r. reflexivity.
    + lia.
  - inversion Hl as [|? ? Hc Hl']; subst.
    destruct (add_ok c start t Hg Hc).
    set (r := t_add hq X c start t) in *.
    assert (W : all_ready t -> all_ready (fst r)).
    { unfold all_ready. rewrite as_w0. apply tl_Forall. }
    destruct (Z.eqb_spec (snd r) AQE_OK) as [E|E].
    + destruct (IH (fst r) as_good0 Hl').
      assert (Ei := sc_ign _ _ as_same0).
      constructor; auto.
      * eapply same_trans; eassumption.
      * intros Hi. destruct ad_ign0 as [B1 B2]; [rewrite Ei; exact Hi|].
        destruct as_no0 as (C1 & C2 & _); [now right|].
        rewrite B1, B2, C1, C2. auto.
      * intros Hi. destruct ad_acc0 as (l1 & l2 & B1 & B2 & B3 & B4 & B5); [rewrite Ei; exact Hi|].
        destruct as_ok0 as (C1 & C2 & C3 & _); auto.
        exists (c :: l1), l2. splits; auto.
        -- rewrite B1. reflexivity.
        -- rewrite B2, C1, <- app_assoc. reflexivity.
        -- rewrite B3, C2. reflexivity.
      * cbn [length]. rewrite Nat2Z.inj_succ. clear - ad_n0 as_n0. lia.
      * cbn [length]. rewrite Nat2Z.inj_succ. intros Hw Hn Hlo. apply ad_ready0; auto.
        -- clear - as_n0 Hn. lia.
        -- now inversion Hlo.
    + destruct as_no0 as (C1 & C2 & _); [now left|].
      constructor; auto.
      * intros Hi. exists [], (c :: l). splits; auto.
        -- rewrite C1, app_nil_r. reflexivity.
        -- intros K. congruence.
      * cbn [length]. rewrite Nat2Z.inj_succ. clear - as_n0. lia.
      * cbn [length]. rewrite Nat2Z.inj_succ. intros Hw Hn Hlo. apply as_ready0.
        -- now apply all_ready1.
        -- clear - Hn. lia.
        -- now inversion Hlo.
Qed.

(** the enable pauses when nothing is refused *)
Lemma pauses_all up : forall l t, good t -> Forall (fun d => MIN_CMD_TICKS A <= d < 65536) l ->
  all_ready t -> q_ignore (tqueue t) = false -> n_of t + Z.of_nat (length l) <= L ->
  let t' := add_pauses hq X up l t in
  acc_of t' = acc_of t ++ map (fun d => mkCommand d 0 up) l
  /\ up_of t' = match l with [] => up_of t | _ => up end
  /\ n_of t' <= n_of t + Z.of_nat (length l) /\ all_ready t'.
Proof.
  assert (Hm : 0 <= MIN_CMD_TICKS A) by (clear - HA; revert A HA; apply arch_cases; cbn; lia).
  induction l as [|d l IH]; intros t Hg Hl Hw Hi Hn; cbn [add_pauses map length].
  - rewrite app_nil_r. splits; auto. cbn. lia.
  - inversion Hl as [|? ? Hd Hl']; subst.
    assert (Hc : cmd_ok (mkCommand d 0 up)) by (split; cbn; lia).
    destruct (add_ok (mkCommand d 0 up) false t Hg Hc).
    set (t1 := fst (t_add hq X (mkCommand d 0 up) false t)) in *.
    cbn [length] in Hn. rewrite Nat2Z.inj_succ in *.
    assert (Hok : snd (t_add hq X (mkCommand d 0 up) false t) = AQE_OK).
    { apply as_ready0; [now apply all_ready1|clear - Hn; lia|].
      unfold long_cmd, command_rate_ticks. cbn [c_ticks c_steps]. cbn. lia. }
    destruct as_ok0 as (C1 & C2 & _); auto.
    assert (Hw1 : all_ready t1) by (unfold all_ready; rewrite as_w0; now apply tl_Forall).
    assert (Hi1 : q_ignore (tqueue t1) = false) by (rewrite (sc_ign _ _ as_same0); exact Hi).
    destruct (IH t1 as_good0 Hl' Hw1 Hi1) as (I1 & I2 & I3 & I4); [clear - as_n0 Hn; lia|].
    splits; auto.
    + rewrite I1, C1, <- app_assoc. reflexivity.
    + rewrite I2. cbn [c_up] in C2. destruct l; auto.
    + clear - I3 as_n0. lia.
Qed.

(** ** The first half *)
Definition enabling (s : stepper) : bool := s_auto s && (s_cnt s =? 0).
Definition pass (busy : bool) (c : command) (s : stepper) (t : hq) : Prop :=
  q_max (tqueue t) <= c_ticks c
  /\ (s_dirpin s = PIN_UNDEFINED -> c_up c = true)
  /\ (s_dirpin s <> PIN_UNDEFINED -> q_running (tqueue t) = true \/ busy = false).
Lemma add_first_cases ext busy c start s t :
  (snd (add_first hq X ext busy c start s t) <> AQE_OK /\ fst (add_first hq X ext busy c start s t) = t
   /\ ~ pass busy c s t)
  \/ pass busy c s t /\
     (enabling s = false /\ add_first hq X ext busy c start s t = (t, AQE_OK)
      \/ enabling s = true /\
         let en := enableOutputs ext s (hq_p t) in
         let t1 := t_setpins hq X (fst en) t in
         let d := on_delay hq X c s t in
         (snd en = false /\ add_first hq X ext busy c start s t = (t1, AQE_WAIT_FOR_ENABLE_PIN_ACTIVE)
          \/ snd en = true /\ s_ondelay s <= 0 /\ add_first hq X ext busy c start s t = (t1, AQE_OK)
          \/ snd en = true /\ 0 < s_ondelay s /\ add_first hq X ext busy c start s t
               = t_null hq X start (add_pauses hq X (c_up c) (on_pieces (on_fuel d) d) t1))).
Proof.
  unfold add_first, pass, enabling. change (t_q hq X t) with (tqueue t).
  destruct (Z.ltb_spec (c_ticks c) (q_max (tqueue t))) as [B|B].
  { left. cbn [fst snd]. splits; auto; [discriminate|lia]. }
  destruct (Z.eqb_spec (s_dirpin s) PIN_UNDEFINED) as [P|P]; cbn [negb andb].
  - destruct (c_up c) eqn:U; cbn [negb].
    2:{ left. cbn [fst snd]. splits; auto; [discriminate|intros (_ & K & _); now specialize (K P)]. }
    right. split; [splits; auto; intros; congruence|].
    destruct (s_auto s && (s_cnt s =? 0)); [right|left; auto].
    split; [reflexivity|]. cbv zeta. change (t_pins hq X t) with (hq_p t).
    destruct (snd (enableOutputs ext s (hq_p t))); cbn [negb]; [right|left; auto].
    destruct (Z.gtb_spec (s_ondelay s) 0); [right|left; auto].
    splits; auto. 
  - destruct (negb (q_running (tqueue t)) && busy) eqn:Bu.
    { left. cbn [fst snd]. splits; auto; [discriminate|intros (_ & _ & K); specialize (K P)].
      apply andb_true_iff in Bu as [B1 B2]. destruct K; [rewrite H in B1; discriminate|congruence]. }
    right. split.
    { splits; auto. intros _. apply andb_false_iff in Bu as [B1|B1]; [left|now right].
      now apply negb_false_iff. }
    destruct (s_auto s && (s_cnt s =? 0)); [right|left; auto].
    split; [reflexivity|]. cbv zeta. change (t_pins hq X t) with (hq_p t).
    destruct (snd (enableOutputs ext s (hq_p t))); cbn [negb]; [right|left; auto].
    destruct (Z.gtb_spec (s_ondelay s) 0); [right|left; auto].
    splits; auto.
Qed.

(** the configuration has the C types *)
Definition conf_ok (s : stepper) : Prop :=
  0 <= s_dirdelay s < 65536 /\ 0 <= s_ondelay s < 4294967296.
Lemma pieces_range s c t : conf_ok s -> 0 < s_ondelay s ->
  let d := on_delay hq X c s t in
  0 < d < 4294967296 /\ Forall (fun x => 0 <= x < 65536) (on_pieces (on_fuel d) d).
Proof.
  intros [H1 H2] H3 d.
  assert (Hd : 0 < d < 4294967296).
  { unfold d, on_delay. destruct (Z.ltb_spec (s_ondelay s) (s_dirdelay s)); cbn [andb]; [|lia].
    destruct (negb _); lia. }
  split; [exact Hd|]. destruct (on_pieces_ok d Hd) as (_ & B & _). revert B. apply Forall_impl.
  intros a. lia.
Qed.

Lemma ext_pause_ok c : cmd_ok (ext_pause A c).
Proof. unfold cmd_ok, ext_pause, u16. cbn [c_ticks c_steps]. pose proof (Z.mod_pos_bound (500 * TICKS_PER_US A) 65536). lia. Qed.
Lemma pre_ok c s up : cmd_ok c -> conf_ok s -> Forall cmd_ok (pre_pauses c s up ++ [c]).
Proof.
  intros Hc [Hs _]. unfold pre_pauses. pose proof (ext_pause_ok c).
  destruct (Bool.eqb up (c_up c)); [|destruct (is_external (s_dirpin s)); [|destruct (_ && _)]];
    cbn [app]; repeat (constructor; auto).
  all: cbn; lia.
Qed.
Lemma pre_pause c s up : Forall (fun x => c_steps x = 0 /\ c_up x = c_up c) (pre_pauses c s up).
Proof.
  unfold pre_pauses.
  destruct (Bool.eqb up (c_up c)); [|destruct (is_external (s_dirpin s)); [|destruct (_ && _)]];
    repeat (constructor; auto).
Qed.

(** What a call adds: pauses in the direction of the command, and the command *)
Record s_add_spec (ext : extcall) (busy : bool) (c : command) (s : stepper) (t : hq)
  (r : stepper * hq * Z) : Prop := mkSadd {
  sa_good : good (snd (fst r));
  sa_same : same_conf t (snd (fst r));
  sa_s : fst (fst r) = s \/ fst (fst r) = st_cnt (s_off s) s;
  sa_acc : exists new, acc_of (snd (fst r)) = acc_of t ++ new
    /\ (new <> [] -> pass busy c s t)
    /\ Forall (fun x => c_up x = c_up c /\ (x = c \/ c_steps x = 0)) new;
  sa_pins :
    (hq_p (snd (fst r)) = hq_p t /\ (enabling s = true -> fst (fst r) = s /\ snd (fst r) = t))
    \/ enabling s = true /\ hq_p (snd (fst r)) = fst (enableOutputs ext s (hq_p t))
       /\ (snd (enableOutputs ext s (hq_p t)) = false ->
           fst (fst r) = s /\ n_of (snd (fst r)) <= n_of t)
}.
Lemma s_add_ok ext busy c start s t : good t -> cmd_ok c -> conf_ok s ->
  s_add_spec ext busy c s t (s_add A hq X ext busy c start s t).
Proof.
  intros Hg Hc Hs. unfold s_add.
  destruct (add_first_cases ext busy c start s t) as [(H1 & H2 & H3)|[Hp H]].
  { destruct (Z.eqb_spec (snd (add_first hq X ext busy c start s t)) AQE_OK); [contradiction|].
    cbn [negb]. constructor; cbn [fst snd]; rewrite ?H2; auto.
    - apply same_refl.
    - exists []. rewrite app_nil_r. splits; auto. intros K; now destruct K. }
  assert (SEC : forall t1 new0, good t1 -> same_conf t t1 -> acc_of t1 = acc_of t ++ new0 ->
     Forall (fun x => c_up x = c_up c /\ (x = c \/ c_steps x = 0)) new0 ->
     let r := add_second A hq X c start s t1 in
     good (snd (fst r)) /\ same_conf t (snd (fst r)) /\ (fst (fst r) = s \/ fst (fst r) = st_cnt (s_off s) s)
     /\ (exists new, acc_of (snd (fst r)) = acc_of t ++ new
          /\ (new <> [] -> pass busy c s t)
          /\ Forall (fun x => c_up x = c_up c /\ (x = c \/ c_steps x = 0)) new)
     /\ hq_p (snd (fst r)) = hq_p t1).
  { intros t1 new0 G1 S1 E1 F1. rewrite add_second_eq.
    destruct (no_room c s t1).
    { cbn [fst snd]. splits; auto. exists new0. splits; auto. }
    cbv zeta. cbn [fst snd].
    destruct (adds_ok start _ t1 G1 (pre_ok c s (up_of t1) Hc Hs)).
    splits; auto.
    - eapply same_trans; eassumption.
    - unfold after_add. destruct (_ && _); auto.
    - destruct (q_ignore (tqueue t1)) eqn:Ei.
      + destruct (ad_ign0 eq_refl) as [B1 B2]. exists new0. rewrite B1, E1. splits; auto.
      + destruct (ad_acc0 eq_refl) as (l1 & l2 & B1 & B2 & _).
        exists (new0 ++ l1). rewrite B2, E1, app_assoc. splits; auto.
        apply Forall_app. split; [exact F1|].
        assert (FF : Forall (fun x => c_up x = c_up c /\ (x = c \/ c_steps x = 0)) (l1 ++ l2)).
        { rewrite <- B1. apply Forall_app. split.
          - eapply Forall_impl; [|apply pre_pause]. intros a [P1 P2]. split; auto.
          - constructor; auto. }
        apply Forall_app in FF. tauto. }
  destruct H as [[He H]|[He H]].
  - rewrite H. cbn [fst snd].
    destruct (SEC t [] Hg (same_refl t)) as (R1 & R2 & R3 & R4 & R5); auto.
    { rewrite app_nil_r. reflexivity. }
    replace (negb (AQE_OK =? AQE_OK)) with false by reflexivity.
    constructor; auto. left. split; [exact R5|]. congruence.
  - cbv zeta in H. set (en := enableOutputs ext s (hq_p t)) in *.
    set (t1 := t_setpins hq X (fst en) t) in *.
    assert (G1 : good t1) by exact Hg.
    assert (S1 : same_conf t t1) by (constructor; reflexivity).
    destruct H as [[E1 H]|[(E1 & E2 & H)|(E1 & E2 & H)]]; rewrite H.
    + cbn [fst snd]. replace (negb (AQE_WAIT_FOR_ENABLE_PIN_ACTIVE =? AQE_OK)) with true by reflexivity.
      constructor; cbn [fst snd]; auto.
      * exists []. rewrite app_nil_r. splits; auto.
      * right. fold en. splits; auto. intros _. split; auto. apply Z.le_refl.
    + cbn [fst snd]. replace (negb (AQE_OK =? AQE_OK)) with false by reflexivity.
      destruct (SEC t1 [] G1 S1) as (R1 & R2 & R3 & R4 & R5); auto.
      { rewrite app_nil_r. reflexivity. }
      constructor; auto. right. fold en. splits; auto. congruence.
    + destruct (pieces_range s c t Hs E2) as [_ HR]. cbv zeta in HR.
      set (ps := on_pieces (on_fuel (on_delay hq X c s t)) (on_delay hq X c s t)) in *.
      destruct (pauses_grow (c_up c) ps t1 G1 HR) as (G2 & S2 & P2 & l' & B1 & B2 & B3).
      set (t2 := add_pauses hq X (c_up c) ps t1) in *.
      destruct (null_ok start t2 G2).
      set (t3 := fst (t_null hq X start t2)) in *.
      assert (F : Forall (fun x => c_up x = c_up c /\ (x = c \/ c_steps x = 0))
                    (map (fun d => mkCommand d 0 (c_up c)) l')).
      { apply Forall_forall. intros x Hx. apply in_map_iff in Hx as (d & <- & _). auto. }
      assert (S3 : same_conf t t3) by (eapply same_trans; [exact S1|eapply same_trans; eassumption]).
      assert (EP : hq_p t3 = fst en) by (rewrite ns_pins0, P2; reflexivity).
      destruct (negb (snd (t_null hq X start t2) =? AQE_OK)).
      * constructor; cbn [fst snd]; auto.
        -- exists (map (fun d => mkCommand d 0 (c_up c)) l'). rewrite ns_acc0, B1. splits; auto.
        -- right. fold en. splits; auto. congruence.
      * destruct (SEC t3 (map (fun d => mkCommand d 0 (c_up c)) l') ns_good0 S3) as (R1 & R2 & R3 & R4 & R5); auto.
        { rewrite ns_acc0, B1. reflexivity. }
        constructor; auto. right. fold en. splits; auto; congruence.
Qed.
End WithArch.
