(** * FrontProp: enable pin, direction pin and delays over histories *)
From Coq Require Import ZArith Bool List Lia ZifyBool.
From Verif Require Import Base RampCalc RampGen Queue QueueFacts QueuePos QueueHist Stepper StepperHist FrontHist.
Import ListNotations.
Open Scope Z_scope.
Ltac Zify.zify_post_hook ::= idtac.

(** ** Vocabulary of the statements *)

(** both enable pins (if defined) have the active level *)
Definition outputs_on (s : stepper) (p : pins) : Prop :=
  (s_low s <> PIN_UNDEFINED -> p (s_low s) = false) /\
  (s_high s <> PIN_UNDEFINED -> p (s_high s) = true).
(** a user supplied function, which sets external enable pins at once *)
Definition responsive (s : stepper) (ext : extcall) : Prop :=
  forall pin level, pin = s_low s \/ pin = s_high s -> pin <> PIN_UNDEFINED ->
    is_external pin = true -> exists f, ext = Some f /\ f pin level = level.
Definition distinct_pins (s : stepper) : Prop :=
  s_low s = PIN_UNDEFINED \/ s_low s <> s_high s.
(** events of a history, in which auto enable is never switched off *)
Definition auto_stays (s : stepper) (e : fevent) : Prop :=
  match e with
  | FAuto b => b = true
  | FAdd ext _ _ _ _ | FEnable ext | FDisable ext | FTick ext => responsive s ext
  | _ => True
  end.

(** Duration of a command *)
Definition cdur (c : command) : Z := c_ticks c * Z.max 1 (c_steps c).
(** [u], [t]: direction of the previous command and time since the direction changed. At
    every step the direction has been stable for [D] ticks. *)
Fixpoint settled (D : Z) (u : bool) (t : Z) (l : list command) : Prop :=
  match l with
  | [] => True
  | c :: l' =>
    let t := if Bool.eqb u (c_up c) then t else 0 in
    (0 < c_steps c -> D <= t) /\ settled D (c_up c) (t + cdur c) l'
  end.
Fixpoint since (u : bool) (t : Z) (l : list command) : Z :=
  match l with
  | [] => t
  | c :: l' => since (c_up c) ((if Bool.eqb u (c_up c) then t else 0) + cdur c) l'
  end.

Section WithArch.
Variable A : arch.
Variable EXT : bool.
Notation L := (QUEUE_LEN A).
Notation X := (hacc A EXT).
Notation step := (hstep A EXT).
Hypothesis HA : In A all_archs.
Notation fstep := (fstep A EXT).
Notation frun := (frun A EXT).

(** ** Invariants of every history *)
Definition fgood (x : stepper * hq) : Prop := good A (snd x) /\ conf_ok (fst x).
(** pins and delay of the direction, enable pins, speed limit *)
Definition conf_same (x y : stepper * hq) : Prop :=
  s_dirpin (fst y) = s_dirpin (fst x) /\ s_dirdelay (fst y) = s_dirdelay (fst x)
  /\ s_low (fst y) = s_low (fst x) /\ s_high (fst y) = s_high (fst x)
  /\ q_max (fqueue y) = q_max (fqueue x).
Lemma conf_same_trans x y z : conf_same x y -> conf_same y z -> conf_same x z.
Proof. unfold conf_same. intuition congruence. Qed.
(** what a step adds to the accepted commands *)
Definition new_of (e : fevent) (x y : stepper * hq) : Prop :=
  match e with
  | FAdd ext busy c start ws => exists new, acc_of (snd y) = acc_of (snd x) ++ new
      /\ (new <> [] -> pass busy c (fst x) (snd x))
      /\ Forall (fun k => c_up k = c_up c /\ (k = c \/ c_steps k = 0)) new
  | _ => acc_of (snd y) = acc_of (snd x) /\ up_of (snd y) = up_of (snd x)
         /\ n_of (snd y) <= n_of (snd x)
  end.

Lemma disable_conf ext s q p :
  let r := disableOutputs ext s q p in
  fst (fst r) = s \/ fst (fst r) = st_cnt 0 s.
Proof.
  unfold disableOutputs, disable_pins. destruct (disable_allowed s q); cbn; auto.
  destruct (set_pin ext (s_low s) true p) as [p1 a]. destruct (set_pin ext (s_high s) false p1) as [p2 b].
  cbn. destruct (a && b); auto.
Qed.
Lemma tick_conf ext s q p :
  let r := tick ext s q p in fst r = s \/ exists n, fst r = st_cnt n s.
Proof.
  unfold tick, updateAutoDisable.
  assert (E : forall (r : stepper * pins), fst r = s \/ fst r = st_cnt 0 s ->
    fst ((if (s_cnt (fst r) >? 1) && negb (s_isRunning (fst r) q) then st_cnt (s_cnt (fst r) - 1) (fst r) else fst r), snd r) = s
    \/ exists n, fst ((if (s_cnt (fst r) >? 1) && negb (s_isRunning (fst r) q) then st_cnt (s_cnt (fst r) - 1) (fst r) else fst r), snd r) = st_cnt n s).
  { intros r [->| ->]; cbn [fst].
    - destruct (_ && _); [right; eexists; reflexivity|now left].
    - right. exists 0. reflexivity. }
  cbv zeta. destruct (needAutoDisable s q).
  - pose proof (disable_conf ext s q p) as D. destruct (disableOutputs ext s q p) as [[s1 p1] b]. cbn [fst] in D.
    apply E. exact D.
  - apply E. now left.
Qed.

Lemma clear_end h : q_end (h_q (step EClear h)) = q_end (h_q h) /\ h_acc (step EClear h) = h_acc h
  /\ h_pc (step EClear h) = h_pc h /\ q_max (h_q (step EClear h)) = q_max (h_q h)
  /\ queueEntries (h_q (step EClear h)) <= queueEntries (h_q h).
Proof.
  cbn [hstep]. pose proof (entries_range (h_q h)). destruct (h_pc h) eqn:E; cbn [is_free]; splits; auto; try lia.
  cbn [h_q]. unfold queueEntries, q_clear in *. cbn. rewrite Z.sub_diag. cbn. lia.
Qed.

Lemma fstep_base e x : fgood x -> fev_ok e ->
  fgood (fstep e x) /\ conf_same x (fstep e x) /\ new_of e x (fstep e x).
Proof.
  destruct x as [s t]. intros [Hg Hc] He. cbn [fst snd] in Hg, Hc.
  assert (CS : forall s' t', s_dirpin s' = s_dirpin s -> s_dirdelay s' = s_dirdelay s -> s_low s' = s_low s ->
     s_high s' = s_high s -> q_max (tqueue t') = q_max (tqueue t) -> conf_same (s, t) (s', t')).
  { intros. unfold conf_same, fqueue. cbn [fst snd]. auto. }
  destruct e; cbn [FrontHist.fstep new_of].
  - pose proof (s_add_ok A EXT HA ext busy c start s (set_w ws t) Hg He Hc) as [].
    destruct (s_add A hq X ext busy c start s (set_w ws t)) as [[s' t'] code]. cbn [fst snd] in *.
    splits.
    + split; [exact sa_good|]. destruct sa_s as [->| ->]; exact Hc.
    + destruct sa_same. destruct sa_s as [->| ->]; apply CS; auto.
    + exact sa_acc.
  - destruct (null_ok A EXT HA start (set_w ws t) Hg).
    splits.
    + split; [exact ns_good|exact Hc].
    + apply CS; auto. exact (sc_max _ _ ns_same).
    + exact ns_acc.
    + unfold up_of. cbn [snd]. rewrite ns_end. reflexivity.
    + exact ns_n.
  - destruct (isr_kept A EXT HA evs (hq_h t) (proj1 Hg)) as [I K]. destruct K.
    splits; auto.
    + split; [|exact Hc]. split; [exact I|]. cbn [snd set_h hq_h]. rewrite k_pc. exact (proj2 Hg).
    + unfold up_of, tqueue. cbn [snd set_h hq_h]. rewrite k_end. reflexivity.
  - splits; auto.
    + split; [|exact Hc]. split; [|exact (proj2 Hg)].
      apply (inv_step A EXT HA (hq_h t) (EIgnore b)); [exact (proj1 Hg)|exact I].
    + apply Z.le_refl.
  - destruct (clear_end (hq_h t)) as (E1 & E2 & E3 & E4 & E5).
    splits; auto.
    + split; [|exact Hc]. split; [|cbn [snd set_h hq_h]; rewrite E3; exact (proj2 Hg)].
      apply (inv_step A EXT HA (hq_h t) EClear); [exact (proj1 Hg)|exact I].
    + unfold up_of, tqueue. cbn [snd set_h hq_h]. rewrite E1. reflexivity.
  - assert (E : forall h, h_pc h = Free ->
       h_pc (step (ESetPos p) h) = Free /\ qe_up (q_end (h_q (step (ESetPos p) h))) = qe_up (q_end (h_q h))
       /\ h_acc (step (ESetPos p) h) = h_acc h /\ q_max (h_q (step (ESetPos p) h)) = q_max (h_q h)
       /\ queueEntries (h_q (step (ESetPos p) h)) = queueEntries (h_q h)).
    { intros h Hp. cbn [hstep]. rewrite Hp. cbn. splits; auto. }
    destruct (E (hq_h t) (proj2 Hg)) as (E1 & E2 & E3 & E4 & E5).
    splits; auto.
    + split; [|exact Hc]. split; [|exact E1].
      apply (inv_step A EXT HA (hq_h t) (ESetPos p)); [exact (proj1 Hg)|exact He].
    + unfold n_of, tqueue. cbn [snd set_h hq_h]. rewrite E5. apply Z.le_refl.
  - splits; auto; [split; assumption|apply Z.le_refl].
  - pose proof (disable_conf ext s (h_q (hq_h t)) (hq_p t)) as D.
    destruct (disableOutputs ext s (h_q (hq_h t)) (hq_p t)) as [[s1 p1] b]. cbn [fst snd] in *.
    splits; auto; [|destruct D as [->| ->]; apply CS; auto|apply Z.le_refl].
    split; [exact Hg|]. destruct D as [->| ->]; exact Hc.
  - splits; auto; [split; assumption|apply Z.le_refl].
  - splits; auto; [| |apply Z.le_refl].
    + split; [exact Hg|]. cbn [fst]. unfold setDelayToEnable.
      destruct (_ && _); [exact Hc|]. destruct (_ >? _); [exact Hc|].
      cbn [fst]. destruct Hc. split; [assumption|]. cbn. unfold US_TO_TICKS, u32. apply Z.mod_pos_bound. lia.
    + apply CS; auto; unfold setDelayToEnable; destruct (_ && _); auto; destruct (_ >? _); auto.
  - splits; auto; [split; assumption|apply Z.le_refl].
  - splits; auto; [split; assumption|apply Z.le_refl].
  - pose proof (tick_conf ext s (h_q (hq_h t)) (hq_p t)) as D. cbv zeta in D.
    set (r := FrontHist.tick ext s (h_q (hq_h t)) (hq_p t)) in *.
    splits; auto; [|destruct D as [D|[n D]]; apply CS; auto; cbn [fst]; rewrite D; auto|apply Z.le_refl].
    split; [exact Hg|]. cbn [fst]. destruct D as [->|[n ->]]; exact Hc.
Qed.

(** induction over histories *)
Lemma frun_ind (P : stepper * hq -> Prop) (Q : fevent -> Prop) :
  (forall e x, fgood x -> fev_ok e -> Q e -> P x -> P (fstep e x)) ->
  forall l x, fgood x -> P x -> Forall fev_ok l -> Forall Q l ->
  fgood (frun l x) /\ P (frun l x) /\ conf_same x (frun l x).
Proof.
  intros HS. induction l as [|e l IH]; intros x Hg Hx He Hq; cbn [FrontHist.frun].
  - splits; auto. unfold conf_same. auto.
  - inversion He; inversion Hq; subst.
    destruct (fstep_base e x Hg) as (B1 & B2 & B3); auto.
    destruct (IH (fstep e x)) as (C1 & C2 & C3); auto.
    splits; auto. eapply conf_same_trans; eassumption.
Qed.
Lemma finit_good garbage p ep m s : conf_ok s -> fgood (finit A garbage p ep m s).
Proof.
  intros H. split; [|exact H]. split; [|reflexivity].
  destruct (inv_init A HA garbage p false). constructor; assumption.
Qed.

(** ** C26 *)
Lemma no_dir_pin_lemma garbage p ep m s evs : conf_ok s -> s_dirpin s = PIN_UNDEFINED ->
  Forall fev_ok evs ->
  Forall (fun c => c_up c = true) (accepted_cmds (frun evs (finit A garbage p ep m s))).
Proof.
  intros Hc Hd He.
  set (P := fun x : stepper * hq => s_dirpin (fst x) = PIN_UNDEFINED /\ Forall (fun c => c_up c = true) (acc_of (snd x))).
  destruct (frun_ind P (fun _ => True)) with (l := evs) (x := finit A garbage p ep m s) as (_ & B & _).
  - intros e x Hg Hev _ [P1 P2]. destruct (fstep_base e x Hg Hev) as (_ & (B1 & _) & B2).
    split; [congruence|]. unfold new_of in B2. destruct e; try (destruct B2 as [-> _]; exact P2).
    destruct B2 as (new & -> & B2 & B3). apply Forall_app. split; [exact P2|].
    destruct new as [|k new]; [constructor|].
    destruct B2 as (_ & B2 & _); [discriminate|]. specialize (B2 P1).
    eapply Forall_impl; [|exact B3]. intros a [Ha _]. congruence.
  - now apply finit_good.
  - split; [exact Hd|constructor].
  - exact He.
  - apply Forall_forall. auto.
  - exact (proj2 B).
Qed.
Lemma no_dir_pin_code ext busy c start s t : s_dirpin s = PIN_UNDEFINED -> c_up c = false ->
  exists code, s_add A hq X ext busy c start s t = (s, t, code) /\ code < 0
  /\ (q_max (tqueue t) <= c_ticks c -> code = AQE_ERROR_NO_DIR_PIN_TO_TOGGLE).
Proof.
  intros Hd Hu. unfold s_add, add_first. rewrite Hd, Hu, Z.eqb_refl. cbn [negb andb].
  change (t_q hq X t) with (tqueue t).
  destruct (Z.ltb_spec (c_ticks c) (q_max (tqueue t))).
  - exists AQE_ERROR_TICKS_TOO_LOW. splits; auto; [unfold AQE_ERROR_TICKS_TOO_LOW; lia|lia].
  - exists AQE_ERROR_NO_DIR_PIN_TO_TOGGLE. splits; auto. unfold AQE_ERROR_NO_DIR_PIN_TO_TOGGLE; lia.
Qed.

(** ** C15, speed limit *)
Lemma speed_limit_lemma garbage p ep m s evs : conf_ok s -> Forall fev_ok evs ->
  let x := frun evs (finit A garbage p ep m s) in
  Forall (fun c => 0 < c_steps c -> q_max (fqueue x) <= c_ticks c) (accepted_cmds x).
Proof.
  intros Hc He x.
  set (P := fun x : stepper * hq => Forall (fun c => 0 < c_steps c -> q_max (fqueue x) <= c_ticks c) (acc_of (snd x))).
  destruct (frun_ind P (fun _ => True)) with (l := evs) (x := finit A garbage p ep m s) as (_ & B & _).
  - unfold P. intros e y Hg Hev _ P2. destruct (fstep_base e y Hg Hev) as (_ & (_ & _ & _ & _ & B1) & B2).
    rewrite B1. unfold new_of in B2. destruct e; try (destruct B2 as [-> _]; exact P2).
    destruct B2 as (new & -> & B2 & B3). apply Forall_app. split; [exact P2|].
    destruct new as [|k new]; [constructor|].
    destruct B2 as (B2 & _); [discriminate|].
    eapply Forall_impl; [|exact B3]. intros a [_ [->|Ha]] H0; [exact B2|lia].
  - now apply finit_good.
  - constructor.
  - exact He.
  - apply Forall_forall. auto.
  - exact B.
Qed.

(** ** C25 *)
Lemma set_pin_result ext pin level p : (pin <> PIN_UNDEFINED -> is_external pin = true ->
    exists f, ext = Some f /\ f pin level = level) ->
  snd (set_pin ext pin level p) = true
  /\ (pin <> PIN_UNDEFINED -> fst (set_pin ext pin level p) pin = level)
  /\ (forall k, k <> pin -> fst (set_pin ext pin level p) k = p k).
Proof.
  intros H. unfold set_pin. destruct (Z.eqb_spec pin PIN_UNDEFINED) as [E|E]; cbn [fst snd].
  - splits; auto. congruence.
  - destruct (is_external pin) eqn:X.
    + destruct (H E eq_refl) as (f & -> & Hf). cbn [fst snd]. rewrite Hf.
      splits; [apply Bool.eqb_reflx| |].
      * intros _. unfold upd. rewrite Z.eqb_refl. reflexivity.
      * intros k Hk. unfold upd. destruct (Z.eqb_spec k pin); [contradiction|reflexivity].
    + cbn [fst snd]. splits; auto.
      * intros _. unfold upd. rewrite Z.eqb_refl. reflexivity.
      * intros k Hk. unfold upd. destruct (Z.eqb_spec k pin); [contradiction|reflexivity].
Qed.
Lemma enable_on ext s p : responsive s ext -> distinct_pins s ->
  snd (enableOutputs ext s p) = true /\ outputs_on s (fst (enableOutputs ext s p)).
Proof.
  intros HR HD. unfold enableOutputs.
  destruct (set_pin_result ext (s_low s) false p) as (B1 & B2 & B3).
  { intros. apply HR; auto. }
  destruct (set_pin ext (s_low s) false p) as [p1 a]. cbn [fst snd] in *.
  destruct (set_pin_result ext (s_high s) true p1) as (C1 & C2 & C3).
  { intros. apply HR; auto. }
  destruct (set_pin ext (s_high s) true p1) as [p2 b]. cbn [fst snd] in *. subst a b.
  split; [reflexivity|]. split; [|exact C2].
  intros Hl. destruct HD as [HD|HD]; [contradiction|]. rewrite C3 by exact HD. auto.
Qed.
Lemma disable_ok ext s q p : responsive s ext ->
  let r := disableOutputs ext s q p in
  r = (s, p, false) /\ disable_allowed s q = false
  \/ disable_allowed s q = true /\ fst (fst r) = st_cnt 0 s.
Proof.
  intros HR. unfold disableOutputs, disable_pins. destruct (disable_allowed s q); [right|left; auto].
  split; [reflexivity|].
  destruct (set_pin_result ext (s_low s) true p) as (B1 & _).
  { intros. apply HR; auto. }
  destruct (set_pin ext (s_low s) true p) as [p1 a]. cbn [fst snd] in *.
  destruct (set_pin_result ext (s_high s) false p1) as (C1 & _).
  { intros. apply HR; auto. }
  destruct (set_pin ext (s_high s) false p1) as [p2 b]. cbn [fst snd] in *. subst a b. reflexivity.
Qed.

Definition on_inv (s0 : stepper) (x : stepper * hq) : Prop :=
  s_auto (fst x) = true /\ s_low (fst x) = s_low s0 /\ s_high (fst x) = s_high s0
  /\ (s_cnt (fst x) <> 0 \/ n_of (snd x) <> 0 -> outputs_on (fst x) (hq_p (snd x))).
Lemma outputs_same s s' p : s_low s' = s_low s -> s_high s' = s_high s -> outputs_on s p -> outputs_on s' p.
Proof. unfold outputs_on. intros -> ->. auto. Qed.
Lemma responsive_same s s' e : s_low s' = s_low s -> s_high s' = s_high s -> responsive s e -> responsive s' e.
Proof. unfold responsive. intros -> ->. auto. Qed.
Lemma allowed_empty s q : s_auto s = true -> disable_allowed s q = true -> queueEntries q = 0.
Proof.
  unfold disable_allowed, s_isRunning, isQueueEmpty. intros -> H. rewrite andb_true_r in H.
  apply negb_true_iff in H. apply orb_false_iff in H as [_ H]. apply negb_false_iff in H. lia.
Qed.
Lemma on_inv_step s0 e x : distinct_pins s0 -> fgood x -> fev_ok e -> auto_stays s0 e ->
  on_inv s0 x -> on_inv s0 (fstep e x).
Proof.
  intros HD Hg He Ha (P1 & P2 & P3 & P4).
  destruct (fstep_base e x Hg He) as ([Hg1 Hg2] & (_ & _ & C1 & C2 & _) & B).
  assert (EASY : forall s' t', fstep e x = (s', t') -> s_auto s' = true ->
     (s_cnt s' = s_cnt (fst x) \/ s_cnt s' <> 0 /\ s_cnt (fst x) <> 0) ->
     n_of t' <= n_of (snd x) -> hq_p t' = hq_p (snd x) -> on_inv s0 (fstep e x)).
  { intros s' t' E H1 H2 H3 H4. rewrite E in *. cbn [fst snd] in *. split; [exact H1|].
    splits; cbn [fst snd]; try congruence. intros H5. rewrite H4.
    apply (outputs_same (fst x)); auto. apply P4.
    pose proof (entries_range (tqueue t')). unfold n_of in *. destruct H2 as [H2|H2]; [|left; tauto].
    destruct H5 as [H5|H5]; [left; congruence|right; lia]. }
  destruct x as [s t]. cbn [fst snd] in *.
  assert (DIS : forall s1 p1 b ext, responsive s0 ext ->
     disableOutputs ext s (h_q (hq_h t)) (hq_p t) = (s1, p1, b) ->
     (s1 = s /\ p1 = hq_p t) \/ (s1 = st_cnt 0 s /\ n_of t = 0)).
  { intros s1 p1 b ext HR E. pose proof (disable_ok ext s (h_q (hq_h t)) (hq_p t)) as D.
    cbv zeta in D. rewrite E in D. cbn [fst] in D.
    destruct D as [[D _]|[D1 D2]]; [apply (responsive_same s0); auto|left|right].
    - split; congruence.
    - split; [exact D2|]. exact (allowed_empty s _ P1 D1). }
  destruct e; cbn [auto_stays] in Ha.
  - (* FAdd *)
    clear EASY DIS. cbn [FrontHist.fstep] in *.
    pose proof (s_add_ok A EXT HA ext busy c start s (set_w ws t) (proj1 Hg) He (proj2 Hg)) as [].
    destruct (s_add A hq X ext busy c start s (set_w ws t)) as [[s' t'] code]. cbn [fst snd] in *.
    assert (AU : s_auto s' = true) by (destruct sa_s as [->| ->]; exact P1).
    split; [exact AU|]. split; [cbn [fst]; congruence|]. split; [cbn [fst]; congruence|]. cbn [fst snd]. intros HK.
    destruct sa_pins as [[S1 S2]|(S1 & S2 & S3)].
    + destruct (enabling s) eqn:En.
      * destruct S2 as [S2 S3]; [reflexivity|]. rewrite S2, S3 in *. apply P4. exact HK.
      * rewrite S1. cbn [set_w hq_p]. apply (outputs_same s); auto. apply P4. left.
        unfold enabling in En. rewrite P1 in En. cbn [andb] in En. lia.
    + cbn [set_w hq_p] in *. rewrite S2. apply (outputs_same s); auto.
      apply enable_on; [apply (responsive_same s0); auto|].
      unfold distinct_pins in *. rewrite P2, P3. exact HD.
  - eapply EASY; [reflexivity|exact P1|now left|exact (proj2 (proj2 B))|].
    destruct (null_ok A EXT HA start (set_w ws t) (proj1 Hg)). exact ns_pins.
  - eapply EASY; [reflexivity|exact P1|now left|exact (proj2 (proj2 B))|reflexivity].
  - eapply EASY; [reflexivity|exact P1|now left|exact (proj2 (proj2 B))|reflexivity].
  - eapply EASY; [reflexivity|exact P1|now left|exact (proj2 (proj2 B))|reflexivity].
  - eapply EASY; [reflexivity|exact P1|now left|exact (proj2 (proj2 B))|reflexivity].
  - unfold on_inv; splits; auto. intros _. cbn [FrontHist.fstep fst snd t_setpins hacc hq_p].
    apply enable_on; [apply (responsive_same s0); auto|].
    unfold distinct_pins in *. rewrite P2, P3. exact HD.
  - cbn [FrontHist.fstep] in *.
    destruct (disableOutputs ext s (h_q (hq_h t)) (hq_p t)) as [[s1 p1] b] eqn:E.
    destruct (DIS _ _ _ _ Ha E) as [[-> ->]|[-> Hn]].
    + unfold on_inv; splits; auto.
    + unfold on_inv; splits; auto. cbn [fst snd t_setpins hacc]. unfold n_of, tqueue in *. cbn [hq_h st_cnt s_cnt].
      intros [K|K]; congruence.
  - subst b. eapply EASY; [reflexivity|reflexivity|now left|exact (proj2 (proj2 B))|reflexivity].
  - eapply EASY; [reflexivity| | |exact (proj2 (proj2 B))|reflexivity].
    + unfold setDelayToEnable. destruct (_ && _); auto. destruct (_ >? _); auto.
    + left. unfold setDelayToEnable. destruct (_ && _); auto. destruct (_ >? _); auto.
  - eapply EASY; [reflexivity|exact P1|now left|exact (proj2 (proj2 B))|reflexivity].
  - eapply EASY; [reflexivity|exact P1|now left|exact (proj2 (proj2 B))|reflexivity].
  - cbn [FrontHist.fstep] in *. unfold FrontHist.tick in *.
    assert (UP : forall s1 p1, (s1 = s /\ p1 = hq_p t) \/ (s1 = st_cnt 0 s /\ n_of t = 0) ->
       on_inv s0 (updateAutoDisable s1 (h_q (hq_h t)), t_setpins hq X p1 t)).
    { intros s1 p1 [[-> ->]|[-> Hn]]; unfold updateAutoDisable.
      - destruct (Z.gtb_spec (s_cnt s) 1); cbn [andb]; [|unfold on_inv; splits; auto].
        destruct (negb _); [|unfold on_inv; splits; auto].
        unfold on_inv; splits; auto. intros _. apply (outputs_same s); auto. apply P4. left. lia.
      - cbn [s_cnt st_cnt]. cbn [Z.gtb Z.compare andb]. unfold on_inv; splits; auto.
        cbn [fst snd t_setpins hacc]. unfold n_of, tqueue in *. cbn [hq_h st_cnt s_cnt].
        intros [K|K]; congruence. }
    destruct (needAutoDisable s (h_q (hq_h t))).
    + destruct (disableOutputs ext s (h_q (hq_h t)) (hq_p t)) as [[s1 p1] b] eqn:E.
      cbn [fst snd]. apply UP. exact (DIS _ _ _ _ Ha E).
    + cbn [fst snd]. apply UP. left. auto.
Qed.
Lemma enabled_lemma garbage p ep m s evs : conf_ok s -> s_auto s = true -> s_cnt s = 0 ->
  distinct_pins s -> Forall fev_ok evs -> Forall (auto_stays s) evs ->
  let x := frun evs (finit A garbage p ep m s) in
  pend A (fqueue x) <> [] -> outputs_on s (hq_p (snd x)).
Proof.
  intros Hc Ha H0 HD He Hs x.
  destruct (frun_ind (on_inv s) (auto_stays s)) with (l := evs) (x := finit A garbage p ep m s) as (_ & B & _).
  - intros. apply on_inv_step; auto.
  - now apply finit_good.
  - unfold on_inv; splits; auto. cbn. rewrite H0. intros [K|K]; congruence.
  - exact He.
  - exact Hs.
  - fold x in B. destruct B as (_ & B2 & B3 & B4). intros Hp.
    apply (outputs_same (fst x)); auto. apply B4. right. intros K. apply Hp. apply pend_nil. exact K.
Qed.

(** ** C27 *)
Lemma settled_app D : forall l1 l2 u t,
  settled D u t (l1 ++ l2) <-> settled D u t l1 /\ settled D (end_up u l1) (since u t l1) l2.
Proof.
  induction l1 as [|c l1 IH]; intros l2 u t; cbn [app settled since].
  - unfold end_up. cbn [fold_left]. tauto.
  - rewrite IH. unfold end_up. cbn [fold_left]. tauto.
Qed.
Lemma since_app : forall l1 l2 u t, since u t (l1 ++ l2) = since (end_up u l1) (since u t l1) l2.
Proof.
  induction l1 as [|c l1 IH]; intros l2 u t; cbn [app since]; [reflexivity|].
  rewrite IH. reflexivity.
Qed.
Lemma cdur_pos c : cmd_ok c -> 0 <= cdur c.
Proof. intros [H1 H2]. unfold cdur. apply Z.mul_nonneg_nonneg; lia. Qed.
(** commands in the direction of the previous one *)
Lemma settled_same D : forall l u t, D <= t -> Forall cmd_ok l -> Forall (fun c => c_up c = u) l ->
  settled D u t l /\ D <= since u t l.
Proof.
  induction l as [|c l IH]; intros u t Ht Ho Hl; cbn [settled since]; [auto|].
  inversion Hl as [|? ? E Hl']; inversion Ho as [|? ? O Ho']; subst.
  rewrite Bool.eqb_reflx. pose proof (cdur_pos c O).
  destruct (IH (c_up c) (t + cdur c) ltac:(lia) Ho' Hl') as [B1 B2]. auto.
Qed.
(** a long enough pause first *)
Lemma settled_turn D l u t c : c_steps c = 0 -> D <= cdur c -> cmd_ok c -> D <= t -> Forall cmd_ok l ->
  Forall (fun k => c_up k = c_up c) l ->
  settled D u t (c :: l) /\ D <= since u t (c :: l).
Proof.
  intros H0 Hd Hc Ht Ho Hl. cbn [settled since].
  pose proof (cdur_pos c Hc).
  destruct (settled_same D l (c_up c) ((if Bool.eqb u (c_up c) then t else 0) + cdur c)) as [B1 B2]; auto.
  - destruct (Bool.eqb u (c_up c)); lia.
  - splits; auto. lia.
Qed.
(** a list of pauses *)
Lemma settled_pauses D up : forall ds u t,
  settled D u t (map (fun d => mkCommand d 0 up) ds)
  /\ since u t (map (fun d => mkCommand d 0 up) ds)
     = match ds with [] => t | _ => (if Bool.eqb u up then t else 0) + fold_right Z.add 0 ds end.
Proof.
  induction ds as [|d ds IH]; intros u t; cbn [map settled since c_up c_steps fold_right]; [auto|].
  unfold cdur at 1 2. cbn [c_ticks c_steps]. change (Z.max 1 0) with 1.
  destruct (IH up ((if Bool.eqb u up then t else 0) + d * 1)) as [B1 B2].
  splits; auto; [lia|]. rewrite B2, Bool.eqb_reflx. destruct ds; cbn [fold_right]; lia.
Qed.

(** Conditions on the configuration and the history *)
Definition conf24 (s : stepper) : Prop :=
  conf_ok s /\ 1 <= s_off s
  /\ (s_dirdelay s = 0 \/ MIN_CMD_TICKS A <= s_dirdelay s)
  /\ (s_ondelay s = 0 \/ MIN_CMD_TICKS A <= s_ondelay s <= 65535 * (L - 1)).
Definition conf27 (s : stepper) : Prop :=
  conf_ok s /\ 1 <= s_off s
  /\ (s_dirdelay s = 0 \/ MIN_CMD_TICKS A <= s_dirdelay s)
  /\ (s_ondelay s = 0 \/ MIN_CMD_TICKS A <= s_ondelay s <= 65535 * (L - 1))
  /\ (is_external (s_dirpin s) = true -> s_dirdelay s <= 500 * TICKS_PER_US A).
(** a pause never carries a direction change; with auto enable on, commands are long enough
    and the device is ready; auto enable is switched on only with an empty queue or after
    a command with auto enable *)
Definition ev27 (e : fevent) (x : stepper * hq) : Prop :=
  match e with
  | FAdd ext busy c start ws =>
    (c_steps c = 0 -> c_up c = qe_up (q_end (fqueue x)))
    /\ (s_auto (fst x) = true -> Forall ready ws /\ MIN_CMD_TICKS A <= cdur c)
  | FNull _ ws => s_auto (fst x) = true -> Forall ready ws
  | FAuto b => b = true -> s_cnt (fst x) <> 0 \/ pend A (fqueue x) = []
  | _ => True
  end.
Fixpoint along (l : list fevent) (x : stepper * hq) : Prop :=
  match l with [] => True | e :: l' => ev27 e x /\ along l' (fstep e x) end.
Definition inv27 (D : Z) (x : stepper * hq) : Prop :=
  conf27 (fst x) /\ s_dirdelay (fst x) = D
  /\ Forall cmd_ok (acc_of (snd x))
  /\ settled D true D (acc_of (snd x))
  /\ up_of (snd x) = end_up true (acc_of (snd x))
  /\ D <= since true D (acc_of (snd x))
  /\ (s_auto (fst x) = true -> s_cnt (fst x) <> 0 \/ n_of (snd x) = 0).

Lemma arch_pause : 0 < MIN_CMD_TICKS A <= 500 * TICKS_PER_US A /\ 500 * TICKS_PER_US A < 32768 /\ 3 <= L.
Proof. clear - HA. revert A HA. apply arch_cases; cbn; lia. Qed.
Lemma rate_cdur c : cmd_ok c -> command_rate_ticks c = cdur c.
Proof.
  intros [H1 H2]. unfold command_rate_ticks, cdur.
  destruct (Z.gtb_spec (c_steps c) 1).
  - rewrite Z.max_r by lia. unfold u32. apply Z.mod_small. nia.
  - rewrite Z.max_l by lia. lia.
Qed.

Lemma conf27_24 s : conf27 s -> conf24 s.
Proof. unfold conf27, conf24. tauto. Qed.
Definition core27 (D : Z) (t : hq) : Prop :=
  Forall cmd_ok (acc_of t) /\ settled D true D (acc_of t)
  /\ up_of t = end_up true (acc_of t) /\ D <= since true D (acc_of t).
Lemma core_ext D t t' l : core27 D t -> Forall cmd_ok l ->
  (forall tt, D <= tt -> settled D (up_of t) tt l /\ D <= since (up_of t) tt l) ->
  acc_of t' = acc_of t ++ l -> up_of t' = end_up (up_of t) l -> core27 D t'.
Proof.
  intros (C1 & C2 & C3 & C4) Ho Hl Ea Eu. destruct (Hl _ C4) as [H1 H2].
  unfold core27. rewrite Ea, settled_app, since_app, end_up_app, <- C3.
  splits; auto. apply Forall_app. auto.
Qed.
Lemma core_same D t t' : core27 D t -> acc_of t' = acc_of t -> up_of t' = up_of t -> core27 D t'.
Proof. unfold core27. intros H -> ->. exact H. Qed.

Lemma ext_cdur c : cdur (ext_pause A c) = 500 * TICKS_PER_US A.
Proof.
  destruct arch_pause as (B1 & B2 & _).
  unfold cdur, ext_pause, u16. cbn [c_ticks c_steps]. rewrite Z.mod_small by lia. change (Z.max 1 0) with 1. lia.
Qed.
Lemma pre_settled c s up l1 l2 : cmd_ok c -> conf27 s ->
  (c_steps c = 0 -> c_up c = up) -> pre_pauses A c s up ++ [c] = l1 ++ l2 ->
  Forall cmd_ok l1 /\
  (forall tt, s_dirdelay s <= tt -> settled (s_dirdelay s) up tt l1 /\ s_dirdelay s <= since up tt l1).
Proof.
  intros Hc Hs Hu E.
  assert (Ho : Forall cmd_ok l1).
  { pose proof (pre_ok A c s up Hc (proj1 Hs)) as H. rewrite E in H. apply Forall_app in H. tauto. }
  assert (Hup : Forall (fun k => c_up k = c_up c) l1).
  { assert (H : Forall (fun k => c_up k = c_up c) (l1 ++ l2)).
    { rewrite <- E. apply Forall_app. split; [|constructor; auto].
      eapply Forall_impl; [|apply (pre_pause A)]. intros a [_ Ha]. exact Ha. }
    apply Forall_app in H. tauto. }
  split; [exact Ho|]. intros tt Ht.
  destruct l1 as [|k l1]; [cbn [settled since]; auto|].
  inversion Ho as [|? ? Ok Ho']; subst. inversion Hup as [|? ? Ek Hup']; subst.
  assert (Hup2 : Forall (fun x => c_up x = c_up k) l1).
  { eapply Forall_impl; [|exact Hup']. intros a Ha. cbv beta in Ha. congruence. }
  destruct Hs as (_ & _ & HD & _ & HE).
  unfold pre_pauses in E.
  destruct (Bool.eqb up (c_up c)) eqn:Eq.
  - cbn [app] in E. injection E as -> E. symmetry in E. apply app_eq_nil in E as [-> _].
    apply Bool.eqb_prop in Eq. subst up.
    apply (settled_same (s_dirdelay s) [k] (c_up k) tt); auto.
  - destruct (is_external (s_dirpin s)) eqn:Ex.
    + cbn [app] in E. injection E as <- E.
      apply settled_turn; auto. rewrite ext_cdur. auto.
    + destruct (negb (s_dirdelay s =? 0) && negb (c_steps c =? 0)) eqn:Ed.
      * cbn [app] in E. injection E as <- E.
        apply settled_turn; auto. unfold cdur, dir_pause. cbn [c_ticks c_steps]. change (Z.max 1 0) with 1. lia.
      * cbn [app] in E. injection E as -> E. symmetry in E. apply app_eq_nil in E as [-> _].
        apply andb_false_iff in Ed. pose proof (cdur_pos k Ok).
        destruct Ed as [Ed|Ed]; apply negb_false_iff in Ed; apply Z.eqb_eq in Ed.
        -- rewrite Ed in *. cbn [settled since]. rewrite Eq. splits; auto; lia.
        -- rewrite Hu in Eq by exact Ed. rewrite Bool.eqb_reflx in Eq. discriminate.
Qed.
Lemma pre_long c s up : cmd_ok c -> conf24 s -> MIN_CMD_TICKS A <= cdur c ->
  Forall (long_cmd A) (pre_pauses A c s up ++ [c]) /\ Z.of_nat (length (pre_pauses A c s up ++ [c])) <= 3.
Proof.
  intros Hc Hs Hl. destruct arch_pause as (B1 & B2 & _).
  assert (H0 : long_cmd A c) by (unfold long_cmd; rewrite rate_cdur by exact Hc; exact Hl).
  assert (H1 : long_cmd A (ext_pause A c)).
  { unfold long_cmd. rewrite rate_cdur by apply ext_pause_ok. rewrite ext_cdur. lia. }
  unfold pre_pauses.
  destruct (Bool.eqb up (c_up c)); [|destruct (is_external (s_dirpin s)); [|destruct (_ && _) eqn:E]];
    cbn [app length]; (split; [|lia]); repeat (constructor; auto).
  unfold long_cmd, command_rate_ticks, dir_pause. cbn [c_ticks c_steps]. destruct Hs as (_ & _ & [H|H] & _).
  - rewrite H in E. discriminate.
  - exact H.
Qed.
Lemma second27 c start s t : good A t -> cmd_ok c -> conf27 s ->
  (c_steps c = 0 -> c_up c = up_of t) -> core27 (s_dirdelay s) t ->
  core27 (s_dirdelay s) (snd (fst (add_second A hq X c start s t))).
Proof.
  intros Hg Hc Hs Hu HC. rewrite add_second_eq. destruct (no_room A c s t); [exact HC|].
  cbv zeta. cbn [fst snd].
  destruct (adds_ok A EXT HA start _ t Hg (pre_ok A c s (up_of t) Hc (proj1 Hs))).
  destruct (q_ignore (tqueue t)) eqn:Ei.
  - destruct (ad_ign eq_refl) as [E1 E2]. now apply (core_same _ t).
  - destruct (ad_acc eq_refl) as (l1 & l2 & E & Ea & Eu & _).
    destruct (pre_settled c s (up_of t) l1 l2 Hc Hs Hu E) as [P1 P2].
    apply (core_ext _ t _ l1); auto.
Qed.
Lemma second_code c start s t : good A t -> cmd_ok c -> conf24 s -> MIN_CMD_TICKS A <= cdur c ->
  all_ready t -> (n_of t = 0 \/ n_of t < L /\ c_up c = up_of t) ->
  snd (add_second A hq X c start s t) = AQE_OK.
Proof.
  intros Hg Hc Hs Hl Hw Hn. rewrite add_second_eq. destruct arch_pause as (_ & _ & HL).
  pose proof (adds_ok A EXT HA start _ t Hg (pre_ok A c s (up_of t) Hc (proj1 Hs))) as [].
  destruct (pre_long c s (up_of t) Hc Hs Hl) as [P1 P2].
  assert (NR : no_room A c s t = false).
  { unfold no_room. destruct Hn as [Hn|[Hn Hu]].
    - rewrite Hn. destruct (Z.gtb_spec 0 (L - 2)); [lia|]. rewrite !andb_false_r. reflexivity.
    - rewrite Hu, Bool.eqb_reflx. reflexivity. }
  rewrite NR. cbv zeta. cbn [snd]. apply ad_ready; auto.
  destruct Hn as [Hn|[Hn Hu]]; [lia|].
  unfold pre_pauses. rewrite <- Hu, Bool.eqb_reflx. cbn [app length]. lia.
Qed.

(** the call without a command fails only if the queue is empty *)
Lemma null_fail start t : good A t -> all_ready t ->
  snd (t_null hq X start t) <> AQE_OK -> n_of (fst (t_null hq X start t)) = 0.
Proof.
  intros Hg Hw. destruct (all_ready1 t Hw) as [R1 _].
  cbn [t_null hacc h_null fst snd]. unfold n_of, tqueue. cbn [hq_h]. rewrite R1.
  set (h := isr A EXT (w_i0 (weather1 t)) (hq_h t)).
  unfold q_add_null at 1. cbn [negb].
  destruct (start && negb (q_running (h_q h))) eqn:E; [|cbn [a_code]; congruence].
  destruct (Z.eqb_spec (q_wr (h_q h)) (q_rd (h_q h))) as [E1|E1]; [|cbn [a_code]; congruence].
  intros _. cbn [hstep]. unfold q_add_null. cbn [negb]. rewrite E, E1, Z.eqb_refl. cbn [a_started].
  apply andb_prop in E as [_ E]. apply negb_true_iff in E.
  rewrite andb_false_r, (isr_idle A EXT _ _ E). unfold queueEntries. rewrite E1, Z.sub_diag. reflexivity.
Qed.

Lemma on_delay_pieces c s t : conf24 s -> 0 < s_ondelay s ->
  let d := on_delay hq X c s t in
  let ps := on_pieces (on_fuel d) d in
  fold_right Z.add 0 ps = d /\ Forall (fun x => MIN_CMD_TICKS A <= x < 65536) ps
  /\ Z.of_nat (length ps) <= L - 1 /\ ps <> []
  /\ (c_up c <> up_of t -> s_dirdelay s <= d) /\ s_ondelay s <= d.
Proof.
  intros ([Hd1 Hd2] & _ & HD & HO) Hp d ps.
  destruct arch_pause as (B1 & B2 & HL).
  assert (Bd : MIN_CMD_TICKS A <= d <= 65535 * (L - 1) /\ (c_up c <> up_of t -> s_dirdelay s <= d) /\ s_ondelay s <= d).
  { unfold d, on_delay. change (qe_up (q_end (t_q hq X t))) with (up_of t).
    destruct (Z.ltb_spec (s_ondelay s) (s_dirdelay s)); cbn [andb].
    - destruct (up_of t), (c_up c); cbn [Bool.eqb negb]; splits; intros; try lia; try congruence.
    - splits; intros; lia. }
  destruct Bd as (Bd & Bu & Bo).
  assert (LL : L <= 256) by (clear - HA; revert A HA; apply arch_cases; cbn; lia).
  assert (MM : MIN_CMD_TICKS A <= 32768) by lia.
  destruct (on_pieces_ok d) as (I1 & I2 & I3 & I4); [lia|].
  splits; auto.
  - eapply Forall_impl; [|exact I2]. intros a. cbv beta. lia.
  - eapply Z.le_trans; [exact I3|].
    assert ((d + 65534) / 65535 <= (65535 * (L - 1) + 65534) / 65535) by (apply Z.div_le_mono; lia).
    replace (65535 * (L - 1) + 65534) with (65534 + (L - 1) * 65535) in * by lia.
    rewrite Z.div_add in * by lia. change (65534 / 65535) with 0 in *. lia.
Qed.

Lemma inv27_add ext busy c start ws s t : fgood (s, t) -> cmd_ok c ->
  ev27 (FAdd ext busy c start ws) (s, t) -> inv27 (s_dirdelay s) (s, t) ->
  let r := s_add A hq X ext busy c start s (set_w ws t) in
  inv27 (s_dirdelay s) (fst r).
Proof.
  intros [Hg Hco] Hc [Hu Hr] (K1 & _ & K3 & K4 & K5 & K6 & K7). cbn [fst snd] in *.
  set (t0 := set_w ws t).
  assert (G0 : good A t0) by exact Hg.
  assert (C0 : core27 (s_dirdelay s) t0) by (unfold core27; auto).
  pose proof (s_add_ok A EXT HA ext busy c start s t0 G0 Hc Hco) as SA.
  cbv zeta.
  assert (FIN : forall r : stepper * hq * Z, (fst (fst r) = s \/ fst (fst r) = st_cnt (s_off s) s) ->
     core27 (s_dirdelay s) (snd (fst r)) ->
     (s_auto s = true -> fst (fst r) = st_cnt (s_off s) s \/ fst (fst r) = s /\ (s_cnt s <> 0 \/ n_of (snd (fst r)) = 0)) ->
     inv27 (s_dirdelay s) (fst r)).
  { intros r H1 (C1 & C2 & C3 & C4) H3. unfold inv27.
    assert (Hoff : 1 <= s_off s) by (destruct K1; tauto).
    splits; auto.
    - destruct H1 as [->| ->]; exact K1.
    - destruct H1 as [->| ->]; reflexivity.
    - intros Ha. assert (Ha' : s_auto s = true) by (destruct H1 as [E|E]; rewrite E in Ha; exact Ha).
      destruct (H3 Ha') as [E|[E1 E2]]; rewrite ?E, ?E1; [left; cbn; lia|exact E2]. }
  pose proof (sa_s _ _ _ _ _ _ _ SA) as SS.
  unfold s_add in *.
  destruct (add_first_cases A EXT ext busy c start s t0) as [(H1 & H2 & _)|[Hp H]].
  { destruct (Z.eqb_spec (snd (add_first hq X ext busy c start s t0)) AQE_OK); [contradiction|].
    cbn [negb] in *. apply FIN; auto; cbn [fst snd]; rewrite H2; auto. }
  assert (SEC : forall t1, good A t1 -> core27 (s_dirdelay s) t1 -> (c_steps c = 0 -> c_up c = up_of t1) ->
     (fst (fst (add_second A hq X c start s t1)) = s \/ fst (fst (add_second A hq X c start s t1)) = st_cnt (s_off s) s) ->
     (s_auto s = true -> s_cnt s <> 0 \/ MIN_CMD_TICKS A <= cdur c /\ all_ready t1 /\ (n_of t1 = 0 \/ n_of t1 < L /\ c_up c = up_of t1)) ->
     inv27 (s_dirdelay s) (fst (add_second A hq X c start s t1))).
  { intros t1 G1 C1 U1 S1 N1. apply FIN; auto.
    - now apply second27.
    - intros Ha. destruct (N1 Ha) as [N|(N2 & N3 & N4)].
      + destruct S1 as [S1|S1]; [right; auto|left; auto].
      + left. pose proof (second_code c start s t1 G1 Hc (conf27_24 s K1) N2 N3 N4) as E.
        rewrite add_second_eq in *. destruct (no_room A c s t1); [discriminate|].
        cbv zeta in *. cbn [fst snd] in *. unfold after_add. rewrite Ha, E. reflexivity. }
  destruct H as [[He H]|[He H]].
  - rewrite H in *. cbn [fst snd] in *. change (negb (AQE_OK =? AQE_OK)) with false in *. cbv iota in *.
    apply SEC; auto. intros Ha. left. unfold enabling in He. rewrite Ha in He. cbn [andb] in He. lia.
  - cbv zeta in H. set (en := enableOutputs ext s (hq_p t0)) in *.
    set (t1 := t_setpins hq X (fst en) t0) in *.
    apply andb_true_iff in He as [Ha Hz]. apply Z.eqb_eq in Hz.
    destruct (Hr Ha) as [Hw Hl]. destruct (K7 Ha) as [K|N0]; [contradiction|].
    assert (G1 : good A t1) by exact G0.
    assert (W1 : all_ready t1) by exact Hw.
    assert (C1 : core27 (s_dirdelay s) t1) by exact C0.
    assert (N1 : n_of t1 = 0) by exact N0.
    destruct H as [[E1 H]|[(E1 & E2 & H)|(E1 & E2 & H)]]; rewrite H in *.
    + cbn [fst snd] in *. change (negb (AQE_WAIT_FOR_ENABLE_PIN_ACTIVE =? AQE_OK)) with true in *. cbv iota in *.
      apply FIN; auto.
    + cbn [fst snd] in *. change (negb (AQE_OK =? AQE_OK)) with false in *. cbv iota in *.
      apply SEC; auto. 
    + destruct (on_delay_pieces c s t0 (conf27_24 s K1) E2) as (I1 & I2 & I3 & I4 & I5 & I6).
      set (d := on_delay hq X c s t0) in *. set (ps := on_pieces (on_fuel d) d) in *.
      destruct (pieces_range A EXT s c t0 Hco E2) as [_ HR]. cbv zeta in HR. fold d in HR. fold ps in HR.
      destruct (pauses_grow A EXT HA (c_up c) ps t1 G1 HR) as (G2 & S2 & _ & l' & B1 & B2 & B3).
      set (t2 := add_pauses hq X (c_up c) ps t1) in *.
      pose proof (null_ok A EXT HA start t2 G2) as [].
      assert (ST : core27 (s_dirdelay s) t2 /\ all_ready t2 /\ n_of t2 <= L - 1 /\ (c_up c = up_of t2 \/ n_of t2 = 0)
                   /\ (c_steps c = 0 -> c_up c = up_of t2)).
      { destruct (q_ignore (tqueue t1)) eqn:Ei.
        - (* everything is ignored *)
          assert (IGN : forall l u, good A u -> Forall (fun d => 0 <= d < 65536) l -> q_ignore (tqueue u) = true ->
             all_ready u ->
             let u' := add_pauses hq X (c_up c) l u in
             acc_of u' = acc_of u /\ up_of u' = up_of u /\ all_ready u' /\ n_of u' <= n_of u).
          { clear - HA. induction l as [|x l IHl]; intros u Gu Hl' Hi Hwu; cbn [add_pauses]; [splits; auto; lia|].
            inversion Hl' as [|? ? Hx Hl'']; subst.
            assert (Hcx : cmd_ok (mkCommand x 0 (c_up c))) by (split; cbn; lia).
            pose proof (add_ok A EXT HA (mkCommand x 0 (c_up c)) false u Gu Hcx) as [].
            destruct as_no as (Z1 & Z2 & _ & Z3); [now right|].
            set (u1 := fst (t_add hq X (mkCommand x 0 (c_up c)) false u)) in *.
            destruct (IHl u1 as_good Hl'') as (Y1 & Y2 & Y3 & Y4); auto.
            - rewrite (sc_ign _ _ as_same). exact Hi.
            - unfold all_ready. rewrite as_w. now apply tl_Forall.
            - splits; auto; [congruence|congruence|lia]. }
          destruct (IGN ps t1 G1 HR Ei W1) as (Y1 & Y2 & Y3 & Y4). fold t2 in Y1, Y2, Y3, Y4.
          pose proof (entries_range (tqueue t2)) as R2. unfold n_of in *.
          splits; auto; [now apply (core_same _ t1)|lia|right; lia|].
          intros Hst. rewrite Y2. exact (Hu Hst).
        - destruct (pauses_all A EXT HA (c_up c) ps t1 G1 I2 W1 Ei) as (P1 & P2 & P3 & P4); [lia|].
          fold t2 in P1, P2, P3, P4.
          assert (Eu : up_of t2 = c_up c) by (rewrite P2; destruct ps; [congruence|reflexivity]).
          splits; auto; try lia.
          apply (core_ext _ t1 _ (map (fun d => mkCommand d 0 (c_up c)) ps)); auto.
          + apply Forall_forall. intros k Hk. apply in_map_iff in Hk as (x & <- & Hx).
            rewrite Forall_forall in HR. specialize (HR x Hx). split; cbn; lia.
          + intros tt Htt. destruct (settled_pauses (s_dirdelay s) (c_up c) ps (up_of t1) tt) as [Q1 Q2].
            split; [exact Q1|]. rewrite Q2. destruct ps; [congruence|]. rewrite I1.
            destruct (Bool.eqb (up_of t1) (c_up c)) eqn:Eb; [lia|].
            assert (s_dirdelay s <= d); [|lia]. apply I5. change (up_of t0) with (up_of t1).
            intros K. rewrite K, Bool.eqb_reflx in Eb. discriminate.
          + rewrite P2. destruct ps as [|p0 ps']; [congruence|]. cbn [map]. unfold end_up. cbn [fold_left c_up].
            clear. generalize (c_up c). induction ps' as [|x l IHl]; intros u; cbn; auto. }
      destruct ST as (T1 & T2 & T3 & T4 & T5).
      set (t3 := fst (t_null hq X start t2)) in *.
      assert (U3 : up_of t3 = up_of t2) by (unfold up_of; rewrite ns_end; reflexivity).
      assert (C3 : core27 (s_dirdelay s) t3) by (apply (core_same _ t2); auto).
      destruct (Z.eqb_spec (snd (t_null hq X start t2)) AQE_OK) as [En|En]; cbn [negb] in *.
      * apply SEC; auto.
        -- intros Hst. rewrite U3. auto.
        -- intros _. right. splits; auto.
           ++ unfold all_ready. rewrite ns_w. now apply tl_Forall.
           ++ rewrite U3. pose proof (entries_range (tqueue t3)) as R3. unfold n_of in *.
              destruct T4 as [T4|T4]; [right|left]; [split; [lia|exact T4]|lia].
      * apply FIN; auto. intros _. right. cbn [fst snd]. split; [reflexivity|]. right.
        now apply null_fail.
Qed.
Lemma inv27_step D e x : fgood x -> fev_ok e -> ev27 e x -> inv27 D x -> inv27 D (fstep e x).
Proof.
  intros Hg He Hv HI.
  destruct (fstep_base e x Hg He) as (_ & _ & B).
  assert (EASY : forall s' t', fstep e x = (s', t') -> conf27 s' -> s_dirdelay s' = D ->
     core27 D t' ->
     (s_auto s' = true -> s_cnt s' <> 0 \/ n_of t' = 0) -> inv27 D (fstep e x)).
  { intros s' t' E H1 H2 (C1 & C2 & C3 & C4) H3. rewrite E. unfold inv27. splits; auto. }
  destruct x as [s t]. destruct HI as (K1 & K2 & K3 & K4 & K5 & K6 & K7). cbn [fst snd] in *.
  assert (CO : forall t', acc_of t' = acc_of t -> up_of t' = up_of t -> core27 D t').
  { intros t' E1 E2. unfold core27. rewrite E1, E2. auto. }
  assert (NN : forall t', n_of t' <= n_of t -> (s_auto s = true -> s_cnt s <> 0 \/ n_of t' = 0)).
  { intros t' H H0. pose proof (entries_range (tqueue t')). unfold n_of in *. destruct (K7 H0); [left|right]; [assumption|lia]. }
  destruct e.
  - clear EASY B CO NN. cbn [FrontHist.fstep].
    pose proof (inv27_add ext busy c start ws s t Hg He Hv) as HX. subst D. cbv zeta in HX.
    destruct (s_add A hq X ext busy c start s (set_w ws t)) as [[s' t'] code]. cbn [fst] in HX.
    apply HX. unfold inv27. splits; auto.
  - destruct B as (B1 & B2 & B3). eapply EASY; [reflexivity|auto|auto|auto|]. apply NN. exact B3.
  - destruct B as (B1 & B2 & B3). eapply EASY; [reflexivity|auto|auto|auto|]. apply NN. exact B3.
  - destruct B as (B1 & B2 & B3). eapply EASY; [reflexivity|auto|auto|auto|]. apply NN. exact B3.
  - destruct B as (B1 & B2 & B3). eapply EASY; [reflexivity|auto|auto|auto|]. apply NN. exact B3.
  - destruct B as (B1 & B2 & B3). eapply EASY; [reflexivity|auto|auto|auto|]. apply NN. exact B3.
  - eapply EASY; [reflexivity|auto|auto|auto|]. apply NN. apply Z.le_refl.
  - cbn [FrontHist.fstep] in *.
    pose proof (disable_conf ext s (h_q (hq_h t)) (hq_p t)) as D1. cbv zeta in D1.
    destruct (disableOutputs ext s (h_q (hq_h t)) (hq_p t)) as [[s1 p1] b] eqn:E. cbn [fst] in D1.
    eapply EASY; [reflexivity| | | |].
    + destruct D1 as [->| ->]; exact K1.
    + destruct D1 as [->| ->]; exact K2.
    + apply CO; reflexivity.
    + intros Ha. unfold disableOutputs in E. destruct (disable_allowed s (h_q (hq_h t))) eqn:Al.
      * right. assert (Ha' : s_auto s = true) by (destruct D1 as [D1|D1]; rewrite D1 in Ha; exact Ha).
        exact (allowed_empty s _ Ha' Al).
      * injection E as <- <- <-. apply NN; auto. apply Z.le_refl.
  - eapply EASY; [reflexivity| |exact K2|apply CO; reflexivity|].
    + unfold conf27 in *. cbn [fst setAutoEnable st_auto s_off s_dirdelay s_ondelay s_dirpin].
      destruct K1 as (Z1 & Z2 & Z3 & Z4 & Z5). splits; auto.
      unfold setAutoEnable. cbn. destruct (b && (s_off s =? 0)); lia.
    + cbn. intros Hb. cbn [ev27 fst] in Hv. destruct (Hv Hb) as [H|H]; [now left|right].
      apply pend_nil in H. exact H.
  - destruct B as (B1 & B2 & B3). eapply EASY; [reflexivity| | |apply CO; reflexivity|].
    + destruct K1 as (Z1 & Z2 & Z3 & Z4 & Z5). unfold setDelayToEnable.
      destruct (_ && _) eqn:E1; [unfold conf27; auto|]. destruct (Z.gtb_spec (US_TO_TICKS A us) (MAX_ON_DELAY_TICKS A)) as [|E2]; [unfold conf27; auto|].
      assert (RR : 0 <= US_TO_TICKS A us < 4294967296) by (unfold US_TO_TICKS, u32; apply Z.mod_pos_bound; lia).
      unfold conf27, conf_ok in *. cbn [fst st_ondelay s_off s_dirdelay s_ondelay s_dirpin]. splits; auto; try tauto.
      assert (MX : MAX_ON_DELAY_TICKS A = 65535 * (L - 1)).
      { clear - HA. revert A HA. apply arch_cases; reflexivity. }
      rewrite MX in E2. destruct (Z.gtb_spec (US_TO_TICKS A us) 0); [|left; lia].
      cbn [andb] in E1. right. lia.
    + unfold setDelayToEnable. destruct (_ && _); auto. destruct (_ >? _); auto.
    + unfold setDelayToEnable. destruct (_ && _); auto. destruct (_ >? _); auto.
  - eapply EASY; [reflexivity| |exact K2|apply CO; reflexivity|exact K7].
    destruct K1 as (Z1 & Z2 & Z3 & Z4 & Z5). unfold conf27 in *. splits; auto.
    unfold setDelayToDisable. cbn. unfold fas_max. destruct (_ >? 1) eqn:E; lia.
  - eapply EASY; [reflexivity|exact K1|exact K2|apply CO; reflexivity|exact K7].
  - cbn [FrontHist.fstep] in *. unfold FrontHist.tick in *.
    assert (UP : forall s1 p1, s1 = s \/ (s1 = st_cnt 0 s /\ (s_auto s = true -> n_of t = 0)) ->
       inv27 D (updateAutoDisable s1 (h_q (hq_h t)), t_setpins hq X p1 t)).
    { intros s1 p1 H. unfold updateAutoDisable.
      assert (CC : forall n, conf27 (st_cnt n s)) by (intros; exact K1).
      destruct H as [->|[-> H]].
      - destruct (Z.gtb_spec (s_cnt s) 1); cbn [andb]; [|unfold inv27; splits; auto].
        destruct (negb _); [|unfold inv27; splits; auto].
        unfold inv27; splits; auto. intros _. left. cbn. lia.
      - cbn [s_cnt st_cnt]. cbn [Z.gtb Z.compare andb]. unfold inv27; splits; auto. }
    destruct (needAutoDisable s (h_q (hq_h t))).
    + pose proof (disable_conf ext s (h_q (hq_h t)) (hq_p t)) as D1. cbv zeta in D1.
      destruct (disableOutputs ext s (h_q (hq_h t)) (hq_p t)) as [[s1 p1] b] eqn:E. cbn [fst] in D1.
      cbn [fst snd]. apply UP. unfold disableOutputs in E. destruct (disable_allowed s (h_q (hq_h t))) eqn:Al.
      * destruct D1 as [D1|D1]; [now left|right]. split; [exact D1|]. intros Ha. exact (allowed_empty s _ Ha Al).
      * left. congruence.
    + cbn [fst snd]. apply UP. now left.
Qed.
Lemma dir_delay_hist garbage p ep m s evs : conf27 s -> s_cnt s = 0 -> Forall fev_ok evs ->
  along evs (finit A garbage p ep m s) ->
  settled (s_dirdelay s) true (s_dirdelay s) (accepted_cmds (frun evs (finit A garbage p ep m s))).
Proof.
  intros Hc H0 He.
  assert (IND : forall l x, fgood x -> inv27 (s_dirdelay s) x -> Forall fev_ok l -> along l x ->
     inv27 (s_dirdelay s) (frun l x)).
  { induction l as [|e l IH]; intros x Hg HI Hl Ha; cbn [FrontHist.frun]; [exact HI|].
    inversion Hl; subst. destruct Ha as [Ha Hl'].
    apply IH; auto.
    - now apply fstep_base.
    - now apply inv27_step. }
  intros Ha. destruct (IND evs (finit A garbage p ep m s)) as (_ & _ & _ & B & _); auto.
  - apply finit_good. apply Hc.
  - unfold inv27. splits; auto; cbn; auto; try lia.
Qed.

(** ** C24 *)
Lemma enable_delay_fits ext busy c start s t : good A t -> conf24 s -> cmd_ok c ->
  s_auto s = true -> s_cnt s = 0 -> 0 < s_ondelay s -> snd (enableOutputs ext s (hq_p t)) = true ->
  pass busy c s t -> MIN_CMD_TICKS A <= cdur c ->
  all_ready t -> q_ignore (tqueue t) = false -> pend A (tqueue t) = [] -> q_running (tqueue t) = false ->
  exists ps,
    acc_of (snd (fst (s_add A hq X ext busy c start s t)))
      = acc_of t ++ map (fun d => mkCommand d 0 (c_up c)) ps ++ [c]
    /\ fold_right Z.add 0 ps = (if Bool.eqb (up_of t) (c_up c) then s_ondelay s
                               else Z.max (s_ondelay s) (s_dirdelay s))
    /\ Forall (fun d => MIN_CMD_TICKS A <= d <= 65535) ps
    /\ Z.of_nat (length ps) <= L - 1
    /\ snd (s_add A hq X ext busy c start s t) = AQE_OK
    /\ s_cnt (fst (fst (s_add A hq X ext busy c start s t))) = s_off s.
Proof.
  intros Hg Hs Hc Ha Hz Hon Hen Hp Hl Hw Hi He Hrun.
  unfold s_add.
  destruct (add_first_cases A EXT ext busy c start s t) as [(_ & _ & H)|[_ H]]; [contradiction|].
  destruct H as [[H _]|[_ H]]; [unfold enabling in H; rewrite Ha, Hz in H; discriminate|].
  cbv zeta in H. destruct H as [[H _]|[(_ & H & _)|(_ & _ & H)]]; [congruence|lia|].
  rewrite H. clear H.
  set (t1 := t_setpins hq X (fst (enableOutputs ext s (hq_p t))) t) in *.
  destruct (on_delay_pieces c s t Hs Hon) as (I1 & I2 & I3 & I4 & I5 & I6).
  assert (HD : on_delay hq X c s t = if Bool.eqb (up_of t) (c_up c) then s_ondelay s
                               else Z.max (s_ondelay s) (s_dirdelay s)).
  { unfold on_delay. change (qe_up (q_end (t_q hq X t))) with (up_of t).
    destruct (Bool.eqb (up_of t) (c_up c)); cbn [negb]; [rewrite andb_false_r; reflexivity|].
    rewrite andb_true_r. destruct (Z.ltb_spec (s_ondelay s) (s_dirdelay s)); lia. }
  set (d := on_delay hq X c s t) in *. set (ps := on_pieces (on_fuel d) d) in *.
  assert (G1 : good A t1) by exact Hg.
  assert (N1 : n_of t1 = 0) by (apply pend_nil in He; exact He).
  destruct (pauses_all A EXT HA (c_up c) ps t1 G1 I2 Hw Hi) as (P1 & P2 & P3 & P4); [lia|].
  destruct (pauses_grow A EXT HA (c_up c) ps t1 G1) as (G2 & S2 & _ & _).
  { eapply Forall_impl; [|exact I2]. intros a. destruct arch_pause. cbv beta. lia. }
  set (t2 := add_pauses hq X (c_up c) ps t1) in *.
  assert (U2 : up_of t2 = c_up c) by (rewrite P2; destruct ps; [congruence|reflexivity]).
  pose proof (null_ok A EXT HA start t2 G2) as [].
  set (t3 := fst (t_null hq X start t2)) in *.
  assert (U3 : up_of t3 = c_up c) by (unfold up_of; rewrite ns_end; exact U2).
  assert (W3 : all_ready t3) by (unfold all_ready; rewrite ns_w; now apply tl_Forall).
  assert (NL : snd (t_null hq X start t2) = AQE_OK).
  { assert (IDLE : forall l u, good A u -> Forall (fun d => 0 <= d < 65536) l -> q_running (tqueue u) = false ->
       let u' := add_pauses hq X (c_up c) l u in
       q_running (tqueue u') = false /\ h_left (hq_h u') = h_left (hq_h u)).
    { clear - HA. induction l as [|x l IHl]; intros u Gu Hl' Hr; cbn [add_pauses]; [auto|].
      inversion Hl' as [|? ? Hx Hl'']; subst.
      assert (Hcx : cmd_ok (mkCommand x 0 (c_up c))) by (split; cbn; lia).
      pose proof (add_ok A EXT HA (mkCommand x 0 (c_up c)) false u Gu Hcx) as [].
      destruct (hadd_idle A EXT (mkCommand x 0 (c_up c)) u (proj1 Gu) Hr (proj2 Gu)) as [Q1 Q2].
      destruct (IHl (fst (t_add hq X (mkCommand x 0 (c_up c)) false u)) as_good Hl'') as [Y1 Y2]; [exact Q1|].
      split; [exact Y1|]. rewrite Y2. exact Q2. }
    destruct (IDLE ps t1 G1) as [Q1 Q2]; [|exact Hrun|].
    { eapply Forall_impl; [|exact I2]. intros a. destruct arch_pause. cbv beta. lia. }
    fold t2 in Q1, Q2.
    destruct (Z.eq_dec (snd (t_null hq X start t2)) AQE_OK) as [En|En]; [exact En|exfalso].
    assert (Z2 : pend A (tqueue t2) = []).
    { apply pend_nil. 
      pose proof (null_fail start t2 G2 P4 En) as Z3. fold t3 in Z3.
      revert En. destruct (all_ready1 t2 P4) as [Rr _].
      cbn [t_null hacc h_null snd]. rewrite Rr. rewrite (isr_idle A EXT _ (hq_h t2) Q1).
      unfold q_add_null. cbn [negb]. destruct (start && negb (q_running (h_q (hq_h t2)))); [|cbn [a_code]; congruence].
      destruct (Z.eqb_spec (q_wr (h_q (hq_h t2))) (q_rd (h_q (hq_h t2)))) as [E1|E1]; [|cbn [a_code]; congruence].
      intros _. unfold queueEntries, tqueue. rewrite E1, Z.sub_diag. reflexivity. }
    pose proof (iv_fifo A _ (proj1 G2)) as F2. pose proof (iv_fifo A _ (proj1 Hg)) as F1.
    unfold tqueue in Z2, He. rewrite Z2 in F2. rewrite He in F1. cbn [pend_cmds] in F1, F2.
    rewrite app_nil_r in F1, F2. unfold acc_of in P1. rewrite F2, Q2 in P1. change (hq_h t1) with (hq_h t) in P1.
    rewrite F1 in P1. rewrite <- app_nil_r in P1 at 1. apply app_inv_head in P1.
    destruct ps; [congruence|discriminate]. }
  rewrite NL. change (negb (AQE_OK =? AQE_OK)) with false. cbv iota.
  assert (N3 : n_of t3 = 0 \/ n_of t3 < L /\ c_up c = up_of t3) by (right; split; [lia|congruence]).
  pose proof (second_code c start s t3 ns_good Hc Hs Hl W3 N3) as E.
  exists ps. rewrite add_second_eq in *. 
  assert (NR : no_room A c s t3 = false) by (unfold no_room; rewrite U3, Bool.eqb_reflx; reflexivity).
  rewrite NR in *. cbv zeta in *. cbn [fst snd] in *.
  pose proof (adds_ok A EXT HA start _ t3 ns_good (pre_ok A c s (up_of t3) Hc (proj1 Hs))) as [].
  assert (I3' : q_ignore (tqueue t3) = false).
  { rewrite (sc_ign _ _ ns_same), (sc_ign _ _ S2). exact Hi. }
  destruct (ad_acc I3') as (l1 & l2 & B1 & B2 & _ & _ & B5).
  rewrite (B5 E), app_nil_r in B1. subst l1.
  splits; auto.
  - rewrite B2, ns_acc, P1. unfold pre_pauses. rewrite U3, Bool.eqb_reflx. cbn [app].
    rewrite <- app_assoc. reflexivity.
  - congruence.
  - eapply Forall_impl; [|exact I2]. intros a. cbv beta. lia.
  - unfold after_add. rewrite Ha, E. reflexivity.
Qed.

Lemma enable_delay_lemma garbage p ep m s0 evs ext busy c start ws :
  conf_ok s0 -> Forall fev_ok evs ->
  let x := frun evs (finit A garbage p ep m s0) in
  let s := fst x in
  let q := fqueue x in
  let t := set_w ws (snd x) in
  conf24 s -> cmd_ok c -> MIN_CMD_TICKS A <= c_ticks c * Z.max 1 (c_steps c) -> q_max q <= c_ticks c ->
  (s_dirpin s = PIN_UNDEFINED -> c_up c = true) -> busy = false ->
  s_auto s = true -> s_cnt s = 0 -> 0 < s_ondelay s -> snd (enableOutputs ext s (hq_p t)) = true ->
  Forall ready ws -> q_ignore q = false -> pend A q = [] -> q_running q = false ->
  exists pauses,
    h_acc (hq_h (snd (fst (s_add A hq X ext busy c start s t))))
      = accepted_cmds x ++ map (fun d => mkCommand d 0 (c_up c)) pauses ++ [c]
    /\ fold_right Z.add 0 pauses
       = (if Bool.eqb (qe_up (q_end q)) (c_up c) then s_ondelay s else Z.max (s_ondelay s) (s_dirdelay s))
    /\ Forall (fun d => MIN_CMD_TICKS A <= d <= 65535) pauses
    /\ Z.of_nat (length pauses) <= L - 1
    /\ snd (s_add A hq X ext busy c start s t) = AQE_OK.
Proof.
  intros H0 He x s q t Hs Hc Hl Hm Hd Hb Ha Hz Hon Hen Hw Hi Hq Hr.
  destruct (frun_ind (fun _ => True) (fun _ => True)) with (l := evs) (x := finit A garbage p ep m s0) as ([Hg _] & _); auto.
  - now apply finit_good.
  - apply Forall_forall. auto.
  - destruct (enable_delay_fits ext busy c start s t) as (ps & B1 & B2 & B3 & B4 & B5 & _); auto.
    + unfold pass. splits; auto.
    + exists ps. splits; auto.
Qed.
End WithArch.
