(** * EngineShare: several steppers with a common direction pin *)
From Coq Require Import ZArith Bool List Lia ZifyBool.
From Verif Require Import Base RampCalc RampGen Queue QueueFacts QueuePos QueueHist Stepper StepperHist
  FrontHist FrontProp Engine EngineFacts.
Import ListNotations.
Open Scope Z_scope.
Ltac Zify.zify_post_hook ::= idtac.

(** nothing queued, not running *)
Definition idle (x : stepper * hq) : Prop :=
  nonempty (fqueue x) = false /\ q_running (fqueue x) = false.
(** commands are waiting, but the queue has not been started *)
Definition waiting (x : stepper * hq) : Prop :=
  nonempty (fqueue x) = true /\ q_running (fqueue x) = false.

Section WithArch.
Variable A : arch.
Variable EXT : bool.
Notation L := (QUEUE_LEN A).
Notation X := (hacc A EXT).
Notation step := (hstep A EXT).
Hypothesis HA : In A all_archs.
Notation fstep := (fstep A EXT).
Notation isDirPinBusy := Engine.isDirPinBusy.
Notation estep := (estep A EXT).
Notation erun := (erun A EXT).

(** ** isDirPinBusy *)
Lemma busy_from_spec pin except : forall l k, busy_from k pin except l = true <->
  exists j, nth_error l j = Some (pin, true) /\ (k + j)%nat <> except.
Proof.
  induction l as [|[d r] l IH]; intros k; cbn [busy_from].
  - split; [discriminate|]. intros ([|j] & E & _); discriminate.
  - rewrite orb_true_iff, IH. split.
    + intros [H|(j & E & N)].
      * exists O. cbn. split; [|lia]. destruct r; [|lia]. f_equal. f_equal. lia.
      * exists (S j). cbn. split; [exact E|lia].
    + intros ([|j] & E & N); cbn in E.
      * left. injection E as -> ->. lia.
      * right. exists j. split; [exact E|lia].
Qed.
Lemma busy_spec pin i l : isDirPinBusy pin i l = true <->
  exists j y, nth_error l j = Some y /\ j <> i /\ s_dirpin (fst y) = pin /\ q_running (fqueue y) = true.
Proof.
  unfold Engine.isDirPinBusy. rewrite busy_from_spec. split.
  - intros (j & E & N). rewrite nth_error_map in E. destruct (nth_error l j) as [y|] eqn:Ey; [|discriminate].
    injection E as E1 E2. exists j, y. splits; auto.
  - intros (j & y & E & N & P & R). exists j. split; [|exact N]. rewrite nth_error_map, E.
    cbn. unfold view. rewrite P, R. reflexivity.
Qed.

(** ** One stepper *)
Lemma fstep_pin e x : fgood A x -> fev_ok e -> q_pin (fqueue (fstep e x)) = q_pin (fqueue x).
Proof.
  destruct x as [s t]. intros [Hg Hc] He. cbn [fst snd] in Hg, Hc. unfold fqueue.
  destruct e; cbn [FrontHist.fstep]; try reflexivity.
  - pose proof (s_add_ok A EXT HA ext busy c start s (set_w ws t) Hg He Hc) as [].
    destruct (s_add A hq X ext busy c start s (set_w ws t)) as [[s' t'] code]. cbn [fst snd] in *.
    exact (sc_pin _ _ sa_same).
  - destruct (null_ok A EXT HA start (set_w ws t) Hg). exact (sc_pin _ _ ns_same).
  - destruct (isr_kept A EXT HA evs (hq_h t) (proj1 Hg)) as [I K]. destruct K. exact k_pin.
  - cbn [snd set_h hq_h hstep]. destruct (is_free (h_pc (hq_h t))); reflexivity.
  - cbn [snd set_h hq_h hstep]. destruct (is_free (h_pc (hq_h t))); reflexivity.
  - destruct (disableOutputs ext s (h_q (hq_h t)) (hq_p t)) as [[s' p'] b]. reflexivity.
Qed.

(** an idle stepper stays idle, unless addQueueEntry passes the test of the direction pin *)
Definition may_add (e : fevent) (x : stepper * hq) : bool :=
  match e with FAdd _ busy _ _ _ => negb busy || (s_dirpin (fst x) =? PIN_UNDEFINED) | _ => false end.
Lemma fstep_idle e x : fgood A x -> idle x -> may_add e x = false ->
  idle (fstep e x) /\ h_pins (hq_h (snd (fstep e x))) = h_pins (hq_h (snd x)).
Proof.
  destruct x as [s t]. intros [Hg Hc] [Hn Hr] Hm. cbn [fst snd] in *. unfold idle, fqueue in *. cbn [snd] in *.
  destruct e; cbn [FrontHist.fstep may_add] in *; auto.
  - cbn [fst] in Hm. apply orb_false_iff in Hm as [Hb Hd]. destruct busy; [|discriminate].
    assert (E : exists code, s_add A hq X ext true c start s (set_w ws t) = (s, set_w ws t, code)).
    { unfold s_add, add_first. change (t_q hq X (set_w ws t)) with (h_q (hq_h t)). rewrite Hr, Hd.
      cbn [negb andb]. destruct (c_ticks c <? q_max (h_q (hq_h t))); eexists; reflexivity. }
    destruct E as [code ->]. cbn [snd set_w hq_h]. auto.
  - cbn [t_null hacc h_null fst snd hq_h]. cbn [set_w hq_h weather1 hq_w].
    rewrite (isr_idle A EXT _ _ Hr).
    assert (E : step (EAddNull start (w_r1 (weather1 (set_w ws t)))) (hq_h t) = hq_h t).
    { cbn [hstep]. unfold q_add_null. rewrite Hr. cbn [negb].
      assert (W : q_wr (h_q (hq_h t)) =? q_rd (h_q (hq_h t)) = true).
      { pose proof (iv_wf _ _ (proj1 Hg)) as W. clear - W Hn HA. destruct W.
        unfold nonempty, queueEntries, u8 in Hn. apply negb_false_iff, Z.eqb_eq in Hn.
        apply Z.eqb_eq. apply Z.mod_divide in Hn; [|lia]. destruct Hn as [z Hz]. lia. }
      rewrite W. destruct (w_r1 (weather1 (set_w ws t))); cbn [negb]; [|rewrite andb_false_r; reflexivity].
      destruct start; cbn [andb a_started]; rewrite andb_false_r; reflexivity. }
    unfold weather1 in E. cbn [set_w hq_w] in E. unfold weather1. cbn [set_w hq_w]. rewrite E, (isr_idle A EXT _ _ Hr). auto.
  - cbn [snd set_h hq_h]. rewrite (isr_idle A EXT _ _ Hr). auto.
  - cbn [snd set_h hq_h hstep]. destruct (is_free (h_pc (hq_h t))); auto. cbn [h_q h_pins].
    splits; auto. unfold nonempty, queueEntries, q_clear. cbn. rewrite Z.sub_diag. reflexivity.
  - cbn [snd set_h hq_h hstep]. destruct (is_free (h_pc (hq_h t))); auto.
  - destruct (disableOutputs ext s (h_q (hq_h t)) (hq_p t)) as [[s' p'] b]. auto.
Qed.

(** ** The other steppers see the new level *)
Lemma sync_queue pin lvl x : fqueue (sync pin lvl x) = fqueue x.
Proof. unfold sync, fqueue. destruct (_ && _); reflexivity. Qed.
Lemma sync_fst pin lvl x : fst (sync pin lvl x) = fst x.
Proof. unfold sync. destruct (_ && _); reflexivity. Qed.
Lemma sync_idle pin lvl x : idle (sync pin lvl x) <-> idle x.
Proof. unfold idle. rewrite sync_queue. tauto. Qed.
Lemma sync_id pin lvl x : has_pin (fqueue x) = false \/ q_pin (fqueue x) <> pin
  \/ h_pins (hq_h (snd x)) pin = lvl -> sync pin lvl x = x.
Proof.
  unfold sync, fqueue. intros H. replace (_ && _) with false; [reflexivity|]. symmetry.
  destruct H as [H|[H|H]].
  - rewrite H. reflexivity.
  - apply Z.eqb_neq in H. rewrite H, andb_false_r. reflexivity.
  - rewrite H, eqb_reflx, andb_false_r. reflexivity.
Qed.
Lemma sync_level pin lvl x : has_pin (fqueue x) = true -> q_pin (fqueue x) = pin ->
  h_pins (hq_h (snd (sync pin lvl x))) pin = lvl.
Proof.
  unfold sync, fqueue. intros H1 H2. rewrite H1, H2, Z.eqb_refl. cbn [andb].
  destruct (Bool.eqb_spec (h_pins (hq_h (snd x)) pin) lvl) as [E|E]; cbn [negb]; [exact E|].
  cbn. rewrite H2. unfold upd. rewrite Z.eqb_refl. reflexivity.
Qed.
Lemma sync_good pin lvl x : fgood A x -> idle x -> fgood A (sync pin lvl x).
Proof.
  intros [Hg Hc] [Hn Hr]. unfold sync. destruct (_ && _); [|split; assumption].
  split; [|exact Hc]. destruct x as [s t]. cbn [fst snd] in *. destruct Hg as [HI HP]. split; [|exact HP].
  cbn [set_h hq_h].
  assert (E : step (EOther lvl) (hq_h t) = with_level lvl (hq_h t)).
  { cbn [hstep]. unfold idle_q. unfold fqueue in *. cbn [snd] in *. unfold with_level. rewrite Hn, Hr, HP. reflexivity. }
  rewrite <- E. apply inv_step; auto. exact I.
Qed.

(** ** Invariant *)
Record einv (l : list (stepper * hq)) : Prop := mkEinv {
  ei_good : forall i x, nth_error l i = Some x -> fgood A x /\ s_dirpin (fst x) = q_pin (fqueue x);
  ei_lvl : forall i j x y, nth_error l i = Some x -> nth_error l j = Some y ->
    q_pin (fqueue x) = q_pin (fqueue y) -> has_pin (fqueue x) = true ->
    h_pins (hq_h (snd x)) (q_pin (fqueue x)) = h_pins (hq_h (snd y)) (q_pin (fqueue x));
  ei_excl : forall i j x y, nth_error l i = Some x -> nth_error l j = Some y -> i <> j ->
    q_pin (fqueue x) = q_pin (fqueue y) -> has_pin (fqueue x) = true -> idle x \/ idle y
}.

Lemma has_pin_eq q q' : q_pin q = q_pin q' -> has_pin q = has_pin q'.
Proof. unfold has_pin. now intros ->. Qed.

Lemma idle_dec x : {idle x} + {~ idle x}.
Proof.
  unfold idle. destruct (nonempty (fqueue x)), (q_running (fqueue x)); try (left; split; reflexivity);
    right; intros [H1 H2]; discriminate.
Qed.

(** the event does not start a second stepper on a direction pin *)
Definition safe_add (i : nat) (e : fevent) (l : list (stepper * hq)) : Prop :=
  forall x, nth_error l i = Some x -> idle x -> may_add e x = true ->
  forall j y, nth_error l j = Some y -> j <> i -> q_pin (fqueue y) = q_pin (fqueue x) ->
    has_pin (fqueue y) = true -> idle y.

Lemma do_step_inv i e l : einv l -> fev_ok e -> safe_add i e l -> einv (do_step A EXT i e l).
Proof.
  intros [G LV EX] He HS. unfold do_step. destruct (nth_error l i) as [x|] eqn:Ei; [|constructor; assumption].
  assert (Hi : (i < length l)%nat) by (apply nth_error_Some; congruence).
  destruct (G _ _ Ei) as [Gx Px].
  destruct (fstep_base A EXT HA e x Gx He) as (Gy & Cy & _).
  pose proof (fstep_pin e x Gx He) as Py.
  set (y := fstep e x) in *. set (pin := q_pin (fqueue y)) in *. set (lvl := h_pins (hq_h (snd y)) pin).
  (* another active stepper on the pin sees no change, and [y] is idle *)
  assert (KEY : forall j z, nth_error l j = Some z -> j <> i -> q_pin (fqueue z) = pin ->
            has_pin (fqueue z) = true -> idle z \/ (idle y /\ h_pins (hq_h (snd z)) pin = lvl)).
  { intros j z Ez N Pz Hz. destruct (idle_dec z) as [I|NI]; [now left|right].
    assert (Ix : idle x).
    { destruct (EX i j x z) as [I|I]; auto.
      - congruence.
      - rewrite <- Hz. apply has_pin_eq. congruence.
      - contradiction. }
    assert (M : may_add e x = false).
    { destruct (may_add e x) eqn:M; auto. exfalso. apply NI. eapply HS; eauto. congruence. }
    destruct (fstep_idle e x Gx Ix M) as [Iy Ly]. fold y in Iy, Ly. split; [exact Iy|].
    unfold lvl. rewrite Ly. symmetry. replace pin with (q_pin (fqueue x)) by congruence.
    apply (LV i j x z); auto; try congruence. rewrite <- Hz. apply has_pin_eq. congruence. }
  assert (NTH : forall j z, nth_error (map (sync pin lvl) (set_nth i y l)) j = Some z ->
            exists z0, z = sync pin lvl z0 /\ (j = i /\ z0 = y \/ j <> i /\ nth_error l j = Some z0)).
  { intros j z E. rewrite nth_error_map, set_nth_cases in E by assumption.
    destruct (Nat.eqb_spec i j) as [<-|N].
    - injection E as <-. exists y. auto.
    - destruct (nth_error l j) as [z0|] eqn:E0; [|discriminate]. injection E as <-. exists z0. auto. }
  constructor.
  - intros j z E. destruct (NTH j z E) as (z0 & -> & H). rewrite sync_fst, sync_queue.
    destruct H as [[-> ->]|[N Ez]].
    + split; [|destruct Cy as (Cy & _); fold pin; congruence].
      rewrite sync_id; auto.
    + destruct (G _ _ Ez) as [Gz Pz]. split; [|exact Pz].
      destruct (has_pin (fqueue z0)) eqn:Hp; [|rewrite sync_id; auto].
      destruct (Z.eq_dec (q_pin (fqueue z0)) pin) as [Ep|Np]; [|rewrite sync_id; auto].
      destruct (KEY j z0 Ez N Ep Hp) as [I|[_ K]]; [now apply sync_good|rewrite sync_id; auto].
  - intros a b za zb Ea Eb. destruct (NTH a za Ea) as (xa & -> & Ha). destruct (NTH b zb Eb) as (xb & -> & Hb).
    rewrite !sync_queue. intros Ep Hp.
    destruct (Z.eq_dec (q_pin (fqueue xa)) pin) as [E|N].
    + rewrite E. rewrite !sync_level; auto; try congruence. rewrite <- Hp. apply has_pin_eq. congruence.
    + rewrite !sync_id; try (right; left; congruence).
      assert (Na : a <> i) by (intros ->; destruct Ha as [[_ ->]|[K _]]; [now apply N|congruence]).
      assert (Nb : b <> i) by (intros ->; destruct Hb as [[_ ->]|[K _]]; [apply N; exact Ep|congruence]).
      destruct Ha as [[K _]|[_ Ha]]; [contradiction|]. destruct Hb as [[K _]|[_ Hb]]; [contradiction|].
      exact (LV a b xa xb Ha Hb Ep Hp).
  - intros a b za zb Ea Eb Nab. destruct (NTH a za Ea) as (xa & -> & Ha). destruct (NTH b zb Eb) as (xb & -> & Hb).
    rewrite !sync_queue, !sync_idle. intros Ep Hp.
    destruct Ha as [[-> ->]|[Na Ha]]; destruct Hb as [[-> ->]|[Nb Hb]].
    + congruence.
    + destruct (KEY b xb Hb Nb) as [I|[I _]]; auto. rewrite <- Hp. apply has_pin_eq. congruence.
    + destruct (KEY a xa Ha Na) as [I|[I _]]; auto.
    + exact (EX a b xa xb Ha Hb Nab Ep Hp).
Qed.

(** ** Histories *)
(** A command is given to an idle stepper only if no other stepper on its direction pin has
    commands waiting to be started, and isDirPinBusy() is up to date. *)
Definition legal (ev : eevent) (l : list (stepper * hq)) : Prop :=
  match ev with
  | EvDo i (FAdd _ _ _ _ _) => forall x, nth_error l i = Some x -> idle x ->
      forall j y, nth_error l j = Some y -> j <> i -> s_dirpin (fst y) = s_dirpin (fst x) -> ~ waiting y
  | EvDo _ _ => True
  | EvOld _ _ => False
  end.
Definition eev_ok (ev : eevent) : Prop := match ev with EvDo _ e | EvOld _ e => fev_ok e end.
Fixpoint legal_run (evs : list eevent) (l : list (stepper * hq)) : Prop :=
  match evs with [] => True | ev :: evs' => legal ev l /\ legal_run evs' (estep ev l) end.

Lemma with_busy_ok b e : fev_ok e -> fev_ok (with_busy b e).
Proof. destruct e; auto. Qed.
Lemma estep_inv ev l : einv l -> eev_ok ev -> legal ev l -> einv (estep ev l).
Proof.
  intros HI He HL. destruct ev as [i e|i e]; [|destruct HL]. cbn [Engine.estep].
  destruct (nth_error l i) as [x|] eqn:Ei; [|exact HI].
  apply do_step_inv; auto; [now apply with_busy_ok|].
  intros x' E Ix M j y Ej N Ep Hp. rewrite Ei in E. injection E as <-.
  destruct (ei_good _ HI _ _ Ei) as [_ Px]. destruct (ei_good _ HI _ _ Ej) as [_ Py].
  destruct e; try discriminate. cbn [with_busy may_add legal] in *.
  assert (D : s_dirpin (fst x) =? PIN_UNDEFINED = false).
  { unfold has_pin in Hp. rewrite Px. lia. }
  rewrite D, orb_false_r in M. apply negb_true_iff in M.
  assert (R : q_running (fqueue y) = false).
  { destruct (q_running (fqueue y)) eqn:R; auto. exfalso.
    assert (B : isDirPinBusy (s_dirpin (fst x)) i l = true).
    { apply busy_spec. exists j, y. splits; auto. congruence. }
    congruence. }
  split; [|exact R]. destruct (nonempty (fqueue y)) eqn:NE; auto. exfalso.
  apply (HL x Ei Ix j y Ej N); [congruence|]. split; assumption.
Qed.
Lemma erun_inv : forall evs l, einv l -> Forall eev_ok evs -> legal_run evs l -> einv (erun evs l).
Proof.
  induction evs as [|ev evs IH]; intros l HI He HL; cbn [Engine.erun]; auto.
  inversion He as [|? ? He1 He2]; subst. destruct HL as [HL1 HL2]. apply IH; auto. now apply estep_inv.
Qed.

(** ** Start *)
Lemma einit1_good garbage p ep m s : conf_ok s ->
  let x := einit1 A EXT garbage p ep m s in
  fgood A x /\ s_dirpin (fst x) = q_pin (fqueue x) /\ idle x /\ fst x = s
  /\ h_pins (hq_h (snd x)) (q_pin (fqueue x)) = p (q_pin (fqueue x)).
Proof.
  intros Hc. cbv zeta. pose proof (finit_good A HA garbage p ep m s Hc) as [[HI HP] _].
  unfold einit1. cbn [fst snd].
  assert (E0 : idle_q (hq_h (snd (finit A garbage p ep m s))) = true) by reflexivity.
  set (h0 := hq_h (snd (finit A garbage p ep m s))) in *.
  assert (I1 : inv A (step (ESetDir (s_dirpin s) (s_hcu s)) h0)) by (apply inv_step; auto; exact I).
  assert (I2 : inv A (step (EOther (p (s_dirpin s))) (step (ESetDir (s_dirpin s) (s_hcu s)) h0)))
    by (apply inv_step; auto; exact I).
  splits; auto.
  - unfold fgood. cbn [snd set_h hq_h fst]. split; [|exact Hc]. split; [exact I2|]. reflexivity.
  - split; reflexivity.
  - unfold fqueue. cbn. unfold upd. rewrite Z.eqb_refl. reflexivity.
Qed.
Definition start_all garbage p ep m (ss : list stepper) : list (stepper * hq) :=
  map (einit1 A EXT garbage p ep m) ss.
Lemma start_inv garbage p ep m ss : Forall conf_ok ss -> einv (start_all garbage p ep m ss).
Proof.
  intros H. unfold start_all.
  assert (N : forall i x, nth_error (map (einit1 A EXT garbage p ep m) ss) i = Some x ->
     exists s, conf_ok s /\ x = einit1 A EXT garbage p ep m s).
  { intros i x E. rewrite nth_error_map in E. destruct (nth_error ss i) as [s|] eqn:Es; [|discriminate].
    injection E as <-. exists s. split; auto. rewrite Forall_forall in H. apply H. eapply nth_error_In; eassumption. }
  constructor.
  - intros i x E. destruct (N i x E) as (s & Hs & ->). destruct (einit1_good garbage p ep m s Hs) as (G1 & G2 & _). auto.
  - intros i j x y Ex Ey Ep Hp. destruct (N i x Ex) as (s & Hs & ->). destruct (N j y Ey) as (s' & Hs' & ->).
    destruct (einit1_good garbage p ep m s Hs) as (_ & _ & _ & _ & E1).
    destruct (einit1_good garbage p ep m s' Hs') as (_ & _ & _ & _ & E2).
    rewrite E1, Ep, E2. reflexivity.
  - intros i j x y Ex Ey _ _ _. left. destruct (N i x Ex) as (s & Hs & ->).
    destruct (einit1_good garbage p ep m s Hs) as (_ & _ & I & _). exact I.
Qed.

(** ** Results *)
Lemma shared_log garbage p ep m ss evs : Forall conf_ok ss -> Forall eev_ok evs ->
  legal_run evs (start_all garbage p ep m ss) ->
  Forall (fun x => Forall (fun e => fst e = snd e) (h_log (hq_h (snd x)))) (erun evs (start_all garbage p ep m ss)).
Proof.
  intros Hs He HL. pose proof (erun_inv evs _ (start_inv garbage p ep m ss Hs) He HL) as HI.
  apply Forall_forall. intros x Hx. apply In_nth_error in Hx as [i Hi].
  destruct (ei_good _ HI _ _ Hi) as [[[G _] _] _]. exact (iv_log _ _ G).
Qed.
Lemma shared_exclusive garbage p ep m ss evs i j x y : Forall conf_ok ss -> Forall eev_ok evs ->
  legal_run evs (start_all garbage p ep m ss) ->
  let l := erun evs (start_all garbage p ep m ss) in
  nth_error l i = Some x -> nth_error l j = Some y -> i <> j ->
  s_dirpin (fst x) = s_dirpin (fst y) -> s_dirpin (fst x) <> PIN_UNDEFINED ->
  is_external (s_dirpin (fst x)) = false -> idle x \/ idle y.
Proof.
  intros Hs He HL l Ex Ey N Ep Hu Hx. unfold l in *.
  pose proof (erun_inv evs _ (start_inv garbage p ep m ss Hs) He HL) as HI.
  destruct (ei_good _ HI _ _ Ex) as [_ Px]. destruct (ei_good _ HI _ _ Ey) as [_ Py].
  apply (ei_excl _ HI i j x y Ex Ey N); [congruence|].
  unfold has_pin. rewrite <- Px, Hx. lia.
Qed.

(** ** Commands which are started at once *)
(** whatever is queued is running *)
Definition started (x : stepper * hq) : Prop := nonempty (fqueue x) = true -> q_running (fqueue x) = true.
Definition kst (h : hst) : Prop := nonempty (h_q h) = true -> q_running (h_q h) = true.
Definition prompt (e : fevent) : Prop :=
  match e with FAdd _ _ _ start ws => start = true /\ Forall ready ws | _ => True end.

Lemma start_head_q s : h_q (start_head A s) = h_q s.
Proof. unfold start_head. destruct (_ && _); reflexivity. Qed.
Lemma isr_step_kst ev h : isr_ev ev = true -> kst h -> kst (step ev h).
Proof.
  intros Hi K. destruct ev; try discriminate; cbn [hstep].
  - destruct (_ && _); auto.
  - destruct (nonempty (h_q h) && q_running (h_q h) && h_started h) eqn:E; auto.
    unfold kst. rewrite start_head_q. cbn [h_q]. intros _.
    apply andb_true_iff in E as [E _]. apply andb_true_iff in E as [_ E]. exact E.
  - destruct (_ && _); auto. unfold kst. rewrite start_head_q. exact K.
  - destruct (negb (nonempty (h_q h)) && q_running (h_q h)) eqn:E; auto.
    unfold kst. cbn [h_q with_q]. change (nonempty (set_running false (h_q h))) with (nonempty (h_q h)).
    apply andb_true_iff in E as [E _]. intros K1. rewrite K1 in E. discriminate.
Qed.
Lemma isr_kst l : forall h, kst h -> kst (isr A EXT l h).
Proof.
  unfold isr. induction l as [|ev l IH]; intros h K; cbn [filter hrun]; auto.
  destruct (isr_ev ev) eqn:E; cbn [hrun]; auto. apply IH. now apply isr_step_kst.
Qed.

Lemma begin_kst c start r h : kst h -> kst (step (EBegin c start r) h).
Proof.
  intros K. cbn [hstep]. destruct (h_pc h); auto. destruct (_ =? _); auto.
  unfold kst. cbn [h_q]. unfold add_prepare. destruct (direct_dir (h_q h)); cbn [fst]; exact K.
Qed.
Lemma hcall_kst w c h : inv A h -> cmd_ok c -> h_pc h = Free -> kst h -> kst (hcall A EXT w c true h).
Proof.
  intros HI Hc Hp K. unfold hcall.
  destruct (isr_kept A EXT HA (w_i0 w) h HI) as [I0 K0]. pose proof (isr_kst (w_i0 w) h K) as Q0.
  set (h0 := isr A EXT (w_i0 w) h) in *. clearbody h0.
  assert (I1 : inv A (step (EBegin c true (w_r1 w)) h0)) by (apply inv_step; auto).
  pose proof (begin_kst c true (w_r1 w) h0 Q0) as Q1.
  assert (P1 : h_pc (step (EBegin c true (w_r1 w)) h0) = Free
               \/ exists ne, h_pc (step (EBegin c true (w_r1 w)) h0) = Prepared c ne true).
  { cbn [hstep]. rewrite (k_pc _ _ K0), Hp. destruct (_ =? _); [right; eexists; reflexivity|now left]. }
  set (h1 := step (EBegin c true (w_r1 w)) h0) in *. clearbody h1.
  destruct (isr_kept A EXT HA (w_i1 w) h1 I1) as [I2 K2]. pose proof (isr_kst (w_i1 w) h1 Q1) as Q2.
  set (h2 := isr A EXT (w_i1 w) h1) in *. clearbody h2.
  assert (I3 : inv A (step (ECommit (w_r2 w)) h2)) by (apply inv_step; auto; exact I).
  assert (P3 : (h_pc (step (ECommit (w_r2 w)) h2) = Free /\ kst (step (ECommit (w_r2 w)) h2))
               \/ h_pc (step (ECommit (w_r2 w)) h2) = Committed true).
  { pose proof (k_pc _ _ K2) as E2. destruct P1 as [E1|[ne E1]]; rewrite E1 in E2; cbn [hstep]; rewrite E2.
    - left. auto.
    - unfold add_commit. destruct (q_ignore (h_q h2)); cbn [fst snd h_pc]; [now right|].
      destruct (w_r2 w); cbn [fst snd h_pc]; [now right|]. left. split; [reflexivity|exact Q2]. }
  set (h3 := step (ECommit (w_r2 w)) h2) in *. clearbody h3.
  destruct (isr_kept A EXT HA (w_i2 w) h3 I3) as [I4 K4].
  destruct P3 as [[P3 Q3]|P3].
  - pose proof (isr_kst (w_i2 w) h3 Q3) as Q4. cbn [hstep]. rewrite (k_pc _ _ K4), P3. exact Q4.
  - cbn [hstep]. rewrite (k_pc _ _ K4), P3. unfold add_starts. rewrite andb_true_r.
    destruct (q_running (h_q (isr A EXT (w_i2 w) h3))) eqn:R; cbn [negb].
    + unfold kst. cbn [h_q with_pc]. auto.
    + unfold kst. rewrite start_head_q. reflexivity.
Qed.

Definition tst (t : hq) : Prop := kst (hq_h t).
Lemma adds_kst : forall l t, good A t -> Forall cmd_ok l -> tst t -> tst (fst (adds A EXT true l t)).
Proof.
  induction l as [|c l IH]; intros t Hg Hl K; cbn [adds]; auto.
  inversion Hl as [|? ? Hc Hl']; subst. pose proof (add_ok A EXT HA c true t Hg Hc) as S.
  assert (K1 : tst (fst (t_add hq X c true t))).
  { unfold tst. cbn [t_add hacc h_add fst hq_h]. apply isr_kst, hcall_kst; auto; apply Hg. }
  destruct (_ =? _); auto. apply IH; auto. exact (as_good _ _ _ _ _ S).
Qed.
Lemma null_kst t : good A t -> w_r1 (weather1 t) = true -> tst (fst (t_null hq X true t)).
Proof.
  intros [HI HP] Hr. unfold tst. cbn [t_null hacc h_null fst hq_h]. rewrite Hr. apply isr_kst.
  destruct (isr_kept A EXT HA (w_i0 (weather1 t)) (hq_h t) HI) as [I0 K0].
  set (h := isr A EXT (w_i0 (weather1 t)) (hq_h t)) in *. clearbody h.
  cbn [hstep]. rewrite (k_pc _ _ K0), HP. cbn [is_free andb]. unfold q_add_null. cbn [negb].
  destruct (q_running (h_q h)) eqn:R; cbn [negb andb a_started].
  - intros _. exact R.
  - destruct (Z.eqb_spec (q_wr (h_q h)) (q_rd (h_q h))) as [E|E]; cbn [a_started].
    + unfold kst, nonempty, queueEntries. rewrite E, Z.sub_diag. discriminate.
    + unfold kst. rewrite start_head_q. reflexivity.
Qed.
Lemma pauses_ready up : forall l t, good A t -> Forall (fun d => 0 <= d < 65536) l -> all_ready t ->
  all_ready (add_pauses hq X up l t).
Proof.
  induction l as [|d l IH]; intros t Hg Hl HR; cbn [add_pauses]; auto. inversion Hl; subst.
  assert (Hc : cmd_ok (mkCommand d 0 up)) by (split; cbn; lia).
  pose proof (add_ok A EXT HA (mkCommand d 0 up) false t Hg Hc) as S.
  apply IH; auto.
  - exact (as_good _ _ _ _ _ S).
  - unfold all_ready. rewrite (as_w _ _ _ _ _ S). now apply tl_Forall.
Qed.

Lemma s_add_kst ext busy c s t : good A t -> cmd_ok c -> conf_ok s -> all_ready t -> tst t ->
  tst (snd (fst (s_add A hq X ext busy c true s t))).
Proof.
  intros Hg Hc Hs HR HK. unfold s_add.
  assert (SEC : forall t1, good A t1 -> tst t1 -> tst (snd (fst (add_second A hq X c true s t1)))).
  { intros t1 G1 K1. rewrite add_second_eq. destruct (no_room A c s t1); auto. cbn [fst snd].
    apply adds_kst; auto. now apply pre_ok. }
  destruct (add_first_cases A EXT ext busy c true s t) as [(E1 & E2 & _)|(HP & [[_ E]|[_ E]])].
  - replace (snd (add_first hq X ext busy c true s t) =? AQE_OK) with false by lia. cbn [negb fst snd].
    rewrite E2. exact HK.
  - rewrite E. cbn [fst snd]. rewrite Z.eqb_refl. cbn [negb]. auto.
  - cbv zeta in E. destruct E as [[_ E]|[(_ & _ & E)|(_ & Hd & E)]]; rewrite E; cbn [fst snd].
    + cbn [negb]. replace (AQE_WAIT_FOR_ENABLE_PIN_ACTIVE =? AQE_OK) with false by reflexivity. exact HK.
    + rewrite Z.eqb_refl. cbn [negb]. apply SEC; auto.
    + set (t1 := t_setpins hq X (fst (enableOutputs ext s (hq_p t))) t) in *.
      assert (G1 : good A t1) by exact Hg.
      assert (PR : Forall (fun d => 0 <= d < 65536) (on_pieces (on_fuel (on_delay hq X c s t)) (on_delay hq X c s t))).
      { exact (proj2 (pieces_range A EXT s c t Hs Hd)). }
      pose proof (pauses_ready (c_up c) _ t1 G1 PR HR) as R2.
      destruct (pauses_grow A EXT HA (c_up c) _ t1 G1 PR) as (G2 & _).
      set (t2 := add_pauses hq X (c_up c) (on_pieces (on_fuel (on_delay hq X c s t)) (on_delay hq X c s t)) t1) in *.
      pose proof (null_kst t2 G2 (proj1 (all_ready1 _ R2))) as K3.
      pose proof (ns_good _ _ _ _ (null_ok A EXT HA true t2 G2)) as G3.
      destruct (negb _); cbn [fst snd]; auto.
Qed.

Lemma fstep_started e x : fgood A x -> fev_ok e -> prompt e -> started x -> started (fstep e x).
Proof.
  destruct x as [s t]. intros [Hg Hc] He Hp K. cbn [fst snd] in *. unfold started, fqueue in *. cbn [snd] in *.
  change (tst t) in K.
  destruct e; cbn [FrontHist.fstep prompt] in *; auto.
  - destruct Hp as [-> HR].
    pose proof (s_add_kst ext busy c s (set_w ws t) Hg He Hc HR K) as K'.
    destruct (s_add A hq X ext busy c true s (set_w ws t)) as [[s' t'] code]. exact K'.
  - cbn [snd t_null hacc h_null fst hq_h].
    pose proof (isr_kst (w_i0 (weather1 (set_w ws t))) (hq_h t) K) as K1.
    change (hq_h (set_w ws t)) with (hq_h t).
    set (h := isr A EXT (w_i0 (weather1 (set_w ws t))) (hq_h t)) in *. clearbody h.
    change (kst (isr A EXT (w_i3 (weather1 (set_w ws t))) (step (EAddNull start (w_r1 (weather1 (set_w ws t)))) h))). apply isr_kst.
    cbn [hstep]. destruct (_ && _); auto. unfold kst. rewrite start_head_q. reflexivity.
  - cbn [snd set_h hq_h]. exact (isr_kst evs (hq_h t) K).
  - cbn [snd set_h hq_h hstep]. destruct (is_free (h_pc (hq_h t))); auto. cbn [h_q].
    unfold nonempty, queueEntries, q_clear. cbn. rewrite Z.sub_diag. discriminate.
  - cbn [snd set_h hq_h hstep]. destruct (is_free (h_pc (hq_h t))); auto.
  - destruct (disableOutputs ext s (h_q (hq_h t)) (hq_p t)) as [[s' p'] b]. exact K.
Qed.

Definition prompt_ev (ev : eevent) : Prop := match ev with EvDo _ e => prompt e | EvOld _ _ => False end.
Lemma prompt_legal_run : forall evs l, einv l -> (forall i x, nth_error l i = Some x -> started x) ->
  Forall eev_ok evs -> Forall prompt_ev evs -> legal_run evs l.
Proof.
  induction evs as [|ev evs IH]; intros l HI HK He Hp; cbn [legal_run]; auto.
  inversion He as [|? ? He1 He2]; subst. inversion Hp as [|? ? Hp1 Hp2]; subst.
  assert (HL : legal ev l).
  { destruct ev as [i e|i e]; [|destruct Hp1]. destruct e; cbn [legal]; auto.
    intros x _ _ j y Ej _ _ [W1 W2]. rewrite (HK j y Ej W1) in W2. discriminate. }
  split; [exact HL|]. apply IH; auto; [now apply estep_inv|].
  destruct ev as [i e|i e]; [|destruct Hp1]. cbn [Engine.estep]. cbn [prompt_ev eev_ok] in *.
  destruct (nth_error l i) as [x|] eqn:Ei; auto. unfold do_step. rewrite Ei.
  assert (Hi : (i < length l)%nat) by (apply nth_error_Some; congruence).
  intros j z E. rewrite nth_error_map, set_nth_cases in E by assumption.
  destruct (Nat.eqb_spec i j) as [<-|N].
  - injection E as <-. unfold started. rewrite sync_queue. apply fstep_started; auto.
    + apply (ei_good _ HI _ _ Ei).
    + now apply with_busy_ok.
    + destruct e; auto.
    + exact (HK i x Ei).
  - destruct (nth_error l j) as [z0|] eqn:E0; [|discriminate]. injection E as <-. unfold started.
    rewrite sync_queue. exact (HK j z0 E0).
Qed.
Lemma prompt_legal garbage p ep m ss evs : Forall conf_ok ss -> Forall eev_ok evs -> Forall prompt_ev evs ->
  legal_run evs (start_all garbage p ep m ss).
Proof.
  intros Hs He Hp. apply prompt_legal_run; auto; [now apply start_inv|].
  intros i x E. unfold start_all in E. rewrite nth_error_map in E.
  destruct (nth_error ss i) as [s|] eqn:Es; [|discriminate]. injection E as <-.
  assert (Hc : conf_ok s) by (rewrite Forall_forall in Hs; apply Hs; eapply nth_error_In; eassumption).
  destruct (einit1_good garbage p ep m s Hc) as (_ & _ & [I1 I2] & _). unfold started. rewrite I1. discriminate.
Qed.

(** ** Refusal *)
Lemma busy_refused l i x j y ext c start ws : nth_error l i = Some x -> nth_error l j = Some y -> j <> i ->
  s_dirpin (fst x) <> PIN_UNDEFINED -> s_dirpin (fst y) = s_dirpin (fst x) ->
  q_running (fqueue y) = true -> q_running (fqueue x) = false ->
  exists code, s_add A hq X ext (isDirPinBusy (s_dirpin (fst x)) i l) c start (fst x) (set_w ws (snd x))
     = (fst x, set_w ws (snd x), code)
  /\ code <> AQE_OK /\ (q_max (fqueue x) <= c_ticks c -> code = AQE_DIR_PIN_IS_BUSY).
Proof.
  intros Ex Ey N Hd Ep Ry Rx.
  assert (B : isDirPinBusy (s_dirpin (fst x)) i l = true) by (apply busy_spec; exists j, y; auto).
  rewrite B. unfold s_add, add_first. change (t_q hq X (set_w ws (snd x))) with (fqueue x). rewrite Rx.
  replace (s_dirpin (fst x) =? PIN_UNDEFINED) with false by lia. cbn [negb andb].
  destruct (Z.ltb_spec (c_ticks c) (q_max (fqueue x))); eexists; splits; try reflexivity; try discriminate. lia.
Qed.
End WithArch.
