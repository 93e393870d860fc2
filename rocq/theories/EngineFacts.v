(** * EngineFacts: connecting steppers, automatic disabling *)
From Coq Require Import ZArith Bool List Lia ZifyBool.
From Verif Require Import Base RampCalc RampGen Queue QueueHist Stepper StepperHist FrontHist Engine.
Import ListNotations.
Open Scope Z_scope.
Ltac Zify.zify_post_hook ::= idtac.

Lemma set_nth_length {T} (x : T) : forall l i, length (set_nth i x l) = length l.
Proof. induction l as [|y l IH]; intros [|i]; cbn; auto. Qed.
Lemma set_nth_same {T} (x : T) : forall l i, (i < length l)%nat -> nth_error (set_nth i x l) i = Some x.
Proof. induction l as [|y l IH]; intros [|i] H; cbn in *; auto; try lia; apply IH; lia. Qed.
Lemma set_nth_other {T} (x : T) : forall l i j, i <> j -> nth_error (set_nth i x l) j = nth_error l j.
Proof.
  induction l as [|y l IH]; intros [|i] [|j] H; cbn; auto; congruence.
Qed.
Lemma set_nth_cases {T} (x : T) l i j : (i < length l)%nat ->
  nth_error (set_nth i x l) j = if Nat.eqb i j then Some x else nth_error l j.
Proof.
  intros H. destruct (Nat.eqb_spec i j) as [<-|N]; [now apply set_nth_same|now apply set_nth_other].
Qed.

(** ** Connect *)
Definition pin_at (l : list (option axis)) (i : nat) (pin : Z) : Prop :=
  exists s q, nth_error l i = Some (Some (s, q)) /\ s_steppin s = pin.
Definition free_at (l : list (option axis)) (i : nat) : Prop := nth_error l i = Some None.
Definition is_some {T} (o : option T) : bool := match o with Some _ => true | None => false end.
(** number of connected steppers *)
Definition connected (l : list (option axis)) : Z := Z.of_nat (length (filter is_some l)).
(** slots which may be used for this call *)
Definition usable (k : layout) (pin driver : Z) (i : nat) : Prop :=
  match k with
  | Fixed ch => nth_error ch i = Some pin
  | Flexible n => (i < n)%nat
  | Select m r => (i < m + r)%nat /\ (driver = DRIVER_MCPWM_PCNT -> (i < m)%nat)
                  /\ (driver = DRIVER_RMT -> (m <= i)%nat)
  end.
Definition layout_ok (k : layout) : Prop :=
  (max_stepper k <= 255)%nat /\ match k with Fixed ch => NoDup ch | _ => True end.

Lemma is_connected_true pin l : is_connected pin l = true <-> exists i, pin_at l i pin.
Proof.
  unfold is_connected, pin_at. rewrite existsb_exists. split.
  - intros (o & Ho & E). apply In_nth_error in Ho as [i Hi]. destruct o as [[s q]|]; [|discriminate].
    exists i, s, q. split; [assumption|lia].
  - intros (i & s & q & E & P). exists (Some (s, q)). split; [eapply nth_error_In; eassumption|lia].
Qed.
Lemma is_connected_false pin l : is_connected pin l = false -> forall i, ~ pin_at l i pin.
Proof.
  intros H i K. assert (is_connected pin l = true) by (apply is_connected_true; eauto). congruence.
Qed.

Lemma index_of_some x : forall l i, index_of x l = Some i -> nth_error l i = Some x.
Proof.
  induction l as [|y l IH]; intros i H; cbn in H; [discriminate|].
  destruct (Z.eqb_spec y x) as [->|N].
  - now injection H as <-.
  - destruct (index_of x l) eqn:E; [|discriminate]. injection H as <-. cbn. auto.
Qed.
Lemma index_of_none x : forall l, index_of x l = None -> ~ In x l.
Proof.
  induction l as [|y l IH]; intros H; cbn in H; [intros []|].
  destruct (Z.eqb_spec y x) as [->|N]; [discriminate|].
  destruct (index_of x l) eqn:E; [discriminate|]. intros [K|K]; [congruence|]. now apply IH.
Qed.
Lemma first_free_some l : forall n from i, first_free from n l = Some i ->
  (from <= i < from + n)%nat /\ free_at l i.
Proof.
  induction n as [|n IH]; intros from i H; cbn in H; [discriminate|].
  destruct (nth_error l from) as [[x|]|] eqn:E.
  - destruct (IH _ _ H). split; [lia|assumption].
  - injection H as <-. split; [lia|assumption].
  - destruct (IH _ _ H). split; [lia|assumption].
Qed.
Lemma first_free_none l : forall n from, first_free from n l = None ->
  forall i, (from <= i < from + n)%nat -> ~ free_at l i.
Proof.
  induction n as [|n IH]; intros from H i Hi; cbn in H; [lia|].
  destruct (Nat.eq_dec i from) as [->|N].
  - unfold free_at. intros K. rewrite K in H. discriminate.
  - apply (IH (S from)); [|lia]. destruct (nth_error l from) as [[x|]|]; congruence.
Qed.

Lemma connected_set x : forall l i, free_at l i -> connected (set_nth i (Some x) l) = connected l + 1.
Proof.
  unfold connected, free_at. induction l as [|y l IH]; intros [|i] H; cbn in *; try discriminate.
  - injection H as ->. cbn [is_some length]. lia.
  - specialize (IH i H). destruct (is_some y); cbn [length]; lia.
Qed.
Lemma connected_reset x y : forall l i, nth_error l i = Some (Some y) ->
  connected (set_nth i (Some x) l) = connected l.
Proof.
  unfold connected. induction l as [|z l IH]; intros [|i] H; cbn in *; try discriminate.
  - injection H as ->. reflexivity.
  - specialize (IH i H). destruct (is_some z); cbn [length]; lia.
Qed.
Lemma connected_map (f : option axis -> option axis) : (forall o, is_some (f o) = is_some o) ->
  forall l, connected (map f l) = connected l.
Proof.
  intros Hf. unfold connected. induction l as [|y l IH]; cbn; auto. rewrite Hf.
  destruct (is_some y); cbn [length]; lia.
Qed.
Lemma connected_le l : 0 <= connected l <= Z.of_nat (length l).
Proof. unfold connected. induction l as [|y l IH]; cbn; [lia|]. destruct (is_some y); cbn [length]; lia. Qed.
Lemma connected_free l i : free_at l i -> connected l < Z.of_nat (length l).
Proof.
  unfold connected, free_at. revert i. induction l as [|y l IH]; intros [|i] H; cbn in *; try discriminate.
  - injection H as ->. cbn [is_some]. pose proof (connected_le l) as K. unfold connected in K. lia.
  - specialize (IH i H). destruct (is_some y); cbn [length]; lia.
Qed.

Record cinv (k : layout) (e : engine) : Prop := mkCinv {
  ci_len : length (e_slot e) = max_stepper k;
  ci_cnt : e_cnt e = connected (e_slot e);
  ci_pin : forall i j pin, pin_at (e_slot e) i pin -> pin_at (e_slot e) j pin -> i = j;
  ci_kind : match k with
            | Fixed ch => forall i pin, pin_at (e_slot e) i pin -> nth_error ch i = Some pin
            | Flexible n => forall i, (i < n)%nat -> free_at (e_slot e) i <-> e_cnt e <= Z.of_nat i
            | Select _ _ => True
            end
}.

Lemma slot_cases l i : (i < length l)%nat -> free_at l i \/ exists pin, pin_at l i pin.
Proof.
  intros H. destruct (nth_error l i) as [[[s q]|]|] eqn:E.
  - right. exists (s_steppin s), s, q. auto.
  - left. exact E.
  - apply nth_error_None in E. lia.
Qed.
Lemma free_lt l i : free_at l i -> (i < length l)%nat.
Proof. intros H. apply nth_error_Some. unfold free_at in H. congruence. Qed.

Lemma choose_some k pin driver valid e i : layout_ok k -> cinv k e ->
  is_connected pin (e_slot e) = false ->
  choose k pin driver valid e = Some i -> free_at (e_slot e) i /\ usable k pin driver i.
Proof.
  intros [HL HK] [] HC H. unfold choose in H. destruct k as [ch|n|m r]; cbn [usable max_stepper] in *.
  - apply index_of_some in H. split; [|assumption].
    assert (Hi : (i < length (e_slot e))%nat) by (rewrite ci_len0; apply nth_error_Some; congruence).
    destruct (slot_cases _ _ Hi) as [F|[p P]]; [assumption|exfalso].
    assert (E := ci_kind0 _ _ P). rewrite H in E. injection E as <-.
    exact (is_connected_false _ _ HC _ P).
  - destruct valid; [|discriminate]. cbn in H. destruct (Z.geb_spec (e_cnt e) (Z.of_nat n)); [discriminate|].
    pose proof (connected_le (e_slot e)). injection H as <-.
    split; [apply ci_kind0; lia|lia].
  - destruct valid; [|discriminate]. cbn in H. unfold DRIVER_MCPWM_PCNT, DRIVER_RMT in *.
    destruct (Z.eqb_spec driver 0); [|destruct (Z.eqb_spec driver 1)];
      apply first_free_some in H as [H1 H2]; splits; auto; lia.
Qed.
Lemma choose_none k pin driver valid e : layout_ok k -> cinv k e -> choose k pin driver valid e = None ->
  (valid = false /\ (forall ch, k <> Fixed ch))
  \/ forall i, usable k pin driver i -> ~ free_at (e_slot e) i.
Proof.
  intros [HL HK] [] H. unfold choose in H. destruct k as [ch|n|m r]; cbn [usable max_stepper] in *.
  - right. intros i Hi. apply index_of_none in H. exfalso. apply H. eapply nth_error_In; eassumption.
  - destruct valid; [|left; split; congruence]. right. cbn in H.
    destruct (Z.geb_spec (e_cnt e) (Z.of_nat n)); [|discriminate].
    intros i Hi. rewrite ci_kind0 by assumption. lia.
  - destruct valid; [|left; split; congruence]. right. cbn in H. unfold DRIVER_MCPWM_PCNT, DRIVER_RMT in *.
    intros i (U1 & U2 & U3).
    destruct (Z.eqb_spec driver 0); [|destruct (Z.eqb_spec driver 1)];
      apply (first_free_none _ _ _ H); lia.
Qed.

Section WithArch.
Variable A : arch.

(** the other steppers keep everything but the speed limit *)
Definition same_but_limit (o o' : option axis) : Prop :=
  match o, o' with
  | None, None => True
  | Some (s, q), Some (s', q') => s' = s /\ exists m, q' = set_max m q
  | _, _ => False
  end.
Lemma adjust_same cnt o : same_but_limit o (adjust A cnt o).
Proof. destruct o as [[s q]|]; cbn; eauto. Qed.
Lemma adjust_some cnt o : is_some (adjust A cnt o) = is_some o.
Proof. destruct o as [[s q]|]; reflexivity. Qed.
Lemma pin_at_adjust cnt l i pin : pin_at (map (adjust A cnt) l) i pin <-> pin_at l i pin.
Proof.
  unfold pin_at. rewrite nth_error_map. destruct (nth_error l i) as [[[s q]|]|]; cbn.
  - split; intros (s' & q' & E & P); injection E as <- <-; eauto.
  - split; intros (s' & q' & E & P); discriminate.
  - split; intros (s' & q' & E & P); discriminate.
Qed.
Lemma free_at_adjust cnt l i : free_at (map (adjust A cnt) l) i <-> free_at l i.
Proof.
  unfold free_at. rewrite nth_error_map. destruct (nth_error l i) as [[[s q]|]|]; cbn;
    split; intros; congruence.
Qed.
Lemma pin_at_set l i x j pin : (i < length l)%nat ->
  pin_at (set_nth i (Some x) l) j pin <->
  (i = j /\ s_steppin (fst x) = pin) \/ (i <> j /\ pin_at l j pin).
Proof.
  intros H. unfold pin_at. rewrite set_nth_cases by assumption. destruct x as [s0 q0]. cbn [fst].
  destruct (Nat.eqb_spec i j) as [->|N].
  - split.
    + intros (s & q & E & P). injection E as <- <-. left. auto.
    + intros [[_ P]|[K _]]; [|congruence]. exists s0, q0. auto.
  - split; [intros P; right; auto|]. intros [[K _]|[_ P]]; [congruence|assumption].
Qed.
Lemma free_at_set l i x j : (i < length l)%nat ->
  free_at (set_nth i (Some x) l) j <-> i <> j /\ free_at l j.
Proof.
  intros H. unfold free_at. rewrite set_nth_cases by assumption.
  destruct (Nat.eqb_spec i j) as [->|N]; split; try tauto; congruence.
Qed.

Lemma e_init_inv k : cinv k (e_init k).
Proof.
  unfold e_init. set (n := max_stepper k).
  assert (E : forall i o, nth_error (repeat (@None axis) n) i = Some o -> o = None).
  { intros i o H. apply nth_error_In in H. now apply repeat_spec in H. }
  assert (P : forall i pin, ~ pin_at (repeat None n) i pin).
  { intros i pin (s & q & H & _). apply E in H. discriminate. }
  constructor; cbn [e_slot e_cnt].
  - apply repeat_length.
  - unfold connected. induction n as [|n IH]; cbn; auto. apply IH.
    + intros i o. exact (E (S i) o).
    + intros i pin. exact (P (S i) pin).
  - intros i j pin H. now apply P in H.
  - destruct k as [ch|m|]; auto.
    + intros i pin H. now apply P in H.
    + intros i Hi. split; [lia|]. intros _. unfold free_at, n. cbn. now apply nth_error_repeat.
Qed.

(** the complete specification of one call *)
Definition connect_spec (k : layout) (pin driver : Z) (valid : bool) (e e' : engine) (r : option nat) : Prop :=
  match r with
  | None => e' = e /\ ((exists i, pin_at (e_slot e) i pin)
                       \/ (valid = false /\ (forall ch, k <> Fixed ch))
                       \/ forall i, usable k pin driver i -> ~ free_at (e_slot e) i)
  | Some i => free_at (e_slot e) i /\ usable k pin driver i
              /\ (forall j, ~ pin_at (e_slot e) j pin)
              /\ (valid = true \/ exists ch, k = Fixed ch)
              /\ pin_at (e_slot e') i pin /\ e_cnt e' = e_cnt e + 1
              /\ (forall j, i <> j ->
                    match nth_error (e_slot e) j, nth_error (e_slot e') j with
                    | Some a, Some b => same_but_limit a b
                    | None, None => True
                    | _, _ => False
                    end)
  end.
Lemma connect_ok k pin driver valid g garbage e : layout_ok k -> cinv k e ->
  let r := connect A k pin driver valid g garbage e in
  connect_spec k pin driver valid e (fst r) (snd r) /\ cinv k (fst r).
Proof.
  intros HL HI. cbv zeta. unfold connect.
  destruct (is_connected pin (e_slot e)) eqn:EC.
  { cbn. split; [|assumption]. split; [reflexivity|]. left. now apply is_connected_true. }
  destruct (choose k pin driver valid e) as [i|] eqn:EH.
  2: { cbn. split; [|assumption]. split; [reflexivity|]. right. eapply choose_none; eassumption. }
  destruct (choose_some _ _ _ _ _ _ HL HI EC EH) as [F U].
  pose proof (free_lt _ _ F) as Hi. pose proof (connected_free _ _ F) as Hn.
  pose proof (connected_le (e_slot e)) as H0.
  destruct HI. destruct HL as [HM HK].
  assert (Ec : u8 (e_cnt e + 1) = e_cnt e + 1) by (unfold u8; apply Z.mod_small; lia).
  rewrite Ec. cbn [fst snd connect_spec e_slot e_cnt].
  set (x := (s_init A g pin, q_init A garbage false)) in *.
  split.
  - splits; auto.
    + exact (is_connected_false _ _ EC).
    + unfold choose in EH. destruct k; eauto; destruct valid; auto; discriminate.
    + apply pin_at_adjust. apply pin_at_set; auto.
    + intros j Hj. rewrite nth_error_map, set_nth_other by assumption.
      destruct (nth_error (e_slot e) j); cbn; auto. apply adjust_same.
  - constructor; cbn [e_slot e_cnt].
    + rewrite map_length, set_nth_length. assumption.
    + rewrite connected_map by apply adjust_some. rewrite connected_set by assumption. lia.
    + intros a b p. rewrite !pin_at_adjust, !pin_at_set by assumption.
      intros [[Ha Pa]|[Ha Pa]] [[Hb Pb]|[Hb Pb]]; try congruence.
      * cbn in Pa. subst. exfalso. exact (is_connected_false _ _ EC _ Pb).
      * cbn in Pb. subst. exfalso. exact (is_connected_false _ _ EC _ Pa).
      * eapply ci_pin0; eassumption.
    + destruct k as [ch|n|m r]; auto.
      * intros a p. rewrite pin_at_adjust, pin_at_set by assumption.
        intros [[<- P]|[Ha P]]; [|eauto]. cbn in P. subst p. exact U.
      * intros a Ha. rewrite free_at_adjust, free_at_set by assumption. rewrite ci_kind0 by assumption.
        unfold choose in EH. destruct valid; [|discriminate]. cbn in EH.
        destruct (Z.geb_spec (e_cnt e) (Z.of_nat n)); [discriminate|]. injection EH as <-. lia.
Qed.

(** after a successful call every connected stepper has the limit for the number of steppers *)
Lemma connect_limit k pin driver valid g garbage e : layout_ok k -> cinv k e ->
  let r := connect A k pin driver valid g garbage e in
  snd r <> None ->
  forall j s q, nth_error (e_slot (fst r)) j = Some (Some (s, q)) ->
  q_max q = limit_for A (connected (e_slot (fst r))).
Proof.
  intros HL HI. cbv zeta. intros HS j s q.
  destruct (connect_ok k pin driver valid g garbage e HL HI) as [_ HI'].
  revert HS HI'. unfold connect.
  destruct (is_connected pin (e_slot e)); [cbn; congruence|].
  destruct (choose k pin driver valid e) as [i|]; [|cbn; congruence].
  cbn [fst snd e_slot e_cnt]. intros _ HI'. pose proof (ci_cnt _ _ HI') as HC.
  cbn [e_slot e_cnt] in HC. rewrite <- HC.
  rewrite nth_error_map.
  destruct (nth_error _ j) as [[[s0 q0]|]|]; cbn; intros E; try discriminate.
  injection E as _ <-. reflexivity.
Qed.

Lemma cstep_inv k ev e : layout_ok k -> cinv k e -> cinv k (cstep A k ev e).
Proof.
  intros HL HI. destruct ev as [pin driver valid g garbage|i [s q]]; cbn [cstep].
  - now apply connect_ok.
  - destruct (nth_error (e_slot e) i) as [[[s0 q0]|]|] eqn:E; auto.
    cbn [fst]. destruct (Z.eqb_spec (s_steppin s0) (s_steppin s)) as [ES|]; auto.
    assert (Hi : (i < length (e_slot e))%nat) by (apply nth_error_Some; congruence).
    assert (P0 : pin_at (e_slot e) i (s_steppin s)) by (exists s0, q0; auto).
    assert (PP : forall j p, pin_at (set_nth i (Some (s, q)) (e_slot e)) j p <-> pin_at (e_slot e) j p).
    { intros j p. rewrite pin_at_set by assumption. cbn [fst].
      destruct (Nat.eq_dec i j) as [<-|N]; [|tauto].
      split; [intros [[_ <-]|[K _]]; [assumption|congruence]|].
      intros (s1 & q1 & E1 & P1). left. split; [reflexivity|]. congruence. }
    assert (FF : forall j, free_at (set_nth i (Some (s, q)) (e_slot e)) j <-> free_at (e_slot e) j).
    { intros j. rewrite free_at_set by assumption. split; [tauto|]. intros F. split; [|assumption].
      intros <-. unfold free_at in F. congruence. }
    destruct HI. constructor; cbn [e_slot e_cnt].
    + rewrite set_nth_length. assumption.
    + rewrite (connected_reset _ _ _ _ E). assumption.
    + intros a b p. rewrite !PP. apply ci_pin0.
    + destruct k; auto.
      * intros a p. rewrite PP. apply ci_kind0.
      * intros a Ha. rewrite FF. apply ci_kind0. assumption.
Qed.
Lemma crun_inv k : forall l e, layout_ok k -> cinv k e -> cinv k (crun A k l e).
Proof.
  unfold crun. induction l as [|ev l IH]; intros e HL HI; cbn [fold_left]; auto.
  apply IH; auto. now apply cstep_inv.
Qed.
End WithArch.
