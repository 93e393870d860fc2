(** * EngineAuto: automatic disabling of the outputs of several steppers *)
From Coq Require Import ZArith Bool List Lia ZifyBool.
From Verif Require Import Base RampCalc RampGen Queue QueueHist Stepper StepperHist FrontHist FrontProp
  Engine EngineFacts.
Import ListNotations.
Open Scope Z_scope.
Ltac Zify.zify_post_hook ::= idtac.

Definition at_slot (l : list (option axis)) (i : nat) (s : stepper) (q : queue) : Prop :=
  nth_error l i = Some (Some (s, q)).
(** the stepper has an enable pin [w] *)
Definition en_pin (s : stepper) (w : Z) : Prop := w <> PIN_UNDEFINED /\ (w = s_high s \/ w = s_low s).
Definition shares (s s' : stepper) : Prop := exists w, en_pin s w /\ en_pin s' w.
(** whoever shares a pin with someone sharing a pin with a stepper, shares a pin with it *)
Definition transitive (l : list (option axis)) : Prop :=
  forall i j k si qi sj qj sk qk, at_slot l i si qi -> at_slot l j sj qj -> at_slot l k sk qk ->
    shares si sj -> shares sj sk -> shares si sk.
Definition one_pin (s : stepper) : Prop :=
  s_low s = PIN_UNDEFINED \/ s_high s = PIN_UNDEFINED \/ s_low s = s_high s.

Lemma en_pin_b s w : usesAutoEnablePin s w = true <-> en_pin s w.
Proof. unfold usesAutoEnablePin, en_pin. lia. Qed.
Lemma uses_shares si s : uses s (s_high si) (s_low si) = true <-> shares si s.
Proof.
  unfold uses, shares. rewrite orb_true_iff, !en_pin_b. split.
  - intros [H|H]; [exists (s_high si)|exists (s_low si)]; split; auto; destruct H; split; auto.
  - intros (w & [H1 [->| ->]] & H2); auto.
Qed.
Lemma one_pin_transitive l :
  (forall i s q, at_slot l i s q -> one_pin s) -> transitive l.
Proof.
  intros H i j k si qi sj qj sk qk _ Hj _ (v & A1 & A2) (w & B1 & B2).
  assert (E : v = w).
  { specialize (H _ _ _ Hj). unfold one_pin, en_pin in *. lia. }
  subst v. exists w. auto.
Qed.

(** the pass changes only the counters *)
Definition akin1 (o o' : option axis) : Prop :=
  match o, o' with
  | None, None => True
  | Some (s, q), Some (s', q') => q' = q /\ exists n, s' = st_cnt n s
  | _, _ => False
  end.
Definition akin : list (option axis) -> list (option axis) -> Prop := Forall2 akin1.
Lemma st_cnt_id s : st_cnt (s_cnt s) s = s.
Proof. destruct s; reflexivity. Qed.
Lemma akin1_refl o : akin1 o o.
Proof. destruct o as [[s q]|]; cbn; auto. split; auto. exists (s_cnt s). now rewrite st_cnt_id. Qed.
Lemma akin1_trans a b c : akin1 a b -> akin1 b c -> akin1 a c.
Proof.
  destruct a as [[s q]|], b as [[s' q']|], c as [[s'' q'']|]; cbn; try tauto.
  intros [-> [n ->]] [-> [m ->]]. split; auto. exists m. reflexivity.
Qed.
Lemma akin_refl l : akin l l.
Proof. induction l; constructor; auto. apply akin1_refl. Qed.
Lemma akin_trans a b c : akin a b -> akin b c -> akin a c.
Proof.
  intros H. revert c. induction H as [|x y l l' H1 H2 IH]; intros c Hc; inversion Hc; subst; constructor.
  - eapply akin1_trans; eassumption.
  - now apply IH.
Qed.
Lemma akin_at l l' i s q : akin l l' -> at_slot l' i s q -> exists n s0, at_slot l i s0 q /\ s = st_cnt n s0.
Proof.
  intros H. revert i. induction H as [|x y l l' H1 H2 IH]; intros [|i] E; cbn in *; try discriminate; eauto.
  unfold at_slot in *. cbn in E. injection E as ->. destruct x as [[s0 q0]|]; cbn in H1; [|tauto].
  destruct H1 as [<- [n ->]]. exists n, s0. auto.
Qed.
Lemma akin_at' l l' i s0 q : akin l l' -> at_slot l i s0 q -> exists n, at_slot l' i (st_cnt n s0) q.
Proof.
  intros H. revert i. induction H as [|x y l l' H1 H2 IH]; intros [|i] E; cbn in *; try discriminate; eauto.
  unfold at_slot in *. cbn in E. injection E as ->. destruct y as [[s' q']|]; cbn in H1; [|tauto].
  destruct H1 as [-> [n ->]]. exists n. reflexivity.
Qed.
Lemma akin_len l l' : akin l l' -> length l' = length l.
Proof. induction 1; cbn; auto. Qed.

(** *** Pins *)
Lemma set_pin_other ext x lvl p w : w <> x \/ x = PIN_UNDEFINED -> fst (set_pin ext x lvl p) w = p w.
Proof.
  intros H. unfold set_pin. destruct (Z.eqb_spec x PIN_UNDEFINED); [reflexivity|].
  assert (w <> x) by tauto.
  destruct (is_external x); [destruct ext|]; cbn; auto; unfold upd; destruct (Z.eqb_spec w x); auto; congruence.
Qed.
Lemma disable_other ext s q p w : ~ en_pin s w -> w <> PIN_UNDEFINED ->
  snd (fst (disableOutputs ext s q p)) w = p w.
Proof.
  intros H Hw. unfold disableOutputs. destruct (disable_allowed s q); [|reflexivity].
  unfold disable_pins. unfold en_pin in H.
  pose proof (set_pin_other ext (s_low s) true p w) as H1.
  destruct (set_pin ext (s_low s) true p) as [p1 a].
  pose proof (set_pin_other ext (s_high s) false p1 w) as H2.
  destruct (set_pin ext (s_high s) false p1) as [p2 b]. cbn [fst snd] in *.
  rewrite H2, H1; auto; lia.
Qed.
Lemma disable_group_pin ext hi lo w : w <> PIN_UNDEFINED -> forall l p,
  (forall i s q, at_slot l i s q -> uses s hi lo = true -> ~ en_pin s w) ->
  snd (disable_group ext hi lo l p) w = p w.
Proof.
  intros Hw. induction l as [|[[s q]|] l IH]; intros p H; cbn [disable_group].
  - reflexivity.
  - cbn [snd]. rewrite IH.
    + destruct (uses s hi lo) eqn:E; [|reflexivity].
      apply disable_other; auto. exact (H O s q eq_refl E).
    + intros i s' q' E. exact (H (S i) s' q' E).
  - cbn [snd]. apply IH. intros i s' q' E. exact (H (S i) s' q' E).
Qed.
Lemma disable_group_akin ext hi lo : forall l p, akin l (fst (disable_group ext hi lo l p)).
Proof.
  induction l as [|[[s q]|] l IH]; intros p; cbn [disable_group fst]; constructor; auto.
  - cbn. split; [reflexivity|]. destruct (uses s hi lo); cbn [fst].
    + destruct (disable_conf ext s q p) as [-> | ->]; [exists (s_cnt s); now rewrite st_cnt_id|now exists 0].
    + exists (s_cnt s). now rewrite st_cnt_id.
  - apply IH.
  - exact I.
  - apply IH.
Qed.
Lemma all_agree_at i hi lo : forall l k j s q, all_agree i k hi lo l = true -> at_slot l j s q ->
  i <> (k + j)%nat -> uses s hi lo = true -> agreeWithAutoDisable s q = true.
Proof.
  induction l as [|[[s0 q0]|] l IH]; intros k [|j] s q H E N U; cbn in E; try discriminate; cbn [all_agree] in H.
  - injection E as -> ->. rewrite U in H. replace (Nat.eqb i k) with false in H by lia.
    apply andb_true_iff in H as [H _]. exact H.
  - apply andb_true_iff in H as [_ H]. apply (IH (S k) j s q); auto. lia.
  - apply (IH (S k) j s q); auto. lia.
Qed.

(** *** A running stepper keeps its enable pins *)
Lemma disable_check_akin ext i z : akin (fst z) (fst (disable_check ext i z)).
Proof.
  unfold disable_check. destruct (nth_error (fst z) i) as [[[s q]|]|]; try apply akin_refl.
  destruct (_ && _); [apply disable_group_akin|apply akin_refl].
Qed.
Lemma checks_akin ext : forall is z, akin (fst z) (fst (disable_checks ext is z)).
Proof.
  unfold disable_checks. induction is as [|i is IH]; intros z; cbn [fold_left]; [apply akin_refl|].
  eapply akin_trans; [apply disable_check_akin|apply IH].
Qed.
Lemma transitive_akin l l' : akin l l' -> transitive l -> transitive l'.
Proof.
  intros K H i j k si qi sj qj sk qk Hi Hj Hk S1 S2.
  apply (akin_at _ _ _ _ _ K) in Hi as (a & si0 & Hi & ->).
  apply (akin_at _ _ _ _ _ K) in Hj as (b & sj0 & Hj & ->).
  apply (akin_at _ _ _ _ _ K) in Hk as (c & sk0 & Hk & ->).
  exact (H _ _ _ _ _ _ _ _ _ Hi Hj Hk S1 S2).
Qed.
Lemma disable_check_keeps ext i z k s q w : transitive (fst z) -> at_slot (fst z) k s q ->
  s_isRunning s q = true -> en_pin s w -> snd (disable_check ext i z) w = snd z w.
Proof.
  intros HT Hk Hr Hw. unfold disable_check.
  destruct (nth_error (fst z) i) as [[[si qi]|]|] eqn:Ei; try reflexivity.
  destruct (needAutoDisable si qi) eqn:N; [|reflexivity]. cbn [andb].
  destruct (all_agree i 0 (s_high si) (s_low si) (fst z)) eqn:AG; [|reflexivity].
  apply disable_group_pin; [apply Hw|].
  intros j sj qj Hj U K. apply uses_shares in U.
  assert (S2 : shares sj s) by (exists w; auto).
  pose proof (HT _ _ _ _ _ _ _ _ _ Ei Hj Hk U S2) as S3.
  assert (NK : i <> k).
  { intros ->. unfold at_slot in Hk. rewrite Hk in Ei. injection Ei as -> ->. unfold needAutoDisable in N.
    rewrite Hr in N. lia. }
  pose proof (all_agree_at _ _ _ _ O _ _ _ AG Hk NK (proj2 (uses_shares _ _) S3)) as AA.
  unfold agreeWithAutoDisable in AA. rewrite Hr in AA. lia.
Qed.
Lemma checks_keep ext k s q w : s_isRunning s q = true -> en_pin s w -> forall is z,
  transitive (fst z) -> (exists n, at_slot (fst z) k (st_cnt n s) q) ->
  snd (disable_checks ext is z) w = snd z w.
Proof.
  intros Hr Hw. unfold disable_checks. induction is as [|i is IH]; intros z HT [n Hk]; cbn [fold_left]; auto.
  pose proof (disable_check_akin ext i z) as K.
  rewrite IH.
  - apply (disable_check_keeps ext i z k (st_cnt n s) q w); auto.
  - eapply transitive_akin; eassumption.
  - destruct (akin_at' _ _ _ _ _ K Hk) as [m Hm]. exists m. exact Hm.
Qed.
Lemma auto_pass_safe ext l p k s q w : transitive l -> at_slot l k s q ->
  s_isRunning s q = true -> en_pin s w -> snd (auto_pass ext (l, p)) w = p w.
Proof.
  intros HT Hk Hr Hw. unfold auto_pass. cbn [snd fst].
  apply (checks_keep ext k s q w Hr Hw); auto. exists (s_cnt s). rewrite st_cnt_id. exact Hk.
Qed.
Lemma map_update_akin l :
  akin l (map (fun o => match o with Some (s, q) => Some (updateAutoDisable s q, q) | None => None end) l).
Proof.
  induction l as [|[[s q]|] l IH]; cbn; constructor; auto; cbn; auto. split; auto.
  unfold updateAutoDisable. destruct (_ && _); [eexists; reflexivity|].
  exists (s_cnt s). now rewrite st_cnt_id.
Qed.
Lemma auto_pass_akin ext z : akin (fst z) (fst (auto_pass ext z)).
Proof.
  unfold auto_pass. cbn [fst]. eapply akin_trans; [apply checks_akin|apply map_update_akin].
Qed.

(** *** The delay until the outputs are disabled *)
(** no other stepper has an enable pin of stepper [i] *)
Definition alone (l : list (option axis)) (i : nat) (s : stepper) : Prop :=
  forall j sj qj, at_slot l j sj qj -> j <> i -> ~ shares s sj.
Lemma shares_sym a b : shares a b -> shares b a.
Proof. intros (w & H1 & H2). exists w. auto. Qed.

Lemma disable_group_alone ext i s q : forall l p, at_slot l i s q -> shares s s ->
  alone l i s ->
  let d := disableOutputs ext s q p in
  disable_group ext (s_high s) (s_low s) l p = (set_nth i (Some (fst (fst d), q)) l, snd (fst d)).
Proof.
  assert (N : forall l p, (forall j sj qj, at_slot l j sj qj -> ~ shares s sj) ->
     disable_group ext (s_high s) (s_low s) l p = (l, p)).
  { induction l as [|[[s0 q0]|] l IH]; intros p H; cbn [disable_group]; auto.
    - assert (U : uses s0 (s_high s) (s_low s) = false).
      { destruct (uses s0 (s_high s) (s_low s)) eqn:E; auto. apply uses_shares in E.
        exfalso. exact (H O s0 q0 eq_refl E). }
      rewrite U. cbn [fst snd]. rewrite IH; auto. intros j sj qj E. exact (H (S j) sj qj E).
    - rewrite IH; auto. intros j sj qj E. exact (H (S j) sj qj E). }
  intros l p. revert i p. induction l as [|o l IH]; intros [|i] p E S H; cbn in E; try discriminate.
  - injection E as ->. cbn [disable_group set_nth]. apply uses_shares in S. rewrite S. cbn [fst snd].
    rewrite N; [reflexivity|]. intros j sj qj E. apply (H (Datatypes.S j) sj qj E). lia.
  - assert (H' : alone l i s).
    { intros j sj qj E' Nj. apply (H (Datatypes.S j) sj qj E'). lia. }
    specialize (IH i p E S H'). cbn [disable_group set_nth]. destruct o as [[s0 q0]|].
    + assert (U : uses s0 (s_high s) (s_low s) = false).
      { destruct (uses s0 (s_high s) (s_low s)) eqn:EU; auto. apply uses_shares in EU.
        exfalso. apply (H O s0 q0 eq_refl); [lia|assumption]. }
      rewrite U. cbn [fst snd]. cbv zeta in IH. rewrite IH. reflexivity.
    + cbv zeta in IH. rewrite IH. reflexivity.
Qed.
Lemma all_agree_alone i s : forall l k, (forall j sj qj, at_slot l j sj qj -> (k + j)%nat <> i -> ~ shares s sj) ->
  all_agree i k (s_high s) (s_low s) l = true.
Proof.
  induction l as [|[[s0 q0]|] l IH]; intros k H; cbn [all_agree]; auto.
  - rewrite IH.
    + rewrite andb_true_r. destruct (Nat.eqb_spec i k); [reflexivity|]. cbn [negb andb].
      destruct (uses s0 (s_high s) (s_low s)) eqn:E; [|reflexivity].
      apply uses_shares in E. exfalso. apply (H O s0 q0 eq_refl); [lia|assumption].
    + intros j sj qj E N. apply (H (S j) sj qj E). lia.
  - apply IH. intros j sj qj E N. apply (H (S j) sj qj E). lia.
Qed.

(** a check of another stepper *)
Lemma check_other ext i j z s q : i <> j -> at_slot (fst z) i s q -> alone (fst z) i s ->
  at_slot (fst (disable_check ext j z)) i s q
  /\ forall w, en_pin s w -> snd (disable_check ext j z) w = snd z w.
Proof.
  intros N Hi HA. unfold disable_check.
  destruct (nth_error (fst z) j) as [[[sj qj]|]|] eqn:Ej; auto.
  destruct (_ && _); auto.
  assert (NS : ~ shares s sj) by (apply (HA j sj qj Ej); congruence).
  split.
  - assert (G : forall l i p, at_slot l i s q -> at_slot (fst (disable_group ext (s_high sj) (s_low sj) l p)) i s q).
    { clear - NS. induction l as [|[[s0 q0]|] l IH]; intros [|i] p E; cbn in E; try discriminate; cbn [disable_group fst].
      - injection E as -> ->. destruct (uses s (s_high sj) (s_low sj)) eqn:U; [|reflexivity].
        apply uses_shares in U. exfalso. apply NS. now apply shares_sym.
      - unfold at_slot. cbn [nth_error]. apply IH. exact E.
      - unfold at_slot. cbn [nth_error]. apply IH. exact E. }
    now apply G.
  - intros w Hw. apply disable_group_pin; [apply Hw|].
    intros k sk qk Hk U K. destruct (Nat.eq_dec k i) as [->|Nk].
    + unfold at_slot in Hk, Hi. rewrite Hi in Hk. injection Hk as -> ->. apply NS.
      apply shares_sym. now apply uses_shares.
    + apply (HA k sk qk Hk Nk). exists w. auto.
Qed.
Lemma alone_akin l l' i s : akin l l' -> alone l i s -> alone l' i s.
Proof.
  intros K H j sj qj E N S. apply (akin_at _ _ _ _ _ K) in E as (n & s0 & E & ->).
  exact (H j s0 qj E N S).
Qed.
Lemma checks_other ext i s q : forall is z, ~ In i is -> at_slot (fst z) i s q -> alone (fst z) i s ->
  let z' := disable_checks ext is z in
  at_slot (fst z') i s q /\ alone (fst z') i s /\ forall w, en_pin s w -> snd z' w = snd z w.
Proof.
  unfold disable_checks. induction is as [|j is IH]; intros z N Hi HA; cbn [fold_left]; auto.
  destruct (check_other ext i j z s q) as [H1 H2]; auto.
  { intros ->. apply N. now left. }
  destruct (IH (disable_check ext j z)) as (G1 & G2 & G3); auto.
  - intros K. apply N. now right.
  - eapply alone_akin; [apply disable_check_akin|assumption].
  - splits; auto. intros w Hw. rewrite G3, H2; auto.
Qed.

(** outputs off *)
Definition outputs_off (s : stepper) (p : pins) : Prop :=
  (s_low s <> PIN_UNDEFINED -> p (s_low s) = true) /\
  (s_high s <> PIN_UNDEFINED -> p (s_high s) = false).
Lemma disable_off ext s q p : s_isRunning s q = false -> distinct_pins s -> responsive s ext ->
  fst (fst (disableOutputs ext s q p)) = st_cnt 0 s /\ outputs_off s (snd (fst (disableOutputs ext s q p))).
Proof.
  intros Hr Hd Hx. unfold disableOutputs, disable_allowed. rewrite Hr. cbn [andb negb].
  assert (R : forall x lvl p, x = s_low s \/ x = s_high s ->
    snd (set_pin ext x lvl p) = true /\ (x <> PIN_UNDEFINED -> fst (set_pin ext x lvl p) x = lvl)).
  { intros x lvl p0 Hs. unfold set_pin. destruct (Z.eqb_spec x PIN_UNDEFINED); [split; [reflexivity|congruence]|].
    destruct (is_external x) eqn:E.
    - destruct (Hx x lvl Hs n E) as (f & -> & Hf). cbn. rewrite Hf. split; [destruct lvl; reflexivity|].
      intros _. unfold upd. now rewrite Z.eqb_refl.
    - cbn. split; [reflexivity|]. intros _. unfold upd. now rewrite Z.eqb_refl. }
  unfold disable_pins.
  destruct (R (s_low s) true p) as [A1 A2]; auto.
  destruct (set_pin ext (s_low s) true p) as [p1 a]. cbn [fst snd] in A1, A2.
  destruct (R (s_high s) false p1) as [B1 B2]; auto.
  pose proof (set_pin_other ext (s_high s) false p1 (s_low s)) as O.
  destruct (set_pin ext (s_high s) false p1) as [p2 b]. cbn [fst snd] in *. subst a b. cbn [andb].
  split; [reflexivity|]. split; [|exact B2]. intros Hl. unfold distinct_pins in Hd. rewrite O; [now apply A2|tauto].
Qed.

(** one pass for an idle stepper, which does not share its enable pins *)
Lemma seq_split i n : (i < n)%nat -> seq 0 n = seq 0 i ++ i :: seq (S i) (n - S i).
Proof.
  intros H. replace n with (i + S (n - S i))%nat at 1 by lia. rewrite seq_app. reflexivity.
Qed.
Lemma pass_idle ext z i s q : at_slot (fst z) i s q -> alone (fst z) i s -> s_isRunning s q = false ->
  distinct_pins s -> responsive s ext -> shares s s -> 1 <= s_cnt s ->
  let z' := auto_pass ext z in
  at_slot (fst z') i (st_cnt (s_cnt s - 1) s) q
  /\ (1 < s_cnt s -> forall w, en_pin s w -> snd z' w = snd z w)
  /\ (s_cnt s = 1 -> outputs_off s (snd z')).
Proof.
  intros Hi HA Hr Hd Hx HS Hc. cbv zeta. unfold auto_pass. cbn [fst snd].
  assert (Li : (i < length (fst z))%nat) by (apply nth_error_Some; unfold at_slot in Hi; congruence).
  rewrite (seq_split i) by assumption. unfold disable_checks. rewrite fold_left_app. cbn [fold_left].
  destruct (checks_other ext i s q (seq 0 i) z) as (A1 & A2 & A3); auto.
  { rewrite in_seq. lia. }
  unfold disable_checks in A1, A2, A3.
  set (z1 := fold_left (fun z i => disable_check ext i z) (seq 0 i) z) in *. clearbody z1.
  assert (UP : forall l s', at_slot l i s' q ->
     at_slot (map (fun o => match o with Some (s, q) => Some (updateAutoDisable s q, q) | None => None end) l)
       i (updateAutoDisable s' q) q).
  { intros l s' E. unfold at_slot in *. erewrite map_nth_error; [|exact E]. reflexivity. }
  assert (NI : ~ In i (seq (S i) (length (fst z) - S i))) by (rewrite in_seq; lia).
  destruct (Z.eq_dec (s_cnt s) 1) as [E1|E1].
  - assert (EC : disable_check ext i z1 =
       (set_nth i (Some (fst (fst (disableOutputs ext s q (snd z1))), q)) (fst z1),
        snd (fst (disableOutputs ext s q (snd z1))))).
    { unfold disable_check. unfold at_slot in A1. rewrite A1. unfold needAutoDisable. rewrite E1, Hr. cbn [Z.eqb Pos.eqb negb andb].
      rewrite all_agree_alone; [|intros j sj qj E N; apply (A2 j sj qj E); exact N].
      apply disable_group_alone; auto. }
    destruct (disable_off ext s q (snd z1) Hr Hd Hx) as [D1 D2]. rewrite D1 in EC.
    set (p2 := snd (fst (disableOutputs ext s q (snd z1)))) in *. clearbody p2. clear D1.
    assert (L1 : (i < length (fst z1))%nat) by (apply nth_error_Some; unfold at_slot in A1; congruence).
    destruct (checks_other ext i (st_cnt 0 s) q (seq (S i) (length (fst z) - S i)) (disable_check ext i z1)) as (B1 & B2 & B3); auto.
    { rewrite EC. cbn [fst]. apply set_nth_same. assumption. }
    { pose proof (disable_check_akin ext i z1) as K. pose proof (alone_akin _ _ _ _ K A2) as K2. exact K2. }
    unfold disable_checks in B1, B2, B3.
    set (z2 := fold_left (fun z i => disable_check ext i z) (seq (S i) (length (fst z) - S i)) (disable_check ext i z1)) in *.
    splits.
    + apply UP in B1. rewrite E1. exact B1.
    + lia.
    + intros _. rewrite EC in B3. cbn [snd] in B3. destruct D2 as [D2 D3].
      split; intros Hn; (rewrite B3; [auto|split; cbn; auto]).
  - assert (EC : disable_check ext i z1 = z1).
    { unfold disable_check. unfold at_slot in A1. rewrite A1. unfold needAutoDisable.
      replace (s_cnt s =? 1) with false by lia. reflexivity. }
    rewrite EC.
    destruct (checks_other ext i s q (seq (S i) (length (fst z) - S i)) z1) as (B1 & B2 & B3); auto.
    unfold disable_checks in B1, B2, B3.
    set (z2 := fold_left (fun z i => disable_check ext i z) (seq (S i) (length (fst z) - S i)) z1) in *.
    splits.
    + apply UP in B1. unfold updateAutoDisable in B1. rewrite Hr in B1.
      replace (s_cnt s >? 1) with true in B1 by lia. exact B1.
    + intros _ w Hw. rewrite B3, A3; auto.
    + lia.
Qed.

(** Several passes; between them anything may happen to the other steppers and pins *)
Definition quiet_for (i : nat) (s : stepper) (z z' : list (option axis) * pins) : Prop :=
  nth_error (fst z') i = nth_error (fst z) i /\ (alone (fst z) i s -> alone (fst z') i s)
  /\ forall w, en_pin s w -> snd z' w = snd z w.
Fixpoint passes (ext : extcall) (l : list (list (option axis) * pins -> list (option axis) * pins))
  (z : list (option axis) * pins) : list (option axis) * pins :=
  match l with [] => z | f :: l' => passes ext l' (auto_pass ext (f z)) end.
Lemma passes_idle ext i s q : s_isRunning s q = false -> distinct_pins s -> responsive s ext -> shares s s ->
  forall l z, Forall (fun f => forall z, quiet_for i s z (f z)) l ->
  at_slot (fst z) i s q -> alone (fst z) i s -> 1 <= s_cnt s ->
  (Z.of_nat (length l) < s_cnt s -> forall w, en_pin s w -> snd (passes ext l z) w = snd z w)
  /\ (Z.of_nat (length l) = s_cnt s -> outputs_off s (snd (passes ext l z))).
Proof.
  intros Hr Hd Hx HS l. revert s Hr Hd Hx HS. induction l as [|f l IH]; intros s Hr Hd Hx HS z HF Hi HA Hc.
  - cbn. split; [reflexivity|lia].
  - inversion HF as [|? ? Hf HF']; subst. cbn [passes length]. destruct (Hf z) as (F1 & F2 & F3).
    assert (Hi' : at_slot (fst (f z)) i s q) by (unfold at_slot; rewrite F1; exact Hi).
    destruct (pass_idle ext (f z) i s q Hi' (F2 HA) Hr Hd Hx HS Hc) as (P1 & P2 & P3).
    destruct (Z.eq_dec (s_cnt s) 1) as [E|E].
    + split; [lia|]. intros El. assert (l = []) as -> by (destruct l; [reflexivity|cbn [length] in El; lia]).
      cbn [passes]. auto.
    + destruct (IH (st_cnt (s_cnt s - 1) s) Hr Hd Hx HS (auto_pass ext (f z))) as [Q1 Q2].
      * apply HF'.
      * exact P1.
      * eapply alone_akin; [apply auto_pass_akin|]. exact (F2 HA).
      * cbn [s_cnt st_cnt]. lia.
      * cbn [s_cnt st_cnt] in Q1, Q2. split.
        -- intros Hl w Hw. rewrite Q1; [rewrite P2; auto; lia|lia|exact Hw].
        -- intros Hl. apply Q2. lia.
Qed.

(** a stepper, which does not share its enable pins and has no delay running *)
Lemma pass_manual ext z i s q : at_slot (fst z) i s q -> alone (fst z) i s -> s_cnt s = 0 ->
  forall w, en_pin s w -> snd (auto_pass ext z) w = snd z w.
Proof.
  intros Hi HA Hc w Hw. unfold auto_pass. cbn [snd fst].
  assert (Li : (i < length (fst z))%nat) by (apply nth_error_Some; unfold at_slot in Hi; congruence).
  rewrite (seq_split i) by assumption. unfold disable_checks. rewrite fold_left_app. cbn [fold_left].
  destruct (checks_other ext i s q (seq 0 i) z) as (A1 & A2 & A3); auto.
  { rewrite in_seq. lia. }
  unfold disable_checks in A1, A2, A3.
  set (z1 := fold_left (fun z i => disable_check ext i z) (seq 0 i) z) in *. clearbody z1.
  assert (EC : disable_check ext i z1 = z1).
  { unfold disable_check. unfold at_slot in A1. rewrite A1. unfold needAutoDisable. rewrite Hc. reflexivity. }
  rewrite EC.
  destruct (checks_other ext i s q (seq (S i) (length (fst z) - S i)) z1) as (B1 & B2 & B3); auto.
  { rewrite in_seq. lia. }
  unfold disable_checks in B3. rewrite B3, A3; auto.
Qed.
