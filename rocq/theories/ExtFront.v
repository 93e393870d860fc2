(** * ExtFront: with an external direction pin the front end turns only at pauses *)
From Coq Require Import ZArith Bool List Lia.
From Verif Require Import Base RampCalc RampGen Queue QueueFacts QueuePos QueueHist Stepper StepperHist
  FrontHist FrontProp.
Import ListNotations.
Open Scope Z_scope.
Ltac Zify.zify_post_hook ::= idtac.

(** every command has the direction of its predecessor or no steps; [u] is the direction
    before the first one *)
Fixpoint turns_at_pauses (u : bool) (l : list command) : Prop :=
  match l with
  | [] => True
  | c :: t => (c_steps c = 0 \/ c_up c = u) /\ turns_at_pauses (c_up c) t
  end.

Lemma turns_app : forall l1 l2 u, turns_at_pauses u (l1 ++ l2) <->
  turns_at_pauses u l1 /\ turns_at_pauses (end_up u l1) l2.
Proof.
  induction l1 as [|c l IH]; intros l2 u; cbn [app turns_at_pauses].
  - unfold end_up. cbn. tauto.
  - rewrite IH. unfold end_up. cbn [fold_left]. tauto.
Qed.
Lemma turns_pauses up : forall l u, turns_at_pauses u (map (fun d => mkCommand d 0 up) l).
Proof. induction l as [|d l IH]; intros u; cbn; auto. Qed.
Lemma end_up_pauses up : forall l u,
  end_up u (map (fun d => mkCommand d 0 up) l) = match l with [] => u | _ => up end.
Proof.
  induction l as [|d l IH]; intros u; [reflexivity|].
  unfold end_up in *. cbn [map fold_left c_up]. rewrite IH. destruct l; reflexivity.
Qed.

Section WithArch.
Variable A : arch.
Variable EXT : bool.
Hypothesis HA : In A all_archs.
Notation X := (hacc A EXT).

Definition turned (t t' : hq) : Prop :=
  exists new, acc_of t' = acc_of t ++ new /\ turns_at_pauses (up_of t) new
    /\ up_of t' = end_up (up_of t) new.
Lemma turned_refl t t' : acc_of t' = acc_of t -> up_of t' = up_of t -> turned t t'.
Proof. intros H1 H2. exists []. rewrite app_nil_r. cbn. splits; auto. Qed.
Lemma turned_trans t u v : turned t u -> turned u v -> turned t v.
Proof.
  intros (n1 & A1 & B1 & C1) (n2 & A2 & B2 & C2). exists (n1 ++ n2).
  rewrite A2, A1, app_assoc. splits; auto.
  - apply turns_app. split; [exact B1|]. rewrite <- C1. exact B2.
  - rewrite C2, C1, end_up_app. reflexivity.
Qed.

Lemma pre_turns c s u : is_external (s_dirpin s) = true ->
  turns_at_pauses u (pre_pauses A c s u ++ [c]).
Proof.
  intros H. unfold pre_pauses. rewrite H. destruct (Bool.eqb u (c_up c)) eqn:E.
  - apply Bool.eqb_prop in E. cbn. auto.
  - cbn. auto.
Qed.

Lemma s_add_turned ext busy c start s t : good A t -> cmd_ok c -> conf_ok s ->
  is_external (s_dirpin s) = true ->
  turned t (snd (fst (s_add A hq X ext busy c start s t))).
Proof.
  intros Hg Hc Hs Hx. unfold s_add.
  destruct (add_first_cases A EXT ext busy c start s t) as [(H1 & H2 & H3)|[Hp H]].
  { destruct (Z.eqb_spec (snd (add_first hq X ext busy c start s t)) AQE_OK); [contradiction|].
    cbn [negb fst snd]. rewrite H2. now apply turned_refl. }
  assert (SEC : forall t1, good A t1 -> turned t1 (snd (fst (add_second A hq X c start s t1)))).
  { intros t1 G1. rewrite add_second_eq.
    destruct (no_room A c s t1); [cbn [fst snd]; now apply turned_refl|].
    cbv zeta. cbn [fst snd].
    destruct (adds_ok A EXT HA start _ t1 G1 (pre_ok A c s (up_of t1) Hc Hs)).
    destruct (q_ignore (tqueue t1)) eqn:Ei.
    - destruct (ad_ign eq_refl) as [B1 B2]. now apply turned_refl.
    - destruct (ad_acc eq_refl) as (l1 & l2 & B1 & B2 & B3 & _). exists l1. splits; auto.
      pose proof (pre_turns c s (up_of t1) Hx) as T. rewrite B1 in T. apply turns_app in T. tauto. }
  destruct H as [[He H]|[He H]].
  - rewrite H. cbn [fst snd]. replace (negb (AQE_OK =? AQE_OK)) with false by reflexivity.
    apply SEC. exact Hg.
  - cbv zeta in H. set (en := enableOutputs ext s (hq_p t)) in *.
    set (t1 := t_setpins hq X (fst en) t) in *.
    assert (G1 : good A t1) by exact Hg.
    assert (T1 : turned t t1) by (now apply turned_refl).
    destruct H as [[E1 H]|[(E1 & E2 & H)|(E1 & E2 & H)]]; rewrite H.
    + cbn [fst snd]. replace (negb (AQE_WAIT_FOR_ENABLE_PIN_ACTIVE =? AQE_OK)) with true by reflexivity.
      exact T1.
    + cbn [fst snd]. replace (negb (AQE_OK =? AQE_OK)) with false by reflexivity.
      eapply turned_trans; [exact T1|]. apply SEC. exact G1.
    + destruct (pieces_range A EXT s c t Hs E2) as [_ HR]. cbv zeta in HR.
      set (ps := on_pieces (on_fuel (on_delay hq X c s t)) (on_delay hq X c s t)) in *.
      destruct (pauses_grow A EXT HA (c_up c) ps t1 G1 HR) as (G2 & S2 & P2 & l' & B1 & B2 & B3).
      set (t2 := add_pauses hq X (c_up c) ps t1) in *.
      destruct (null_ok A EXT HA start t2 G2).
      set (t3 := fst (t_null hq X start t2)) in *.
      assert (T2 : turned t1 t2).
      { exists (map (fun d => mkCommand d 0 (c_up c)) l'). splits; auto.
        - apply turns_pauses.
        - rewrite end_up_pauses. exact B3. }
      assert (T3 : turned t t3).
      { eapply turned_trans; [exact T1|]. eapply turned_trans; [exact T2|].
        apply turned_refl; [exact ns_acc|]. unfold up_of. now rewrite ns_end. }
      destruct (negb (snd (t_null hq X start t2) =? AQE_OK)).
      * cbn [fst snd]. exact T3.
      * eapply turned_trans; [exact T3|]. apply SEC. exact ns_good.
Qed.

Lemma front_turns garbage p ep m s evs : conf_ok s -> is_external (s_dirpin s) = true ->
  Forall fev_ok evs ->
  turns_at_pauses true (accepted_cmds (frun A EXT evs (finit A garbage p ep m s))).
Proof.
  intros Hc Hd He.
  set (P := fun x : stepper * hq => is_external (s_dirpin (fst x)) = true
     /\ turns_at_pauses true (acc_of (snd x)) /\ up_of (snd x) = end_up true (acc_of (snd x))).
  destruct (frun_ind A EXT HA P (fun _ => True)) with (l := evs) (x := finit A garbage p ep m s) as (_ & B & _).
  - intros e x Hg Hev _ (P1 & P2 & P3).
    destruct (fstep_base A EXT HA e x Hg Hev) as (_ & (B1 & _) & B2).
    split; [congruence|].
    assert (T : turned (snd x) (snd (fstep A EXT e x))).
    { destruct e; try (destruct B2 as (B2 & B3 & _); now apply turned_refl).
      destruct x as [s0 t0]. destruct Hg as [Hg1 Hg2]. cbn [fst snd] in *. cbn [fstep].
      pose proof (s_add_turned ext busy c start s0 (set_w ws t0) Hg1 Hev Hg2 P1) as T.
      destruct (s_add A hq X ext busy c start s0 (set_w ws t0)) as [[s' t'] code].
      exact T. }
    destruct T as (new & A1 & A2 & A3). rewrite A1. split.
    + apply turns_app. split; [exact P2|]. rewrite <- P3. exact A2.
    + rewrite A3, P3, end_up_app. reflexivity.
  - now apply finit_good.
  - unfold P. cbn. auto.
  - exact He.
  - apply Forall_forall. auto.
  - destruct B as (_ & B & _). exact B.
Qed.
End WithArch.

(** ** The two pauses of a turn *)
Section Pauses.
Variable A : arch.
Variable EXT : bool.
Hypothesis HA : In A all_archs.
Notation X := (hacc A EXT).

Lemma two_pauses ext busy c start s t : good A t -> cmd_ok c -> conf_ok s ->
  is_external (s_dirpin s) = true -> q_ignore (tqueue t) = false ->
  s_auto s && (s_cnt s =? 0) = false -> c_up c <> up_of t ->
  snd (s_add A hq X ext busy c start s t) = AQE_OK ->
  exists d, d = 500 * TICKS_PER_US A /\
  acc_of (snd (fst (s_add A hq X ext busy c start s t)))
  = acc_of t ++ [mkCommand d 0 (c_up c); mkCommand d 0 (c_up c); c].
Proof.
  intros Hg Hc Hs Hx Hi He Hu Hok. exists (500 * TICKS_PER_US A). split; [reflexivity|].
  assert (Ed : u16 (500 * TICKS_PER_US A) = 500 * TICKS_PER_US A)
    by (clear - HA; revert A HA; apply arch_cases; reflexivity).
  unfold s_add in *.
  destruct (add_first_cases A EXT ext busy c start s t) as [(H1 & H2 & H3)|[Hp H]].
  { destruct (Z.eqb_spec (snd (add_first hq X ext busy c start s t)) AQE_OK); [contradiction|].
    cbn [negb fst snd] in Hok. contradiction. }
  destruct H as [[He' H]|[He' H]]; [|unfold enabling in He'; congruence].
  rewrite H in *. cbn [fst snd] in *. replace (negb (AQE_OK =? AQE_OK)) with false in * by reflexivity.
  rewrite add_second_eq in *. destruct (no_room A c s t); [discriminate Hok|].
  cbv zeta in *. cbn [fst snd] in *.
  destruct (adds_ok A EXT HA start _ t Hg (pre_ok A c s (up_of t) Hc Hs)).
  destruct (ad_acc Hi) as (l1 & l2 & B1 & B2 & _ & _ & B3).
  rewrite (B3 Hok), app_nil_r in B1. rewrite B2, <- B1.
  unfold pre_pauses. rewrite Hx. destruct (Bool.eqb (up_of t) (c_up c)) eqn:E.
  - apply Bool.eqb_prop in E. congruence.
  - unfold ext_pause. rewrite Ed. reflexivity.
Qed.
End Pauses.
