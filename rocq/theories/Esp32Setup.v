(** * Esp32Setup: steppers of the ESP32 and the modules of the chip
    StepperQueue::init() (src/StepperISR_esp32.cpp:8-22) gives the first queues to the MCPWM/PCNT
    driver and the others to the RMT driver. The set-up of the drivers
    (src/StepperISR_idf4_esp32_mcpwm_pcnt.cpp:347-478, src/StepperISR_idf4_esp32_rmt.cpp:260-314 and
    the same for S3 and C3) switches a module on when its first channel is set up, and takes for
    granted that this has happened for the other channels.

    Simplifications: a module is on or off; the registers of a channel are not modelled. The driver
    of ESP-IDF 5 leaves the modules to the system; for it only the number of the channel matters. *)
From Coq Require Import ZArith Bool List Lia ZifyBool.
From Verif Require Import Base RampCalc RampGen Queue QueueHist Stepper StepperHist FrontHist Engine
  EngineFacts.
Import ListNotations.
Open Scope Z_scope.
Ltac Zify.zify_post_hook ::= idtac.

(** ** The chip *)
Inductive res := Timer (mcpwm timer : Z) | Pcnt (n : Z) | Rmt (n : nat).
Record chip := mkChip {
  h_mcpwm : Z -> bool;       (* module is on, its interrupt routine is registered *)
  h_service : bool;          (* interrupt service of PCNT is installed *)
  h_rmt : bool;              (* module is on, interrupt routine registered *)
  h_used : list res          (* what has been set up *)
}.
Definition chip0 : chip := mkChip (fun _ => false) false false [].
Definition timer_of (u : Z) (x : res) : bool := match x with Timer v _ => v =? u | _ => false end.
Definition is_pcnt (x : res) : bool := match x with Pcnt _ => true | _ => false end.
Definition is_rmt (x : res) : bool := match x with Rmt _ => true | _ => false end.
Definition same (x y : res) : bool :=
  match x, y with
  | Timer a b, Timer c d => (a =? c) && (b =? d)
  | Pcnt a, Pcnt b => a =? b
  | Rmt a, Rmt b => Nat.eqb a b
  | _, _ => false
  end.
Definition taken (x : res) (h : chip) : bool := existsb (same x) (h_used h).

(** channel2mapping: mcpwm_unit, timer, pcnt_unit: src/StepperISR_idf4_esp32_mcpwm_pcnt.cpp:26-89; S3 has the first four *)
Definition table : list (Z * Z * Z) := [(0,0,0); (0,1,1); (0,2,2); (1,0,3); (1,1,4); (1,2,5)].

(** init_mcpwm_pcnt(), lines 347-426. [None]: a channel without entry in the table, a resource that is
    in use already, a handler without the service, a timer of a module that is off, or a module
    reset (lines 392-407: all its interrupts off; 383-387: pending requests of PCNT cleared) while
    one of its channels is set up already *)
Definition init_mcpwm (tab : list (Z * Z * Z)) (ch : nat) (h : chip) : option chip :=
  match nth_error tab ch with
  | None => None
  | Some (u, t, p) =>
    if taken (Timer u t) h || taken (Pcnt p) h then None
    else if Nat.eqb ch 0 && existsb is_pcnt (h_used h) then None
    else if negb (h_service h || Nat.eqb ch 0) then None
    else if (t =? 0) && existsb (timer_of u) (h_used h) then None
    else if negb (h_mcpwm h u || (t =? 0)) then None
    else Some (mkChip (fun v => h_mcpwm h v || ((v =? u) && (t =? 0))) true (h_rmt h)
                 (Timer u t :: Pcnt p :: h_used h))
  end.
(** init_rmt(), lines 288-314; [n]: channels of the chip *)
Definition init_rmt (n ch : nat) (h : chip) : option chip :=
  if negb (Nat.ltb ch n) then None
  else if taken (Rmt ch) h then None
  else if Nat.eqb ch 0 && existsb is_rmt (h_used h) then None
  else if negb (h_rmt h || Nat.eqb ch 0) then None
  else Some (mkChip (h_mcpwm h) (h_service h) true (Rmt ch :: h_used h)).
(** StepperQueue::init(): src/StepperISR_esp32.cpp:8-22; [m]: QUEUES_MCPWM_PCNT, [r]: QUEUES_RMT *)
Definition init_queue (tab : list (Z * Z * Z)) (m r i : nat) (h : chip) : option chip :=
  if Nat.ltb i m then init_mcpwm tab i h else init_rmt r (i - m) h.
Fixpoint init_all (tab : list (Z * Z * Z)) (m r : nat) (l : list nat) (h : chip) : option chip :=
  match l with
  | [] => Some h
  | i :: l => match init_queue tab m r i h with None => None | Some h => init_all tab m r l h end
  end.

(** ** The order of the connections *)
(** src/fas_arch/common_esp32_idf4.h:10-64, common_esp32_idf5.h:10-100, common_esp32.h:57-61 *)
Definition mcpwm_queues (k : layout) : nat := match k with Select m _ => m | _ => 0 end.
Definition rmt_queues (k : layout) : nat := match k with Select _ r => r | Flexible r => r | Fixed _ => 0 end.
Definition esp_layouts : list layout := [Select 6 8; Select 4 4; Flexible 8; Flexible 4; Flexible 2].
Section WithArch.
Variable A : arch.
Variable k : layout.
(** the queues given away by stepperConnectToPin(), in this order *)
Fixpoint given (l : list cevent) (e : engine) : list nat :=
  match l with
  | [] => []
  | CConnect pin driver valid g garbage :: l =>
    let r := connect A k pin driver valid g garbage e in
    match snd r with Some i => i :: given l (fst r) | None => given l (fst r) end
  | ev :: l => given l (cstep A k ev e)
  end.
End WithArch.

(** a queue is given away after those before it that use the same driver *)
Definition in_order (m : nat) (done : list nat) (i : nat) : Prop :=
  ~ In i done /\ forall j, (j < i)%nat -> (i < m)%nat \/ (m <= j)%nat -> In j done.
Fixpoint ordered_from (m : nat) (done l : list nat) : Prop :=
  match l with [] => True | i :: l => in_order m done i /\ ordered_from m (i :: done) l end.

(** ** Facts: the order *)
Definition occupied (e : engine) (i : nat) : Prop := exists x, nth_error (e_slot e) i = Some (Some x).
Lemma first_free_first l : forall n from i, first_free from n l = Some i ->
  forall j, (from <= j < i)%nat -> nth_error l j <> Some None.
Proof.
  induction n as [|n IH]; intros from i H j Hj; cbn in H; [discriminate|].
  destruct (nth_error l from) as [[x|]|] eqn:E.
  - destruct (Nat.eq_dec j from) as [->|N]; [congruence|]. apply (IH _ _ H). lia.
  - injection H as <-. lia.
  - destruct (Nat.eq_dec j from) as [->|N]; [congruence|]. apply (IH _ _ H). lia.
Qed.
Lemma not_free e i : (i < length (e_slot e))%nat -> nth_error (e_slot e) i <> Some None -> occupied e i.
Proof.
  intros H N. destruct (nth_error (e_slot e) i) as [[x|]|] eqn:E; [now exists x|congruence|].
  apply nth_error_None in E. lia.
Qed.

Section Order.
Variable A : arch.
Variable k : layout.
Hypothesis HK : match k with Fixed _ => False | _ => True end.
Hypothesis HL : layout_ok k.
Lemma choose_order pin driver valid e i : cinv k e ->
  is_connected pin (e_slot e) = false -> choose k pin driver valid e = Some i ->
  (i < max_stepper k)%nat /\ nth_error (e_slot e) i = Some None
  /\ forall j, (j < i)%nat -> (i < mcpwm_queues k)%nat \/ (mcpwm_queues k <= j)%nat -> occupied e j.
Proof.
  intros I HC H. destruct (choose_some k pin driver valid e i HL I HC H) as [F _].
  pose proof (ci_len _ _ I) as EL. pose proof (free_lt _ _ F) as Hi.
  split; [lia|]. split; [exact F|]. intros j Hj G.
  apply not_free; [lia|]. unfold choose in H. destruct k as [ch|n|m r]; cbn [mcpwm_queues] in G.
  - destruct HK.
  - destruct valid; [|discriminate]. cbn in H. destruct (Z.geb_spec (e_cnt e) (Z.of_nat n)); [discriminate|].
    pose proof (connected_le (e_slot e)). pose proof (ci_cnt _ _ I). injection H as H.
    intros K. pose proof (proj1 (ci_kind _ _ I j ltac:(cbn [max_stepper] in EL; lia)) K) as K1.
    cbn beta in K1. lia.
  - destruct valid; [|discriminate]. cbn in H. unfold DRIVER_MCPWM_PCNT, DRIVER_RMT in *.
    destruct (Z.eqb_spec driver 0); [|destruct (Z.eqb_spec driver 1)];
      pose proof (first_free_some _ _ _ _ H) as [R _];
      apply (first_free_first _ _ _ _ H); lia.
Qed.
Lemma occupied_set cnt e i x j : (i < length (e_slot e))%nat ->
  occupied (mkEngine (map (adjust A cnt) (set_nth i (Some x) (e_slot e))) cnt) j <-> j = i \/ occupied e j.
Proof.
  intros Hi. unfold occupied. cbn [e_slot]. rewrite nth_error_map, set_nth_cases by assumption.
  destruct (Nat.eqb_spec i j) as [->|N].
  - split; [auto|]. intros _. destruct x as [s q]. cbn. eauto.
  - destruct (nth_error (e_slot e) j) as [[[s q]|]|]; cbn; split.
    + intros _. right. eauto.
    + intros _. eauto.
    + intros [y E]; discriminate.
    + intros [E|[y E]]; [congruence|discriminate].
    + intros [y E]; discriminate.
    + intros [E|[y E]]; [congruence|discriminate].
Qed.
Lemma given_ordered : forall l e done, cinv k e -> (forall j, In j done <-> occupied e j) ->
  ordered_from (mcpwm_queues k) done (given A k l e)
  /\ Forall (fun i => (i < max_stepper k)%nat) (given A k l e).
Proof.
  induction l as [|ev l IH]; intros e done I HD; cbn [given]; [now split|].
  assert (I' : cinv k (cstep A k ev e)) by (apply (crun_inv A k [ev] e HL I)).
  destruct ev as [pin driver valid g garbage|i x].
  - cbn [cstep] in I'. unfold connect in *.
    destruct (is_connected pin (e_slot e)) eqn:HC; [cbn [fst snd] in *; auto|].
    destruct (choose k pin driver valid e) as [i|] eqn:E; [|cbn [fst snd] in *; auto].
    cbn [fst snd] in *.
    destruct (choose_order pin driver valid e i I HC E) as (H1 & H2 & H3).
    assert (Hi : (i < length (e_slot e))%nat) by (rewrite (ci_len _ _ I); exact H1).
    destruct (IH _ (i :: done) I') as [O1 O2].
    { intros j. rewrite (occupied_set _ e i _ j Hi). cbn [In]. rewrite HD. intuition congruence. }
    split; [|constructor; assumption]. cbn [ordered_from]. split; [|exact O1]. split.
    + rewrite HD. intros [x Hx]. congruence.
    + intros j Hj G. apply HD. auto.
  - apply IH; [exact I'|]. intros j. rewrite HD. cbn [cstep].
    destruct (nth_error (e_slot e) i) as [[[s q]|]|] eqn:E; try tauto.
    destruct (s_steppin s =? s_steppin (fst x)); [|tauto].
    unfold occupied. cbn [e_slot]. rewrite set_nth_cases by (apply nth_error_Some; congruence).
    destruct (Nat.eqb_spec i j) as [->|N]; [|tauto]. rewrite E. split; intros _; eauto.
Qed.
End Order.

(** ** Facts: the chip *)
Definition needs (m i : nat) (x : res) : Prop :=
  if Nat.ltb i m then
    match nth_error table i with Some (u, t, p) => x = Timer u t \/ x = Pcnt p | None => False end
  else x = Rmt (i - m).
(** what two queues need is different *)
Lemma needs_distinct m i j x : (m <= 6)%nat -> i <> j -> needs m i x -> ~ needs m j x.
Proof.
  intros HM N H1 H2. unfold needs in *.
  destruct (Nat.ltb_spec i m), (Nat.ltb_spec j m).
  - assert (i < 6)%nat by lia. assert (j < 6)%nat by lia.
    do 6 (destruct i as [|i]; [do 6 (destruct j as [|j]; [cbn in *; intuition congruence|]); lia|]). lia.
  - assert (i < 6)%nat by lia. do 6 (destruct i as [|i]; [cbn in *; intuition congruence|]). lia.
  - assert (j < 6)%nat by lia. do 6 (destruct j as [|j]; [cbn in *; intuition congruence|]). lia.
  - assert (i - m = j - m)%nat by congruence. lia.
Qed.
Lemma same_true x y : same x y = true -> x = y.
Proof. destruct x, y; cbn; try discriminate; intros H; f_equal; lia. Qed.
Lemma taken_true x h : taken x h = true -> In x (h_used h).
Proof. unfold taken. rewrite existsb_exists. intros (y & H & E). apply same_true in E. now subst. Qed.

Record hinv (m : nat) (done : list nat) (h : chip) : Prop := mkHinv {
  hi_used : forall x, In x (h_used h) -> exists i, In i done /\ needs m i x;
  hi_closed : forall i j, In i done -> (j < i)%nat -> (i < m)%nat \/ (m <= j)%nat -> In j done;
  hi_service : In 0%nat done -> (0 < m)%nat -> h_service h = true;
  hi_mcpwm : forall i u p, In i done -> (i < m)%nat -> nth_error table i = Some (u, 0, p) -> h_mcpwm h u = true;
  hi_rmt : In m done -> h_rmt h = true
}.
Lemma existsb_false {T} (f : T -> bool) l : (forall x, In x l -> f x = true -> False) -> existsb f l = false.
Proof.
  intros H. destruct (existsb f l) eqn:E; [|reflexivity]. apply existsb_exists in E as (x & H1 & H2).
  destruct (H x H1 H2).
Qed.
(** the table, as a sum of cases *)
Lemma table_at i u t p : nth_error table i = Some (u, t, p) ->
  (i < 6)%nat /\ u = Z.of_nat (i / 3) /\ t = Z.of_nat (i mod 3) /\ p = Z.of_nat i.
Proof.
  intros H. assert (i < 6)%nat by (change 6%nat with (length table); apply nth_error_Some; congruence).
  do 6 (destruct i as [|i]; [cbn in H; injection H as <- <- <-; repeat split; lia || reflexivity|]). lia.
Qed.
Lemma table_get i : (i < 6)%nat ->
  nth_error table i = Some (Z.of_nat (i / 3), Z.of_nat (i mod 3), Z.of_nat i).
Proof. intros H. do 6 (destruct i as [|i]; [reflexivity|]). lia. Qed.
Lemma firstn_at m i : (i < m)%nat -> nth_error (firstn m table) i = nth_error table i.
Proof.
  generalize table. revert i. induction m as [|m IH]; intros i l H; [lia|].
  destruct l as [|x l]; [destruct i; reflexivity|]. destruct i as [|i]; [reflexivity|]. cbn. apply IH. lia.
Qed.

Lemma init_step m r done h i : (m <= 6)%nat -> hinv m done h -> in_order m done i -> (i < m + r)%nat ->
  exists h', init_queue (firstn m table) m r i h = Some h' /\ hinv m (i :: done) h'
    /\ forall x, In x (h_used h') <-> In x (h_used h) \/ needs m i x.
Proof.
  intros HM I [O1 O2] Hi. destruct I as [U C SV M R].
  assert (FR : forall x, needs m i x -> taken x h = false).
  { intros x Hx. destruct (taken x h) eqn:E; [|reflexivity]. apply taken_true in E.
    destruct (U _ E) as (j & Hj & Nj). exfalso. assert (i <> j) by congruence.
    exact (needs_distinct m i j x HM H Hx Nj). }
  assert (CL : forall a b, In a (i :: done) -> (b < a)%nat -> (a < m)%nat \/ (m <= b)%nat -> In b (i :: done)).
  { intros a b [<-|Ha] Hb G; [right; auto|right; eapply C; eauto]. }
  unfold init_queue. destruct (Nat.ltb_spec i m) as [L|L].
  - unfold init_mcpwm. rewrite firstn_at by assumption. rewrite table_get by lia.
    set (u := Z.of_nat (i / 3)). set (t := Z.of_nat (i mod 3)).
    assert (NT : needs m i (Timer u t)).
    { unfold needs. destruct (Nat.ltb_spec i m); [|lia]. rewrite table_get by lia. now left. }
    assert (NP : needs m i (Pcnt (Z.of_nat i))).
    { unfold needs. destruct (Nat.ltb_spec i m); [|lia]. rewrite table_get by lia. now right. }
    rewrite (FR _ NT), (FR _ NP). cbn [orb].
    assert (E1 : Nat.eqb i 0 && existsb is_pcnt (h_used h) = false).
    { destruct (Nat.eqb_spec i 0) as [->|]; [|reflexivity]. cbn [andb]. apply existsb_false.
      intros x Hx Ex. destruct (U _ Hx) as (j & Hj & Nj). unfold needs in Nj.
      destruct (Nat.ltb_spec j m); [|subst x; discriminate].
      destruct j as [|j]; [tauto|]. apply O1. apply (C (S j)); auto. lia. }
    rewrite E1.
    assert (E2 : h_service h || Nat.eqb i 0 = true).
    { destruct (Nat.eqb_spec i 0) as [|N]; [apply orb_true_r|]. rewrite SV; [reflexivity| |lia].
      apply O2; lia. }
    rewrite E2. cbn [negb].
    assert (E3 : (t =? 0) && existsb (timer_of u) (h_used h) = false).
    { destruct (Z.eqb_spec t 0) as [T0|]; [|reflexivity]. cbn [andb]. apply existsb_false.
      intros x Hx Ex. destruct (U _ Hx) as (j & Hj & Nj). unfold needs in Nj.
      destruct (Nat.ltb_spec j m) as [Lj|]; [|subst x; discriminate].
      rewrite table_get in Nj by lia. destruct Nj as [->| ->]; [|discriminate]. cbn [timer_of] in Ex.
      assert (EU : (j / 3 = i / 3)%nat) by (unfold u in Ex; lia).
      assert (ET : (i mod 3 = 0)%nat) by (unfold t in T0; lia).
      pose proof (Nat.div_mod_eq i 3). pose proof (Nat.div_mod_eq j 3). pose proof (Nat.mod_upper_bound j 3).
      apply O1. destruct (Nat.eq_dec i j) as [->|]; [assumption|]. apply (C j); auto. lia. }
    rewrite E3.
    assert (E4 : h_mcpwm h u || (t =? 0) = true).
    { destruct (Z.eqb_spec t 0) as [|N]; [apply orb_true_r|]. apply orb_true_iff. left.
      pose proof (Nat.div_mod_eq i 3). pose proof (Nat.mod_upper_bound i 3).
      assert (H3 : (3 * (i / 3) < i)%nat) by (unfold t in N; lia).
      apply (M (3 * (i / 3))%nat u (Z.of_nat (3 * (i / 3)))).
      - apply O2; lia.
      - lia.
      - rewrite table_get by lia. unfold u.
        assert (Q1 : (3 * (i / 3) / 3 = i / 3)%nat) by (rewrite Nat.mul_comm; apply Nat.div_mul; lia).
        assert (Q2 : ((3 * (i / 3)) mod 3 = 0)%nat) by (rewrite Nat.mul_comm; apply Nat.mod_mul; lia).
        rewrite Q1, Q2. reflexivity. }
    rewrite E4. cbn [negb]. eexists. split; [reflexivity|]. cbn [h_used]. split.
    + constructor; cbn [h_used h_service h_mcpwm h_rmt]; auto.
      * intros x [<-|[<-|Hx]]; [exists i; cbn; auto|exists i; cbn; auto|].
        destruct (U _ Hx) as (j & Hj & Nj). exists j. cbn. auto.
      * intros j v p [<-|Hj] Lj Ej.
        -- rewrite table_get in Ej by lia. fold u t in Ej.
           assert (E5 : u = v) by congruence. assert (E6 : t = 0) by congruence.
           rewrite <- E5, Z.eqb_refl, E6. apply orb_true_r.
        -- rewrite (M j v p Hj Lj Ej). reflexivity.
      * intros [->|Hm]; [lia|auto].
    + intros x. cbn [In]. unfold needs. destruct (Nat.ltb_spec i m); [|lia]. rewrite table_get by lia.
      fold u t. intuition.
  - unfold init_rmt. destruct (Nat.ltb_spec (i - m) r); [|lia]. cbn [negb].
    assert (NR : needs m i (Rmt (i - m))).
    { unfold needs. destruct (Nat.ltb_spec i m); [lia|reflexivity]. }
    rewrite (FR _ NR).
    assert (E1 : Nat.eqb (i - m) 0 && existsb is_rmt (h_used h) = false).
    { destruct (Nat.eqb_spec (i - m) 0) as [E0|]; [|reflexivity]. cbn [andb]. apply existsb_false.
      intros x Hx Ex. destruct (U _ Hx) as (j & Hj & Nj). unfold needs in Nj.
      destruct (Nat.ltb_spec j m) as [Lj|Lj].
      - rewrite table_get in Nj by lia. destruct Nj as [->| ->]; discriminate.
      - apply O1. assert (i = m) by lia. destruct (Nat.eq_dec i j) as [->|]; [assumption|].
        apply (C j); auto; lia. }
    rewrite E1.
    assert (E2 : h_rmt h || Nat.eqb (i - m) 0 = true).
    { destruct (Nat.eqb_spec (i - m) 0) as [|N]; [apply orb_true_r|]. rewrite R; [reflexivity|].
      apply O2; lia. }
    rewrite E2. cbn [negb]. eexists. split; [reflexivity|]. cbn [h_used]. split.
    + constructor; cbn [h_used h_service h_mcpwm h_rmt]; auto.
      * intros x [<-|Hx]; [exists i; cbn; auto|].
        destruct (U _ Hx) as (j & Hj & Nj). exists j. cbn. auto.
      * intros [->|H0] H1; [lia|auto].
      * intros j v p [<-|Hj] Lj Ej; [lia|eauto].
    + intros x. cbn [In]. unfold needs. destruct (Nat.ltb_spec i m); [lia|]. intuition.
Qed.
Lemma init_all_ok m r : (m <= 6)%nat -> forall l done h, hinv m done h -> ordered_from m done l ->
  Forall (fun i => (i < m + r)%nat) l ->
  exists h', init_all (firstn m table) m r l h = Some h'
    /\ forall x, In x (h_used h') <-> In x (h_used h) \/ exists i, In i l /\ needs m i x.
Proof.
  intros HM. induction l as [|i l IH]; intros done h I O F; cbn [init_all].
  { exists h. split; [reflexivity|]. intros x. split; [auto|]. intros [H|(i & [] & _)]. exact H. }
  cbn [ordered_from] in O. destruct O as [O1 O2]. inversion F as [|? ? F1 F2]; subst.
  destruct (init_step m r done h i HM I O1 F1) as (h1 & E & I1 & X1). rewrite E.
  destruct (IH (i :: done) h1 I1 O2 F2) as (h2 & E2 & X2). exists h2. split; [exact E2|].
  intros x. rewrite X2, X1. split.
  - intros [[H|H]|(j & H1 & H2)]; [auto| |].
    + right. exists i. cbn. auto.
    + right. exists j. cbn. auto.
  - intros [H|(j & [<-|H1] & H2)]; [auto|auto|]. right. eauto.
Qed.
Lemma hinv0 m : hinv m [] chip0.
Proof. constructor; cbn; try tauto. Qed.

(** every connection history *)
Lemma setup_ok A k l : In k esp_layouts ->
  let is := given A k l (e_init k) in
  exists h, init_all (firstn (mcpwm_queues k) table) (mcpwm_queues k) (rmt_queues k) is chip0 = Some h
    /\ forall x, In x (h_used h) <-> exists i, In i is /\ needs (mcpwm_queues k) i x.
Proof.
  intros HK is.
  assert (F : (mcpwm_queues k <= 6)%nat /\ max_stepper k = (mcpwm_queues k + rmt_queues k)%nat
    /\ layout_ok k /\ match k with Fixed _ => False | _ => True end).
  { cbn in HK. unfold layout_ok. intuition subst; cbn; auto; lia. }
  destruct F as (F1 & F2 & F3 & F4).
  destruct (given_ordered A k F4 F3 l (e_init k) [] (e_init_inv k)) as [O1 O2].
  { intros j. split; [intros []|]. intros [x Hx]. unfold e_init in Hx. cbn [e_slot] in Hx.
    apply nth_error_In in Hx. apply repeat_spec in Hx. discriminate. }
  fold is in O1, O2. rewrite F2 in O2.
  destruct (init_all_ok _ _ F1 is [] chip0 (hinv0 _) O1 O2) as (h & E & X).
  exists h. split; [exact E|]. intros x. rewrite X. cbn [chip0 h_used In]. tauto.
Qed.
