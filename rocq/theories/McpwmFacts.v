(** * McpwmFacts: the pulses of the MCPWM/PCNT driver, interrupts in time *)
From Coq Require Import ZArith Bool List Lia.
From Verif Require Import Base Queue Mcpwm.
Import ListNotations.
Open Scope Z_scope.
Ltac Zify.zify_post_hook ::= idtac.
Ltac splits := repeat match goal with |- _ /\ _ => split end.

(** ** What the commands ask for *)
Section Spec.
Variable HCU : bool.
Notation level_of := (level_of HCU).
Definition ncyc (c : command) : nat := if c_steps c =? 0 then 1%nat else Z.to_nat (c_steps c).
Definition cyc (c : command) : cycle := mkCycle (negb (c_steps c =? 0)) (level_of c) (c_ticks c).
(** a pause is one cycle without pulse, a step one cycle with a pulse *)
Definition cycles (c : command) : list cycle := repeat (cyc c) (ncyc c).
Definition stream (l : list command) : list cycle := concat (map cycles l).
(** Steps after one or more pauses: as many as in the last command with steps before (1 if there is
    none). State: the last command was a pause; number of steps of the last command with steps. *)
Definition after1 (st : bool * Z) (c : command) : bool * Z :=
  if c_steps c =? 0 then (true, snd st) else (false, c_steps c).
Fixpoint steady (st : bool * Z) (l : list command) : Prop :=
  match l with
  | [] => True
  | c :: t => (fst st = true -> c_steps c <> 0 -> c_steps c = snd st) /\ steady (after1 st c) t
  end.
Lemma steady_app l l' : forall st, steady st (l ++ l') <-> steady st l /\ steady (fold_left after1 l st) l'.
Proof.
  induction l as [|c l IH]; intros st; cbn [app steady fold_left]; [tauto|]. rewrite IH. tauto.
Qed.
Lemma stream_app l l' : stream (l ++ l') = stream l ++ stream l'.
Proof. unfold stream. now rewrite map_app, concat_app. Qed.
Lemma stream_one c : stream [c] = cycles c.
Proof. unfold stream. cbn. apply app_nil_r. Qed.
Definition cmd_fits (c : command) : Prop := 0 <= c_steps c <= 255.
Definition mev_ok (e : mevent) : Prop := match e with MBegin c _ => cmd_fits c | MStop => False | _ => True end.

(** ** apply_command() when no TEA comes in between *)
Definition calm (h : hw) : Prop := t_on (k_t h) && negb (t_busy (k_t h)) = false.
Lemma tea_calm h : calm h -> tea h = h.
Proof. unfold calm, tea. now intros ->. Qed.
Definition apply0 (e : me) (h : hw) : hw :=
  let c := me_c e in let p := k_p h in let g := k_g h in
  let t := set_period (c_ticks c) (k_t h) in
  let d := xorb (k_dir h) (me_tog e) in
  if c_steps c =? 0 then mkHw t (mkGen false false true) p d (k_log h)
  else if p_lim p =? c_steps c then mkHw t (mkGen true (g_flag g) false) p d (k_log h)
  else let v := u16 (c_steps c - p_cnt p) in
       mkHw t (mkGen true false false) (mkPcnt 0 v v (p_ev p)) d (k_log h).
Lemma at_calm k i h : calm h -> tea_at k i h = h.
Proof. intros H. unfold tea_at. destruct (Nat.eqb k i); [now apply tea_calm|reflexivity]. Qed.
Lemma apply_calm k e h : calm h -> apply k e h = apply0 e h.
Proof.
  intros H.
  assert (E1 : apply_first k e h = on_t (set_period (c_ticks (me_c e))) (on_dir (xorb (k_dir h) (me_tog e)) h)).
  { unfold apply_first. rewrite (at_calm k 0) by exact H. now rewrite at_calm. }
  unfold apply. rewrite E1. clear E1. cbv zeta. rewrite at_calm by exact H.
  destruct h as [t g p d l]. unfold on_t, on_dir. cbn [k_t k_g k_p k_dir k_log].
  unfold apply0. cbn [k_t k_g k_p k_dir k_log].
  set (d' := xorb d (me_tog e)). set (t' := set_period (c_ticks (me_c e)) t).
  assert (C : forall g p, calm (mkHw t' g p d' l)) by (intros; exact H).
  destruct (c_steps (me_c e) =? 0).
  - unfold apply_pause. rewrite (at_calm k 3) by apply C. rewrite (at_calm k 4) by apply C. reflexivity.
  - unfold adjust_limit. cbn [k_t k_g k_p k_dir k_log]. destruct (p_lim p =? c_steps (me_c e)).
    + unfold apply_steps. cbn [fst snd disable_irq]. rewrite (at_calm k 9) by apply C. rewrite (at_calm k 10) by apply C. reflexivity.
    + rewrite (at_calm k 3) by apply C. rewrite (at_calm k 4) by apply C.
      unfold second_read, with_val2. unfold on_g. cbn [k_t k_g k_p k_dir k_log]. rewrite Z.eqb_refl.
      unfold take_over. rewrite (at_calm k 5) by apply C. unfold on_p. cbn [k_t k_g k_p k_dir k_log].
      rewrite (at_calm k 6) by apply C. cbn [k_t k_g k_p k_dir k_log]. rewrite (at_calm k 7) by apply C.
      unfold check_flag. cbn [k_t k_g k_p k_dir k_log clr_flag g_flag andb].
      unfold apply_steps. cbn [fst snd disable_irq]. rewrite (at_calm k 9) by apply C. rewrite (at_calm k 10) by apply C. reflexivity.
Qed.

(** ** The invariant *)
(** The commands counted begin with a cleared driver or after a forced stop: [ACC0], [BASE]: the
    commands and cycles before; [ST0]: state of [steady]; [DIRTY]: after a forced stop *)
Variable ACC0 : list command.
Variable BASE : list cycle.
Variable ST0 : bool * Z.
Variable DIRTY : bool.
Definition after (l : list command) : bool * Z := fold_left after1 l ST0.
Lemma after_app l c : after (l ++ [c]) = after1 (after l) c.
Proof. unfold after. now rewrite fold_left_app. Qed.
(** the direction pin follows the commands *)
Fixpoint aim (en : bool) (d : bool) (q : list me) : Prop :=
  match q with
  | [] => d = en
  | e :: t => xorb d (me_tog e) = level_of (me_c e) /\ aim en (level_of (me_c e)) t
  end.
Lemma aim_app en q : forall d e, aim en d q -> xorb en (me_tog e) = level_of (me_c e) ->
  aim (level_of (me_c e)) d (q ++ [e]).
Proof.
  induction q as [|a q IH]; intros d e; cbn [aim app].
  - intros -> H. auto.
  - intros [H1 H2] H. split; [exact H1|]. now apply IH.
Qed.
(** the limit register while a command with [n] steps is worked on *)
Definition coming (prep : bool) (n : Z) (t : list me) : Z :=
  if prep then match t with e :: _ => if c_steps (me_c e) =? 0 then n else c_steps (me_c e) | [] => n end else n.

Definition idle (done : list command) (s : mst) : Prop :=
  let h := m_h s in
  m_run s = false /\ t_cont (k_t h) = false /\ t_busy (k_t h) = t_on (k_t h)
  /\ (t_on (k_t h) = true -> m_q s = []) /\ g_ena (k_g h) = false
  /\ (DIRTY = false \/ done <> [] -> p_cnt (k_p h) = 0)
  /\ p_lim (k_p h) = snd (after done) /\ p_ev (k_p h) = false
  /\ k_log h = BASE ++ stream done
  /\ (DIRTY = false \/ done <> [] \/ m_q s <> [] \/ m_pc s <> None -> aim (m_end s) (k_dir h) (m_q s)).
(** command [e] with [k] cycles to go *)
Definition working (done : list command) (e : me) (q : list me) (k : nat) (s : mst) : Prop :=
  let h := m_h s in let c := me_c e in
  m_q s = e :: q /\ m_run s = true /\ t_on (k_t h) = true /\ t_cont (k_t h) = true
  /\ (m_prep s = true -> q <> [])
  /\ k_dir h = level_of c /\ aim (m_end s) (level_of c) q
  /\ k_log h ++ repeat (cyc c) k = BASE ++ stream (done ++ [c])
  /\ t_per (k_t h) = c_ticks c /\ (t_busy (k_t h) = false -> t_act (k_t h) = c_ticks c)
  /\ (k = O -> t_busy (k_t h) = true)
  /\ if c_steps c =? 0 then
       (k <= 1)%nat /\ g_high (k_g h) = false /\ g_ena (k_g h) = true
       /\ (g_flag (k_g h) = true <-> k = O)
       /\ k_p h = mkPcnt 0 (snd (after done)) (snd (after done)) false
     else
       (Z.of_nat k <= c_steps c) /\ g_high (k_g h) = true /\ g_ena (k_g h) = false
       /\ k_p h = if (Nat.eqb k 0)
                  then mkPcnt 0 (coming (m_prep s) (c_steps c) q) (coming (m_prep s) (c_steps c) q) true
                  else mkPcnt (c_steps c - Z.of_nat k) (coming (m_prep s) (c_steps c) q) (c_steps c) false.
Definition inv (s : mst) : Prop :=
  (forall e st, m_pc s = Some (e, st) -> cmd_fits (me_c e) /\ xorb (m_end s) (me_tog e) = level_of (me_c e))
  /\ Forall cmd_fits (m_acc s)
  /\ exists done, m_acc s = ACC0 ++ done ++ map me_c (m_q s)
     /\ (idle done s \/ exists e q k, working done e q k s).

Definition good_acc (s : mst) : Prop := exists l, m_acc s = ACC0 ++ l /\ steady ST0 l.
Lemma good_of s l : m_acc s = ACC0 ++ l -> good_acc s -> steady ST0 l.
Proof. intros E (l' & E' & H). rewrite E in E'. apply app_inv_head in E'. now rewrite E'. Qed.
(** what has been emitted so far is right, and all if idle *)
Lemma inv_log s : inv s -> exists l rest, m_acc s = ACC0 ++ l /\ k_log (m_h s) ++ rest = BASE ++ stream l
  /\ (m_run s = false -> rest = stream (map me_c (m_q s))).
Proof.
  intros (_ & _ & done & Ea & [H|(e & q & k & H)]).
  - destruct H as (R & _ & _ & _ & _ & _ & _ & _ & H & _).
    exists (done ++ map me_c (m_q s)), (stream (map me_c (m_q s))). split; [exact Ea|].
    split; [|auto]. rewrite H, stream_app. now rewrite app_assoc.
  - destruct H as (Q & R & _ & _ & _ & _ & _ & H & _).
    exists (done ++ map me_c (m_q s)), (repeat (cyc (me_c e)) k ++ stream (map me_c q)). split; [exact Ea|].
    split; [|rewrite R; discriminate]. rewrite app_assoc, H, Q. cbn [map].
    replace (done ++ me_c e :: map me_c q) with ((done ++ [me_c e]) ++ map me_c q) by (now rewrite <- app_assoc).
    rewrite (stream_app (done ++ [me_c e])). now rewrite app_assoc.
Qed.

(** ** Work of the driver *)
Lemma repeat_S_cyc c k : repeat (cyc c) (S k) = [cyc c] ++ repeat (cyc c) k.
Proof. reflexivity. Qed.

(** what apply_command() leaves behind *)
Lemma apply0_begun e h s0 : cmd_fits (me_c e) -> p_cnt (k_p h) = 0 -> p_top (k_p h) = p_lim (k_p h) ->
  xorb (k_dir h) (me_tog e) = level_of (me_c e) -> p_lim (k_p h) = s0 ->
  exists g p, apply0 e h = mkHw (set_period (c_ticks (me_c e)) (k_t h)) g p (level_of (me_c e)) (k_log h)
    /\ if c_steps (me_c e) =? 0 then g = mkGen false false true /\ p = mkPcnt 0 s0 s0 (p_ev (k_p h))
       else g_high g = true /\ g_ena g = false /\ p = mkPcnt 0 (c_steps (me_c e)) (c_steps (me_c e)) (p_ev (k_p h)).
Proof.
  intros F C T D L. unfold apply0. rewrite D. destruct (k_p h) as [cn li to ev]. cbn [p_cnt p_lim p_top p_ev] in *.
  subst cn to li. unfold cmd_fits in F.
  destruct (Z.eqb_spec (c_steps (me_c e)) 0) as [E|E]; [eexists; eexists; split; [reflexivity|auto]|].
  destruct (Z.eqb_spec s0 (c_steps (me_c e))) as [E2|E2].
  - eexists; eexists. split; [reflexivity|]. cbn. rewrite E2. auto.
  - eexists; eexists. split; [reflexivity|]. cbn. rewrite u16_id by lia. rewrite Z.sub_0_r. auto.
Qed.

(** the next command begins *)
Lemma begin_working done e q h s0 run0 prep pc acc en : cmd_fits (me_c e) -> Forall cmd_fits (map me_c q) ->
  s0 = snd (after done) -> (forall e2 q', q = e2 :: q' -> c_steps (me_c e) = 0 -> c_steps (me_c e2) <> 0 -> c_steps (me_c e2) = s0) ->
  p_cnt (k_p h) = 0 -> p_top (k_p h) = p_lim (k_p h) -> p_ev (k_p h) = false ->
  (c_steps (me_c e) = 0 -> p_lim (k_p h) = s0) ->
  k_log h = BASE ++ stream done -> calm h -> (prep = true -> q <> []) -> run0 = true ->
  xorb (k_dir h) (me_tog e) = level_of (me_c e) -> aim en (level_of (me_c e)) q ->
  let h1 := apply0 e h in
  let h2 := if prep then match q with e2 :: _ => prepare e2 h1 | [] => h1 end else h1 in
  forall h3, k_g h3 = k_g h2 -> k_p h3 = k_p h2 -> k_dir h3 = k_dir h2 -> k_log h3 = k_log h2 ->
    t_on (k_t h3) = true -> t_cont (k_t h3) = true -> t_per (k_t h3) = t_per (k_t h2) ->
    t_act (k_t h3) = t_act (k_t h2) -> t_busy (k_t h3) = t_busy (k_t h) ->
  working done e q (ncyc (me_c e)) (mkM h3 (e :: q) run0 prep en pc acc).
Proof.
  intros F Fq Hs0 Hst C T V L Hlog Hc Hp -> D Ha h1 h2 h3 G3 P3 D3 L3 O3 C3 R3 A3 B3.
  destruct (apply0_begun e h (p_lim (k_p h)) F C T D eq_refl) as (g & p & E & GP).
  assert (T2 : k_t h2 = k_t h1 /\ k_g h2 = k_g h1 /\ k_dir h2 = k_dir h1 /\ k_log h2 = k_log h1).
  { unfold h2. destruct prep; [|auto]. destruct q as [|e2 q']; [auto|]. unfold prepare.
    destruct (c_steps (me_c e2) >? 0); auto. }
  destruct T2 as (T2 & G2 & D2 & L2).
  assert (E1 : h1 = mkHw (set_period (c_ticks (me_c e)) (k_t h)) g p (level_of (me_c e)) (k_log h)) by exact E.
  assert (P2 : k_p h2 = mkPcnt (p_cnt p) (if prep then match q with e2 :: _ => if c_steps (me_c e2) >? 0 then c_steps (me_c e2) else p_lim p | [] => p_lim p end else p_lim p) (p_top p) (p_ev p)).
  { unfold h2. rewrite E1. destruct prep; [|destruct p; reflexivity]. destruct q as [|e2 q']; [destruct p; reflexivity|].
    unfold prepare. destruct (c_steps (me_c e2) >? 0); [reflexivity|destruct p; reflexivity]. }
  clearbody h2. clear E. rewrite E1 in T2, G2, D2, L2. cbn [k_t k_g k_dir k_log] in *. clear E1 h1.
  rewrite T2 in R3, A3. cbn [set_period t_per t_act] in R3, A3.
  unfold working. cbn [m_h m_q m_run m_prep m_end]. rewrite G3, G2.
  split; [reflexivity|]. split; [reflexivity|]. split; [exact O3|]. split; [exact C3|]. split; [exact Hp|].
  split; [now rewrite D3, D2|]. split; [exact Ha|].
  split. { rewrite L3, L2, Hlog, stream_app, stream_one. now rewrite <- app_assoc. }
  split; [exact R3|]. split. { intros Hb. rewrite B3 in Hb. rewrite A3, Hb. reflexivity. }
  unfold ncyc. unfold cmd_fits in F.
  split. { intros Hk. exfalso. destruct (Z.eqb_spec (c_steps (me_c e)) 0); [discriminate|lia]. }
  destruct (Z.eqb_spec (c_steps (me_c e)) 0) as [E|E].
  - destruct GP as [-> ->]. cbn [g_high g_ena g_flag]. split; [lia|]. split; [reflexivity|]. split; [reflexivity|].
    split; [split; discriminate|]. rewrite P3, P2. cbn [p_cnt p_lim p_top p_ev]. rewrite V, <- Hs0, (L E).
    destruct prep; [|reflexivity]. destruct q as [|e2 q']; [reflexivity|].
    destruct (Z.gtb_spec (c_steps (me_c e2)) 0) as [E2|E2]; [|reflexivity].
    rewrite (Hst e2 q' eq_refl E) by lia. reflexivity.
  - destruct GP as (GP1 & GP2 & ->). rewrite Z2Nat.id by lia. split; [lia|]. split; [exact GP1|]. split; [exact GP2|].
    destruct (Nat.eqb_spec (Z.to_nat (c_steps (me_c e))) 0) as [E2|E2]; [lia|].
    rewrite P3, P2. cbn [p_cnt p_lim p_top p_ev]. rewrite V, Z.sub_diag. f_equal. unfold coming.
    destruct prep; [|reflexivity]. destruct q as [|e2 q']; [reflexivity|].
    destruct (Z.eqb_spec (c_steps (me_c e2)) 0) as [E3|E3].
    + rewrite E3. reflexivity.
    + inversion Fq as [|? ? F2 _]. unfold cmd_fits in F2.
      destruct (Z.gtb_spec (c_steps (me_c e2)) 0) as [E4|E4]; [reflexivity|lia].
Qed.

Lemma fits_map s done e q : Forall cmd_fits (m_acc s) -> m_acc s = ACC0 ++ done ++ map me_c (m_q s) -> m_q s = e :: q ->
  cmd_fits (me_c e) /\ Forall cmd_fits (map me_c q).
Proof.
  intros F Ea Q. rewrite Ea, Q in F. apply Forall_app in F. destruct F as [_ F].
  apply Forall_app in F. destruct F as [_ F]. cbn in F. now inversion F.
Qed.
(** start of the queue *)
Lemma start_inv s : inv s -> m_run s = false -> t_busy (k_t (m_h s)) = false -> good_acc s ->
  inv (start s).
Proof.
  intros (I1 & I2 & done & Ea & [H|(e & q & k & H)]) R B S; [|destruct H as (_ & H & _); congruence].
  unfold start. destruct (m_q s) as [|e q] eqn:Q.
  { split; [exact I1|]. split; [exact I2|]. exists done. rewrite Q. split; [now rewrite Ea|now left]. }
  destruct H as (_ & H1 & H2 & H3 & H4 & H5 & H6 & H7 & H8 & H9). rewrite Q in *.
  split; [exact I1|]. split; [exact I2|]. cbn [m_acc m_q m_pc m_end]. exists done.
  split; [exact Ea|]. right. exists e, q, (ncyc (me_c e)).
  assert (F : cmd_fits (me_c e) /\ Forall cmd_fits (map me_c q)).
  { apply (fits_map s done); [exact I2|now rewrite Q|exact Q]. }
  apply (good_of s _ Ea) in S. apply steady_app in S. destruct S as [_ S]. cbn [map steady] in S. destruct S as [_ S].
  fold (after done) in S. specialize (H9 ltac:(right; right; left; discriminate)). cbn [aim] in H9.
  assert (C : calm (on_p clear (m_h s))).
  { unfold calm. cbn. rewrite H2 in B. rewrite B. reflexivity. }
  unfold start_hw. rewrite (apply_calm 99 e _ C).
  apply (begin_working done e q (on_p clear (m_h s)) (snd (after done)) true false); cbn [k_p k_t k_log k_dir on_p clear p_cnt p_lim p_top p_ev];
    try reflexivity; try tauto; try discriminate.
  - intros e2 q' -> E E2. cbn [map steady] in S. destruct S as [S _]. unfold after1 in S.
    rewrite E in S. cbn in S. now apply S.
  - unfold apply0. cbv zeta. destruct (c_steps (me_c e) =? 0); [reflexivity|].
    cbn [k_p k_t]. destruct (p_lim _ =? _); reflexivity.
Qed.

(** what_is_next() after the last cycle of a command *)
Lemma next_inv k done e q s : inv s -> m_acc s = ACC0 ++ done ++ map me_c (m_q s) -> good_acc s ->
  working done e q 0 s ->
  inv (next k (with_h (on_p (fun p => mkPcnt (p_cnt p) (p_lim p) (p_top p) false) (m_h s)) s)).
Proof.
  intros (I1 & I2 & _) Ea S W. destruct W as (Q & R & O & C & Hp & D & Ai & Lg & _ & _ & B & W).
  specialize (B eq_refl). cbn [repeat] in Lg. rewrite app_nil_r in Lg. unfold next.
  change (m_q (with_h _ s)) with (m_q s). rewrite Q.
  assert (P : k_p (m_h s) = mkPcnt 0 (p_lim (k_p (m_h s))) (p_lim (k_p (m_h s))) (p_ev (k_p (m_h s)))
    /\ (m_prep s = false -> p_lim (k_p (m_h s)) = snd (after (done ++ [me_c e])))
    /\ (forall e2 t, q = e2 :: t -> c_steps (me_c e2) = 0 -> p_lim (k_p (m_h s)) = snd (after (done ++ [me_c e])))).
  { rewrite after_app. unfold after1. destruct (Z.eqb_spec (c_steps (me_c e)) 0) as [E|E].
    - destruct W as (_ & _ & _ & _ & W). rewrite W. cbn. auto.
    - destruct W as (_ & _ & _ & W). rewrite W. cbn. split; [reflexivity|]. unfold coming. split; [now intros ->|].
      intros e2 t -> E2. rewrite E2. cbn. destruct (m_prep s); reflexivity. }
  destruct P as (P1 & P2 & P3). apply (good_of s _ Ea) in S. rewrite Q in S. cbn [map] in S.
  destruct (fits_map s done e q I2 Ea Q) as [F Fq].
  destruct q as [|e2 q].
  - split; [exact I1|]. split; [exact I2|]. exists (done ++ [me_c e]). cbn [m_acc m_q map with_h]. rewrite app_nil_r.
    split; [rewrite Ea, Q; reflexivity|]. left. unfold idle, stop_hw, on_g, on_t, on_p.
    cbn [m_h with_h m_run k_t k_g k_p k_dir k_log t_cont t_busy t_on m_q g_ena set_ena p_cnt p_lim p_ev m_end].
    cbn [aim] in Ai. rewrite P1. cbn [p_cnt p_lim].
    repeat split; auto; try congruence. apply P2. destruct (m_prep s); [|reflexivity]. now destruct (Hp eq_refl).
  - split; [exact I1|]. split; [exact I2|]. exists (done ++ [me_c e]). cbn [m_acc m_q map with_h m_run m_prep m_h].
    split; [rewrite Ea, Q; cbn [map]; now rewrite <- (app_assoc done)|]. right. exists e2, q, (ncyc (me_c e2)).
    set (h0 := on_p _ (m_h s)).
    set (h1 := if m_prep s then h0 else on_p clear (prepare e2 h0)).
    assert (H1 : k_t h1 = k_t (m_h s) /\ k_log h1 = k_log (m_h s) /\ k_dir h1 = k_dir (m_h s)).
    { unfold h1, h0, prepare. destruct (m_prep s); [auto|]. destruct (c_steps (me_c e2) >? 0); auto. }
    destruct H1 as (H1 & H2 & H3).
    assert (K : calm h1) by (unfold calm; rewrite H1, B; now rewrite andb_false_r).
    rewrite (apply_calm k e2 h1 K).
    inversion Fq as [|? ? F2 Fq2]. subst.
    apply steady_app in S. destruct S as [_ S]. cbn [map steady] in S. destruct S as (_ & _ & S). cbn [aim] in Ai. destruct Ai as [Ai1 Ai2].
    assert (PH : p_cnt (k_p h1) = 0 /\ p_top (k_p h1) = p_lim (k_p h1) /\ p_ev (k_p h1) = false
      /\ (c_steps (me_c e2) = 0 -> p_lim (k_p h1) = snd (after (done ++ [me_c e])))).
    { assert (Q1 : p_cnt (k_p (m_h s)) = 0) by (rewrite P1; reflexivity).
      assert (Q2 : p_top (k_p (m_h s)) = p_lim (k_p (m_h s))) by (rewrite P1 at 1; reflexivity).
      unfold h1, h0, prepare. destruct (m_prep s).
      - cbn. repeat split; [exact Q1|exact Q2|]. intros E. now apply (P3 e2 q).
      - destruct (Z.gtb_spec (c_steps (me_c e2)) 0) as [E|E]; cbn; repeat split; intros; [lia|]. now apply (P3 e2 q). }
    destruct PH as (PH1 & PH2 & PH3 & PH4).
    set (pr := match q with _ :: _ => true | [] => false end).
    replace (match q with e3 :: _ => prepare e3 (apply0 e2 h1) | [] => apply0 e2 h1 end)
      with (if pr then match q with e3 :: _ => prepare e3 (apply0 e2 h1) | [] => apply0 e2 h1 end else apply0 e2 h1)
      by (unfold pr; destruct q; reflexivity).
    assert (TT : k_t (if pr then match q with e3 :: _ => prepare e3 (apply0 e2 h1) | [] => apply0 e2 h1 end else apply0 e2 h1)
                 = set_period (c_ticks (me_c e2)) (k_t (m_h s))).
    { assert (E : k_t (apply0 e2 h1) = set_period (c_ticks (me_c e2)) (k_t (m_h s))).
      { rewrite <- H1. unfold apply0. cbv zeta. destruct (c_steps (me_c e2) =? 0); [reflexivity|].
        destruct (p_lim (k_p h1) =? c_steps (me_c e2)); reflexivity. }
      unfold pr, prepare. destruct q as [|e3 q']; [exact E|]. destruct (c_steps (me_c e3) >? 0); exact E. }
    apply (begin_working (done ++ [me_c e]) e2 q h1 (snd (after (done ++ [me_c e]))) (m_run s) pr); try assumption; try reflexivity.
    + intros e3 q' -> E E2. cbn [map steady] in S. destruct S as [S _].
      assert (A1 : forall st, after1 st (me_c e2) = (true, snd st)) by (intros; unfold after1; now rewrite E).
      rewrite A1 in S. rewrite after_app. now apply S.
    + now rewrite H2.
    + unfold pr. destruct q; congruence.
    + rewrite H3, D. exact Ai1.
    + rewrite TT. exact O.
    + rewrite TT. exact C.
    + rewrite TT, H1. reflexivity.
Qed.

Notation mstep := (mstep HCU).
Notation mrun := (mrun HCU).
Notation in_time := (in_time HCU).
Lemma ev_same s : p_ev (k_p (m_h s)) = false ->
  with_h (on_p (fun p => mkPcnt (p_cnt p) (p_lim p) (p_top p) false) (m_h s)) s = s.
Proof. destruct s as [[t g [a b c ev] d l] ? ? ? ? ? ?]. cbn. now intros ->. Qed.
Lemma coming_app prep n q x : (prep = true -> q <> []) -> coming prep n (q ++ x) = coming prep n q.
Proof. intros H. unfold coming. destruct prep; [|reflexivity]. destruct q; [now destruct (H eq_refl)|reflexivity]. Qed.

Lemma tea_inv s : inv s -> inv (with_h (tea (m_h s)) s).
Proof.
  intros I. pose proof I as (I1 & I2 & done & Ea & [H|(e & q & k & H)]).
  - destruct H as (_ & _ & H & _). rewrite tea_calm; [destruct s; exact I|]. unfold calm. rewrite H.
    destruct (t_on (k_t (m_h s))); reflexivity.
  - destruct H as (Q & R & O & C & Hp & D & Ai & Lg & Pe & Ac & B & W).
    destruct (t_busy (k_t (m_h s))) eqn:Eb.
    { rewrite tea_calm; [destruct s; exact I|]. unfold calm. rewrite Eb. apply andb_false_r. }
    destruct k as [|k]; [now specialize (B eq_refl)|]. specialize (Ac eq_refl).
    destruct (fits_map s done e q I2 Ea Q) as [F _]. unfold cmd_fits in F.
    split; [exact I1|]. split; [exact I2|]. exists done. split; [exact Ea|]. right. exists e, q, k.
    unfold tea. rewrite O, Eb. cbn [andb negb]. unfold working. cbn [m_h with_h m_q m_run m_prep m_end k_t k_g k_p k_dir k_log t_on t_cont t_busy t_act t_per g_high g_flag g_ena].
    splits; auto; try discriminate.
    + rewrite <- app_assoc. rewrite repeat_S_cyc in Lg. unfold cyc at 1 in Lg. rewrite Ac, D.
      destruct (c_steps (me_c e) =? 0); destruct W as (_ & W & _); rewrite W; exact Lg.
    + destruct (Z.eqb_spec (c_steps (me_c e)) 0) as [E|E].
      * destruct W as (W1 & W2 & W3 & W4 & W5). rewrite W2. splits; auto; try lia.
      * destruct W as (W1 & W2 & W3 & W4). rewrite W2. splits; auto; try lia.
        rewrite W4. unfold count. cbn [Nat.eqb p_cnt p_lim p_top p_ev].
        destruct (Nat.eqb_spec k 0) as [->|E2].
        -- destruct (Z.eqb_spec (c_steps (me_c e) - Z.of_nat 1 + 1) (c_steps (me_c e))); [reflexivity|lia].
        -- destruct (Z.eqb_spec (c_steps (me_c e) - Z.of_nat (S k) + 1) (c_steps (me_c e))); [lia|].
           rewrite u16_id by lia. f_equal. lia.
Qed.
Lemma tez_inv s : inv s -> waiting_irq s = false -> inv (with_h (tez (m_h s)) s).
Proof.
  intros I N. pose proof I as (I1 & I2 & done & Ea & [H|(e & q & k & H)]).
  - destruct H as (R & C & B & Hq & G & Pc & Pl & Pe & Lg & Ai).
    split; [exact I1|]. split; [exact I2|]. exists done. split; [exact Ea|]. left. unfold tez.
    destruct (t_on (k_t (m_h s))) eqn:Eo; rewrite B; cbn [andb]; unfold idle; cbn [with_h m_h m_run m_q m_end].
    + cbn [on_t k_t k_g k_p k_dir k_log t_on t_cont t_busy]. splits; auto.
    + rewrite B, Eo. splits; auto.
  - destruct H as (Q & R & O & C & Hp & D & Ai & Lg & Pe & Ac & B & W). unfold tez. rewrite O.
    destruct (t_busy (k_t (m_h s))) eqn:Eb; cbn [andb]; [|destruct s; exact I].
    split; [exact I1|]. split; [exact I2|]. exists done. split; [exact Ea|]. right. exists e, q, k.
    unfold working. cbn [with_h on_t m_h m_run m_q m_prep m_end k_t k_g k_p k_dir k_log t_on t_cont t_busy t_act t_per].
    splits; auto. intros ->. exfalso. revert N. unfold waiting_irq.
    destruct (c_steps (me_c e) =? 0).
    + destruct W as (_ & _ & W3 & W4 & _). rewrite W3, (proj2 W4 eq_refl). cbn. rewrite orb_true_r. discriminate.
    + destruct W as (_ & _ & _ & W4). rewrite W4. cbn. discriminate.
Qed.
Lemma mstep_inv ev s : inv s -> mev_ok ev -> (ev = MTez -> waiting_irq s = false) ->
  good_acc (mstep ev s) -> inv (mstep ev s).
Proof.
  intros I Hok Ht S. destruct ev as [c st| | | | |k|k| ]; cbn [mstep Mcpwm.mstep] in *; cbn [mev_ok] in Hok.
  - destruct (m_pc s) as [x|] eqn:Epc; [exact I|]. clear S. unfold add_begin. destruct (is_ready s) eqn:Er; [|exact I].
    pose proof I as (I1 & I2 & done & Ea & H). destruct (negb (m_run s)) eqn:En; cbn [andb].
    + destruct (m_q s) as [|e q] eqn:Q.
      * split; [intros e st' E; injection E as <- <-; cbn; split; [exact Hok|apply xorb_false_r]|].
        split; [exact I2|]. exists done. split; [exact Ea|]. left. destruct H as [H|(e & q & k & H)].
        -- destruct H as (R & C & B & Hq & G & Pc & Pl & Pe & Lg & Ai). unfold idle. cbn. splits; auto.
        -- destruct H as (_ & R & _). rewrite R in En. discriminate.
      * split; [intros e' st' E; injection E as <- <-; cbn; split; [exact Hok|]|].
        { destruct (m_end s), (level_of c); reflexivity. }
        split; [exact I2|]. exists done. cbn [m_acc m_q]. rewrite <- Q in *. split; [exact Ea|].
        destruct H as [H|H]; [left|right; exact H].
        destruct H as (R & C & B & Hq & G & Pc & Pl & Pe & Lg & Ai). unfold idle. cbn [m_h m_run m_q m_end m_pc]. splits; auto.
        intros _. apply Ai. right. right. left. rewrite Q. discriminate.
    + split; [intros e' st' E; injection E as <- <-; cbn; split; [exact Hok|]|].
      { destruct (m_end s), (level_of c); reflexivity. }
      split; [exact I2|]. exists done. cbn [m_acc m_q]. split; [exact Ea|]. destruct H as [H|H]; [|right; exact H].
      exfalso. destruct H as (R & _). rewrite R in En. discriminate.
  - unfold add_commit in *. destruct (m_pc s) as [[e st]|] eqn:Epc; [|exact I].
    pose proof I as (I1 & I2 & done & Ea & H). destruct (I1 e st Epc) as [F X].
    destruct (is_ready s) eqn:Er.
    + set (s1 := mkM (m_h s) (m_q s ++ [e]) (m_run s) (m_prep s) (level_of (me_c e)) None (m_acc s ++ [me_c e])) in *.
      assert (J : inv s1).
      { split; [discriminate|]. split; [apply Forall_app; split; [exact I2|]; constructor; [exact F|constructor]|].
        exists done. unfold s1. cbn [m_acc m_q]. split; [rewrite Ea, map_app, <- !app_assoc; reflexivity|].
        destruct H as [H|(e0 & q & k & H)].
        - left. destruct H as (R & C & B & Hq & G & Pc & Pl & Pe & Lg & Ai). unfold idle. cbn [m_h m_run m_q m_end].
          splits; auto.
          + intros O. exfalso. unfold is_ready in Er. rewrite R, B, O in Er. discriminate.
          + intros _. apply (aim_app (m_end s)); [|exact X]. apply Ai. right. right. right. rewrite Epc. discriminate.
        - right. exists e0, (q ++ [e]), k. destruct H as (Q & R & O & C & Hp & D & Ai & Lg & Pe & Ac & B & W).
          unfold working. cbn [m_h m_run m_q m_prep m_end]. rewrite (coming_app _ _ _ _ Hp).
          splits; auto.
          + rewrite Q. reflexivity.
          + intros _ E. destruct q; discriminate.
          + now apply (aim_app (m_end s)). }
      destruct (negb (m_run s) && st) eqn:E; [|exact J]. apply andb_true_iff in E. destruct E as [E _].
      apply negb_true_iff in E. apply start_inv; [exact J|exact E| |].
      * unfold is_ready in Er. rewrite E in Er. cbn in Er. now apply negb_true_iff in Er.
      * revert S. unfold start. destruct (m_q s1); auto.
    + split; [discriminate|]. split; [exact I2|]. exists done. split; [exact Ea|]. destruct H as [H|H]; [left|right; exact H].
      destruct H as (R & C & B & Hq & G & Pc & Pl & Pe & Lg & Ai). unfold idle. cbn [m_h m_run m_q m_end m_pc]. splits; auto.
      intros _. apply Ai. right. right. right. rewrite Epc. discriminate.
  - destruct (m_pc s) as [x|] eqn:Epc; [exact I|]. unfold add_null in *. destruct (is_ready s && negb (m_run s)) eqn:E; [|exact I].
    apply andb_true_iff in E. destruct E as [Er E]. apply negb_true_iff in E. apply start_inv; [exact I|exact E| |].
    + unfold is_ready in Er. rewrite E in Er. cbn in Er. now apply negb_true_iff in Er.
    + revert S. unfold start. destruct (m_q s); auto.
  - now apply tea_inv.
  - now apply tez_inv; auto.
  - unfold pcnt_isr in *. destruct (p_ev (k_p (m_h s))) eqn:Ev; [|exact I].
    assert (S' : good_acc s).
    { revert S. unfold next. cbn [with_h m_q m_acc]. destruct (m_q s) as [|? [|? ?]]; auto. }
    pose proof I as (_ & _ & done & Ea & [H|(e & q & n & H)]).
    { destruct H as (_ & _ & _ & _ & _ & _ & _ & H & _). congruence. }
    apply (next_inv k done e q s I Ea S').
    enough (n = O) as -> by exact H. destruct H as (_ & _ & _ & _ & _ & _ & _ & _ & _ & _ & _ & W).
    destruct (c_steps (me_c e) =? 0).
    + destruct W as (_ & _ & _ & _ & W). rewrite W in Ev. discriminate.
    + destruct W as (_ & _ & _ & W). destruct n; [reflexivity|]. rewrite W in Ev. discriminate.
  - unfold mcpwm_isr in *. destruct (g_flag (k_g (m_h s)) && g_ena (k_g (m_h s))) eqn:Ev; [|exact I].
    apply andb_true_iff in Ev. destruct Ev as [Ev1 Ev2].
    assert (S' : good_acc s).
    { revert S. unfold next. destruct (m_q s) as [|? [|? ?]]; auto. }
    pose proof I as (_ & _ & done & Ea & [H|(e & q & n & H)]).
    { destruct H as (_ & _ & _ & _ & H & _). congruence. }
    assert (K : n = O /\ p_ev (k_p (m_h s)) = false).
    { destruct H as (_ & _ & _ & _ & _ & _ & _ & _ & _ & _ & _ & W). destruct (c_steps (me_c e) =? 0).
      - destruct W as (_ & _ & _ & W4 & W). rewrite W. split; [now apply W4|reflexivity].
      - destruct W as (_ & _ & W & _). congruence. }
    destruct K as [-> K]. rewrite <- (ev_same s K). now apply (next_inv k done e q s I Ea S').
  - contradiction.
Qed.

Lemma acc_step ev s : exists l, m_acc (mstep ev s) = m_acc s ++ l.
Proof.
  destruct ev as [c st| | | | |k|k| ]; cbn [mstep Mcpwm.mstep].
  - exists []. rewrite app_nil_r. destruct (m_pc s); [reflexivity|]. unfold add_begin.
    destruct (is_ready s); [|reflexivity]. destruct (negb (m_run s) && _); reflexivity.
  - unfold add_commit. destruct (m_pc s) as [[e st]|]; [|exists []; now rewrite app_nil_r].
    destruct (is_ready s); [exists [me_c e]|exists []; now rewrite app_nil_r].
    destruct (negb (m_run s) && st); [|reflexivity]. unfold start. cbn [m_q]. destruct (m_q s ++ [e]); reflexivity.
  - exists []. rewrite app_nil_r. destruct (m_pc s); [reflexivity|]. unfold add_null, start.
    destruct (is_ready s && negb (m_run s)); [|reflexivity]. destruct (m_q s); reflexivity.
  - exists []. now rewrite app_nil_r.
  - exists []. now rewrite app_nil_r.
  - exists []. rewrite app_nil_r. unfold pcnt_isr, next. destruct (p_ev _); [|reflexivity]. cbn [with_h m_q m_acc].
    destruct (m_q s) as [|? [|? ?]]; reflexivity.
  - exists []. rewrite app_nil_r. unfold mcpwm_isr, next. destruct (_ && _); [|reflexivity].
    destruct (m_q s) as [|? [|? ?]]; reflexivity.
  - exists []. rewrite app_nil_r. destruct (m_pc s); reflexivity.
Qed.
Lemma acc_run evs : forall s, exists l, m_acc (mrun evs s) = m_acc s ++ l.
Proof.
  induction evs as [|e evs IH]; intros s; cbn [mrun Mcpwm.mrun]; [exists []; now rewrite app_nil_r|].
  destruct (acc_step e s) as [l1 E1]. destruct (IH (mstep e s)) as [l2 E2]. exists (l1 ++ l2).
  now rewrite E2, E1, app_assoc.
Qed.
Lemma mrun_inv evs : forall s, inv s -> Forall mev_ok evs -> in_time evs s ->
  good_acc (mrun evs s) -> inv (mrun evs s).
Proof.
  induction evs as [|e evs IH]; intros s I Hok T S; [exact I|]. cbn [mrun Mcpwm.mrun in_time Mcpwm.in_time] in *.
  inversion Hok; subst. destruct T as [T1 T2]. apply IH; auto. apply mstep_inv; auto.
  destruct I as (_ & _ & done & Ea & _).
  destruct (acc_run evs (mstep e s)) as [l El]. destruct (acc_step e s) as [l1 El1].
  exists (done ++ map me_c (m_q s) ++ l1). split; [rewrite El1, Ea; now rewrite <- !app_assoc|].
  rewrite El1, Ea in El. assert (El' : m_acc (mrun evs (mstep e s)) = ACC0 ++ ((done ++ map me_c (m_q s) ++ l1) ++ l))
    by (rewrite El; now rewrite <- !app_assoc).
  apply (good_of _ _ El') in S. now apply steady_app in S.
Qed.
End Spec.
