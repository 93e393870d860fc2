(** * RmtFacts: the symbols made of one command *)
From Coq Require Import ZArith Bool List Lia ZifyBool.
From Verif Require Import Base Queue QueueHist Rmt.
Import ListNotations.
Open Scope Z_scope.
Ltac Zify.zify_post_hook ::= idtac.

(** ** Symbols and signals *)
Lemma half_low d : 0 <= d < 32768 -> half d = (false, d).
Proof.
  intros H. unfold half. rewrite Z.testbit_eqb by lia. change (2 ^ 15) with 32768.
  rewrite Z.div_small, !Z.mod_small by lia. reflexivity.
Qed.
Lemma half_high d : 0 <= d < 32768 -> half (32768 + d) = (true, d).
Proof.
  intros H. unfold half. rewrite Z.testbit_eqb by lia. change (2 ^ 15) with 32768.
  replace (32768 + d) with (d + 1 * 32768) by lia. rewrite Z.div_add, Z.mod_add by lia.
  rewrite Z.div_small, (Z.mod_small d) by lia. reflexivity.
Qed.
Lemma halves_app a b : halves (a ++ b) = halves a ++ halves b.
Proof. unfold halves. apply flat_map_app. Qed.
Lemma halves_sym b a : 0 <= a < 65536 -> halves [b * 65536 + a] = [half a; half b].
Proof.
  intros H. unfold halves. cbn [flat_map app].
  rewrite Z.add_comm, Z.mod_add, Z.div_add by lia. rewrite Z.mod_small, Z.div_small by lia. reflexivity.
Qed.
Lemma halves_times n w : halves (times n w) = concat (times n (halves [w])).
Proof.
  unfold times. induction (Z.to_nat n) as [|k IH]; [reflexivity|].
  cbn [repeat concat]. change (w :: repeat w k) with ([w] ++ repeat w k). now rewrite halves_app, IH.
Qed.
Lemma halves_times_list n ws : halves (concat (times n ws)) = concat (times n (halves ws)).
Proof.
  unfold times. induction (Z.to_nat n) as [|k IH]; [reflexivity|].
  cbn [repeat concat]. now rewrite halves_app, IH.
Qed.
Lemma times_S {T} n (x : T) : 0 < n -> times n x = x :: times (n - 1) x.
Proof.
  intros H. unfold times. replace (Z.to_nat n) with (S (Z.to_nat (n - 1))) by lia. reflexivity.
Qed.
Lemma times_0 {T} n (x : T) : n <= 0 -> times n x = [].
Proof. intros H. unfold times. replace (Z.to_nat n) with 0%nat by lia. reflexivity. Qed.
Lemma times_add {T} n m (x : T) : 0 <= n -> 0 <= m -> times (n + m) x = times n x ++ times m x.
Proof. intros H H0. unfold times. rewrite Z2Nat.inj_add by lia. apply repeat_app. Qed.
Lemma times_length {T} n (x : T) : length (times n x) = Z.to_nat n.
Proof. apply repeat_length. Qed.
Lemma concat_times_length {T} n (x : list T) : length (concat (times n x)) = (Z.to_nat n * length x)%nat.
Proof.
  unfold times. induction (Z.to_nat n) as [|k IH]; [reflexivity|].
  cbn [repeat concat]. rewrite app_length, IH. lia.
Qed.

Definition total (l : list (bool * Z)) : Z := fold_right Z.add 0 (map snd l).
Lemma total_app a b : total (a ++ b) = total a + total b.
Proof. unfold total. induction a; cbn; [lia|]. cbn in IHa. lia. Qed.
Lemma total_join l : total (join l) = total l.
Proof.
  unfold total. induction l as [|[b d] t IH]; [reflexivity|]. cbn [join].
  destruct (join t) as [|[b' d'] t']; cbn [map snd fold_right] in *.
  - lia.
  - destruct (Bool.eqb b b'); cbn [map snd fold_right] in *; lia.
Qed.
Lemma join_merge b d e l : join ((b, d) :: (b, e) :: l) = join ((b, d + e) :: l).
Proof.
  cbn [join]. destruct (join l) as [|[b' d'] t'].
  - rewrite Bool.eqb_reflx. reflexivity.
  - destruct (Bool.eqb b b') eqn:E.
    + rewrite Bool.eqb_reflx. f_equal. f_equal. lia.
    + rewrite Bool.eqb_reflx. reflexivity.
Qed.
Definition lows (l : list (bool * Z)) : Prop := Forall (fun x => fst x = false) l.
Lemma join_lows : forall l d x, lows l -> join ((false, d) :: l ++ x) = join ((false, d + total l) :: x).
Proof.
  induction l as [|[b e] l IH]; intros d x H.
  - cbn [app total map fold_right]. unfold total. cbn. now rewrite Z.add_0_r.
  - pose proof (Forall_inv H) as Hb. cbn [fst] in Hb. subst b.
    cbn [app]. rewrite join_merge, IH by (exact (Forall_inv_tail H)).
    unfold total. cbn [map snd fold_right]. do 3 f_equal. lia.
Qed.
(** the signal of [x] begins with a pulse (or is empty) *)
Definition begins (x : list (bool * Z)) : Prop :=
  match join x with [] => True | (b, _) :: _ => b = true end.
Lemma join_pulse r l x : begins x ->
  join ((true, r) :: (false, l) :: x) = (true, r) :: (false, l) :: join x.
Proof.
  intros H. unfold begins in H. cbn [join]. destruct (join x) as [|[b d] t]; [reflexivity|].
  subst b. reflexivity.
Qed.
Lemma begins_pulse r l x : begins x -> begins ((true, r) :: (false, l) :: x).
Proof. intros H. unfold begins. rewrite join_pulse by assumption. reflexivity. Qed.

(** [n] pulses of [r] ticks, one every [t] ticks *)
Definition pulses (n r t : Z) : list (bool * Z) := concat (times n [(true, r); (false, t - r)]).
Lemma join_pulses n r t x : begins x -> join (pulses n r t ++ x) = pulses n r t ++ join x.
Proof.
  intros Hx. unfold pulses, times.
  assert (K : forall k, begins (concat (repeat [(true, r); (false, t - r)] k) ++ x)
              /\ join (concat (repeat [(true, r); (false, t - r)] k) ++ x)
                 = concat (repeat [(true, r); (false, t - r)] k) ++ join x).
  { induction k as [|k [IH1 IH2]]; [split; [assumption|reflexivity]|].
    cbn [repeat concat app]. split.
    - now apply begins_pulse.
    - rewrite join_pulse by assumption. now rewrite IH2. }
  apply K.
Qed.
Lemma begins_pulses n r t x : begins x -> begins (pulses n r t ++ x).
Proof.
  intros Hx. unfold pulses, times. induction (Z.to_nat n) as [|k IH]; [assumption|].
  cbn [repeat concat app]. now apply begins_pulse.
Qed.
Lemma pulses_app n m r t : 0 <= n -> 0 <= m -> pulses (n + m) r t = pulses n r t ++ pulses m r t.
Proof. intros. unfold pulses. now rewrite times_add, concat_app. Qed.
Lemma pulses_S n r t : 0 < n -> pulses n r t = (true, r) :: (false, t - r) :: pulses (n - 1) r t.
Proof. intros. unfold pulses. rewrite times_S by assumption. reflexivity. Qed.
Lemma pulses_0 r t : pulses 0 r t = [].
Proof. reflexivity. Qed.

(** a last pulse, whose low time is spread over several symbols *)
Lemma join_stretched r d l x t : lows l -> d + total l = t - r -> begins x ->
  join ((true, r) :: (false, d) :: l ++ x) = pulses 1 r t ++ join x.
Proof.
  intros Hl Hd Hx.
  assert (E : join ((true, r) :: (false, d) :: l ++ x) = join ((true, r) :: (false, t - r) :: x)).
  { pose proof (join_lows l d x Hl) as J. rewrite Hd in J.
    cbn [join] in J |- *. now rewrite J. }
  rewrite E, join_pulse by assumption. reflexivity.
Qed.

(** ** The step symbol *)
Lemma step_symbol_eq t : 0 <= t < 65535 ->
  step_symbol t = (t / 2) * 65536 + (32768 + (t - t / 2)).
Proof.
  intros H. unfold step_symbol. rewrite Z.shiftr_div_pow2, Z.shiftl_mul_pow2 by lia.
  change (2 ^ 1) with 2. change (2 ^ 16) with 65536.
  assert (H2 : 0 <= t / 2 <= 32767 /\ 0 <= t - t / 2 <= 32767).
  { pose proof (Z.div_mod t 2 ltac:(lia)). pose proof (Z.mod_pos_bound t 2 ltac:(lia)). lia. }
  destruct H2 as [Hl Hr]. set (l := t / 2) in *. set (r := t - l) in *.
  rewrite u32_id, u16_id by lia.
  assert (D1 : Z.land r 32768 = 0).
  { change 32768 with (2 ^ 15). apply Z.bits_inj'. intros n Hn. rewrite Z.land_spec, Z.bits_0.
    rewrite Z.pow2_bits_eqb by lia. destruct (Z.eqb_spec 15 n) as [<-|]; [|apply andb_false_r].
    rewrite Z.testbit_eqb by lia. change (2 ^ 15) with 32768. rewrite Z.div_small by lia. reflexivity. }
  assert (E1 : Z.lor r 32768 = 32768 + r).
  { rewrite <- Z.lxor_lor by exact D1. rewrite <- Z.add_nocarry_lxor by exact D1. lia. }
  rewrite E1.
  assert (D2 : Z.land (l * 65536) (32768 + r) = 0).
  { change 65536 with (2 ^ 16). apply Z.bits_inj'. intros n Hn. rewrite Z.land_spec, Z.bits_0.
    destruct (Z.ltb_spec n 16).
    - rewrite Z.mul_pow2_bits_low by lia. reflexivity.
    - replace (Z.testbit (32768 + r) n) with false; [apply andb_false_r|].
      symmetry. rewrite Z.testbit_eqb by lia. rewrite Z.div_small; [reflexivity|].
      split; [lia|]. apply Z.lt_le_trans with (2 ^ 16); [change (2 ^ 16) with 65536; lia|].
      apply Z.pow_le_mono_r; lia. }
  rewrite <- Z.lxor_lor by exact D2. rewrite <- Z.add_nocarry_lxor by exact D2. reflexivity.
Qed.
Lemma halves_step t : 0 <= t < 65535 ->
  halves [step_symbol t] = [(true, t - t / 2); (false, t - (t - t / 2))].
Proof.
  intros H. rewrite step_symbol_eq by assumption.
  assert (H2 : 0 <= t / 2 <= 32767 /\ 0 <= t - t / 2 <= 32767).
  { pose proof (Z.div_mod t 2 ltac:(lia)). pose proof (Z.mod_pos_bound t 2 ltac:(lia)). lia. }
  rewrite halves_sym by lia. rewrite half_high, half_low by lia. do 3 f_equal. lia.
Qed.
Lemma halves_last t k : 0 <= t < 65535 -> 0 <= k <= 127 -> 4 * k <= t / 2 ->
  halves [u32 (step_symbol t - u32 (Z.shiftl k 18))] = [(true, t - t / 2); (false, t / 2 - 4 * k)].
Proof.
  intros H Hk Hd. rewrite step_symbol_eq by assumption.
  assert (H2 : 0 <= t / 2 <= 32767 /\ 0 <= t - t / 2 <= 32767).
  { pose proof (Z.div_mod t 2 ltac:(lia)). pose proof (Z.mod_pos_bound t 2 ltac:(lia)). lia. }
  rewrite Z.shiftl_mul_pow2 by lia. change (2 ^ 18) with 262144.
  rewrite (u32_id (k * 262144)) by lia. rewrite u32_id by lia.
  replace (t / 2 * 65536 + (32768 + (t - t / 2)) - k * 262144)
    with ((t / 2 - 4 * k) * 65536 + (32768 + (t - t / 2))) by lia.
  rewrite halves_sym by lia. rewrite half_high, half_low by lia. reflexivity.
Qed.

(** ** One part *)
(** part sizes in use *)
Definition part_size (P : Z) : Prop := P = 32 \/ P = 24.

(** the width of a pulse *)
Definition width (t : Z) : Z := if t =? 65535 then 32767 else t - t / 2.

(** the low time of the last step of the part can be stretched *)
Definition fits (P s t : Z) : Prop :=
  t = 65535 \/ (if s <? P then 4 * (P - s) < t / 2
                else s mod P = 0 \/ 4 * (P - (P + s mod P) / 2) < t / 2).

Definition durations_ok (ws : list Z) : Prop := Forall (fun x => 1 <= snd x <= 32767) (halves ws).

Lemma lows_times n w : lows w -> lows (concat (times n w)).
Proof.
  intros H. unfold times. induction (Z.to_nat n) as [|k IH]; [constructor|].
  cbn [repeat concat]. apply Forall_app. split; assumption.
Qed.
Lemma total_times n w : 0 <= n -> total (concat (times n w)) = n * total w.
Proof.
  intros H. unfold times.
  assert (K : forall k, total (concat (repeat w k)) = Z.of_nat k * total w).
  { induction k as [|k IH]; [reflexivity|]. cbn [repeat concat]. rewrite total_app, IH. lia. }
  rewrite K. rewrite Z2Nat.id by lia. reflexivity.
Qed.
Lemma ok_times n w : durations_ok w -> durations_ok (concat (times n w)).
Proof.
  intros H. unfold durations_ok in *. rewrite halves_times_list.
  unfold times. induction (Z.to_nat n) as [|k IH]; [constructor|].
  cbn [repeat concat]. apply Forall_app. split; assumption.
Qed.
Lemma ok_times1 n w : durations_ok [w] -> durations_ok (times n w).
Proof.
  intros H. unfold durations_ok in *. rewrite halves_times.
  unfold times. induction (Z.to_nat n) as [|k IH]; [constructor|].
  cbn [repeat concat]. apply Forall_app. split; assumption.
Qed.
Lemma ok_app a b : durations_ok a -> durations_ok b -> durations_ok (a ++ b).
Proof. intros H H0. unfold durations_ok in *. rewrite halves_app. apply Forall_app. split; assumption. Qed.

Section Part.
Variable P : Z.
Hypothesis HP : part_size P.

(** what a part with steps looks like: [n] steps are sent, [l] are left *)
Definition good_part (s t : Z) (r : list Z * Z) : Prop :=
  let n := s - snd r in
  0 < n /\ 0 <= snd r /\ Z.of_nat (length (fst r)) = P /\ durations_ok (fst r)
  /\ (snd r = 0 \/ fits P (snd r) t /\ P / 2 <= n)
  /\ (forall x, begins x -> join (halves (fst r) ++ x) = pulses n (width t) t ++ join x)
  /\ (forall x, begins x -> begins (halves (fst r) ++ x)).

Lemma begins_of_join ws n r t x : 0 < n ->
  join (halves ws ++ x) = pulses n r t ++ join x -> begins (halves ws ++ x).
Proof. intros H E. unfold begins. rewrite E, pulses_S by assumption. reflexivity. Qed.

Lemma long_spec : halves long_step = [(true, 32767); (false, 16384); (false, 8192); (false, 8192)].
Proof. reflexivity. Qed.
Lemma join_longs n x : begins x ->
  join (concat (times n (halves long_step)) ++ x) = pulses n 32767 65535 ++ join x
  /\ begins (concat (times n (halves long_step)) ++ x).
Proof.
  intros Hx. unfold times, pulses, times. induction (Z.to_nat n) as [|k [IH1 IH2]]; [split; [reflexivity|assumption]|].
  cbn [repeat concat]. rewrite <- app_assoc. rewrite long_spec at 1 3. cbn [app].
  assert (E : join ((true, 32767) :: (false, 16384) :: (false, 8192) :: (false, 8192)
                :: concat (repeat (halves long_step) k) ++ x)
              = (true, 32767) :: (false, 32768) :: join (concat (repeat (halves long_step) k) ++ x)).
  { rewrite <- join_pulse by assumption.
    pose proof (join_lows [(false, 8192); (false, 8192)] 16384 (concat (repeat (halves long_step) k) ++ x)) as J.
    cbn [app total map snd fold_right] in J. specialize (J ltac:(repeat constructor)).
    unfold total in J. cbn [map snd fold_right] in J. change (16384 + (8192 + (8192 + 0))) with 32768 in J.
    set (y := concat (repeat (halves long_step) k) ++ x) in *. clearbody y.
    cbn [join] in J |- *. rewrite J. reflexivity. }
  split.
  - rewrite E, IH1. reflexivity.
  - unfold begins. rewrite E. reflexivity.
Qed.

Lemma begins_nil : begins [].
Proof. exact I. Qed.

Lemma steps_part_good s t : 0 < s < 256 -> 80 <= t < 65536 -> fits P s t ->
  good_part s t (steps_part P s t).
Proof.
  intros Hs Ht Hf.
  assert (HP2 : 2 * (P / 2) = P /\ 24 <= P <= 32) by (destruct HP as [-> | ->]; cbn; lia).
  destruct HP2 as [HP2 HPr].
  unfold steps_part. destruct (Z.eqb_spec t 65535) as [->|Hn].
  - assert (Ew : width 65535 = 32767) by reflexivity.
    destruct (Z.ltb_spec s (P / 2)).
    + (* the rest of a command with 65535 ticks *)
      assert (EL : u32 (536879104 - u16 (Z.shiftl (u16 (P - 2 * s)) 5))
                   = 8192 * 65536 + (8192 - 32 * (P - 2 * s))).
      { rewrite Z.shiftl_mul_pow2 by lia. change (2 ^ 5) with 32.
        rewrite (u16_id (P - 2 * s)) by lia. rewrite u16_id by lia. rewrite u32_id by lia. lia. }
      assert (EH : halves ([Z.lor 1073774591 32768; u32 (536879104 - u16 (Z.shiftl (u16 (P - 2 * s)) 5))]
                     ++ times (P - 1 - 2 * s) 1048592 ++ [1048592])
                   = (true, 32767) :: (false, 16384) :: ((false, 8192 - 32 * (P - 2 * s)) :: (false, 8192)
                     :: concat (times (P - 1 - 2 * s) [(false, 16); (false, 16)]) ++ [(false, 16); (false, 16)])).
      { change [Z.lor 1073774591 32768; u32 (536879104 - u16 (Z.shiftl (u16 (P - 2 * s)) 5))]
          with ([Z.lor 1073774591 32768] ++ [u32 (536879104 - u16 (Z.shiftl (u16 (P - 2 * s)) 5))]).
        rewrite !halves_app, EL, halves_times, halves_sym by lia.
        rewrite !half_low by lia. reflexivity. }
      unfold good_part. cbn [fst snd]. rewrite Z.sub_0_r.
      assert (J : forall x, begins x ->
        join (halves (concat (times (s - 1) long_step)
         ++ [Z.lor 1073774591 32768; u32 (536879104 - u16 (Z.shiftl (u16 (P - 2 * s)) 5))]
         ++ times (P - 1 - 2 * s) 1048592 ++ [1048592]) ++ x) = pulses s (width 65535) 65535 ++ join x).
      { intros x Hx. rewrite halves_app, halves_times_list, EH, <- app_assoc.
        set (l := (false, 8192 - 32 * (P - 2 * s)) :: (false, 8192)
                     :: concat (times (P - 1 - 2 * s) [(false, 16); (false, 16)]) ++ [(false, 16); (false, 16)]).
        assert (HL : lows l).
        { unfold l. repeat (constructor; [reflexivity|]). apply Forall_app. split.
          - apply lows_times. repeat constructor.
          - repeat constructor. }
        assert (TL : 16384 + total l = 65535 - 32767).
        { unfold l. change (total (?a :: ?b :: ?c)) with (snd a + (snd b + total c)).
          rewrite total_app, total_times by lia. cbn [snd].
          change (total [(false, 16); (false, 16)]) with 32. lia. }
        assert (J1 : join (((true, 32767) :: (false, 16384) :: l) ++ x) = pulses 1 32767 65535 ++ join x).
        { cbn [app]. apply join_stretched; assumption. }
        assert (B1 : begins (((true, 32767) :: (false, 16384) :: l) ++ x)).
        { unfold begins. rewrite J1. reflexivity. }
        destruct (join_longs (s - 1) _ B1) as [J2 _]. rewrite J2, J1.
        rewrite Ew. replace s with ((s - 1) + 1) at 2 by lia.
        rewrite pulses_app by lia. now rewrite <- app_assoc. }
      split; [lia|]. split; [lia|]. split.
      { rewrite !app_length, concat_times_length, times_length. cbn [length long_step]. lia. }
      split.
      { apply ok_app; [apply ok_times; repeat constructor; cbn; lia|].
        unfold durations_ok. rewrite EH. repeat (constructor; [cbn [snd]; lia|]).
        apply Forall_app. split.
        - unfold times. induction (Z.to_nat (P - 1 - 2 * s)) as [|k IH]; [constructor|].
          cbn [repeat concat]. repeat (constructor; [cbn [snd]; lia|]). exact IH.
        - repeat constructor; cbn [snd]; lia. }
      split; [now left|]. split; [exact J|].
      intros x Hx. apply begins_of_join with (n := s) (r := width 65535) (t := 65535); [lia|]. now apply J.
    + unfold good_part. cbn [fst snd]. rewrite u8_id by lia.
      replace (s - (s - P / 2)) with (P / 2) by lia.
      assert (EC : concat (times (P / 2 - 1) long_step) ++ [Z.lor 1073774591 32768; 536879104]
                   = concat (times (P / 2) long_step)).
      { change [Z.lor 1073774591 32768; 536879104] with (concat (times 1 long_step)).
        rewrite <- concat_app, <- times_add by lia. do 2 f_equal. lia. }
      rewrite EC.
      assert (J : forall x, begins x -> join (halves (concat (times (P / 2) long_step)) ++ x)
                  = pulses (P / 2) (width 65535) 65535 ++ join x).
      { intros x Hx. rewrite halves_times_list. now apply join_longs. }
      split; [lia|]. split; [lia|]. split.
      { rewrite concat_times_length. cbn [length long_step]. lia. }
      split; [apply ok_times; repeat constructor; cbn; lia|].
      split. { right. split; [now left|lia]. }
      split; [exact J|].
      intros x Hx. apply begins_of_join with (n := P / 2) (r := width 65535) (t := 65535); [lia|]. now apply J.
  - assert (Ht2 : 0 <= t < 65535) by lia.
    assert (Ew : width t = t - t / 2). { unfold width. destruct (Z.eqb_spec t 65535); [contradiction|reflexivity]. }
    assert (Hh : 40 <= t / 2 <= 32767).
    { pose proof (Z.div_mod t 2 ltac:(lia)). pose proof (Z.mod_pos_bound t 2 ltac:(lia)). lia. }
    assert (Hr : 40 <= t - t / 2 <= 32767).
    { pose proof (Z.div_mod t 2 ltac:(lia)). pose proof (Z.mod_pos_bound t 2 ltac:(lia)). lia. }
    destruct Hf as [Hf|Hf]; [contradiction|].
    assert (OK1 : durations_ok [step_symbol t]).
    { unfold durations_ok. rewrite halves_step by assumption. repeat constructor; cbn [snd]; lia. }
    destruct ((s <? 2 * P) && negb (s =? P)) eqn:E.
    + set (n := if s >? P then s / 2 else s).
      assert (Hn1 : 0 < n < P /\ n <= s /\ 4 * (P - n) < t / 2 /\
                    (s - n = 0 \/ (s - n <= P /\ 4 * (P - (s - n)) < t / 2 /\ P / 2 <= n))).
      { assert (E' : s < 2 * P /\ s <> P) by lia. unfold n. revert Hf. destruct (Z.gtb_spec s P).
        - destruct (Z.ltb_spec s P); [lia|].
          assert (Em : s mod P = s - P).
          { replace s with (s - P + 1 * P) at 1 by lia. rewrite Z.mod_add, Z.mod_small by lia. reflexivity. }
          rewrite Em. replace (P + (s - P)) with s by lia. intros Hf.
          pose proof (Z.div_mod s 2 ltac:(lia)). pose proof (Z.mod_pos_bound s 2 ltac:(lia)). lia.
        - destruct (Z.ltb_spec s P); lia. }
      clearbody n. destruct Hn1 as (Hn1 & Hn2 & Hn3 & Hn4).
      unfold good_part. cbn [fst snd]. rewrite u8_id by lia. replace (s - (s - n)) with n by lia.
      assert (J : forall x, begins x ->
        join (halves (times (n - 1) (step_symbol t) ++ [u32 (step_symbol t - u32 (Z.shiftl (P - n) 18))]
           ++ times (P - 1 - n) 131074 ++ [131074]) ++ x) = pulses n (width t) t ++ join x).
      { intros x Hx.
        rewrite !halves_app, !halves_times, halves_last, halves_step by lia.
        change (halves [131074]) with [(false, 2); (false, 2)].
        rewrite <- !app_assoc.
        set (l := concat (times (P - 1 - n) [(false, 2); (false, 2)]) ++ [(false, 2); (false, 2)]).
        assert (HL : lows l).
        { apply Forall_app. split; [apply lows_times|]; repeat constructor. }
        assert (TL : t / 2 - 4 * (P - n) + total l = t - width t).
        { unfold l. rewrite total_app, total_times by lia. rewrite Ew.
          change (total [(false, 2); (false, 2)]) with 4. lia. }
        assert (J1 : join ((true, t - t / 2) :: (false, t / 2 - 4 * (P - n)) :: l ++ x)
                     = pulses 1 (width t) t ++ join x).
        { rewrite <- Ew. apply join_stretched; assumption. }
        assert (B1 : begins ((true, t - t / 2) :: (false, t / 2 - 4 * (P - n)) :: l ++ x)).
        { unfold begins. rewrite J1. reflexivity. }
        rewrite <- Ew in J1, B1 |- *.
        change (concat (times (n - 1) [(true, width t); (false, t - width t)])) with (pulses (n - 1) (width t) t).
        replace ([(true, width t); (false, t / 2 - 4 * (P - n))] ++
          concat (times (P - 1 - n) [(false, 2); (false, 2)]) ++ [(false, 2); (false, 2)] ++ x)
          with ((true, width t) :: (false, t / 2 - 4 * (P - n)) :: l ++ x)
          by (unfold l; rewrite <- app_assoc; reflexivity).
        rewrite join_pulses by assumption. rewrite J1.
        replace n with ((n - 1) + 1) at 2 by lia. rewrite pulses_app by lia. now rewrite <- app_assoc. }
      split; [lia|]. split; [lia|]. split.
      { rewrite !app_length, !times_length. cbn [length]. lia. }
      split.
      { apply ok_app; [now apply ok_times1|]. apply ok_app.
        - unfold durations_ok. rewrite halves_last by lia. repeat constructor; cbn [snd]; lia.
        - apply ok_app; [apply ok_times1|]; repeat constructor; cbn; lia. }
      split. { destruct Hn4 as [?|(Ha & Hb & Hc)]; [now left|]. right. split; [|exact Hc]. right.
               destruct (Z.ltb_spec (s - n) P); [lia|]. left. replace (s - n) with P by lia.
               apply Z.mod_same. lia. }
      split; [exact J|].
      intros x Hx. apply begins_of_join with (n := n) (r := width t) (t := t); [lia|]. now apply J.
    + assert (E' : s >= 2 * P \/ s = P) by lia.
      unfold good_part. cbn [fst snd]. rewrite u8_id by lia. replace (s - (s - P)) with P by lia.
      assert (EC : times (P - 1) (step_symbol t) ++ [step_symbol t] = times P (step_symbol t)).
      { change [step_symbol t] with (times 1 (step_symbol t)). rewrite <- times_add by lia. f_equal. lia. }
      rewrite EC.
      assert (J : forall x, begins x -> join (halves (times P (step_symbol t)) ++ x)
                  = pulses P (width t) t ++ join x).
      { intros x Hx. rewrite halves_times, halves_step, <- Ew by lia. now apply join_pulses. }
      split; [lia|]. split; [lia|]. split; [rewrite times_length; lia|].
      split; [now apply ok_times1|].
      split. { destruct E' as [?| ->]; [right|left; lia]. split; [|lia]. right. revert Hf.
               destruct (Z.ltb_spec s P), (Z.ltb_spec (s - P) P); try lia.
               replace ((s - P) mod P) with (s mod P); [auto|].
               replace s with (s - P + 1 * P) at 1 by lia. now apply Z.mod_add; lia. }
      split; [exact J|].
      intros x Hx. apply begins_of_join with (n := P) (r := width t) (t := t); [lia|]. now apply J.
Qed.

(** ** All parts of a command with steps *)
Definition part_ok (ws : list Z) : Prop := Z.of_nat (length ws) = P /\ durations_ok ws.

Lemma parts_good t : 80 <= t < 65536 -> forall k s, 0 < s < 256 -> fits P s t ->
  s <= (P / 2) * Z.of_nat k -> forall x, begins x ->
  Forall part_ok (parts P k s t)
  /\ join (halves (concat (parts P k s t)) ++ x) = pulses s (width t) t ++ join x
  /\ begins (halves (concat (parts P k s t)) ++ x).
Proof.
  intros Ht. induction k as [|k IH]; intros s Hs Hf Hk x Hx; [lia|].
  cbn [parts]. unfold part. destruct (Z.eqb_spec s 0); [lia|].
  destruct (steps_part_good s t Hs Ht Hf) as (H1 & H2 & H3 & H4 & H5 & H6 & H7).
  set (r := steps_part P s t) in *. clearbody r. destruct r as [ws left]. cbn [fst snd] in *.
  destruct (Z.eqb_spec left 0) as [->|Hl].
  - cbn [concat]. rewrite app_nil_r. rewrite Z.sub_0_r in H6. split; [|split; auto].
    constructor; [split; assumption|constructor].
  - destruct H5 as [?|[Hf' Hn]]; [contradiction|].
    destruct (IH left ltac:(lia) Hf' ltac:(lia) x Hx) as (I1 & I2 & I3).
    cbn [concat]. rewrite halves_app, <- app_assoc. split; [|split].
    + constructor; [split; assumption|assumption].
    + rewrite H6 by assumption. rewrite I2. rewrite app_assoc, <- pulses_app by lia.
      do 2 f_equal. lia.
    + now apply H7.
Qed.

(** ** A pause *)
Lemma pause_good t : 2 * P <= t < 65536 ->
  part_ok (pause_part P t) /\ join (halves (pause_part P t)) = [(false, t)].
Proof.
  intros Ht.
  assert (HPr : 24 <= P <= 32) by (destruct HP as [-> | ->]; lia).
  pose proof (Z.div_mod t (2 * P) ltac:(lia)) as D. pose proof (Z.mod_pos_bound t (2 * P) ltac:(lia)) as M.
  assert (Hh : 1 <= t / (2 * P) <= 1366).
  { split; [apply Z.div_le_lower_bound; lia|].
    apply Z.div_le_upper_bound; [lia|]. nia. }
  assert (Eh : pause_half P t = t / (2 * P)) by (unfold pause_half; apply u16_id; lia).
  set (h := t / (2 * P)) in *. set (m := t mod (2 * P)) in *. clearbody h m.
  assert (Er : pause_rest P t = m + 2 * h).
  { unfold pause_rest. rewrite Eh. replace (t - 2 * (P - 1) * h) with (m + 2 * h) by lia. apply u16_id. lia. }
  pose proof (Z.div_mod (m + 2 * h) 2 ltac:(lia)) as D2. pose proof (Z.mod_pos_bound (m + 2 * h) 2 ltac:(lia)) as M2.
  set (f := (m + 2 * h) / 2) in *. set (o := (m + 2 * h) mod 2) in *.
  assert (El : u32 (pause_last P t) = f * 65536 + (f + o)).
  { unfold pause_last. rewrite Er. fold f. rewrite (u16_id (m + 2 * h - f)) by lia. rewrite u32_id by lia. lia. }
  clearbody f o.
  assert (Em : u32 (65537 * h) = h * 65536 + h) by (rewrite u32_id; lia).
  assert (EH : halves (pause_part P t) = concat (times (P - 1) [(false, h); (false, h)]) ++ [(false, f + o); (false, f)]).
  { unfold pause_part, pause_main. rewrite Eh, El, Em, halves_app, halves_times.
    rewrite !halves_sym by lia. now rewrite !half_low by lia. }
  split; [split|].
  - unfold pause_part, pause_main. rewrite app_length, times_length. cbn [length]. lia.
  - unfold durations_ok. rewrite EH. apply Forall_app. split.
    + unfold times. induction (Z.to_nat (P - 1)) as [|k IH]; [constructor|].
      cbn [repeat concat app]. repeat (constructor; [cbn [snd]; lia|]). exact IH.
    + repeat constructor; cbn [snd]; lia.
  - rewrite EH. rewrite times_S by lia. cbn [concat app].
    replace ((false, h) :: concat (times (P - 1 - 1) [(false, h); (false, h)]) ++ [(false, f + o); (false, f)])
      with (((false, h) :: concat (times (P - 1 - 1) [(false, h); (false, h)]) ++ [(false, f + o); (false, f)]) ++ [])
      by apply app_nil_r.
    rewrite join_lows.
    2:{ constructor; [reflexivity|]. apply Forall_app. split; [apply lows_times|]; repeat constructor. }
    cbn [join]. do 2 f_equal.
    change (total (?a :: ?b)) with (snd a + total b). rewrite total_app, total_times by lia.
    change (total [(false, h); (false, h)]) with (h + (h + 0)).
    change (total [(false, f + o); (false, f)]) with (f + o + (f + 0)). cbn [snd]. lia.
Qed.

(** ** A command *)
(** the command may be accepted by the queue: MIN_CMD_TICKS = 3200, at most 200000 steps/s *)
Definition accepted (s t : Z) : Prop :=
  0 <= s < 256 /\ 80 <= t < 65536 /\ 3200 <= (if s >? 1 then t * s else t).

(** the low phases of the stretched steps are long enough *)
Definition spread (s t : Z) : Prop :=
  s < P \/ s mod P = 0 \/ 4 * (P - (P + s mod P) / 2) < t / 2.
Lemma spread_slow s t : 4 * P + 2 <= t -> spread s t.
Proof.
  intros H. right. right.
  assert (HP2 : 2 * (P / 2) = P /\ 24 <= P <= 32) by (destruct HP as [-> | ->]; cbn; lia).
  pose proof (Z.mod_pos_bound s P ltac:(lia)).
  pose proof (Z.div_mod t 2 ltac:(lia)). pose proof (Z.mod_pos_bound t 2 ltac:(lia)).
  assert (P / 2 <= (P + s mod P) / 2) by (apply Z.div_le_mono; lia). lia.
Qed.
Lemma accepted_fits s t : accepted s t -> 0 < s -> spread s t -> fits P s t.
Proof.
  intros (H1 & H2 & H3) Hs Hc.
  assert (HPr : 24 <= P <= 32) by (destruct HP as [-> | ->]; lia).
  pose proof (Z.div_mod t 2 ltac:(lia)) as D. pose proof (Z.mod_pos_bound t 2 ltac:(lia)) as M.
  right. destruct (Z.ltb_spec s P) as [Hl|Hl].
  - assert (3200 <= t * s) by (destruct (Z.gtb_spec s 1); [lia|]; replace s with 1 in * by lia; lia).
    assert (Hq : 4 * (s * (P - s)) <= 1024).
    { assert (P * P <= 1024) by (destruct HP as [-> | ->]; lia).
      pose proof (Z.square_nonneg (P - 2 * s)) as Q.
      replace ((P - 2 * s) * (P - 2 * s)) with (P * P - 4 * (s * (P - s))) in Q by ring. lia. }
    destruct (Z_lt_le_dec (4 * (P - s)) (t / 2)) as [|Hb]; [assumption|exfalso].
    assert (Hm : t * s <= (8 * (P - s) + 1) * s) by (apply Z.mul_le_mono_nonneg_r; lia).
    replace ((8 * (P - s) + 1) * s) with (8 * (s * (P - s)) + s) in Hm by ring. lia.
  - destruct Hc as [Hc|Hc]; [lia|exact Hc].
Qed.

Lemma parts_pause n t : parts P (S n) 0 t = [pause_part P t].
Proof. reflexivity. Qed.
Theorem encoded_good s t : accepted s t -> spread s t ->
  Forall part_ok (encoded P s t)
  /\ signal (concat (encoded P s t)) = (if s =? 0 then [(false, t)] else pulses s (width t) t).
Proof.
  intros Ha Hc. pose proof Ha as (H1 & H2 & H3).
  assert (HPr : 24 <= P <= 32 /\ 12 <= P / 2) by (destruct HP as [-> | ->]; cbn; lia).
  unfold encoded, signal. destruct (Z.eqb_spec s 0) as [->|Hs].
  - destruct (pause_good t) as [Hp Hj]. { cbn in H3. lia. }
    rewrite parts_pause. cbn [concat]. rewrite app_nil_r. split; [|exact Hj].
    constructor; [exact Hp|constructor].
  - destruct (parts_good t H2 24 s ltac:(lia) (accepted_fits s t Ha ltac:(lia) Hc) ltac:(lia) [] begins_nil)
      as (I1 & I2 & _).
    rewrite !app_nil_r in I2. split; assumption.
Qed.

Lemma total_pulses n r t : 0 <= n -> total (pulses n r t) = n * t.
Proof.
  intros H. unfold pulses. rewrite total_times by assumption. unfold total. cbn [map snd fold_right]. f_equal. lia.
Qed.
Lemma rises_join l : forall b, rises b (join l) = rises b l.
Proof.
  induction l as [|[c d] l IH]; intros b; [reflexivity|]. cbn [join rises]. rewrite <- (IH c).
  destruct (join l) as [|[c' d'] l'].
  - reflexivity.
  - destruct (Bool.eqb c c') eqn:E; [|reflexivity]. apply eqb_prop in E. subst c'.
    cbn [rises]. rewrite andb_negb_r. lia.
Qed.
Lemma rises_pulses n r t : 0 <= n -> rises false (pulses n r t) = n.
Proof.
  intros H. unfold pulses, times.
  assert (K : forall k, rises false (concat (repeat [(true, r); (false, t - r)] k)) = Z.of_nat k).
  { induction k as [|k IH]; [reflexivity|]. cbn [repeat concat app rises andb negb]. rewrite IH. lia. }
  rewrite K. lia.
Qed.
Theorem encoded_counts s t : accepted s t -> spread s t ->
  rises false (halves (concat (encoded P s t))) = s
  /\ duration (concat (encoded P s t)) = (if s =? 0 then t else s * t).
Proof.
  intros Ha Hc. destruct (encoded_good s t Ha Hc) as [_ E]. unfold signal in E.
  unfold duration. set (ws := concat (encoded P s t)) in *. clearbody ws.
  rewrite <- (rises_join _ false).
  change (fold_right Z.add 0 (map snd ?l)) with (total l). rewrite <- total_join, E.
  pose proof Ha as (H1 & _). destruct (Z.eqb_spec s 0) as [->|].
  - cbn. split; [reflexivity|lia].
  - now rewrite rises_pulses, total_pulses by lia.
Qed.

(** ** The commands for which this fails *)
Lemma join_max l : Forall (fun h => 0 <= snd h) l ->
  Forall (fun h : bool * Z => 0 <= snd h) (join l) /\
  forall h, In h l -> exists h', In h' (join l) /\ snd h <= snd h'.
Proof.
  induction 1 as [|[b d] l Hd Hl [IH1 IH2]]; [split; [constructor|contradiction]|].
  cbn [join snd] in *. destruct (join l) as [|[b' d'] t'].
  - split; [constructor; [exact Hd|constructor]|]. intros h [<-|Hh].
    + eexists. split; [now left|]. lia.
    + destruct (IH2 _ Hh) as (h' & [] & _).
  - pose proof (Forall_inv IH1) as Hd'. cbn [snd] in Hd'. pose proof (Forall_inv_tail IH1) as Ht.
    destruct (Bool.eqb b b').
    + split; [constructor; [cbn [snd]; lia|exact Ht]|]. intros h [<-|Hh].
      * eexists. split; [now left|]. cbn [snd]. lia.
      * destruct (IH2 _ Hh) as (h' & [<-|K] & Hle).
        -- eexists. split; [now left|]. cbn [snd] in *. lia.
        -- exists h'. split; [now right|assumption].
    + split; [constructor; [exact Hd|exact IH1]|]. intros h [<-|Hh].
      * eexists. split; [now left|]. cbn [snd]. lia.
      * destruct (IH2 _ Hh) as (h' & K & Hle). exists h'. split; [now right|assumption].
Qed.
Lemma halves_in ws h l : In ws l -> In h (halves ws) -> In h (halves (concat l)).
Proof.
  intros H1 H2. unfold halves in *. apply in_flat_map in H2. destruct H2 as (w & Hw & Hh).
  apply in_flat_map. exists w. split; [|assumption]. apply in_concat. eauto.
Qed.
Lemma good_halves s t : accepted s t -> spread s t ->
  forall ws h, In ws (encoded P s t) -> In h (halves ws) -> 1 <= snd h <= t.
Proof.
  intros Ha Hc ws h Hw Hh. destruct (encoded_good s t Ha Hc) as [Hg Hs].
  assert (Hall : Forall (fun x : bool * Z => 1 <= snd x <= 32767) (halves (concat (encoded P s t)))).
  { apply Forall_forall. intros x Hx. unfold halves in Hx. apply in_flat_map in Hx.
    destruct Hx as (w & Hw' & Hx). apply in_concat in Hw'. destruct Hw' as (ws' & K1 & K2).
    pose proof (proj1 (Forall_forall _ _) Hg ws' K1) as [_ K3]. unfold durations_ok in K3.
    apply (proj1 (Forall_forall _ _) K3). unfold halves. apply in_flat_map. eauto. }
  pose proof (halves_in _ _ _ Hw Hh) as Hin.
  split; [apply (proj1 (Forall_forall _ _) Hall _ Hin)|].
  destruct (join_max (halves (concat (encoded P s t)))) as [_ J].
  { eapply Forall_impl; [|exact Hall]. cbn beta. intros. lia. }
  destruct (J h Hin) as (h' & J1 & J2). unfold signal in Hs. rewrite Hs in J1.
  destruct Ha as (A1 & A2 & A3). destruct (Z.eqb_spec s 0).
  - destruct J1 as [<-|[]]. exact J2.
  - assert (Hp : snd h' <= t).
    { unfold pulses in J1. apply in_concat in J1. destruct J1 as (x & J1 & J3).
      unfold times in J1. apply repeat_spec in J1. subst x.
      assert (0 <= width t <= t).
      { unfold width. destruct (Z.eqb_spec t 65535); [lia|].
        pose proof (Z.div_mod t 2 ltac:(lia)). pose proof (Z.mod_pos_bound t 2 ltac:(lia)). lia. }
      destruct J3 as [<-|[<-|[]]]; cbn [snd]; lia. }
    lia.
Qed.
Lemma halves_under t k : 0 <= t < 65535 -> 0 <= k <= 32 -> t / 2 <= 4 * k ->
  exists h, In h (halves [u32 (step_symbol t - u32 (Z.shiftl k 18))]) /\ (snd h = 0 \/ t < snd h).
Proof.
  intros H Hk Hd. rewrite step_symbol_eq by assumption.
  assert (H2 : 0 <= t / 2 <= 32767 /\ 0 <= t - t / 2 <= 32767 /\ t <= 2 * (t / 2) + 1).
  { pose proof (Z.div_mod t 2 ltac:(lia)). pose proof (Z.mod_pos_bound t 2 ltac:(lia)). lia. }
  destruct H2 as (Hl & Hr & Hb). set (l := t / 2) in *. set (r := t - l) in *.
  rewrite Z.shiftl_mul_pow2 by lia. change (2 ^ 18) with 262144.
  rewrite (u32_id (k * 262144)) by lia.
  destruct (Z.eq_dec l (4 * k)) as [E|E].
  - exists (false, 0). split; [|now left]. rewrite u32_id by lia.
    replace (l * 65536 + (32768 + r) - k * 262144) with (0 * 65536 + (32768 + r)) by lia.
    rewrite halves_sym by lia. right. left. reflexivity.
  - exists (true, 32768 + (l - 4 * k)). split; [|right; cbn [snd]; lia].
    replace (u32 (l * 65536 + (32768 + r) - k * 262144))
      with ((32768 + (32768 + (l - 4 * k))) * 65536 + (32768 + r)).
    2:{ unfold u32. replace (l * 65536 + (32768 + r) - k * 262144)
          with ((32768 + (32768 + (l - 4 * k))) * 65536 + (32768 + r) + (-1) * 4294967296) by lia.
        rewrite Z.mod_add, Z.mod_small by lia. reflexivity. }
    rewrite halves_sym by lia. right. left. apply half_high. lia.
Qed.
Lemma bad_halves t : 80 <= t < 65535 -> forall k s, P <= s < 256 -> s mod P <> 0 ->
  t / 2 <= 4 * (P - (P + s mod P) / 2) -> s <= (P / 2) * Z.of_nat k ->
  exists ws h, In ws (parts P k s t) /\ In h (halves ws) /\ (snd h = 0 \/ t < snd h).
Proof.
  intros Ht. assert (HP2 : 2 * (P / 2) = P /\ 24 <= P <= 32) by (destruct HP as [-> | ->]; cbn; lia).
  induction k as [|k IH]; intros s Hs Hm Hb Hk; [lia|].
  assert (HsP : s <> P) by (intros ->; apply Hm, Z.mod_same; lia).
  cbn [parts]. unfold part. destruct (Z.eqb_spec s 0); [lia|].
  unfold steps_part. destruct (Z.eqb_spec t 65535); [lia|].
  destruct (Z.ltb_spec s (2 * P)) as [Hl|Hl].
  - destruct (Z.eqb_spec s P); [lia|]. cbn [andb negb].
    destruct (Z.gtb_spec s P); [|lia].
    assert (Em : s mod P = s - P).
    { replace s with (s - P + 1 * P) at 1 by lia. rewrite Z.mod_add, Z.mod_small by lia. reflexivity. }
    rewrite Em in Hb. replace (P + (s - P)) with s in Hb by lia.
    pose proof (Z.div_mod s 2 ltac:(lia)). pose proof (Z.mod_pos_bound s 2 ltac:(lia)).
    destruct (halves_under t (P - s / 2)) as (h & Hh & Hc); [lia|lia|lia|].
    cbn [fst snd]. eexists. exists h. split; [now left|]. split; [|exact Hc].
    rewrite !halves_app. apply in_or_app. right. apply in_or_app. left. exact Hh.
  - cbn [andb fst snd]. rewrite u8_id by lia. destruct (Z.eqb_spec (s - P) 0); [lia|].
    assert (Em : (s - P) mod P = s mod P).
    { replace s with (s - P + 1 * P) at 2 by lia. symmetry. apply Z.mod_add. lia. }
    destruct (IH (s - P)) as (ws & h & I1 & I2 & I3); [lia|congruence|congruence|lia|].
    exists ws, h. split; [now right|]. auto.
Qed.
Theorem encoded_iff s t : accepted s t ->
  ((forall ws h, In ws (encoded P s t) -> In h (halves ws) -> 1 <= snd h <= t) <-> spread s t).
Proof.
  intros Ha. split; [|intros Hc ws h; now apply good_halves].
  intros H. assert (HP2 : 2 * (P / 2) = P /\ 24 <= P <= 32) by (destruct HP as [-> | ->]; cbn; lia).
  unfold spread. destruct (Z_lt_le_dec s P); [now left|]. right.
  destruct (Z.eq_dec (s mod P) 0); [now left|]. right.
  destruct (Z_lt_le_dec (4 * (P - (P + s mod P) / 2)) (t / 2)) as [|Hb]; [assumption|exfalso].
  destruct Ha as (A1 & A2 & A3).
  pose proof (Z.mod_pos_bound s P ltac:(lia)).
  assert (P / 2 <= (P + s mod P) / 2) by (apply Z.div_le_mono; lia).
  pose proof (Z.div_mod t 2 ltac:(lia)). pose proof (Z.mod_pos_bound t 2 ltac:(lia)).
  destruct (bad_halves t ltac:(lia) 24 s ltac:(lia) n Hb ltac:(lia)) as (ws & h & B1 & B2 & B3).
  specialize (H ws h B1 B2). lia.
Qed.
End Part.
