(** * RmtV4Facts: the symbols of one command, ESP-IDF 4 RMT driver *)
From Coq Require Import ZArith Bool List Lia ZifyBool.
From Verif Require Import Base Queue QueueHist Rmt RmtFacts RmtV4.
Import ListNotations.
Open Scope Z_scope.
Ltac Zify.zify_post_hook ::= idtac.

(** ** When the edges come *)
(** Times of the rising edges; the level before is [lvl], the signal begins at [now]. *)
Fixpoint rise_times (now : Z) (lvl : bool) (l : list (bool * Z)) : list Z :=
  match l with
  | [] => []
  | (b, d) :: t => (if b && negb lvl then [now] else []) ++ rise_times (now + d) b t
  end.
(** [n] times, [t] ticks apart *)
Fixpoint grid (n : nat) (now t : Z) : list Z :=
  match n with O => [] | S n' => now :: grid n' (now + t) t end.

Lemma rises_count l : forall now b, Z.of_nat (length (rise_times now b l)) = rises b l.
Proof.
  induction l as [|[b d] l IH]; intros now lvl; [reflexivity|].
  cbn [rise_times rises]. rewrite app_length. specialize (IH (now + d) b).
  destruct (b && negb lvl); cbn [length]; lia.
Qed.
Lemma grid_length n now t : length (grid n now t) = n.
Proof. revert now. induction n; intros; cbn; auto. Qed.
Lemma grid_app n m now t : grid (n + m) now t = grid n now t ++ grid m (now + Z.of_nat n * t) t.
Proof.
  revert now. induction n as [|n IH]; intros now; cbn [grid app Nat.add].
  - f_equal. lia.
  - rewrite IH. do 3 f_equal. lia.
Qed.
Lemma total_cons b d l : total ((b, d) :: l) = d + total l.
Proof. reflexivity. Qed.
Lemma rt_lows l : lows l -> forall now x,
  rise_times now false (l ++ x) = rise_times (now + total l) false x.
Proof.
  induction 1 as [|[b d] l Hb Hl IH]; intros now x; cbn [app].
  - unfold total. cbn. f_equal. lia.
  - cbn [fst] in Hb. subst b. cbn [rise_times andb app]. rewrite IH, total_cons. f_equal. lia.
Qed.
Lemma rt_pulse a b now x :
  rise_times now false ((true, a) :: (false, b) :: x) = now :: rise_times (now + (a + b)) false x.
Proof. cbn [rise_times andb negb app]. do 2 f_equal. lia. Qed.
Lemma rt_pulses k a b now x :
  rise_times now false (concat (times k [(true, a); (false, b)]) ++ x)
  = grid (Z.to_nat k) now (a + b) ++ rise_times (now + Z.of_nat (Z.to_nat k) * (a + b)) false x.
Proof.
  unfold times. revert now. induction (Z.to_nat k) as [|n IH]; intros now.
  - cbn. f_equal. lia.
  - cbn [repeat concat app grid]. rewrite rt_pulse, IH. do 3 f_equal. lia.
Qed.
Lemma ok_word a b : 1 <= a < 32768 -> 1 <= b < 32768 -> durations_ok [b * 65536 + a].
Proof.
  intros Ha Hb. unfold durations_ok. rewrite halves_sym by lia.
  rewrite !half_low by lia. repeat constructor; cbn [snd]; lia.
Qed.
Lemma lor_pair l r : 0 <= l -> 0 <= r < 65536 -> Z.lor (l * 65536) r = l * 65536 + r.
Proof.
  intros Hl Hr. assert (D : Z.land (l * 65536) r = 0).
  { change 65536 with (2 ^ 16). apply Z.bits_inj'. intros n Hn. rewrite Z.land_spec, Z.bits_0.
    destruct (Z.ltb_spec n 16).
    - rewrite Z.mul_pow2_bits_low by lia. reflexivity.
    - replace (Z.testbit r n) with false; [apply andb_false_r|].
      symmetry. rewrite Z.testbit_eqb by lia. rewrite Z.div_small; [reflexivity|].
      split; [lia|]. apply Z.lt_le_trans with (2 ^ 16); [change (2 ^ 16) with 65536; lia|].
      apply Z.pow_le_mono_r; lia. }
  rewrite <- Z.lxor_lor by exact D. rewrite <- Z.add_nocarry_lxor by exact D. reflexivity.
Qed.

Section Part.
Variable N : bool.
Notation P := (psize N).

(** What is on air while a part is sent: the old hardware adds a tick at the end of the memory. *)
Definition lost (two : bool) : Z := if two && negb N then 1 else 0.
Definition on_air (two : bool) (ws : list Z) : list (bool * Z) :=
  halves ws ++ (if two && negb N then [(false, 1)] else []).

Lemma psize_cases : P = 23 /\ N = true \/ P = 31 /\ N = false.
Proof. destruct N; auto. Qed.
Lemma fin_halves two a b : 1 <= a < 65536 -> 0 <= b < 65536 ->
  halves [fin N two (b * 65536 + a)] = [half (a - lost two); half b].
Proof.
  intros Ha Hb. unfold fin, lost. destruct (two && negb N).
  - rewrite u32_id by lia. replace (b * 65536 + a - 1) with (b * 65536 + (a - 1)) by lia.
    rewrite halves_sym by lia. reflexivity.
  - rewrite halves_sym by lia. rewrite Z.sub_0_r. reflexivity.
Qed.
Lemma tail_lows two : lows (if two && negb N then [(false, 1)] else [])
  /\ total (if two && negb N then [(false, 1)] else []) = lost two.
Proof. unfold lost. destruct (two && negb N); split; try reflexivity; repeat constructor. Qed.

(** the last step of a part is shortened by [ext n] ticks *)
Definition ext (n : Z) : Z := if N then 4 * (P - n) + 8 else 4 * (P - n).
Lemma delta_eq n : 0 <= n <= P -> v4_delta N n = ext n * 65536.
Proof.
  intros Hn. unfold v4_delta, ext. destruct psize_cases as [[E EN]|[E EN]]; rewrite E in *; rewrite EN;
    rewrite Z.shiftl_mul_pow2 by lia.
  - change (2 ^ 16) with 65536. rewrite u32_id by lia. lia.
  - change (2 ^ 18) with 262144. rewrite u32_id by lia. lia.
Qed.
Lemma halves_shortened t n : 0 <= t < 65535 -> 0 <= n <= P -> ext n <= t / 2 ->
  halves [u32 (step_symbol t - v4_delta N n)] = [(true, t - t / 2); (false, t / 2 - ext n)].
Proof.
  intros H Hn Hd. rewrite step_symbol_eq, delta_eq by assumption.
  assert (H2 : 0 <= t / 2 <= 32767 /\ 0 <= t - t / 2 <= 32767).
  { pose proof (Z.div_mod t 2 ltac:(lia)). pose proof (Z.mod_pos_bound t 2 ltac:(lia)). lia. }
  assert (0 <= ext n) by (unfold ext; destruct N; lia).
  rewrite u32_id by lia.
  replace (t / 2 * 65536 + (32768 + (t - t / 2)) - ext n * 65536)
    with ((t / 2 - ext n) * 65536 + (32768 + (t - t / 2))) by lia.
  rewrite halves_sym by lia. rewrite half_high, half_low by lia. reflexivity.
Qed.

(** the steps of a command fit into the parts *)
Definition fits4 (s t : Z) : Prop :=
  if t =? 65535 then s < P / 2
  else if s <? P then ext s < t / 2
  else s mod P = 0 \/ ext ((P + s mod P) / 2) < t / 2.
(** The new driver makes parts 4 ticks too short, if they have less than PART_SIZE steps. *)
Definition short (n t : Z) : Z := if N && negb (t =? 65535) && negb (n =? P) then 4 else 0.

Definition good4 (two : bool) (s t : Z) (r : list Z * Z) : Prop :=
  let n := s - snd r in
  0 < n <= P /\ 0 <= snd r /\ Z.of_nat (length (fst r)) = P /\ durations_ok (fst r)
  /\ (snd r = 0 \/ fits4 (snd r) t /\ P / 2 <= n)
  /\ (forall now x, rise_times now false (on_air two (fst r) ++ x)
        = grid (Z.to_nat n) now t ++ rise_times (now + n * t - short n t) false x)
  /\ total (on_air two (fst r)) = n * t - short n t.

Lemma rt_longs k now x :
  rise_times now false (concat (times k (halves long_step)) ++ x)
  = grid (Z.to_nat k) now 65535 ++ rise_times (now + Z.of_nat (Z.to_nat k) * 65535) false x.
Proof.
  rewrite long_spec. unfold times. revert now. induction (Z.to_nat k) as [|n IH]; intros now.
  - cbn. f_equal. lia.
  - cbn [repeat concat app grid rise_times andb negb]. rewrite IH.
    f_equal. f_equal; [f_equal; lia|]. f_equal. lia.
Qed.
Lemma total_longs k : 0 <= k -> total (concat (times k (halves long_step))) = k * 65535.
Proof. intros H. rewrite total_times by assumption. reflexivity. Qed.

Lemma steps4_good two s t : 0 < s < 256 -> 80 <= t < 65536 -> fits4 s t -> good4 two s t (v4_steps N two s t).
Proof.
  intros Hs Ht Hf.
  assert (HP : (P = 23 \/ P = 31) /\ 2 * (P / 2) = P - 1).
  { destruct psize_cases as [[E _]|[E _]]; rewrite E; cbn; lia. }
  destruct HP as [HPc HP2].
  destruct (tail_lows two) as [TL1 TL2].
  assert (HL : 0 <= lost two <= 1) by (unfold lost; destruct (two && negb N); lia).
  unfold v4_steps. revert Hf. unfold fits4. destruct (Z.eqb_spec t 65535) as [->|Hn]; intros Hf.
  - destruct (Z.ltb_spec s (P / 2)); [|lia].
    assert (EL : u32 (536879104 - u16 (Z.shiftl (u16 (P - 2 * s)) 5))
                 = 8192 * 65536 + (8192 - 32 * (P - 2 * s))).
    { rewrite Z.shiftl_mul_pow2 by lia. change (2 ^ 5) with 32.
      rewrite (u16_id (P - 2 * s)) by lia. rewrite u16_id by lia. rewrite u32_id by lia. lia. }
    unfold good4. cbn [fst snd]. rewrite Z.sub_0_r.
    assert (Es : short s 65535 = 0) by (unfold short; cbn; now rewrite andb_false_r). rewrite Es.
    set (l := (false, 8192 - 32 * (P - 2 * s)) :: (false, 8192)
              :: concat (times (P - 1 - 2 * s) [(false, 16); (false, 16)])
                 ++ [(false, 16 - lost two); (false, 16)]).
    assert (EH : halves (concat (times (s - 1) long_step)
         ++ [Z.lor 1073774591 32768; u32 (536879104 - u16 (Z.shiftl (u16 (P - 2 * s)) 5))]
         ++ times (P - 1 - 2 * s) 1048592 ++ [fin N two 1048592])
       = concat (times (s - 1) (halves long_step)) ++ (true, 32767) :: (false, 16384) :: l).
    { rewrite halves_app, halves_times_list. f_equal.
      change [Z.lor 1073774591 32768; u32 (536879104 - u16 (Z.shiftl (u16 (P - 2 * s)) 5))]
        with ([Z.lor 1073774591 32768] ++ [u32 (536879104 - u16 (Z.shiftl (u16 (P - 2 * s)) 5))]).
      rewrite !halves_app, EL, halves_times, halves_sym by lia.
      change 1048592 with (16 * 65536 + 16). rewrite fin_halves by lia.
      rewrite !half_low by lia. reflexivity. }
    assert (LL : lows l).
    { unfold l. repeat (constructor; [reflexivity|]). apply Forall_app. split.
      - apply lows_times. repeat constructor.
      - repeat constructor. }
    assert (LT : total l = 16384 - lost two).
    { unfold l. rewrite !total_cons, total_app, total_times by lia. rewrite !total_cons.
      change (total []) with 0. lia. }
    split; [lia|]. split; [lia|]. split.
    { rewrite !app_length, concat_times_length, times_length. cbn [length long_step]. lia. }
    split.
    { unfold durations_ok. rewrite EH. apply Forall_app. split.
      - rewrite <- halves_times_list. apply ok_times. repeat constructor; cbn; lia.
      - unfold l. repeat (constructor; [cbn [snd]; lia|]).
        apply Forall_app. split.
        + unfold times. induction (Z.to_nat (P - 1 - 2 * s)) as [|k IH]; [constructor|].
          cbn [repeat concat]. repeat (constructor; [cbn [snd]; lia|]). exact IH.
        + repeat constructor; cbn [snd]; lia. }
    split; [now left|]. unfold on_air. rewrite EH. split.
    + intros now x. rewrite <- !app_assoc. rewrite rt_longs. cbn [app]. rewrite rt_pulse.
      rewrite rt_lows by exact LL. rewrite rt_lows by exact TL1. rewrite LT, TL2.
      replace (Z.to_nat s) with (Z.to_nat (s - 1) + 1)%nat by lia. rewrite grid_app.
      rewrite <- app_assoc. f_equal. cbn [grid app]. f_equal. f_equal. lia.
    + rewrite !total_app, total_longs by lia. rewrite !total_cons, LT, TL2. lia.
  - assert (Ht2 : 0 <= t < 65535) by lia.
    assert (Hh : 40 <= t / 2 <= 32767 /\ 40 <= t - t / 2 <= 32767).
    { pose proof (Z.div_mod t 2 ltac:(lia)). pose proof (Z.mod_pos_bound t 2 ltac:(lia)). lia. }
    destruct Hh as [Hh Hr].
    assert (OK1 : durations_ok [step_symbol t]).
    { unfold durations_ok. rewrite halves_step by assumption. repeat constructor; cbn [snd]; lia. }
    destruct ((s <? 2 * P) && negb (s =? P)) eqn:E.
    + set (n := if s >? P then s / 2 else s).
      assert (Hn1 : 0 < n < P /\ n <= s /\ ext n < t / 2 /\
                    (s - n = 0 \/ (s - n <= P /\ ext (s - n) < t / 2 /\ P / 2 <= n))).
      { assert (E' : s < 2 * P /\ s <> P) by lia. unfold n. revert Hf. destruct (Z.gtb_spec s P).
        - destruct (Z.ltb_spec s P); [lia|].
          assert (Em : s mod P = s - P).
          { replace s with (s - P + 1 * P) at 1 by lia. rewrite Z.mod_add, Z.mod_small by lia. reflexivity. }
          rewrite Em. replace (P + (s - P)) with s by lia. intros Hf.
          pose proof (Z.div_mod s 2 ltac:(lia)). pose proof (Z.mod_pos_bound s 2 ltac:(lia)).
          unfold ext in *. destruct N; lia.
        - destruct (Z.ltb_spec s P); lia. }
      clearbody n. destruct Hn1 as (Hn1 & Hn2 & Hn3 & Hn4).
      assert (He0 : 4 * (P - n) <= ext n) by (unfold ext; destruct N; lia).
      unfold good4. cbn [fst snd]. rewrite u8_id by lia. replace (s - (s - n)) with n by lia.
      assert (Es : short n t = if N then 4 else 0).
      { unfold short. destruct (Z.eqb_spec t 65535); [contradiction|].
        destruct (Z.eqb_spec n P); [lia|]. destruct N; reflexivity. }
      set (fl := if N then 4 else 2).
      set (l := concat (times (P - 1 - n) [(false, 2); (false, 2)]) ++ [(false, fl - lost two); (false, fl)]).
      assert (EH : halves (times (n - 1) (step_symbol t) ++ [u32 (step_symbol t - v4_delta N n)]
           ++ times (P - 1 - n) 131074 ++ [fin N two (v4_filler N)])
         = concat (times (n - 1) [(true, t - t / 2); (false, t - (t - t / 2))])
           ++ (true, t - t / 2) :: (false, t / 2 - ext n) :: l).
      { rewrite !halves_app, !halves_times, halves_shortened, halves_step by lia.
        assert (Ef : v4_filler N = fl * 65536 + fl) by (unfold v4_filler, fl; destruct N; reflexivity).
        assert (Hfl : 2 <= fl <= 4) by (unfold fl; destruct N; lia).
        rewrite Ef, fin_halves by lia. rewrite !half_low by lia.
        change (halves [131074]) with [(false, 2); (false, 2)]. reflexivity. }
      assert (LL : lows l).
      { apply Forall_app. split; [apply lows_times|]; repeat constructor. }
      assert (LT : total l = ext n - lost two - short n t).
      { unfold l. rewrite total_app, total_times by lia. rewrite !total_cons. change (total []) with 0.
        rewrite Es. unfold ext, fl. destruct N; lia. }
      split; [lia|]. split; [lia|]. split.
      { rewrite !app_length, !times_length. cbn [length]. lia. }
      split.
      { unfold durations_ok. rewrite EH. apply Forall_app. split.
        - unfold times. induction (Z.to_nat (n - 1)) as [|k IH]; [constructor|].
          cbn [repeat concat app]. repeat (constructor; [cbn [snd]; lia|]). exact IH.
        - constructor; [cbn [snd]; lia|]. constructor; [cbn [snd]; lia|]. apply Forall_app. split.
          + unfold times. induction (Z.to_nat (P - 1 - n)) as [|k IH]; [constructor|].
            cbn [repeat concat app]. repeat (constructor; [cbn [snd]; lia|]). exact IH.
          + unfold fl. destruct N; repeat constructor; cbn [snd]; lia. }
      split. { destruct Hn4 as [?|(Ha & Hb & Hc)]; [now left|]. right. split; [|exact Hc].
               unfold fits4. destruct (Z.eqb_spec t 65535); [contradiction|].
               destruct (Z.ltb_spec (s - n) P); [lia|]. left. replace (s - n) with P by lia.
               apply Z.mod_same. lia. }
      unfold on_air. rewrite EH. split.
      * intros now x. rewrite <- !app_assoc. rewrite rt_pulses. cbn [app]. rewrite rt_pulse.
        rewrite rt_lows by exact LL. rewrite rt_lows by exact TL1. rewrite LT, TL2.
        replace (Z.to_nat n) with (Z.to_nat (n - 1) + 1)%nat by lia. rewrite grid_app.
        rewrite <- app_assoc. replace (t - t / 2 + (t - (t - t / 2))) with t by lia.
        rewrite !Z2Nat.id by lia. f_equal. cbn [grid app]. f_equal. f_equal. lia.
      * rewrite !total_app, total_times by lia. rewrite !total_cons, LT, TL2. change (total []) with 0. lia.
    + assert (E' : s >= 2 * P \/ s = P) by lia.
      unfold good4. cbn [fst snd]. rewrite u8_id by lia. replace (s - (s - P)) with P by lia.
      assert (Es : short P t = 0) by (unfold short; rewrite Z.eqb_refl; cbn [negb]; now rewrite andb_false_r). rewrite Es.
      assert (EH : halves (times (P - 1) (step_symbol t) ++ [fin N two (step_symbol t)])
         = concat (times (P - 1) [(true, t - t / 2); (false, t - (t - t / 2))])
           ++ [(true, t - t / 2 - lost two); (false, t / 2)]).
      { rewrite halves_app, halves_times, halves_step by lia. f_equal.
        rewrite step_symbol_eq by lia. rewrite fin_halves by lia.
        replace (32768 + (t - t / 2) - lost two) with (32768 + (t - t / 2 - lost two)) by lia.
        rewrite half_high, half_low by lia. reflexivity. }
      split; [lia|]. split; [lia|]. split.
      { rewrite app_length, times_length. cbn [length]. lia. }
      split.
      { unfold durations_ok. rewrite EH. apply Forall_app. split.
        - unfold times. induction (Z.to_nat (P - 1)) as [|k IH]; [constructor|].
          cbn [repeat concat app]. repeat (constructor; [cbn [snd]; lia|]). exact IH.
        - repeat constructor; cbn [snd]; lia. }
      split. { destruct E' as [?| ->]; [right|left; lia]. split; [|lia]. unfold fits4.
               destruct (Z.eqb_spec t 65535); [contradiction|]. revert Hf.
               destruct (Z.ltb_spec s P), (Z.ltb_spec (s - P) P); try lia.
               replace ((s - P) mod P) with (s mod P); [auto|].
               replace s with (s - P + 1 * P) at 1 by lia. now apply Z.mod_add; lia. }
      unfold on_air. rewrite EH. split.
      * intros now x. rewrite <- !app_assoc. rewrite rt_pulses. cbn [app]. rewrite rt_pulse.
        rewrite rt_lows by exact TL1. rewrite TL2.
        replace (Z.to_nat P) with (Z.to_nat (P - 1) + 1)%nat by lia. rewrite grid_app.
        rewrite <- app_assoc. replace (t - t / 2 + (t - (t - t / 2))) with t by lia.
        rewrite !Z2Nat.id by lia. f_equal. cbn [grid app]. f_equal. f_equal. lia.
      * rewrite !total_app, total_times by lia. rewrite !total_cons, TL2. change (total []) with 0. lia.
Qed.

(** ** A pause *)
Lemma pair_eq t : 0 <= t < 65535 -> pair_symbol t = t / 2 * 65536 + (t - t / 2).
Proof.
  intros H. unfold pair_symbol. rewrite Z.shiftr_div_pow2, Z.shiftl_mul_pow2 by lia.
  change (2 ^ 1) with 2. change (2 ^ 16) with 65536.
  pose proof (Z.div_mod t 2 ltac:(lia)). pose proof (Z.mod_pos_bound t 2 ltac:(lia)).
  rewrite u32_id, u16_id by lia. apply lor_pair; lia.
Qed.
Lemma lows_rep n h : 0 <= h < 32768 -> lows (halves (times n (h * 65536 + h))).
Proof.
  intros H. rewrite halves_times, halves_sym by lia. rewrite half_low by lia.
  apply lows_times. repeat constructor.
Qed.
Lemma pause4_good two t : 200 <= t < 65536 ->
  Z.of_nat (length (v4_pause N two t)) = P /\ durations_ok (v4_pause N two t)
  /\ lows (halves (v4_pause N two t)) /\ total (on_air two (v4_pause N two t)) = t.
Proof.
  intros Ht. destruct (tail_lows two) as [TL1 TL2].
  assert (HL : 0 <= lost two <= 1) by (unfold lost; destruct (two && negb N); lia).
  unfold on_air. destruct psize_cases as [[E EN]|[E EN]]; rewrite E.
  - set (d := t - 92).
    assert (EV : v4_pause N two t = [pair_symbol d] ++ times (23 - 2) 131074 ++ [fin N two 262148]).
    { unfold v4_pause. rewrite E. replace (t - ((23 - 2) * 4 + 8)) with d by (unfold d; lia).
      rewrite (u16_id d) by (unfold d; lia). now rewrite EN at 1. }
    rewrite EV. assert (Hd : 108 <= d < 65444) by lia.
    pose proof (Z.div_mod d 2 ltac:(lia)). pose proof (Z.mod_pos_bound d 2 ltac:(lia)).
    assert (EH : halves ([pair_symbol d] ++ times (23 - 2) 131074 ++ [fin N two 262148])
       = (false, d - d / 2) :: (false, d / 2) :: concat (times 21 [(false, 2); (false, 2)])
          ++ [(false, 4 - lost two); (false, 4)]).
    { rewrite !halves_app, pair_eq, halves_times by lia. rewrite halves_sym by lia.
      change 262148 with (4 * 65536 + 4). rewrite fin_halves by lia. rewrite !half_low by lia. reflexivity. }
    rewrite EH. split.
    { rewrite !app_length, times_length. cbn [length]. lia. }
    split.
    { unfold durations_ok. rewrite EH. constructor; [cbn [snd]; lia|]. constructor; [cbn [snd]; lia|].
      apply Forall_app. split; [|repeat constructor; cbn [snd]; lia].
      change (times 21 [(false, 2); (false, 2)]) with (repeat [(false, 2); (false, 2)] 21).
      cbn [repeat concat app]. repeat constructor; cbn [snd]; lia. }
    split.
    { constructor; [reflexivity|]. constructor; [reflexivity|]. apply Forall_app.
      split; [apply lows_times|]; repeat constructor. }
    rewrite total_app, TL2, !total_cons, total_app, total_times, !total_cons by lia.
    change (total []) with 0. lia.
  - set (d := t - 90).
    assert (EV : v4_pause N two t = times (31 - 1) 65538 ++ [fin N two (pair_symbol d)]).
    { unfold v4_pause. rewrite E. replace (t - 3 * (31 - 1)) with d by (unfold d; lia).
      rewrite (u16_id d) by (unfold d; lia). now rewrite EN at 1. }
    rewrite EV. assert (Hd : 110 <= d < 65446) by lia.
    pose proof (Z.div_mod d 2 ltac:(lia)). pose proof (Z.mod_pos_bound d 2 ltac:(lia)).
    assert (EH : halves (times (31 - 1) 65538 ++ [fin N two (pair_symbol d)])
       = concat (times 30 [(false, 2); (false, 1)]) ++ [(false, d - d / 2 - lost two); (false, d / 2)]).
    { rewrite halves_app, pair_eq, halves_times by lia. rewrite fin_halves by lia.
      rewrite !half_low by lia. reflexivity. }
    rewrite EH. split.
    { rewrite !app_length, times_length. cbn [length]. lia. }
    split.
    { unfold durations_ok. rewrite EH.
      apply Forall_app. split; [|repeat constructor; cbn [snd]; lia].
      change (times 30 [(false, 2); (false, 1)]) with (repeat [(false, 2); (false, 1)] 30).
      cbn [repeat concat app]. repeat constructor; cbn [snd]; lia. }
    split.
    { apply Forall_app. split; [apply lows_times|]; repeat constructor. }
    rewrite total_app, TL2, total_app, total_times, !total_cons by lia.
    change (total []) with 0. lia.
Qed.

(** ** All parts of a command *)
(** what is on air while the parts are sent *)
Definition air (l : list (bool * list Z)) : list (bool * Z) :=
  concat (map (fun p => on_air (fst p) (snd p)) l).
Definition part4_ok (p : bool * list Z) : Prop :=
  Z.of_nat (length (snd p)) = P /\ durations_ok (snd p).
(** number of parts with less than PART_SIZE steps made by the new driver *)
Fixpoint short_parts (l : list (bool * list Z)) : Z :=
  match l with
  | [] => 0
  | p :: t => (if N && negb (rises false (halves (snd p)) =? P) then 1 else 0) + short_parts t
  end.

Lemma good4_rises two s t r : good4 two s t r -> rises false (halves (fst r)) = s - snd r.
Proof.
  intros (G1 & G2 & _ & _ & _ & G6 & _). specialize (G6 0 []). rewrite app_nil_r in G6.
  assert (E : rises false (on_air two (fst r)) = rises false (halves (fst r))).
  { unfold on_air. destruct (two && negb N); [|now rewrite app_nil_r].
    generalize false at 1 3. induction (halves (fst r)) as [|[b d] l IH]; intros lv; [reflexivity|].
    cbn [app rises]. now rewrite IH. }
  rewrite <- E, <- (rises_count _ 0), G6. cbn [rise_times]. rewrite app_nil_r, grid_length. lia.
Qed.

Lemma parts4_good t : 80 <= t < 65536 -> forall k two s, 0 < s < 256 -> fits4 s t ->
  s <= (P / 2) * Z.of_nat k -> forall now,
  Forall part4_ok (v4_parts N k two s t)
  /\ (t < 65535 -> total (air (v4_parts N k two s t)) = s * t - 4 * short_parts (v4_parts N k two s t))
  /\ (N = false \/ t = 65535 -> rise_times now false (air (v4_parts N k two s t)) = grid (Z.to_nat s) now t
                   /\ total (air (v4_parts N k two s t)) = s * t)
  /\ Z.of_nat (length (rise_times now false (air (v4_parts N k two s t)))) = s.
Proof.
  intros Ht. induction k as [|k IH]; intros two s Hs Hf Hk now; [lia|].
  cbn [v4_parts]. unfold v4_part. destruct (Z.eqb_spec s 0); [lia|].
  pose proof (steps4_good two s t Hs Ht Hf) as G. pose proof (good4_rises _ _ _ _ G) as GR.
  destruct G as (H1 & H2 & H3 & H4 & H5 & H6 & H7).
  set (r := v4_steps N two s t) in *. clearbody r. destruct r as [ws left]. cbn [fst snd] in *.
  assert (Sh : t < 65535 -> short (s - left) t = 4 * (if N && negb (s - left =? P) then 1 else 0)).
  { intros Hlt. unfold short. destruct (Z.eqb_spec t 65535); [lia|]. rewrite andb_true_r.
    destruct (N && negb (s - left =? P)); reflexivity. }
  assert (Sz : N = false \/ t = 65535 -> short (s - left) t = 0).
  { unfold short. intros [-> | ->]; [reflexivity|]. cbn. now rewrite andb_false_r. }
  destruct (Z.eqb_spec left 0) as [->|Hl].
  - rewrite Z.sub_0_r in *. unfold air. cbn [map concat fst snd short_parts]. rewrite app_nil_r.
    rewrite GR. split; [repeat constructor; assumption|].
    specialize (H6 now []). cbn [rise_times] in H6. rewrite !app_nil_r in H6.
    split; [|split].
    + intros Hlt. rewrite H7, Sh by assumption. lia.
    + intros Hz. rewrite H6, H7, Sz by assumption. split; [reflexivity|lia].
    + rewrite H6, grid_length. lia.
  - destruct H5 as [?|[Hf' Hn]]; [contradiction|].
    destruct (IH (negb two) left ltac:(lia) Hf' ltac:(lia) (now + (s - left) * t - short (s - left) t))
      as (I1 & I2 & I3 & I4).
    set (rest := v4_parts N k (negb two) left t) in *. clearbody rest.
    change (air ((two, ws) :: rest)) with (on_air two ws ++ air rest).
    cbn [short_parts fst snd]. rewrite GR, H6, total_app, H7.
    split; [constructor; [split; assumption|assumption]|]. split; [|split].
    + intros Hlt. rewrite (I2 Hlt), Sh by assumption. lia.
    + intros Hz. destruct (I3 Hz) as [-> ->]. rewrite (Sz Hz).
      replace (Z.to_nat s) with (Z.to_nat (s - left) + Z.to_nat left)%nat by lia. rewrite grid_app.
      split; [do 2 f_equal; lia|lia].
    + rewrite app_length, grid_length. lia.
Qed.

(** commands for which the parts come out right *)
Definition spread4 (s t : Z) : Prop :=
  if t =? 65535 then s < P / 2
  else s < P \/ s mod P = 0 \/ ext ((P + s mod P) / 2) < t / 2.
Lemma spread4_slow s t : 4 * P + 22 <= t < 65535 -> spread4 s t.
Proof.
  intros H. unfold spread4. destruct (Z.eqb_spec t 65535); [lia|]. right. right.
  assert (HPc : P = 23 \/ P = 31) by (destruct psize_cases as [[E _]|[E _]]; lia).
  pose proof (Z.mod_pos_bound s P ltac:(lia)).
  pose proof (Z.div_mod t 2 ltac:(lia)). pose proof (Z.mod_pos_bound t 2 ltac:(lia)).
  assert (P / 2 <= (P + s mod P) / 2) by (apply Z.div_le_mono; lia).
  assert (P - 1 <= 2 * (P / 2)) by (destruct HPc as [-> | ->]; cbn; lia).
  unfold ext. destruct psize_cases as [[E EN]|[E EN]]; rewrite E in *; rewrite EN; lia.
Qed.
Lemma accepted_fits4 s t : accepted s t -> 0 < s -> spread4 s t -> fits4 s t.
Proof.
  intros (H1 & H2 & H3) Hs. unfold spread4, fits4. destruct (Z.eqb_spec t 65535); [auto|].
  intros Hc. destruct (Z.ltb_spec s P) as [Hl|Hl]; [|destruct Hc; [lia|assumption]].
  assert (Ha : 3200 <= t * s) by (destruct (Z.gtb_spec s 1); [lia|]; replace s with 1 in * by lia; lia).
  pose proof (Z.div_mod t 2 ltac:(lia)). pose proof (Z.mod_pos_bound t 2 ltac:(lia)).
  clear Hc H3. destruct (Z_lt_le_dec (ext s) (t / 2)) as [|Hb]; [assumption|exfalso].
  assert (Hm : t * s <= (2 * ext s + 1) * s) by (apply Z.mul_le_mono_nonneg_r; lia).
  unfold ext in Hm. destruct psize_cases as [[E EN]|[E EN]]; rewrite E in *; rewrite EN in Hm.
  - pose proof (Z.square_nonneg (25 - 2 * s)) as Q.
    replace ((25 - 2 * s) * (25 - 2 * s)) with (625 - 100 * s + 4 * (s * s)) in Q by ring.
    replace ((2 * (4 * (23 - s) + 8) + 1) * s) with (201 * s - 8 * (s * s)) in Hm by ring. lia.
  - pose proof (Z.square_nonneg (31 - 2 * s)) as Q.
    replace ((31 - 2 * s) * (31 - 2 * s)) with (961 - 124 * s + 4 * (s * s)) in Q by ring.
    replace ((2 * (4 * (31 - s)) + 1) * s) with (249 * s - 8 * (s * s)) in Hm by ring. lia.
Qed.

Theorem encoded4_good two s t : accepted s t -> spread4 s t ->
  Forall part4_ok (v4_encoded N two s t)
  /\ rises false (air (v4_encoded N two s t)) = s
  /\ (N = false -> rise_times 0 false (air (v4_encoded N two s t)) = grid (Z.to_nat s) 0 t
                   /\ total (air (v4_encoded N two s t)) = (if s =? 0 then t else s * t))
  /\ (N = true -> 0 < s -> t < 65535 ->
      total (air (v4_encoded N two s t)) = s * t - 4 * short_parts (v4_encoded N two s t)).
Proof.
  intros Ha Hc. pose proof Ha as (H1 & H2 & H3). unfold v4_encoded.
  destruct (Z.eqb_spec s 0) as [->|Hs].
  - destruct (pause4_good two t) as (L1 & L2 & L3 & L4). { cbn in H3. lia. }
    change (v4_parts N 26 two 0 t) with [(two, v4_pause N two t)].
    unfold air. cbn [map concat fst snd]. rewrite app_nil_r.
    assert (LA : lows (on_air two (v4_pause N two t))).
    { apply Forall_app. split; [exact L3|]. apply tail_lows. }
    pose proof (rt_lows _ LA 0 []) as R. rewrite app_nil_r in R.
    split; [repeat constructor; assumption|]. split; [|split].
    + rewrite <- (rises_count _ 0), R. reflexivity.
    + intros _. rewrite R. split; [reflexivity|exact L4].
    + lia.
  - assert (HP2 : 11 <= P / 2) by (destruct psize_cases as [[E _]|[E _]]; rewrite E; cbn; lia).
    destruct (parts4_good t H2 26 two s ltac:(lia) (accepted_fits4 s t Ha ltac:(lia) Hc) ltac:(lia) 0)
      as (I1 & I2 & I3 & I4).
    split; [exact I1|]. split; [now rewrite <- (rises_count _ 0)|]. split; [auto|].
    intros _ _ Hlt. auto.
Qed.
End Part.
