(** * QueueFacts: the ring buffer as a list *)
From Coq Require Import ZArith Znumtheory Bool List Lia ZifyBool.
From Verif Require Import Base Queue.
Import ListNotations.
Open Scope Z_scope.
Ltac Zify.zify_post_hook ::= idtac.

Lemma u8_range x : 0 <= u8 x < 256.
Proof. unfold u8. apply Z.mod_pos_bound. lia. Qed.

Section WithArch.
Variable A : arch.
Hypothesis HA : In A all_archs.
Variable EXT : bool.
Notation L := (QUEUE_LEN A).

Lemma ql_cases : L = 16 \/ L = 32.
Proof. revert A HA. apply arch_cases; cbn; auto. Qed.

Lemma slot_mod i : slot A i = i mod L.
Proof.
  unfold slot. destruct ql_cases as [-> | ->].
  - change (16 - 1) with (Z.ones 4). rewrite Z.land_ones; [reflexivity|lia].
  - change (32 - 1) with (Z.ones 5). rewrite Z.land_ones; [reflexivity|lia].
Qed.
Lemma slot_u8 i : slot A (u8 i) = i mod L.
Proof.
  rewrite slot_mod. unfold u8.
  destruct ql_cases as [-> | ->]; symmetry.
  - apply Zmod_div_mod; try lia. exists 16. reflexivity.
  - apply Zmod_div_mod; try lia. exists 8. reflexivity.
Qed.

Lemma mod_u8_add x k : (u8 x + k) mod L = (x + k) mod L.
Proof.
  rewrite <- (Zplus_mod_idemp_l (u8 x)). rewrite <- (slot_mod (u8 x)), slot_u8.
  apply Zplus_mod_idemp_l.
Qed.

(** ** Number of entries *)
Definition wf (q : queue) : Prop :=
  0 <= q_rd q < 256 /\ 0 <= q_wr q < 256 /\ queueEntries q <= L.

Lemma entries_range q : 0 <= queueEntries q < 256.
Proof. apply u8_range. Qed.
Lemma empty_iff q : wf q -> (q_rd q = q_wr q <-> queueEntries q = 0).
Proof.
  intros (H1 & H2 & _). unfold queueEntries, u8. split; intros H.
  - rewrite H, Z.sub_diag. reflexivity.
  - pose proof (Z.div_mod (q_wr q - q_rd q) 256). lia.
Qed.
Lemma wr_eq q : wf q -> q_wr q = u8 (q_rd q + queueEntries q).
Proof.
  intros (H1 & H2 & _). unfold queueEntries, u8.
  rewrite Zplus_mod_idemp_r. replace (q_rd q + (q_wr q - q_rd q)) with (q_wr q) by lia.
  symmetry. apply Z.mod_small. assumption.
Qed.

(** ** Pending entries, oldest first *)
Definition ent_at (q : queue) (k : nat) : entry := q_ent q ((q_rd q + Z.of_nat k) mod L).
Definition pend (q : queue) : list entry :=
  map (ent_at q) (seq 0 (Z.to_nat (queueEntries q))).

Lemma pend_length q : length (pend q) = Z.to_nat (queueEntries q).
Proof. unfold pend. rewrite map_length, seq_length. reflexivity. Qed.
Lemma pend_nil q : pend q = [] <-> queueEntries q = 0.
Proof.
  pose proof (entries_range q). split; intros H1.
  - assert (length (pend q) = 0%nat) by now rewrite H1. rewrite pend_length in H0. lia.
  - unfold pend. now rewrite H1.
Qed.
Lemma head_ent q : head A q = ent_at q 0.
Proof. unfold head, ent_at. rewrite slot_mod. f_equal. f_equal. lia. Qed.
Lemma pend_cons q : queueEntries q <> 0 -> exists l, pend q = head A q :: l.
Proof.
  intros H. pose proof (entries_range q). unfold pend.
  replace (Z.to_nat (queueEntries q)) with (S (Z.to_nat (queueEntries q - 1))) by lia.
  cbn [seq map]. rewrite head_ent. eexists. reflexivity.
Qed.

Lemma pend_ext q q' : q_rd q' = q_rd q -> q_wr q' = q_wr q ->
  (forall k, (k < Z.to_nat (queueEntries q))%nat -> ent_at q' k = ent_at q k) ->
  pend q' = pend q.
Proof.
  intros H1 H2 H3. unfold pend.
  assert (E : queueEntries q' = queueEntries q) by (unfold queueEntries; now rewrite H1, H2).
  rewrite E. apply map_ext_in. intros k Hk. apply in_seq in Hk. apply H3. lia.
Qed.
Lemma pend_same q q' : q_rd q' = q_rd q -> q_wr q' = q_wr q -> q_ent q' = q_ent q -> pend q' = pend q.
Proof. intros H1 H2 H3. apply pend_ext; auto. intros. unfold ent_at. now rewrite H1, H3. Qed.

(** distinct positions within one round are distinct slots *)
Lemma slot_inj r i j : 0 <= i < L -> 0 <= j < L -> (r + i) mod L = (r + j) mod L -> i = j.
Proof.
  intros Hi Hj H. assert (HL : 0 < L) by (destruct ql_cases; lia).
  pose proof (Z.div_mod (r + i) L ltac:(lia)). pose proof (Z.div_mod (r + j) L ltac:(lia)).
  rewrite H in H0.
  assert (i - j = L * ((r + i) / L - (r + j) / L)) by lia.
  assert ((r + i) / L - (r + j) / L = 0); [|lia].
  set (x := (r + i) / L - (r + j) / L) in *.
  nia.
Qed.
Lemma slot_wr q : wf q -> slot A (q_wr q) = (q_rd q + queueEntries q) mod L.
Proof. intros H. rewrite (wr_eq q H). apply slot_u8. Qed.

(** writing the free slot does not touch pending entries *)
Lemma pend_upd_free q e : wf q -> queueEntries q < L ->
  pend (set_ent (upd (q_ent q) (slot A (q_wr q)) e) q) = pend q.
Proof.
  intros Hw Hf. apply pend_ext; try reflexivity. intros k Hk.
  pose proof (entries_range q).
  unfold ent_at. cbn [set_ent q_ent q_rd]. unfold upd.
  destruct (Z.eqb_spec ((q_rd q + Z.of_nat k) mod L) (slot A (q_wr q))) as [E|E]; [|reflexivity].
  rewrite (slot_wr q Hw) in E. apply slot_inj in E; lia.
Qed.

(** advancing the write index appends the free slot *)
Lemma entries_commit q ne : wf q -> queueEntries q < L ->
  queueEntries (set_end ne (set_wr (u8 (q_wr q + 1)) q)) = queueEntries q + 1.
Proof.
  intros Hw Hf. pose proof (entries_range q).
  unfold queueEntries in *. cbn [set_end set_wr q_wr q_rd]. unfold u8 in *.
  rewrite Zminus_mod_idemp_l.
  replace (q_wr q + 1 - q_rd q) with ((q_wr q - q_rd q) + 1) by lia.
  rewrite Z.add_mod by lia. rewrite (Z.mod_small 1) by lia.
  apply Z.mod_small. destruct ql_cases; lia.
Qed.
Lemma wf_commit q ne : wf q -> queueEntries q < L ->
  wf (set_end ne (set_wr (u8 (q_wr q + 1)) q)).
Proof.
  intros Hw Hf. destruct Hw as (H1 & H2 & H3).
  split; [exact H1|]. split; [apply u8_range|].
  rewrite entries_commit; [lia| repeat split; try apply H1; try apply H2; lia |lia].
Qed.
Lemma pend_commit q ne : wf q -> queueEntries q < L ->
  pend (set_end ne (set_wr (u8 (q_wr q + 1)) q)) = pend q ++ [q_ent q (slot A (q_wr q))].
Proof.
  intros Hw Hf. unfold pend. rewrite entries_commit by assumption.
  pose proof (entries_range q).
  replace (Z.to_nat (queueEntries q + 1)) with (S (Z.to_nat (queueEntries q))) by lia.
  rewrite seq_S, map_app. f_equal.
  cbn [map]. f_equal. unfold ent_at. cbn [set_end set_wr q_ent q_rd].
  rewrite (slot_wr q Hw). f_equal. f_equal. lia.
Qed.

(** advancing the read index removes the oldest entry *)
Lemma entries_pop q : wf q -> queueEntries q <> 0 -> queueEntries (q_pop q) = queueEntries q - 1.
Proof.
  intros Hw Hf. pose proof (entries_range q).
  unfold queueEntries, q_pop in *. cbn [set_rd q_wr q_rd]. unfold u8 in *.
  rewrite Zminus_mod_idemp_r.
  replace (q_wr q - (q_rd q + 1)) with ((q_wr q - q_rd q) - 1) by lia.
  rewrite Zminus_mod. rewrite (Z.mod_small 1) by lia.
  apply Z.mod_small. lia.
Qed.
Lemma wf_pop q : wf q -> queueEntries q <> 0 -> wf (q_pop q).
Proof.
  intros Hw Hf. pose proof (entries_pop q Hw Hf). destruct Hw as (H1 & H2 & H3).
  split; [apply u8_range|]. split; [exact H2|]. lia.
Qed.
Lemma pend_pop q : wf q -> queueEntries q <> 0 -> pend q = head A q :: pend (q_pop q).
Proof.
  intros Hw Hf. pose proof (entries_range q). unfold pend. rewrite entries_pop by assumption.
  replace (Z.to_nat (queueEntries q)) with (S (Z.to_nat (queueEntries q - 1))) by lia.
  cbn [seq map]. rewrite head_ent. f_equal.
  rewrite <- seq_shift, map_map. apply map_ext. intros k.
  unfold ent_at, q_pop. cbn [set_rd q_ent q_rd]. f_equal.
  rewrite mod_u8_add. f_equal. lia.
Qed.

(** replacing the oldest entry *)
Definition set_head (e : entry) (q : queue) : queue :=
  set_ent (upd (q_ent q) (slot A (q_rd q)) e) q.
Lemma pend_set_head q e : wf q -> queueEntries q <> 0 ->
  pend (set_head e q) = e :: pend (q_pop q).
Proof.
  intros Hw Hf. pose proof (entries_range q) as Hr.
  assert (Hw' : wf (set_head e q)) by exact Hw.
  assert (Hf' : queueEntries (set_head e q) <> 0) by exact Hf.
  rewrite (pend_pop _ Hw' Hf'). f_equal.
  - unfold head, set_head. cbn [set_ent q_ent q_rd]. unfold upd. now rewrite Z.eqb_refl.
  - pose proof (wf_pop q Hw Hf) as Hp. pose proof (entries_pop q Hw Hf) as He.
    apply pend_ext; try reflexivity. intros k Hk. rewrite He in Hk.
    unfold ent_at. unfold q_pop, set_head. cbn [set_rd set_ent q_ent q_rd]. unfold upd.
    destruct (Z.eqb_spec ((u8 (q_rd q + 1) + Z.of_nat k) mod L) (slot A (q_rd q))) as [E|E]; [|reflexivity].
    exfalso. rewrite slot_mod in E.
    assert (E1 : (u8 (q_rd q + 1) + Z.of_nat k) mod L = (q_rd q + Z.of_nat (S k)) mod L).
    { rewrite mod_u8_add. f_equal. lia. }
    rewrite E1 in E. replace (q_rd q) with (q_rd q + 0) in E at 2 by lia.
    destruct Hw as (_ & _ & Hw3). clear - E Hw3 Hr Hf Hk HA.
    apply slot_inj in E; lia.
Qed.
Lemma free_set_head q e : wf q -> queueEntries q <> 0 -> queueEntries q < L ->
  q_ent (set_head e q) (slot A (q_wr q)) = q_ent q (slot A (q_wr q)).
Proof.
  intros Hw Hf Hl. unfold set_head. cbn [set_ent q_ent]. unfold upd.
  destruct (Z.eqb_spec (slot A (q_wr q)) (slot A (q_rd q))) as [E|E]; [|reflexivity].
  exfalso. rewrite (slot_wr q Hw), slot_mod in E.
  replace (q_rd q) with (q_rd q + 0) in E at 2 by lia.
  pose proof (entries_range q). apply slot_inj in E; destruct ql_cases; lia.
Qed.

Lemma wf_clear q : wf q -> wf (q_clear q) /\ pend (q_clear q) = [].
Proof.
  intros (H1 & H2 & H3). assert (E : queueEntries (q_clear q) = 0).
  { unfold queueEntries, q_clear. cbn [set_running set_rd q_wr q_rd]. rewrite Z.sub_diag. reflexivity. }
  split; [|now apply pend_nil].
  split; [exact H2|]. split; [exact H2|]. rewrite E. destruct ql_cases; lia.
Qed.

(** ** Queries as functions of the list *)
Definition dur_of (e : entry) : Z := e_ticks e * Z.max 1 (e_steps e).
Definition ent_ok (e : entry) : Prop := 0 <= e_ticks e < 65536 /\ 0 <= e_steps e < 256.
Fixpoint sum_dur (l : list entry) : Z :=
  match l with [] => 0 | e :: t => dur_of e + sum_dur t end.

Lemma dur_of_range e : ent_ok e -> 0 <= dur_of e <= 16711425.
Proof.
  intros [H1 H2]. unfold dur_of. split; [nia|].
  assert (e_ticks e * Z.max 1 (e_steps e) <= 65535 * 255); [|lia].
  apply Z.mul_le_mono_nonneg; lia.
Qed.
Lemma sum_dur_range l : Forall ent_ok l -> 0 <= sum_dur l <= 16711425 * Z.of_nat (length l).
Proof.
  induction 1 as [|e l He Hl IH]; cbn [sum_dur length]; [lia|].
  pose proof (dur_of_range e He). lia.
Qed.

(** the entries behind [rp], as lists *)
Lemma ticks_loop_spec q : forall n rp t,
  Forall ent_ok (map (fun k => q_ent q ((rp + Z.of_nat k) mod L)) (seq 0 n)) ->
  0 <= t -> t + 16711425 * Z.of_nat n < 4294967296 ->
  ticks_loop A q n rp t =
  t + sum_dur (map (fun k => q_ent q ((rp + Z.of_nat k) mod L)) (seq 0 n)).
Proof.
  assert (HL : 0 < L) by (destruct ql_cases; lia).
  induction n as [|n IH]; intros rp t Hl Ht Hb.
  - cbn. lia.
  - cbn [seq map] in Hl |- *. rewrite <- seq_shift, map_map in Hl |- *. cbn [sum_dur].
    pose proof (Forall_inv Hl) as He. pose proof (Forall_inv_tail Hl) as Ht'.
    cbn [ticks_loop].
    rewrite slot_mod. replace (rp + Z.of_nat 0) with rp in * by lia.
    set (e := q_ent q (rp mod L)) in *.
    pose proof (dur_of_range e He) as Hd.
    assert (Heq : (if e_steps e >? 1 then u32 (u32 (t + e_ticks e) + u32 (e_ticks e * (e_steps e - 1)))
                   else u32 (t + e_ticks e)) = t + dur_of e).
    { destruct He as [He1 He2]. unfold dur_of in *. unfold u32.
      destruct (Z.gtb_spec (e_steps e) 1).
      - assert (0 <= e_ticks e * (e_steps e - 1) <= e_ticks e * e_steps e) by nia.
        rewrite Z.max_r in * by lia.
        rewrite (Z.mod_small (t + e_ticks e)) by nia.
        rewrite (Z.mod_small (e_ticks e * _)) by lia.
        rewrite Z.mod_small by lia. lia.
      - rewrite Z.max_l in * by lia. rewrite Z.mod_small by lia. lia. }
    rewrite Heq.
    assert (Hmap : map (fun k => q_ent q ((u8 (rp + 1) + Z.of_nat k) mod L)) (seq 0 n) =
                   map (fun k => q_ent q ((rp + Z.of_nat (S k)) mod L)) (seq 0 n)).
    { apply map_ext. intros k. f_equal.
      rewrite mod_u8_add. f_equal. lia. }
    rewrite IH; rewrite ?Hmap; [lia|assumption|lia|lia].
Qed.

Lemma tail_map q : wf q -> queueEntries q <> 0 ->
  map (fun k => q_ent q ((u8 (q_rd q + 1) + Z.of_nat k) mod L))
      (seq 0 (Z.to_nat (u8 (q_wr q - u8 (q_rd q + 1))))) = pend (q_pop q).
Proof. reflexivity. Qed.

Lemma ticksInQueue_spec q : wf q -> Forall ent_ok (pend q) ->
  ticksInQueue A q = match pend q with [] => 0 | _ :: t => sum_dur t end.
Proof.
  intros Hw Hl. unfold ticksInQueue.
  destruct (Z.eqb_spec (q_wr q) (q_rd q)) as [E|E].
  - symmetry in E. apply (empty_iff q Hw) in E. apply pend_nil in E. now rewrite E.
  - assert (Hf : queueEntries q <> 0). { intros K. apply (empty_iff q Hw) in K. congruence. }
    pose proof (pend_pop q Hw Hf) as Hp. rewrite Hp in Hl |- *.
    pose proof (Forall_inv_tail Hl) as Ht.
    pose proof (entries_pop q Hw Hf) as Hn.
    pose proof (entries_range q) as Hr.
    change (u8 (q_wr q - u8 (q_rd q + 1))) with (queueEntries (q_pop q)).
    rewrite ticks_loop_spec; [reflexivity|exact Ht|lia|].
    rewrite Hn. destruct Hw as (_ & _ & Hw). destruct ql_cases; lia.
Qed.

Lemma has_ticks_loop_spec q : forall n rp t,
  Forall ent_ok (map (fun k => q_ent q ((rp + Z.of_nat k) mod L)) (seq 0 n)) ->
  0 < t < 4294967296 ->
  has_ticks_loop A q n rp t =
  (t <=? sum_dur (map (fun k => q_ent q ((rp + Z.of_nat k) mod L)) (seq 0 n))).
Proof.
  assert (HL : 0 < L) by (destruct ql_cases; lia).
  induction n as [|n IH]; intros rp t Hl Ht.
  - cbn. lia.
  - cbn [seq map] in Hl |- *. rewrite <- seq_shift, map_map in Hl |- *. cbn [sum_dur].
    pose proof (Forall_inv Hl) as He. pose proof (Forall_inv_tail Hl) as Ht'.
    cbn [has_ticks_loop].
    rewrite slot_mod. replace (rp + Z.of_nat 0) with rp in * by lia.
    set (e := q_ent q (rp mod L)) in *.
    pose proof (dur_of_range e He) as Hd.
    assert (Heq : u32 (e_ticks e * fas_max (e_steps e) 1) = dur_of e).
    { unfold dur_of in *. rewrite fas_max_spec, Z.max_comm. unfold u32.
      apply Z.mod_small. lia. }
    rewrite Heq.
    assert (Hmap : map (fun k => q_ent q ((u8 (rp + 1) + Z.of_nat k) mod L)) (seq 0 n) =
                   map (fun k => q_ent q ((rp + Z.of_nat (S k)) mod L)) (seq 0 n)).
    { apply map_ext. intros k. f_equal.
      rewrite mod_u8_add. f_equal. lia. }
    pose proof (sum_dur_range _ Ht') as Hs.
    destruct (Z.geb_spec (dur_of e) t).
    + symmetry. lia.
    + rewrite IH; rewrite ?Hmap; [|assumption|unfold u32; rewrite Z.mod_small; lia].
      unfold u32. rewrite Z.mod_small by lia. lia.
Qed.
Lemma hasTicksInQueue_spec q t : wf q -> Forall ent_ok (pend q) -> 0 < t < 4294967296 ->
  hasTicksInQueue A t q = match pend q with [] => false | _ :: l => t <=? sum_dur l end.
Proof.
  intros Hw Hl Ht0. unfold hasTicksInQueue.
  destruct (Z.eqb_spec (q_wr q) (q_rd q)) as [E|E].
  - symmetry in E. apply (empty_iff q Hw) in E. apply pend_nil in E. now rewrite E.
  - assert (Hf : queueEntries q <> 0). { intros K. apply (empty_iff q Hw) in K. congruence. }
    pose proof (pend_pop q Hw Hf) as Hp. rewrite Hp in Hl |- *.
    pose proof (Forall_inv_tail Hl) as Ht.
    change (u8 (q_wr q - u8 (q_rd q + 1))) with (queueEntries (q_pop q)).
    rewrite has_ticks_loop_spec; [reflexivity|exact Ht|exact Ht0].
Qed.

Lemma getActual_spec q : wf q ->
  getActualTicksWithDirection A q =
  match pend q with
  | [] => (true, Some 0, None)
  | e :: t => if e_has e
              then (e_more e || match t with [] => false | e2 :: _ => e_has e2 end,
                    Some (e_ticks e), Some (e_up e))
              else (false, None, None)
  end.
Proof.
  intros Hw. unfold getActualTicksWithDirection.
  destruct (Z.eqb_spec (q_wr q) (q_rd q)) as [E|E].
  - symmetry in E. apply (empty_iff q Hw) in E. apply pend_nil in E. now rewrite E.
  - assert (Hf : queueEntries q <> 0). { intros K. apply (empty_iff q Hw) in K. congruence. }
    pose proof (pend_pop q Hw Hf) as Hp. rewrite Hp.
    destruct (e_has (head A q)); [|reflexivity]. f_equal. f_equal. f_equal.
    pose proof (wf_pop q Hw Hf) as Hw2.
    destruct (Z.eqb_spec (q_wr q) (u8 (q_rd q + 1))) as [E2|E2]; cbn [negb andb].
    + assert (E3 : q_rd (q_pop q) = q_wr (q_pop q)) by (cbn; congruence).
      apply (empty_iff _ Hw2) in E3. apply pend_nil in E3. now rewrite E3.
    + assert (Hf2 : queueEntries (q_pop q) <> 0).
      { intros K. apply (empty_iff _ Hw2) in K. cbn in K. congruence. }
      rewrite (pend_pop _ Hw2 Hf2). reflexivity.
Qed.
End WithArch.
