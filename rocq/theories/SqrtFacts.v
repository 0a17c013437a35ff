(** The integer square root (dfs_precise_number.rs 194-214). *)
From Verif Require Import Tactics SplMath DfsPrecise.

(** A loop whose measure decreases terminates before 2^n iterations. *)
Lemma run_loop_spec S R (step : S -> R + S) (P : S -> Prop) (m : S -> Z) (Q : R -> Prop) :
  (forall s, P s -> match step s with
                    | inl r => Q r
                    | inr s' => P s' /\ m s' <= m s - 1
                    end) ->
  forall n s, P s ->
    match run_loop n step s with
    | inl r => Q r
    | inr s' => P s' /\ m s' <= m s - 2 ^ Z.of_nat n
    end.
Proof.
  intros Hstep n. induction n as [| n IH]; intros s HP; cbn [run_loop].
  - specialize (Hstep s HP). destruct (step s); [exact Hstep |].
    change (2 ^ Z.of_nat 0) with 1. exact Hstep.
  - pose proof (IH s HP) as H1. destruct (run_loop n step s) as [r | s1]; [exact H1 |].
    destruct H1 as [HP1 Hm1]. pose proof (IH s1 HP1) as H2.
    destruct (run_loop n step s1) as [r | s2]; [exact H2 |].
    destruct H2 as [HP2 Hm2]. split; [exact HP2 |].
    rewrite Nat2Z.inj_succ, Z.pow_succ_r by lia. lia.
Qed.

Section Babylonian.
Variable x : Z.
Hypothesis Hx : 1 <= x <= u64_max.

Definition bab_inv (s : Z * Z) : Prop :=
  let (y, z) := s in
  1 <= z <= (x + 1) / 2 /\ Z.sqrt x <= z /\ Z.sqrt x <= y <= x
  /\ (z < y \/ z = (x / y + y) / 2).

Lemma newton_ge z : 1 <= z -> Z.sqrt x <= (x / z + z) / 2.
Proof.
  intros Hz. pose proof (Z.sqrt_spec x ltac:(lia)) as [Hs _].
  assert (0 <= Z.sqrt x) by apply Z.sqrt_nonneg.
  apply Z.div_le_lower_bound; [lia |].
  assert (2 * Z.sqrt x - z <= x / z); [| lia].
  apply Z.div_le_lower_bound; [lia |].
  pose proof (Z.square_nonneg (Z.sqrt x - z)). lia.
Qed.

Lemma newton_le z : 1 <= z <= x -> x / z + z <= x + 1.
Proof.
  intros Hz.
  assert (x / z <= x + 1 - z); [| lia].
  apply Z.div_le_upper_bound; [lia |]. nia.
Qed.

Lemma bab_step_spec s : bab_inv s ->
  match babylonian_step x s with
  | inl r => r = Val (Z.sqrt x)
  | inr s' => bab_inv s' /\ fst s' <= fst s - 1
  end.
Proof.
  destruct s as [y z]. unfold bab_inv, babylonian_step.
  intros ((Hz1 & Hz2) & Hsz & (Hsy & Hyx) & Hzy).
  assert (Hzx : z <= x) by (assert ((x + 1) / 2 <= x) by (apply Z.div_le_upper_bound; lia); lia).
  destruct (Z.ltb_spec z y) as [Hlt | Hge].
  - rewrite cdiv_eq by lia. cbn [obind].
    pose proof (newton_le z ltac:(lia)) as Hn.
    assert (Hfit : x / z + z <= u64_max).
    { destruct (Z.eq_dec z 1) as [-> | Hne].
      - pose proof (Z.sqrt_spec x ltac:(lia)) as [_ Hs].
        pose proof (Z.sqrt_nonneg x). unfold Z.succ in Hs.
        assert (x <= 3) by nia. rewrite Z.div_1_r. unfold u64_max in *. lia.
      - assert (x / z <= x / 2).
        { apply Z.div_le_compat_l; lia. }
        assert (x / 2 + (x + 1) / 2 <= x); [| lia].
        pose proof (Z.div_mod x 2 ltac:(lia)). pose proof (Z.mod_pos_bound x 2 ltac:(lia)).
        pose proof (Z.div_mod (x + 1) 2 ltac:(lia)).
        pose proof (Z.mod_pos_bound (x + 1) 2 ltac:(lia)). lia. }
    rewrite add_in_eq by exact Hfit. cbn [obind]. rewrite cdiv_eq by lia.
    pose proof (newton_ge z ltac:(lia)) as Hg.
    assert (Hx1 : 1 <= Z.sqrt x).
    { change 1 with (Z.sqrt 1). apply Z.sqrt_le_mono. lia. }
    assert ((x / z + z) / 2 <= (x + 1) / 2) by (apply Z.div_le_mono; lia).
    cbn [fst]. repeat split; lia.
  - destruct Hzy as [Hzy | Hzy]; [lia |]. f_equal.
    assert (Hx1 : 1 <= Z.sqrt x).
    { change 1 with (Z.sqrt 1). apply Z.sqrt_le_mono. lia. }
    pose proof (Z.div_mod (x / y + y) 2 ltac:(lia)) as E1.
    pose proof (Z.mod_pos_bound (x / y + y) 2 ltac:(lia)) as E2.
    assert (Hq : y <= x / y) by lia.
    assert (y * y <= x).
    { pose proof (Z.mul_div_le x y ltac:(lia)). nia. }
    assert (y <= Z.sqrt x) by (apply Z.sqrt_le_square; lia).
    lia.
Qed.
End Babylonian.

(** The loop terminates with the floor of the root; rounding up gives the
    ceiling. *)
Lemma babylonian_correct x up : is_u64 x ->
  sqrt_babylonian x up =
    Val (if up then Z.sqrt_up x else Z.sqrt x).
Proof.
  intros Hx. unfold is_u64 in Hx.
  destruct (Z.eq_dec x 0) as [-> | Hx0].
  { destruct up; vm_compute; reflexivity. }
  unfold sqrt_babylonian.
  set (z0 := match add_in u64_max x 1 with
             | Val v => cdiv v 2 | Non => cdiv x 2 | Panic => Panic end).
  assert (Hz0 : exists z, z0 = Val z /\ bab_inv x (x, z)).
  { pose proof (Z.sqrt_spec x ltac:(lia)) as [Hs1 Hs2].
    assert (Hx1 : 1 <= Z.sqrt x).
    { change 1 with (Z.sqrt 1). apply Z.sqrt_le_mono. lia. }
    assert (Hsx : Z.sqrt x <= x) by (apply Z.sqrt_le_lin; lia).
    subst z0. unfold add_in. destruct (Z.leb_spec (x + 1) u64_max) as [Hle | Hgt].
    - rewrite cdiv_eq by lia. eexists; split; [reflexivity |]. unfold bab_inv.
      pose proof (newton_ge x ltac:(lia) x ltac:(lia)) as Hg.
      rewrite Z.div_same in * by lia. replace (1 + x) with (x + 1) in * by lia.
      repeat split; lia.
    - rewrite cdiv_eq by lia. eexists; split; [reflexivity |]. unfold bab_inv.
      assert (x = u64_max) by lia. subst x. vm_compute; repeat split; try congruence.
      left. reflexivity. }
  destruct Hz0 as [z [-> Hinv]]. cbn [obind].
  pose proof (run_loop_spec _ _ (babylonian_step x) (bab_inv x) fst
                (fun r => r = Val (Z.sqrt x)) (bab_step_spec x ltac:(lia)) 64 _ Hinv) as Hrun.
  destruct (run_loop 64 (babylonian_step x) (x, z)) as [r | [y' z']].
  2: { exfalso. destruct Hrun as [HI Hm]. unfold bab_inv in HI. cbn [fst] in Hm.
       pose proof (Z.sqrt_nonneg x). change (2 ^ Z.of_nat 64) with (u64_max + 1) in Hm. lia. }
  subst r. cbn [obind].
  pose proof (Z.sqrt_spec x ltac:(lia)) as [Hs1 Hs2].
  rewrite mul_in_eq by lia. cbn [obind].
  destruct up; cbn [andb]; [| reflexivity].
  destruct (Z.ltb_spec (Z.sqrt x * Z.sqrt x) x) as [Hlt | Hge].
  - assert (Hup : Z.sqrt_up x = Z.sqrt x + 1).
    { apply Z.sqrt_up_unique; [lia |].
      pose proof (Z.sqrt_nonneg x). split; nia. }
    rewrite Hup. apply add_in_eq.
    assert (Z.sqrt x < 2 ^ 32).
    { apply Z.sqrt_lt_square; [lia | lia |]. unfold u64_max in *. lia. }
    unfold u64_max. lia.
  - f_equal. assert (x = Z.sqrt x * Z.sqrt x) as Hsq by lia.
    rewrite Hsq at 2. rewrite Z.sqrt_up_square by apply Z.sqrt_nonneg. reflexivity.
Qed.
