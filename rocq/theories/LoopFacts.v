(** The loop of the square root ends after 37 rounds (C107). *)
From Verif Require Import Ints Tactics SplMath DfsPrecise SqrtFacts LoopSpec.

(** Upper bounds of z / (sqrt x + 1) after k rounds, scaled by 2^80. *)
Definition P80 : Z := 2 ^ 80.
Definition next_bound (T : Z) : Z := (T * T + P80 * P80) / (2 * T) + 1.
Fixpoint bound_after (k : nat) : Z := match k with O => 2 ^ 111 | S k' => next_bound (bound_after k') end.

Lemma newton_bound x z w T T' : 0 <= x < w * w -> 0 < w <= z -> P80 <= T -> z * P80 <= T * w ->
  T * T + P80 * P80 <= 2 * T * T' -> (x / z + z) / 2 * P80 <= T' * w.
Proof.
  intros Hx Hw HT Hz HT'. assert (HP : 0 < P80) by reflexivity. set (P := P80) in *. clearbody P.
  pose proof (Z.mul_div_le x z ltac:(lia)) as Hq. set (q := x / z) in *. clearbody q.
  pose proof (Z.mul_div_le (q + z) 2 ltac:(lia)) as Hh. set (h := (q + z) / 2) in *. clearbody h.
  assert (H1 : 2 * h * z <= z * z + w * w) by nia.
  assert (H2 : 0 <= (T * w - P * z) * (T * z - P * w)).
  { apply Z.mul_nonneg_nonneg; [lia |]. assert (P * w <= T * z) by (apply Z.mul_le_mono_nonneg; lia). lia. }
  assert (H3 : T * P * (z * z + w * w) <= z * w * (T * T + P * P)) by lia.
  assert (H4 : T * P * (2 * h * z) <= T * P * (z * z + w * w)) by (apply Z.mul_le_mono_nonneg_l; [nia | exact H1]).
  assert (H5 : z * w * (T * T + P * P) <= z * w * (2 * T * T')) by (apply Z.mul_le_mono_nonneg_l; [nia | exact HT']).
  assert (H6 : 2 * T * z * (h * P) <= 2 * T * z * (T' * w)) by lia.
  apply Z.mul_le_mono_pos_l in H6; [exact H6 |]. nia.
Qed.

Lemma bound_ok k : P80 <= bound_after k /\
  bound_after k * bound_after k + P80 * P80 <= 2 * bound_after k * bound_after (S k).
Proof.
  assert (A : forall T, 0 < T -> T * T + P80 * P80 <= 2 * T * next_bound T).
  { intros T HT. unfold next_bound. pose proof (Z.mul_succ_div_gt (T * T + P80 * P80) (2 * T) ltac:(lia)). lia. }
  assert (B : P80 <= bound_after k).
  { induction k as [| k IH]; [vm_compute; discriminate |]. cbn [bound_after].
    assert (HP : 0 < P80) by reflexivity. specialize (A (bound_after k) ltac:(lia)).
    set (T := bound_after k) in *. set (T' := next_bound T) in *. clearbody T T'. set (P := P80) in *. clearbody P.
    assert (2 * T * P <= T * T + P * P) by (pose proof (Z.square_nonneg (T - P)); lia).
    assert (2 * T * P <= 2 * T * T') by lia. apply Z.mul_le_mono_pos_l in H0; lia. }
  split; [exact B |]. apply A. assert (HP : 0 < P80) by reflexivity. lia.
Qed.

Definition small (x : Z) (k : nat) (s : Z * Z) : Prop := bab_inv x s /\ snd s * P80 <= bound_after k * (Z.sqrt x + 1).

Lemma ends_more S R n m (step : S -> R + S) s r : (n <= m)%nat -> ends_within n step s = Some r -> ends_within m step s = Some r.
Proof.
  revert m s. induction n as [| n IH]; intros m s L H; destruct m as [| m]; cbn [ends_within] in *.
  - exact H.
  - destruct (step s); [exact H | discriminate].
  - lia.
  - destruct (step s); [exact H |]. apply IH; [lia | exact H].
Qed.

Lemma step_val x y z : 1 <= x <= u64_max -> bab_inv x (y, z) ->
  babylonian_step x (y, z) = if z <? y then inr (z, (x / z + z) / 2) else inl (Val (Z.sqrt x)).
Proof.
  intros Hx HI. pose proof (bab_step_spec x Hx (y, z) HI) as H. unfold babylonian_step in *.
  destruct (z <? y) eqn:E; [| now rewrite H].
  destruct HI as ((Hz & _) & _). rewrite cdiv_eq in * by lia. cbn [obind] in *.
  destruct (add_in u64_max (x / z) z) as [v | |] eqn:A.
  - unfold add_in in A. destruct (_ <=? _) in A; [| discriminate]. injection A as <-. cbn [obind] in *.
    rewrite cdiv_eq by lia. reflexivity.
  - cbn [obind] in H. discriminate.
  - cbn [obind] in H. discriminate.
Qed.

Lemma at_root x y : 1 <= x <= u64_max -> bab_inv x (y, Z.sqrt x) ->
  ends_within 1 (babylonian_step x) (y, Z.sqrt x) = Some (Val (Z.sqrt x)).
Proof.
  intros Hx HI. cbn [ends_within]. pose proof (bab_step_spec x Hx _ HI) as H. rewrite (step_val x y _ Hx HI) in *.
  destruct (Z.sqrt x <? y) eqn:E; [| reflexivity]. destruct H as [HI' _].
  rewrite (step_val x _ _ Hx HI'). destruct HI' as (_ & G & _).
  replace ((x / Z.sqrt x + Z.sqrt x) / 2 <? Z.sqrt x) with false by (symmetry; apply Z.ltb_ge; exact G). reflexivity.
Qed.

Lemma above_root x y z : 1 <= x <= u64_max -> bab_inv x (y, z) -> z <= Z.sqrt x + 1 ->
  ends_within 2 (babylonian_step x) (y, z) = Some (Val (Z.sqrt x)).
Proof.
  intros Hx HI Hz. pose proof HI as (Hz1 & Hs & _).
  destruct (Z.eq_dec z (Z.sqrt x)) as [-> | N].
  { apply (ends_more _ _ 1); [lia |]. apply at_root; assumption. }
  assert (E : z = Z.sqrt x + 1) by lia. cbn [ends_within].
  pose proof (bab_step_spec x Hx _ HI) as H. rewrite (step_val x y z Hx HI) in *.
  destruct (z <? y); [| reflexivity]. destruct H as [HI' _].
  assert (X : (x / z + z) / 2 = Z.sqrt x).
  { destruct HI' as (_ & G & _). apply Z.le_antisymm; [| exact G].
    assert (x / z <= Z.sqrt x).
    { pose proof (Z.sqrt_spec x ltac:(lia)) as [_ U]. unfold Z.succ in U. rewrite <- E in U.
      assert (x / z < z) by (apply Z.div_lt_upper_bound; lia). lia. }
    apply Z.lt_succ_r. apply Z.div_lt_upper_bound; lia. }
  rewrite X in *. apply (at_root x z Hx) in HI'. exact HI'.
Qed.

Lemma shrinks x n : 1 <= x <= u64_max -> forall k s, (k + n = 35)%nat -> small x k s ->
  ends_within (n + 2) (babylonian_step x) s = Some (Val (Z.sqrt x)).
Proof.
  intros Hx. assert (W : Z.sqrt x < 2 ^ 32) by (apply Z.sqrt_lt_square; unfold u64_max in *; lia).
  pose proof (Z.sqrt_nonneg x) as W0. pose proof (Z.sqrt_spec x ltac:(lia)) as [_ U]. unfold Z.succ in U.
  induction n as [| n IH]; intros k [y z] Hk [HI HB]; cbn [snd] in HB.
  - replace k with 35%nat in HB by lia. apply above_root; [exact Hx | exact HI |].
    set (s := Z.sqrt x) in *. clearbody s.
    assert (HT : (bound_after 35 - P80) * 2 ^ 32 < P80) by (vm_compute; reflexivity).
    assert (HT2 : P80 <= bound_after 35) by (vm_compute; discriminate).
    assert (HP : 0 < P80) by reflexivity.
    set (T := bound_after 35) in *. set (P := P80) in *. clearbody T P.
    assert ((T - P) * (s + 1) <= (T - P) * 2 ^ 32) by (apply Z.mul_le_mono_nonneg_l; lia).
    assert (z * P < (s + 2) * P) by lia. apply Z.mul_lt_mono_pos_r in H0; lia.
  - destruct (Z.le_gt_cases z (Z.sqrt x)) as [L | G].
    { pose proof HI as (_ & Hs & _). assert (z = Z.sqrt x) by lia. subst z.
      apply (ends_more _ _ 1); [lia |]. apply at_root; assumption. }
    cbn [ends_within Nat.add]. pose proof (bab_step_spec x Hx _ HI) as H. rewrite (step_val x y z Hx HI) in *.
    destruct (z <? y); [| reflexivity]. destruct H as [HI' _].
    apply (IH (S k)); [lia |]. split; [exact HI' |]. cbn [snd].
    destruct (bound_ok k) as [B1 B2].
    apply (newton_bound x z (Z.sqrt x + 1) (bound_after k)); [lia | lia | exact B1 | exact HB | exact B2].
Qed.

Lemma sqrt_loop x : is_u64 x ->
  ends_within 37 (babylonian_step x) (sqrt_start x) = Some (Val (Z.sqrt x)).
Proof.
  intros Hx. unfold is_u64 in Hx. destruct (Z.eq_dec x 0) as [-> | Hx0]; [vm_compute; reflexivity |].
  change 37%nat with (35 + 2)%nat. apply (shrinks x 35 ltac:(lia) 0%nat); [reflexivity |].
  pose proof (Z.sqrt_spec x ltac:(lia)) as [Hs1 Hs2]. unfold Z.succ in Hs2.
  assert (Hx1 : 1 <= Z.sqrt x) by (change 1 with (Z.sqrt 1); apply Z.sqrt_le_mono; lia).
  assert (Hsx : Z.sqrt x <= x) by (apply Z.sqrt_le_lin; lia).
  assert (W : Z.sqrt x < 2 ^ 32) by (apply Z.sqrt_lt_square; unfold u64_max in *; lia).
  assert (HI : bab_inv x (sqrt_start x)).
  { unfold sqrt_start. destruct (Z.eqb_spec x u64_max) as [-> | N].
    - vm_compute. repeat split; try congruence. left. reflexivity.
    - unfold bab_inv. pose proof (newton_ge x ltac:(lia) x ltac:(lia)) as Hg.
      rewrite Z.div_same in * by lia. replace (1 + x) with (x + 1) in * by lia. repeat split; lia. }
  split; [exact HI |].
  assert (Hz : 2 * snd (sqrt_start x) <= x + 1).
  { unfold sqrt_start. destruct (x =? u64_max); cbn [snd].
    - pose proof (Z.mul_div_le x 2 ltac:(lia)). lia.
    - pose proof (Z.mul_div_le (x + 1) 2 ltac:(lia)). lia. }
  cbn [bound_after]. unfold P80. set (z := snd (sqrt_start x)) in *. clearbody z.
  set (s := Z.sqrt x) in *. clearbody s.
  assert (2 * z <= 2 ^ 32 * (s + 1)) by nia.
  change (2 ^ 111) with (2 ^ 31 * 2 ^ 80). lia.
Qed.

Lemma sqrt_loop_max : ends_within 36 (babylonian_step u64_max) (sqrt_start u64_max) = None.
Proof. vm_compute. reflexivity. Qed.

Lemma sqrt_starts x : is_u64 x ->
  match add_in u64_max x 1 with Val v => cdiv v 2 | Non => cdiv x 2 | Panic => Panic end = Val (snd (sqrt_start x)).
Proof.
  intros Hx. unfold is_u64 in Hx. unfold sqrt_start, add_in. cbn [snd].
  destruct (Z.leb_spec (x + 1) u64_max) as [L | G].
  - rewrite cdiv_eq by lia. destruct (Z.eqb_spec x u64_max); [lia | reflexivity].
  - rewrite cdiv_eq by lia. destruct (Z.eqb_spec x u64_max); [reflexivity | lia].
Qed.

Lemma sqrt_program x n r : is_u64 x -> ends_within n (babylonian_step x) (sqrt_start x) = Some (Val r) ->
  sqrt_babylonian x false = Val r.
Proof.
  intros Hx H. rewrite (babylonian_correct x false Hx). pose proof (sqrt_loop x Hx) as L.
  apply (ends_more _ _ _ (Nat.max n 37)) in H; [| lia]. apply (ends_more _ _ _ (Nat.max n 37)) in L; [| lia].
  congruence.
Qed.
