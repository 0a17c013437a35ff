(** Arithmetic of the value of a pool token over a run of the fuzz test.

    The world is reduced to four numbers: V the value of the vaults in token A, A the balance
    of the vault of token A, and Y and F the supply and the fee account's balance, both
    multiplied by the value 3000000100 of one pool token at the start.  [step] is what one
    instruction may do to them, [good] is kept by every step. *)

Require Import ZArith Lia Psatz.
Open Scope Z_scope.

(** The value of a pool token at the start. *)
Definition unit_value : Z := 3000000100.
(** The value of the pool at the start. *)
Definition first_value : Z := 3000000100000000000.
(** All the tokens of a run at the price of the pool. *)
Definition all_value : Z := 10680000356000000000.
Definition low_value : Z := 2999000000000000000.
Definition price_b : Z := 10000000.

(** What one step may lose. *)
Definition slip : Z := 12000000400.
Definition tau : Z := 1800000000000000.
Definition far_fees : Z := 214800000000000000.
Definition room_a : Z := 360000000000.
Definition depth : Z := 100000000.
Definition base_term : Z := 11460963840000064000000000000000000.
Definition short (z : Z) : Z := Z.max 0 (far_fees - z).

Ltac consts :=
  unfold unit_value, first_value, all_value, low_value, price_b, slip, tau, far_fees, room_a,
    depth, base_term in *.

Record range (V A Y F : Z) : Prop := {
  r_low : low_value <= V;
  r_high : V <= all_value;
  r_a0 : 0 <= A;
  r_a1 : A <= 356000000000;
  r_z : 0 <= F;
  r_share : first_value + F <= Y;
  r_even : exists h, Y = 2 * h
}.

Definition potential (V Y F : Z) : Z :=
  800 * V * (all_value + F) - Y * (799 * all_value + V).

Record good (i V A Y F : Z) : Prop := {
  g_ratio : (depth - i) * first_value * (Y * Y) <= depth * (V * V) * (first_value + F);
  g_pot : 800 * V * (base_term + short F * short F - 2 * first_value * slip * i) <=
          2 * first_value * potential V Y F;
  g_near : Z.min (Y - V) tau <= V - Y + F + slip * i;
  g_room : V < Y -> Y <= V + tau ->
           (Y - V) * (room_a - A) <= 1000000000000000000 * (V - Y + F)
}.

Inductive step (V A Y F V' A' Y' F' : Z) : Prop :=
| by_swap u m g :
    V' = V + u -> Y' = Y + m -> F' = F + m -> A - g <= A' -> 0 <= u -> 0 <= m ->
    0 <= g -> g <= 400 * u ->
    (m = 0 \/ 20000 <= u /\ V * (Y + m - unit_value) <= V' * Y) ->
    step V A Y F V' A' Y' F'
| by_deposit_all n x a :
    V' = V + x -> Y' = Y + n -> F' = F -> A' = A + a -> 0 < x -> 0 < a ->
    unit_value <= n -> x <= 2 * a + price_b ->
    n * (2 * (V / 2)) <= x * Y -> n * (V / 2) <= a * Y ->
    step V A Y F V' A' Y' F'
| by_deposit n x c :
    V' = V + x -> Y' = Y + n -> F' = F -> A <= A' -> 0 < x -> 0 <= n -> 0 <= c -> c <= x ->
    x <= 1600 * c -> x <= 800 * c + 801 * price_b ->
    n * V <= Y * (x - c) ->
    step V A Y F V' A' Y' F'
| by_withdraw_all t f g :
    Y' = Y - t -> F' = F + f -> A - g <= A' -> V' <= V -> 0 <= t -> 0 <= f -> 0 <= g ->
    V * Y' <= V' * Y -> 2 * g * Y <= t * V -> 3 * t <= 2000 * f ->
    step V A Y F V' A' Y' F'
| by_withdraw n c t f g :
    V' = V - n -> Y' = Y - t -> F' = F + f -> A - g <= A' -> 0 <= n -> 0 <= c -> c <= n ->
    0 <= t -> unit_value <= f -> 0 <= g ->
    (c <= price_b \/ 800 * c <= n) -> (g = 0 \/ c <= 1000000000) ->
    Y * (n - c) <= t * V -> 3 * t <= 2000 * f -> 3 * t <= 1000 * (f + unit_value) ->
    step V A Y F V' A' Y' F'.

(** * The ratio *)

Lemma ratio_four i V A Y F :
  0 <= i <= 100000 -> range V A Y F -> 
  (depth - i) * first_value * (Y * Y) <= depth * (V * V) * (first_value + F) ->
  Y <= 4 * V.
Proof.
  intros Hi [H1 H2 _ _ Hz Hs _] H.
  assert (Hy : 0 < Y) by (consts; lia).
  assert (B : (depth - i) * first_value * Y <= depth * (V * V)).
  { apply (Z.mul_le_mono_pos_r _ _ Y); [exact Hy |].
    apply Z.le_trans with (depth * (V * V) * (first_value + F)).
    - lia.
    - apply Z.mul_le_mono_nonneg_l; [| exact Hs].
      apply Z.mul_nonneg_nonneg; [consts; lia |]. apply Z.mul_nonneg_nonneg; consts; lia. }
  apply Z.nlt_ge. intro C.
  assert (B2 : (depth - i) * first_value * (4 * V) <= depth * (V * V)).
  { eapply Z.le_trans; [| exact B].
    apply Z.mul_le_mono_nonneg_l; [| lia].
    apply Z.mul_nonneg_nonneg; consts; lia. }
  assert (B3 : (depth - i) * first_value * 4 <= depth * V).
  { apply (Z.mul_le_mono_pos_r _ _ V); [consts; lia |].
    replace ((depth - i) * first_value * 4 * V) with ((depth - i) * first_value * (4 * V)) by ring.
    replace (depth * V * V) with (depth * (V * V)) by ring. exact B2. }
  consts. lia.
Qed.

Lemma ratio_easy i V A Y F V' A' Y' F' :
  0 <= i < 100000 -> range V A Y F -> range V' A' Y' F' ->
  (depth - i) * first_value * (Y * Y) <= depth * (V * V) * (first_value + F) ->
  F <= F' -> 999999999 * (V * Y') <= 1000000000 * (V' * Y) ->
  (depth - (i + 1)) * first_value * (Y' * Y') <= depth * (V' * V') * (first_value + F').
Proof.
  intros Hi [H1 _ _ _ Hz Hs _] [H1' _ _ _ Hz' Hs' _] H Z1 C.
  assert (P1 : 0 < V) by (consts; lia). assert (P2 : 0 < V') by (consts; lia).
  assert (P3 : 0 < Y) by (consts; lia). assert (P4 : 0 < Y') by (consts; lia).
  assert (P5 : 0 < first_value) by (consts; lia).
  assert (S : (999999999 * (V * Y')) * (999999999 * (V * Y')) <=
              (1000000000 * (V' * Y)) * (1000000000 * (V' * Y))).
  { apply Z.mul_le_mono_nonneg; try exact C; nia. }
  apply (Z.mul_le_mono_pos_r _ _ (V * V * (999999999 * 999999999))); [nia |].
  apply Z.le_trans with ((depth - (i + 1)) * first_value *
     ((1000000000 * (V' * Y)) * (1000000000 * (V' * Y)))).
  { replace ((depth - (i + 1)) * first_value * (Y' * Y') * (V * V * (999999999 * 999999999)))
      with ((depth - (i + 1)) * first_value *
            ((999999999 * (V * Y')) * (999999999 * (V * Y')))) by ring.
    apply Z.mul_le_mono_nonneg_l; [| exact S]. apply Z.mul_nonneg_nonneg; consts; lia. }
  apply Z.le_trans with (((depth - i) * first_value * (Y * Y)) *
                         ((V' * V') * (999999999 * 999999999))).
  - assert (Q : (depth - (i + 1)) * (1000000000 * 1000000000) <=
                (depth - i) * (999999999 * 999999999)) by (consts; lia).
    assert (Q2 : 0 <= first_value * (Y * Y) * (V' * V')) by nia.
    pose proof (Z.mul_le_mono_nonneg_r _ _ _ Q2 Q) as Q3.
    replace ((depth - (i + 1)) * first_value *
      ((1000000000 * (V' * Y)) * (1000000000 * (V' * Y))))
      with ((depth - (i + 1)) * (1000000000 * 1000000000) * (first_value * (Y * Y) * (V' * V')))
      by ring.
    replace (((depth - i) * first_value * (Y * Y)) * ((V' * V') * (999999999 * 999999999)))
      with ((depth - i) * (999999999 * 999999999) * (first_value * (Y * Y) * (V' * V')))
      by ring.
    exact Q3.
  - apply Z.le_trans with ((depth * (V * V) * (first_value + F)) *
                           ((V' * V') * (999999999 * 999999999))).
    + apply Z.mul_le_mono_nonneg_r; [nia | exact H].
    + replace (depth * (V * V) * (first_value + F) * (V' * V' * (999999999 * 999999999)))
        with ((depth * (V * V) * (V' * V') * (999999999 * 999999999)) * (first_value + F)) by ring.
      replace (depth * (V' * V') * (first_value + F') * (V * V * (999999999 * 999999999)))
        with ((depth * (V * V) * (V' * V') * (999999999 * 999999999)) * (first_value + F'))
        by ring.
      apply Z.mul_le_mono_nonneg_l; [| lia].
      assert (0 <= V * V) by nia. assert (0 <= V' * V') by nia.
      repeat apply Z.mul_nonneg_nonneg; try assumption; consts; lia.
Qed.

Lemma ratio_withdraw i V A Y F V' A' Y' F' n c t f :
  0 <= i < 100000 -> range V A Y F -> range V' A' Y' F' ->
  (depth - i) * first_value * (Y * Y) <= depth * (V * V) * (first_value + F) ->
  V' = V - n -> Y' = Y - t -> F' = F + f -> 0 <= n -> 0 <= c -> c <= n -> 0 <= t -> 0 <= f ->
  (c <= price_b \/ 800 * c <= n) -> Y * (n - c) <= t * V -> 3 * t <= 1000 * (f + unit_value) ->
  (depth - (i + 1)) * first_value * (Y' * Y') <= depth * (V' * V') * (first_value + F').
Proof.
  intros Hi [H1 H2 _ _ Hz Hs _] [H1' _ _ _ Hz' Hs' _] H E1 E2 E3 Hn Hc Hcn Ht Hf Hd Hb H3.
  assert (P1 : 0 < V) by (consts; lia). assert (P2 : 0 < V') by (consts; lia).
  assert (P3 : 0 < Y) by (consts; lia). assert (P4 : 0 < Y') by (consts; lia).
  assert (P5 : 0 < first_value) by (consts; lia).
  assert (C : V * Y' <= Y * (V' + c)) by (subst V' Y'; lia).
  set (K := first_value + F) in *.
  assert (K1 : first_value <= K) by (unfold K; lia).
  assert (KY : K * V <= Y * (V' + c)).
  { eapply Z.le_trans; [| exact C]. rewrite (Z.mul_comm V Y').
    apply Z.mul_le_mono_nonneg_r; unfold K; lia. }
  (* the fee covers the loss *)
  assert (Core : (depth - 1) * (K * ((V' + c) * (V' + c))) <= depth * ((V' * V') * (K + f))).
  { assert (C1 : depth * (K * (c * (2 * V' + c))) <= depth * (V' * V') * f + V' * (V' * K)).
    { assert (Small : 100 * c <= V').
      { destruct Hd as [Hd | Hd]; consts; lia. }
      assert (B1 : 100 * (c * (2 * V' + c)) <= 201 * (c * V')) by nia.
      apply Z.nlt_ge. intro Bad.
      assert (Bad2 : 100 * (depth * (V' * V') * f + V' * (V' * K)) < depth * K * (201 * (c * V'))).
      { eapply Z.lt_le_trans; [apply Z.mul_lt_mono_pos_l; [lia | exact Bad] |].
        replace (100 * (depth * (K * (c * (2 * V' + c)))))
          with (depth * K * (100 * (c * (2 * V' + c)))) by ring.
        apply Z.mul_le_mono_nonneg_l; [| exact B1].
        apply Z.mul_nonneg_nonneg; unfold K; consts; lia. }
      assert (Bad3 : 100 * (depth * V' * f + V' * K) < depth * K * (201 * c)).
      { apply (Z.mul_lt_mono_pos_r V'); [exact P2 |].
        replace (100 * (depth * V' * f + V' * K) * V')
          with (100 * (depth * (V' * V') * f + V' * (V' * K))) by ring.
        replace (depth * K * (201 * c) * V') with (depth * K * (201 * (c * V'))) by ring.
        exact Bad2. }
      clear Bad Bad2.
      destruct Hd as [Hd | Hd].
      - assert (F0 : 0 <= depth * V' * f) by (repeat apply Z.mul_nonneg_nonneg; consts; lia).
        assert (F1 : 100 * (V' * K) < depth * K * (201 * c)) by lia.
        assert (F2 : 100 * V' < depth * (201 * c)).
        { apply (Z.mul_lt_mono_pos_r K); [unfold K; consts; lia |].
          replace (100 * V' * K) with (100 * (V' * K)) by ring.
          replace (depth * (201 * c) * K) with (depth * K * (201 * c)) by ring. exact F1. }
        consts. lia.
      - (* multiply by V *)
        assert (G1 : 100 * (depth * V' * (f * V) + V' * K * V) < depth * (201 * c) * (K * V)).
        { replace (100 * (depth * V' * (f * V) + V' * K * V))
            with (100 * (depth * V' * f + V' * K) * V) by ring.
          replace (depth * (201 * c) * (K * V)) with (depth * K * (201 * c) * V) by ring.
          apply Z.mul_lt_mono_pos_r; assumption. }
        assert (G2 : depth * (201 * c) * (K * V) <= depth * (201 * c) * (Y * (V' + c))).
        { apply Z.mul_le_mono_nonneg_l; [consts; lia | exact KY]. }
        assert (G3 : 3 * (Y * (n - c)) <= 1000 * (f * V + unit_value * V)).
        { eapply Z.le_trans; [apply Z.mul_le_mono_nonneg_l; [lia | exact Hb] |].
          replace (3 * (t * V)) with (3 * t * V) by ring.
          replace (1000 * (f * V + unit_value * V)) with (1000 * (f + unit_value) * V) by ring.
          apply Z.mul_le_mono_nonneg_r; lia. }
        assert (G4 : depth * V' * (unit_value * V) <= V' * K * V).
        { replace (depth * V' * (unit_value * V)) with (depth * unit_value * (V' * V)) by ring.
          replace (V' * K * V) with (K * (V' * V)) by ring.
          apply Z.mul_le_mono_nonneg_r; [nia | consts; lia]. }
        assert (G5 : 3 * (Y * (799 * c)) <= 1000 * (f * V + unit_value * V)).
        { eapply Z.le_trans; [| exact G3]. apply Z.mul_le_mono_nonneg_l; [lia |].
          apply Z.mul_le_mono_nonneg_l; lia. }
        assert (G6 : 100 * depth * V' * (f * V + unit_value * V) <
                     depth * (201 * c) * (Y * (V' + c))) by lia.
        assert (G7 : 100 * V' * (3 * (Y * (799 * c))) < 1000 * ((201 * c) * (Y * (V' + c)))).
        { apply Z.le_lt_trans with (100 * V' * (1000 * (f * V + unit_value * V))).
          - apply Z.mul_le_mono_nonneg_l; [lia | exact G5].
          - apply (Z.mul_lt_mono_pos_l depth); [consts; lia |]. lia. }
        assert (G8 : c * Y * (239700 * V') < c * Y * (201000 * (V' + c))) by lia.
        assert (G9 : c * Y * (201000 * (V' + c)) <= c * Y * (239700 * V')).
        { apply Z.mul_le_mono_nonneg_l; [apply Z.mul_nonneg_nonneg; lia | lia]. }
        lia. }
    replace ((depth - 1) * (K * ((V' + c) * (V' + c))))
      with (depth * (K * (V' * V')) + depth * (K * (c * (2 * V' + c)))
            - K * ((V' + c) * (V' + c))) by ring.
    replace (depth * (V' * V' * (K + f)))
      with (depth * (K * (V' * V')) + depth * (V' * V') * f) by ring.
    assert (K * (V' * V') <= K * ((V' + c) * (V' + c))).
    { apply Z.mul_le_mono_nonneg_l; [unfold K; lia |]. apply Z.mul_le_mono_nonneg; lia. }
    lia. }
  apply (Z.mul_le_mono_pos_r _ _ (V * V)); [nia |].
  apply (Z.mul_le_mono_pos_r _ _ depth); [consts; lia |].
  assert (S : (V * Y') * (V * Y') <= (Y * (V' + c)) * (Y * (V' + c))).
  { apply Z.mul_le_mono_nonneg; try exact C; nia. }
  apply Z.le_trans with ((depth - (i + 1)) * depth * first_value *
                         ((Y * (V' + c)) * (Y * (V' + c)))).
  { replace ((depth - (i + 1)) * first_value * (Y' * Y') * (V * V) * depth)
      with ((depth - (i + 1)) * depth * first_value * ((V * Y') * (V * Y'))) by ring.
    apply Z.mul_le_mono_nonneg_l; [| exact S].
    repeat apply Z.mul_nonneg_nonneg; consts; lia. }
  apply Z.le_trans with ((depth - 1) * ((depth - i) * first_value * (Y * Y)) *
                         ((V' + c) * (V' + c))).
  { assert (Q : (depth - (i + 1)) * depth <= (depth - 1) * (depth - i)) by (consts; lia).
    replace ((depth - (i + 1)) * depth * first_value * (Y * (V' + c) * (Y * (V' + c))))
      with ((depth - (i + 1)) * depth * (first_value * (Y * (V' + c) * (Y * (V' + c))))) by ring.
    replace ((depth - 1) * ((depth - i) * first_value * (Y * Y)) * ((V' + c) * (V' + c)))
      with ((depth - 1) * (depth - i) * (first_value * (Y * (V' + c) * (Y * (V' + c))))) by ring.
    apply Z.mul_le_mono_nonneg_r; [| exact Q].
    apply Z.mul_nonneg_nonneg; [lia |].
    assert (0 <= Y * (V' + c)) by (apply Z.mul_nonneg_nonneg; lia).
    apply Z.mul_nonneg_nonneg; assumption. }
  apply Z.le_trans with ((depth - 1) * (depth * (V * V) * K) * ((V' + c) * (V' + c))).
  { apply Z.mul_le_mono_nonneg_r; [apply Z.mul_nonneg_nonneg; lia |].
    apply Z.mul_le_mono_nonneg_l; [consts; lia | exact H]. }
  replace ((depth - 1) * (depth * (V * V) * K) * ((V' + c) * (V' + c)))
    with (depth * (V * V) * ((depth - 1) * (K * ((V' + c) * (V' + c))))) by ring.
  replace (depth * (V' * V') * (first_value + F') * (V * V) * depth)
    with (depth * (V * V) * (depth * ((V' * V') * (K + f)))) by (subst F'; unfold K; ring).
  apply Z.mul_le_mono_nonneg_l; [| exact Core].
  apply Z.mul_nonneg_nonneg; [consts; lia | apply Z.mul_nonneg_nonneg; lia].
Qed.

(** * The potential *)

Lemma short_nonneg z : 0 <= short z.
Proof. unfold short. lia. Qed.

Lemma short_le z z' : z <= z' -> short z' * short z' <= short z * short z.
Proof.
  intro H. apply Z.mul_le_mono_nonneg; try apply short_nonneg; unfold short; lia.
Qed.

Lemma pot_easy i V Y F V' Y' F' :
  0 < V -> 0 < V' -> F <= F' ->
  800 * V * (base_term + short F * short F - 2 * first_value * slip * i) <=
  2 * first_value * potential V Y F ->
  0 <= 800 * (V * V') * (F' - F + slip) - V * V' * (Y' - Y) -
       799 * all_value * (V * Y' - V' * Y) ->
  800 * V' * (base_term + short F' * short F' - 2 * first_value * slip * (i + 1)) <=
  2 * first_value * potential V' Y' F'.
Proof.
  intros P1 P2 HF H G.
  pose proof (short_le _ _ HF) as HS.
  assert (Id : V * potential V' Y' F' - V' * potential V Y F + 800 * (V * V') * slip =
    800 * (V * V') * (F' - F + slip) - V * V' * (Y' - Y) - 799 * all_value * (V * Y' - V' * Y))
    by (unfold potential; ring).
  apply (Z.mul_le_mono_pos_r _ _ V); [exact P1 |].
  apply Z.le_trans with
    (800 * (V * V') * (base_term + short F * short F - 2 * first_value * slip * (i + 1))).
  { replace (800 * V' * (base_term + short F' * short F' - 2 * first_value * slip * (i + 1)) * V)
      with (800 * (V * V') * (base_term + short F' * short F' - 2 * first_value * slip * (i + 1)))
      by ring.
    apply Z.mul_le_mono_nonneg_l; [| lia].
    apply Z.mul_nonneg_nonneg; [lia | apply Z.mul_nonneg_nonneg; lia]. }
  pose proof (Z.mul_le_mono_nonneg_r _ _ V' (Z.lt_le_incl _ _ P2) H) as H'.
  assert (G2 : 0 <= first_value *
     (V * potential V' Y' F' - V' * potential V Y F + 800 * (V * V') * slip)).
  { apply Z.mul_nonneg_nonneg; [unfold first_value; lia | lia]. }
  lia.
Qed.

(** The value left after a single withdrawal. *)
Lemma withdraw_value V Y F V' Y' F' c :
  0 < V -> V <= all_value -> 0 <= V' -> 0 <= c -> 0 <= F -> F <= F' -> 0 <= Y ->
  0 <= potential V Y F -> V * Y' <= Y * (V' + c) -> first_value + F' <= Y' ->
  800 * c <= V - V' + 800 * price_b ->
  799 * all_value * (first_value + F') - all_value * (all_value - first_value)
    - 800 * price_b * (all_value + F') <= 799 * V' * (all_value + F').
Proof.
  intros P1 HV P2 Hc HF HF' HY HP C HS Hx.
  set (W := 799 * V' + V + 800 * price_b).
  set (U := 799 * all_value + V).
  assert (HU : 0 < U) by (unfold U; consts; lia).
  assert (HW : 0 <= W) by (unfold W; consts; lia).
  assert (A1 : 800 * V * (first_value + F') <= Y * W).
  { apply Z.le_trans with (800 * (V * Y')).
    - replace (800 * V * (first_value + F')) with (800 * V * (first_value + F')) by ring.
      replace (800 * (V * Y')) with (800 * V * Y') by ring.
      apply Z.mul_le_mono_nonneg_l; lia.
    - apply Z.le_trans with (Y * (800 * (V' + c))); [lia |].
      apply Z.mul_le_mono_nonneg_l; [exact HY | unfold W; lia]. }
  assert (A2 : Y * U <= 800 * V * (all_value + F)).
  { unfold potential in HP. unfold U. lia. }
  assert (A3 : 800 * V * ((first_value + F') * U) <= 800 * V * ((all_value + F') * W)).
  { apply Z.le_trans with (Y * W * U).
    - replace (800 * V * ((first_value + F') * U)) with (800 * V * (first_value + F') * U) by ring.
      apply Z.mul_le_mono_nonneg_r; [lia | exact A1].
    - replace (Y * W * U) with (Y * U * W) by ring.
      apply Z.le_trans with (800 * V * (all_value + F) * W).
      + apply Z.mul_le_mono_nonneg_r; [exact HW | exact A2].
      + replace (800 * V * (all_value + F) * W) with (800 * V * ((all_value + F) * W)) by ring.
        apply Z.mul_le_mono_nonneg_l; [lia |]. apply Z.mul_le_mono_nonneg_r; lia. }
  apply Z.mul_le_mono_pos_l in A3; [| lia].
  unfold W, U in A3.
  assert (A4 : V * (all_value - first_value) <= all_value * (all_value - first_value)).
  { apply Z.mul_le_mono_nonneg_r; [consts; lia | exact HV]. }
  lia.
Qed.

Lemma withdraw_gain V' F' :
  0 <= V' -> 0 <= F' ->
  799 * all_value * (first_value + F') - all_value * (all_value - first_value)
    - 800 * price_b * (all_value + F') <= 799 * V' * (all_value + F') ->
  F' < far_fees ->
  2000 * first_value * all_value <= V' * (4800 * short F' + 6800 * first_value).
Proof.
  intros P HF H HB.
  replace (short F') with (far_fees - F') by (unfold short; lia).
  assert (B : 799 * (all_value + F') * (2000 * first_value * all_value) <=
              799 * (all_value + F') * (V' * (4800 * (far_fees - F') + 6800 * first_value))).
  { apply Z.le_trans with
      ((799 * all_value * (first_value + F') - all_value * (all_value - first_value)
        - 800 * price_b * (all_value + F')) * (4800 * (far_fees - F') + 6800 * first_value)).
    - assert (0 <= F' * (far_fees - F')) by (apply Z.mul_nonneg_nonneg; lia).
      consts. lia.
    - replace (799 * (all_value + F') * (V' * (4800 * (far_fees - F') + 6800 * first_value)))
        with (799 * V' * (all_value + F') * (4800 * (far_fees - F') + 6800 * first_value)) by ring.
      apply Z.mul_le_mono_nonneg_r; [consts; lia | exact H]. }
  apply Z.mul_le_mono_pos_l in B; [exact B | consts; lia].
Qed.

Lemma far_gain V' F' :
  0 <= V' -> far_fees <= F' ->
  799 * all_value * (first_value + F') - all_value * (all_value - first_value)
    - 800 * price_b * (all_value + F') <= 799 * V' * (all_value + F') ->
  2000 * first_value * all_value <= V' * (6800 * first_value).
Proof.
  intros P HF H.
  assert (B : 799 * (all_value + F') * (2000 * first_value * all_value) <=
              799 * (all_value + F') * (V' * (6800 * first_value))).
  { apply Z.le_trans with
      ((799 * all_value * (first_value + F') - all_value * (all_value - first_value)
        - 800 * price_b * (all_value + F')) * (6800 * first_value)).
    - consts. lia.
    - replace (799 * (all_value + F') * (V' * (6800 * first_value)))
        with (799 * V' * (all_value + F') * (6800 * first_value)) by ring.
      apply Z.mul_le_mono_nonneg_r; [consts; lia | exact H]. }
  apply Z.mul_le_mono_pos_l in B; [exact B | consts; lia].
Qed.

Lemma pot_withdraw i V A Y F V' A' Y' F' n c t f :
  0 <= i < 100000 -> range V A Y F -> range V' A' Y' F' -> Y <= 4 * V ->
  800 * V * (base_term + short F * short F - 2 * first_value * slip * i) <=
  2 * first_value * potential V Y F ->
  V' = V - n -> Y' = Y - t -> F' = F + f -> 0 <= n -> 0 <= c -> c <= n -> 0 <= t -> 0 <= f ->
  (c <= price_b \/ 800 * c <= n) -> Y * (n - c) <= t * V -> 3 * t <= 1000 * (f + unit_value) ->
  800 * V' * (base_term + short F' * short F' - 2 * first_value * slip * (i + 1)) <=
  2 * first_value * potential V' Y' F'.
Proof.
  intros Hi [H1 H2 _ _ Hz Hs _] [H1' H2' _ _ Hz' Hs' _] H4 H E1 E2 E3 Hn Hc Hcn Ht Hf Hd Hb H3.
  assert (P1 : 0 < V) by (consts; lia). assert (P2 : 0 < V') by (consts; lia).
  assert (P3 : 0 < Y) by (consts; lia). assert (P4 : 0 < Y') by (consts; lia).
  assert (C : V * Y' <= Y * (V' + c)) by (subst V' Y'; lia).
  assert (Hx : 800 * c <= n + 800 * price_b) by (destruct Hd; consts; lia).
  assert (Pos : 0 <= potential V Y F).
  { assert (0 <= 2 * first_value * potential V Y F).
    { eapply Z.le_trans; [| exact H]. apply Z.mul_nonneg_nonneg; [lia |].
      assert (0 <= short F * short F)
        by (apply Z.mul_nonneg_nonneg; apply short_nonneg).
      consts. lia. }
    consts. lia. }
  assert (LB := withdraw_value V Y F V' Y' F' c P1 H2 (Z.lt_le_incl _ _ P2) Hc Hz
     ltac:(lia) (Z.lt_le_incl _ _ P3) Pos C Hs' ltac:(lia)).
  (* the change of the potential *)
  assert (G : f * (V * (3400 * V' - 1000 * all_value)) <=
              3 * (V * potential V' Y' F' - V' * potential V Y F) + 2400 * (V * V') * slip).
  { assert (Id : V * potential V' Y' F' - V' * potential V Y F =
      800 * (V * V') * f + V * V' * t - 799 * all_value * (n * Y - V * t))
      by (subst V' Y' F'; unfold potential; ring).
    rewrite Id. clear Id.
    assert (Q1 : 799 * (n * Y - V * t) <= V * t + 800 * price_b * Y).
    { assert (Y * (800 * c) <= Y * (n + 800 * price_b)) by (apply Z.mul_le_mono_nonneg_l; lia).
      lia. }
    assert (Q2 : 799 * all_value * (n * Y - V * t) <= all_value * (V * t + 800 * price_b * Y)).
    { replace (799 * all_value * (n * Y - V * t)) with (all_value * (799 * (n * Y - V * t))) by ring.
      apply Z.mul_le_mono_nonneg_l; [consts; lia | exact Q1]. }
    assert (Q3 : 3 * t * (V * (all_value - V')) <=
                 1000 * (f + unit_value) * (V * (all_value - V'))).
    { apply Z.mul_le_mono_nonneg_r; [apply Z.mul_nonneg_nonneg; lia | exact H3]. }
    assert (Q4 : 2400 * price_b * all_value * Y <= 2400 * price_b * all_value * (4 * V)).
    { apply Z.mul_le_mono_nonneg_l; [consts; lia | exact H4]. }
    assert (Q5 : V * (1000 * unit_value * all_value + 9600 * price_b * all_value) <=
                 V * (V' * (2400 * slip + 1000 * unit_value))).
    { apply Z.mul_le_mono_nonneg_l; [lia |]. consts. lia. }
    lia. }
  (* the drop of the square *)
  assert (Sq : 0 <= first_value * f * (6800 * V' - 2000 * all_value) +
                    2400 * V' * (short F * short F - short F' * short F')).
  { destruct (Z.lt_ge_cases F' far_fees) as [L | L].
    - pose proof (withdraw_gain V' F' (Z.lt_le_incl _ _ P2) Hz' LB L) as W.
      assert (S1 : short F = short F' + f) by (unfold short; lia).
      rewrite S1. pose proof (short_nonneg F') as N0.
      assert (0 <= f * (V' * (4800 * short F' + 6800 * first_value)
                        - 2000 * first_value * all_value))
        by (apply Z.mul_nonneg_nonneg; lia).
      assert (0 <= V' * (f * f)) by (apply Z.mul_nonneg_nonneg; [lia | apply Z.mul_nonneg_nonneg; lia]).
      lia.
    - pose proof (far_gain V' F' (Z.lt_le_incl _ _ P2) L LB) as W.
      assert (0 <= f * (V' * (6800 * first_value) - 2000 * first_value * all_value))
        by (apply Z.mul_nonneg_nonneg; lia).
      assert (S0 : short F' * short F' <= short F * short F) by (apply short_le; lia).
      assert (0 <= V' * (short F * short F - short F' * short F'))
        by (apply Z.mul_nonneg_nonneg; lia).
      lia. }
  apply (Z.mul_le_mono_pos_r _ _ (3 * V)); [lia |].
  pose proof (Z.mul_le_mono_nonneg_r _ _ (3 * V') ltac:(lia) H) as H'.
  assert (G2 : 2 * first_value * (f * (V * (3400 * V' - 1000 * all_value))) <=
    2 * first_value * (3 * (V * potential V' Y' F' - V' * potential V Y F) + 2400 * (V * V') * slip)).
  { apply Z.mul_le_mono_nonneg_l; [consts; lia | exact G]. }
  assert (Sq2 : 0 <= V * (first_value * f * (6800 * V' - 2000 * all_value) +
                    2400 * V' * (short F * short F - short F' * short F')))
    by (apply Z.mul_nonneg_nonneg; lia).
  lia.
Qed.

(** * Bounds of a step *)

Lemma deposit_all_bounds V A Y F V' A' Y' F' n x a :
  range V A Y F -> range V' A' Y' F' -> Y <= 4 * V ->
  V' = V + x -> Y' = Y + n -> A' = A + a -> 0 < x -> 0 < a ->
  unit_value <= n -> x <= 2 * a + price_b ->
  n * (2 * (V / 2)) <= x * Y -> n * (V / 2) <= a * Y ->
  100 * x <= 203 * a /\ x <= 750000000000 /\ n <= 3100000000000 /\
  n * (V - 1) <= x * Y /\ n * V <= x * Y + n.
Proof.
  intros [H1 H2 A0 A1 Hz Hs _] [H1' H2' A0' A1' Hz' Hs' _] H4 E1 E2 E3 Hx Ha Hn Hxa Hb Hc.
  assert (P1 : 0 < V) by (consts; lia). assert (P3 : 0 < Y) by (consts; lia).
  assert (D : V - 1 <= 2 * (V / 2) <= V).
  { pose proof (Z.mod_pos_bound V 2 ltac:(lia)). pose proof (Z.div_mod V 2 ltac:(lia)). lia. }
  assert (B1 : n * (V - 1) <= x * Y).
  { eapply Z.le_trans; [| exact Hb]. apply Z.mul_le_mono_nonneg_l; consts; lia. }
  assert (B2 : 370000000 <= a).
  { apply Z.nlt_ge. intro L.
    assert (unit_value * (V - 1) <= 2 * (n * (V / 2))).
    { eapply Z.le_trans with (n * (V - 1)).
      - apply Z.mul_le_mono_nonneg_r; consts; lia.
      - replace (2 * (n * (V / 2))) with (n * (2 * (V / 2))) by ring.
        apply Z.mul_le_mono_nonneg_l; consts; lia. }
    assert (a * Y <= 369999999 * Y) by (apply Z.mul_le_mono_nonneg_r; lia).
    consts. lia. }
  assert (B3 : 100 * x <= 203 * a) by (consts; lia).
  assert (B4 : x <= 750000000000) by lia.
  assert (B5 : n <= 3100000000000).
  { apply Z.nlt_ge. intro L.
    assert (3100000000001 * (V - 1) <= n * (V - 1)) by (apply Z.mul_le_mono_nonneg_r; lia).
    assert (x * Y <= 750000000000 * Y) by (apply Z.mul_le_mono_nonneg_r; lia).
    consts. lia. }
  repeat split; try assumption. lia.
Qed.

(** * One step *)

Lemma step_ratio i V A Y F V' A' Y' F' :
  0 <= i < 100000 -> range V A Y F -> range V' A' Y' F' -> good i V A Y F ->
  step V A Y F V' A' Y' F' ->
  (depth - (i + 1)) * first_value * (Y' * Y') <= depth * (V' * V') * (first_value + F').
Proof.
  intros Hi R R' G St.
  assert (H4 : Y <= 4 * V) by (apply (ratio_four i V A Y F); [lia | exact R | apply G]).
  destruct G as [GR _ _ _].
  assert (RR := R). assert (RR' := R').
  destruct R as [H1 H2 A0 A1 Hz Hs _]. destruct R' as [H1' H2' A0' A1' Hz' Hs' _].
  destruct St as [u m g E1 E2 E3 EA Hu Hm Hg Hgu Hor | n x a E1 E2 E3 EA Hx Ha Hn Hxa Hb Hc
    | n x c E1 E2 E3 EA Hx Hn Hc Hcx Hc1 Hc2 Hb | t f g E2 E3 EA HV Ht Hf Hg Hb Hgt Htf
    | n c t f g E1 E2 E3 EA Hn Hc Hcn Ht Hf Hg Hd Hgc Hb Ht1 Ht2].
  - apply (ratio_easy i V A Y F V' A' Y' F' Hi RR RR' GR); [lia |].
    destruct Hor as [-> | [Hu2 Hor]].
    + assert (0 <= u * Y) by (apply Z.mul_nonneg_nonneg; consts; lia).
      assert (0 <= V * Y) by (apply Z.mul_nonneg_nonneg; consts; lia).
      subst V' Y'. lia.
    + assert (B : 999999999 * unit_value * V <= V' * Y).
      { rewrite (Z.mul_comm V' Y). apply Z.mul_le_mono_nonneg; consts; lia. }
      subst Y'. lia.
  - destruct (deposit_all_bounds V A Y F V' A' Y' F' n x a RR RR' H4 E1 E2 EA Hx Ha Hn Hxa Hb Hc)
      as (B1 & B2 & B3 & B4 & B5).
    apply (ratio_easy i V A Y F V' A' Y' F' Hi RR RR' GR); [lia |].
    assert (B : 999999999 * n <= V' * Y).
    { apply Z.le_trans with (3100000000000 * 3100000000000); [lia |].
      apply Z.mul_le_mono_nonneg; consts; lia. }
    subst V' Y'. lia.
  - apply (ratio_easy i V A Y F V' A' Y' F' Hi RR RR' GR); [lia |].
    assert (0 <= Y * c) by (apply Z.mul_nonneg_nonneg; consts; lia).
    assert (0 <= V * Y) by (apply Z.mul_nonneg_nonneg; consts; lia).
    assert (0 <= x * Y) by (apply Z.mul_nonneg_nonneg; consts; lia).
    subst V' Y'. lia.
  - apply (ratio_easy i V A Y F V' A' Y' F' Hi RR RR' GR); [lia |].
    assert (0 <= V' * Y) by (apply Z.mul_nonneg_nonneg; consts; lia). lia.
  - apply (ratio_withdraw i V A Y F V' A' Y' F' n c t f Hi RR RR' GR E1 E2 E3 Hn Hc Hcn Ht);
      try assumption. consts; lia.
Qed.

Lemma step_pot i V A Y F V' A' Y' F' :
  0 <= i < 100000 -> range V A Y F -> range V' A' Y' F' -> good i V A Y F ->
  step V A Y F V' A' Y' F' ->
  800 * V' * (base_term + short F' * short F' - 2 * first_value * slip * (i + 1)) <=
  2 * first_value * potential V' Y' F'.
Proof.
  intros Hi R R' G St.
  assert (H4 : Y <= 4 * V) by (apply (ratio_four i V A Y F); [lia | exact R | apply G]).
  destruct G as [_ GP _ _].
  assert (RR := R). assert (RR' := R').
  destruct R as [H1 H2 A0 A1 Hz Hs _]. destruct R' as [H1' H2' A0' A1' Hz' Hs' _].
  assert (P1 : 0 < V) by (consts; lia). assert (P2 : 0 < V') by (consts; lia).
  assert (P3 : 0 < Y) by (consts; lia).
  assert (P12 : 0 <= V * V') by (apply Z.mul_nonneg_nonneg; lia).
  destruct St as [u m g E1 E2 E3 EA Hu Hm Hg Hgu Hor | n x a E1 E2 E3 EA Hx Ha Hn Hxa Hb Hc
    | n x c E1 E2 E3 EA Hx Hn Hc Hcx Hc1 Hc2 Hb | t f g E2 E3 EA HV Ht Hf Hg Hb Hgt Htf
    | n c t f g E1 E2 E3 EA Hn Hc Hcn Ht Hf Hg Hd Hgc Hb Ht1 Ht2].
  - apply (pot_easy i V Y F V' Y' F' P1 P2 ltac:(lia) GP).
    replace (F' - F + slip) with (m + slip) by lia. replace (Y' - Y) with m by lia.
    assert (Q0 : 0 <= V * V' * m) by (apply Z.mul_nonneg_nonneg; lia).
    assert (Q1 : V * Y' - V' * Y <= V * unit_value).
    { destruct Hor as [-> | [_ Hor]].
      - assert (0 <= u * Y) by (apply Z.mul_nonneg_nonneg; lia).
        assert (0 <= V * unit_value) by (apply Z.mul_nonneg_nonneg; consts; lia).
        subst V' Y'. lia.
      - subst Y'. lia. }
    assert (Q2 : 799 * all_value * (V * Y' - V' * Y) <= 799 * all_value * (V * unit_value)).
    { apply Z.mul_le_mono_nonneg_l; [consts; lia | exact Q1]. }
    assert (Q3 : V * (799 * all_value * unit_value) <= V * (800 * V' * slip)).
    { apply Z.mul_le_mono_nonneg_l; consts; lia. }
    lia.
  - destruct (deposit_all_bounds V A Y F V' A' Y' F' n x a RR RR' H4 E1 E2 EA Hx Ha Hn Hxa Hb Hc)
      as (B1 & B2 & B3 & B4 & B5).
    apply (pot_easy i V Y F V' Y' F' P1 P2 ltac:(lia) GP).
    replace (F' - F + slip) with slip by lia. replace (Y' - Y) with n by lia.
    assert (Q1 : V * Y' - V' * Y <= n) by (subst V' Y'; lia).
    assert (Q2 : 799 * all_value * (V * Y' - V' * Y) <= 799 * all_value * n).
    { apply Z.mul_le_mono_nonneg_l; [consts; lia | exact Q1]. }
    assert (Q3 : V * V' * n <= V * V' * 3100000000000) by (apply Z.mul_le_mono_nonneg_l; lia).
    assert (Q4 : 799 * all_value * n <= V * V').
    { apply Z.le_trans with (799 * all_value * 3100000000000); [consts; lia |].
      apply Z.le_trans with (low_value * low_value); [consts; lia |].
      apply Z.mul_le_mono_nonneg; consts; lia. }
    consts. lia.
  - apply (pot_easy i V Y F V' Y' F' P1 P2 ltac:(lia) GP).
    replace (F' - F + slip) with slip by lia. replace (Y' - Y) with n by lia.
    replace (V * Y' - V' * Y) with (n * V - x * Y) by (subst V' Y'; ring).
    assert (Q1 : V' * (n * V) <= V' * (Y * (799 * c + 801 * price_b))).
    { apply Z.mul_le_mono_nonneg_l; [lia |]. eapply Z.le_trans; [exact Hb |].
      apply Z.mul_le_mono_nonneg_l; lia. }
    assert (Q2 : V' * (Y * c) <= all_value * (Y * c)).
    { apply Z.mul_le_mono_nonneg_r; [apply Z.mul_nonneg_nonneg; lia | lia]. }
    assert (Q3 : 799 * all_value * (n * V - x * Y) <= 799 * all_value * (- (Y * c))).
    { apply Z.mul_le_mono_nonneg_l; [consts; lia | lia]. }
    assert (Q4 : V' * (801 * price_b) * Y <= V' * (801 * price_b) * (4 * V)).
    { apply Z.mul_le_mono_nonneg_l; [consts; lia | exact H4]. }
    assert (Q5 : V * V' * (3204 * price_b) <= V * V' * (800 * slip)).
    { apply Z.mul_le_mono_nonneg_l; [exact P12 | consts; lia]. }
    lia.
  - apply (pot_easy i V Y F V' Y' F' P1 P2 ltac:(lia) GP).
    assert (Q1 : 0 <= V * V' * (F' - F + slip)).
    { apply Z.mul_nonneg_nonneg; [exact P12 | consts; lia]. }
    assert (Q2 : 0 <= V * V' * (Y - Y')) by (apply Z.mul_nonneg_nonneg; lia).
    assert (Q3 : 0 <= all_value * (V' * Y - V * Y')).
    { apply Z.mul_nonneg_nonneg; [consts; lia | lia]. }
    lia.
  - apply (pot_withdraw i V A Y F V' A' Y' F' n c t f Hi RR RR' H4 GP E1 E2 E3 Hn Hc Hcn Ht);
      try assumption. consts; lia.
Qed.

(** * What is left over the starting value *)

Definition near (i V Y F : Z) : Prop := Z.min (Y - V) tau <= V - Y + F + slip * i.
Definition roomy (V A Y F : Z) : Prop :=
  V < Y -> Y <= V + tau -> (Y - V) * (room_a - A) <= 1000000000000000000 * (V - Y + F).

Lemma pot_tau i V Y F :
  0 < V -> 800 * V * (base_term + short F * short F - 2 * first_value * slip * i) <=
           2 * first_value * potential V Y F ->
  800 * V * (1900000000000000 - slip * i) <= potential V Y F.
Proof.
  intros P H. apply (Z.mul_le_mono_pos_l _ _ (2 * first_value)); [consts; lia |].
  eapply Z.le_trans; [| exact H].
  assert (0 <= V * (short F * short F)).
  { apply Z.mul_nonneg_nonneg; [lia |]. apply Z.mul_nonneg_nonneg; apply short_nonneg. }
  consts. lia.
Qed.

Lemma plenty i V A Y F :
  0 <= i < 100000 -> 0 <= A <= 356000000000 -> tau <= V - Y + F + slip * (i + 1) ->
  near (i + 1) V Y F /\ roomy V A Y F.
Proof.
  intros Hi HA H. split.
  - unfold near. lia.
  - intros L1 L2.
    apply Z.le_trans with (tau * room_a).
    + apply Z.mul_le_mono_nonneg; consts; lia.
    + consts. lia.
Qed.

Lemma no_excess i V A Y F :
  0 <= i -> 0 <= F -> Y <= V -> near (i + 1) V Y F /\ roomy V A Y F.
Proof.
  intros Hi HF H. split.
  - unfold near. assert (0 <= slip * (i + 1)) by (consts; lia). lia.
  - intros L1 L2. lia.
Qed.

Lemma less_excess i V A Y F V' A' Y' F' :
  0 <= i < 100000 -> range V A Y F -> range V' A' Y' F' -> good i V A Y F ->
  V < Y -> Y' - V' <= Y - V -> V - Y + F <= V' - Y' + F' -> A <= A' ->
  near (i + 1) V' Y' F' /\ roomy V' A' Y' F'.
Proof.
  intros Hi R R' [_ _ GN GR] L1 L2 L3 LA.
  destruct R as [H1 H2 A0 A1 Hz Hs _]. destruct R' as [H1' H2' A0' A1' Hz' Hs' _].
  destruct (Z.le_gt_cases Y (V + tau)) as [C | C].
  - specialize (GR L1 C). split; [unfold near; consts; lia |].
    intros M1 M2. eapply Z.le_trans; [| apply Z.mul_le_mono_nonneg_l with (1 := ltac:(lia) : 0 <= 1000000000000000000) (2 := L3)].
    eapply Z.le_trans; [| exact GR].
    apply Z.mul_le_mono_nonneg; consts; lia.
  - apply plenty; [exact Hi | lia | consts; lia].
Qed.

Lemma swap_left i V A Y F V' A' Y' F' u m g :
  0 <= i < 100000 -> range V A Y F -> range V' A' Y' F' -> good i V A Y F ->
  V' = V + u -> Y' = Y + m -> F' = F + m -> A - g <= A' -> 0 <= u -> 0 <= m ->
  0 <= g -> g <= 400 * u ->
  (m = 0 \/ 20000 <= u /\ V * (Y + m - unit_value) <= V' * Y) ->
  near (i + 1) V' Y' F' /\ roomy V' A' Y' F'.
Proof.
  intros Hi R R' [_ _ GN GR] E1 E2 E3 EA Hu Hm Hg Hgu Hor.
  destruct R as [H1 H2 A0 A1 Hz Hs _]. destruct R' as [H1' H2' A0' A1' Hz' Hs' _].
  assert (P1 : 0 < V) by (consts; lia).
  destruct (Z.le_gt_cases (Y - V) tau) as [C | C].
  2:{ apply plenty; [exact Hi | lia |]. consts. lia. }
  (* the excess grows little *)
  assert (X : Y' - V' <= Y - V \/
              20000 <= u /\ 1000 * (Y' - V') <= 1000 * (Z.max 0 (Y - V)) + u + 1000 * unit_value).
  { destruct Hor as [-> | [Hu2 Hor]]; [left; lia |]. right. split; [exact Hu2 |].
    assert (B : V * (m - unit_value) <= u * Y) by (subst V'; lia).
    assert (B2 : m - unit_value - u <= 0 \/ 1000 * (m - unit_value - u) <= u).
    { destruct (Z.le_gt_cases Y V) as [D | D].
      - left. assert (u * Y <= u * V) by (apply Z.mul_le_mono_nonneg_l; lia).
        assert (V * (m - unit_value - u) <= V * 0) by lia.
        apply Z.mul_le_mono_pos_l in H0; [exact H0 | exact P1].
      - right. assert (V * (1000 * (m - unit_value - u)) <= V * u).
        { assert (u * (1000 * (Y - V)) <= u * V) by (apply Z.mul_le_mono_nonneg_l; consts; lia).
          lia. }
        apply Z.mul_le_mono_pos_l in H; [exact H | exact P1]. }
    lia. }
  assert (T1 : V' - Y' + F' = V - Y + F + u) by lia.
  split.
  - unfold near in *. consts. lia.
  - intros L1 L2. rewrite T1.
    destruct (Z.le_gt_cases Y V) as [D | D].
    + (* no excess before *)
      destruct X as [X | [Hu2 X]]; [lia |].
      assert (W : (Y' - V') * (room_a - A') <= (Y' - V') * room_a).
      { apply Z.mul_le_mono_nonneg_l; lia. }
      consts. lia.
    + specialize (GR D ltac:(lia)).
      assert (W1 : (Y' - V') * (room_a - A') <=
                   (Y - V) * (room_a - A') + Z.max 0 (Y' - V' - (Y - V)) * room_a).
      { destruct (Z.le_gt_cases (Y' - V') (Y - V)) as [Q | Q].
        - rewrite Z.max_l by lia.
          assert ((Y' - V') * (room_a - A') <= (Y - V) * (room_a - A'))
            by (apply Z.mul_le_mono_nonneg_r; consts; lia). lia.
        - rewrite Z.max_r by lia.
          assert ((Y' - V' - (Y - V)) * (room_a - A') <= (Y' - V' - (Y - V)) * room_a)
            by (apply Z.mul_le_mono_nonneg_l; lia). lia. }
      assert (W2 : (Y - V) * (room_a - A') <= (Y - V) * (room_a - A) + (Y - V) * (400 * u)).
      { rewrite <- Z.mul_add_distr_l. apply Z.mul_le_mono_nonneg_l; lia. }
      assert (W3 : (Y - V) * (400 * u) <= tau * (400 * u)).
      { apply Z.mul_le_mono_nonneg_r; lia. }
      consts. lia.
Qed.

Lemma deposit_all_left i V A Y F V' A' Y' F' n x a :
  0 <= i < 100000 -> range V A Y F -> range V' A' Y' F' -> good i V A Y F ->
  V' = V + x -> Y' = Y + n -> F' = F -> A' = A + a -> 0 < x -> 0 < a ->
  unit_value <= n -> x <= 2 * a + price_b ->
  n * (2 * (V / 2)) <= x * Y -> n * (V / 2) <= a * Y ->
  near (i + 1) V' Y' F' /\ roomy V' A' Y' F'.
Proof.
  intros Hi R R' G E1 E2 E3 EA Hx Ha Hn Hxa Hb Hc.
  assert (H4 : Y <= 4 * V) by (apply (ratio_four i V A Y F); [lia | exact R | apply G]).
  destruct (deposit_all_bounds V A Y F V' A' Y' F' n x a R R' H4 E1 E2 EA Hx Ha Hn Hxa Hb Hc)
    as (B1 & B2 & B3 & B4 & B5).
  assert (RR := R). assert (RR' := R'). assert (GG := G).
  destruct G as [_ GP GN GR].
  destruct R as [H1 H2 A0 A1 Hz Hs [h Hh]]. destruct R' as [H1' H2' A0' A1' Hz' Hs' _].
  assert (P1 : 0 < V) by (consts; lia).
  destruct (Z.le_gt_cases Y V) as [D | D].
  - (* no excess *)
    assert (Y <= 2 * (V / 2)).
    { subst Y. apply Z.mul_le_mono_nonneg_l; [lia |]. apply Z.div_le_lower_bound; lia. }
    assert (n <= x).
    { apply (Z.mul_le_mono_pos_r _ _ Y); [consts; lia |].
      eapply Z.le_trans; [| exact Hb]. apply Z.mul_le_mono_nonneg_l; consts; lia. }
    apply no_excess; lia.
  - destruct (Z.le_gt_cases n x) as [Q | Q].
    { apply (less_excess i V A Y F); try assumption; lia. }
    (* something is lost *)
    assert (L : (n - x) * (V - 1) <= x * (Y - V + 1)) by lia.
    assert (XL : 3000000 <= Y - V).
    { apply Z.nlt_ge. intro C.
      assert (1 * (V - 1) <= (n - x) * (V - 1)) by (apply Z.mul_le_mono_nonneg_r; lia).
      assert (x * (Y - V + 1) <= 750000000000 * 3000000) by (apply Z.mul_le_mono_nonneg; lia).
      consts. lia. }
    destruct (Z.le_gt_cases (Y - V) tau) as [C | C].
    + specialize (GR D ltac:(lia)).
      assert (L2 : (n - x) * (V - 1) <= 1000000000 * (V - 1)).
      { eapply Z.le_trans; [exact L |].
        apply Z.le_trans with (750000000000 * (Y - V + 1)).
        - apply Z.mul_le_mono_nonneg_r; lia.
        - consts; lia. }
      apply Z.mul_le_mono_pos_r in L2; [| consts; lia].
      split.
      * unfold near. consts. lia.
      * intros M1 M2.
        replace (Y' - V') with (Y - V + (n - x)) by lia.
        replace (V' - Y' + F') with (V - Y + F - (n - x)) by lia.
        replace (room_a - A') with (room_a - A - a) by lia.
        assert (K1 : (n - x) * (room_a - A - a) <= (n - x) * room_a)
          by (apply Z.mul_le_mono_nonneg_l; lia).
        (* the loss is below the share of the deposit *)
        assert (K2 : 1000000000000000000 * (n - x) + (n - x) * room_a <= a * (Y - V)).
        { assert (K3 : 100 * ((n - x) * (V - 1)) <= 203 * a * (Y - V + 1)).
          { eapply Z.le_trans; [apply Z.mul_le_mono_nonneg_l; [lia | exact L] |].
            replace (100 * (x * (Y - V + 1))) with (100 * x * (Y - V + 1)) by ring.
            apply Z.mul_le_mono_nonneg_r; lia. }
          assert (K4 : (n - x) * 2998000000000000000 <= (n - x) * (V - 1))
            by (apply Z.mul_le_mono_nonneg_l; consts; lia).
          assert (K5 : a * 3000000 <= a * (Y - V)) by (apply Z.mul_le_mono_nonneg_l; lia).
          consts. lia. }
        lia.
    + (* much excess *)
      pose proof (pot_tau i V Y F P1 GP) as PT.
      apply plenty; [exact Hi | lia |].
      destruct (Z.le_gt_cases 0 (799 * Y - 800 * V)) as [W | W].
      * assert (K1 : 800 * V * (n - x) <= 800 * (x * (Y - V) + n)) by lia.
        assert (K2 : x * (799 * Y - 800 * V) <= (all_value - V) * (799 * Y - 800 * V)).
        { apply Z.mul_le_mono_nonneg_r; lia. }
        assert (K3 : potential V Y F =
          800 * V * (V + F - Y) - (all_value - V) * (799 * Y - 800 * V))
          by (unfold potential; ring).
        assert (K4 : x * Y <= 750000000000 * Y) by (apply Z.mul_le_mono_nonneg_r; consts; lia).
        assert (K5 : 800 * V * (1900000000000000 - slip * i) - 750000000000 * Y - 800 * n <=
                     800 * V * (V' - Y' + F')).
        { subst V' Y' F'. lia. }
        assert (K6 : 800 * V * (tau - slip * (i + 1)) <= 800 * V * (V' - Y' + F')).
        { eapply Z.le_trans; [| exact K5]. consts. lia. }
        apply Z.mul_le_mono_pos_l in K6; [lia | lia].
      * assert (K1 : 799 * ((n - x) * (V - 1)) <= 799 * (x * (Y - V + 1)))
          by (apply Z.mul_le_mono_nonneg_l; [lia | exact L]).
        assert (K2 : x * (799 * (Y - V + 1)) <= x * (V + 799)) by (apply Z.mul_le_mono_nonneg_l; lia).
        assert (K3 : x * (V + 799) <= 750000000000 * (V + 799))
          by (apply Z.mul_le_mono_nonneg_r; lia).
        assert (K4 : (n - x) * (V - 1) <= 2000000000 * (V - 1)) by (consts; lia).
        apply Z.mul_le_mono_pos_r in K4; [| consts; lia].
        consts. lia.
Qed.

Lemma deposit_left i V A Y F V' A' Y' F' n x c :
  0 <= i < 100000 -> range V A Y F -> range V' A' Y' F' -> good i V A Y F ->
  V' = V + x -> Y' = Y + n -> F' = F -> A <= A' -> 0 < x -> 0 <= n -> 0 <= c -> c <= x ->
  x <= 1600 * c -> x <= 800 * c + 801 * price_b ->
  n * V <= Y * (x - c) ->
  near (i + 1) V' Y' F' /\ roomy V' A' Y' F'.
Proof.
  intros Hi R R' G E1 E2 E3 EA Hx Hn Hc Hcx Hc1 Hc2 Hb.
  assert (H4 : Y <= 4 * V) by (apply (ratio_four i V A Y F); [lia | exact R | apply G]).
  assert (RR := R). assert (RR' := R'). assert (GG := G).
  destruct G as [_ GP GN GR].
  destruct R as [H1 H2 A0 A1 Hz Hs _]. destruct R' as [H1' H2' A0' A1' Hz' Hs' _].
  assert (P1 : 0 < V) by (consts; lia). assert (P3 : 0 < Y) by (consts; lia).
  assert (L : (n - x) * V <= x * (Y - V) - Y * c) by lia.
  destruct (Z.le_gt_cases (Y - V) tau) as [C | C].
  - assert (K1 : x * (1600 * (Y - V)) <= x * Y) by (apply Z.mul_le_mono_nonneg_l; consts; lia).
    assert (K2 : Y * x <= Y * (1600 * c)) by (apply Z.mul_le_mono_nonneg_l; lia).
    assert (K3 : (n - x) * V <= 0 * V) by lia.
    apply Z.mul_le_mono_pos_r in K3; [| exact P1].
    destruct (Z.le_gt_cases Y V) as [D | D].
    + apply no_excess; lia.
    + apply (less_excess i V A Y F); try assumption; lia.
  - pose proof (pot_tau i V Y F P1 GP) as PT.
    assert (C2 : Y * (x - 801 * price_b) <= Y * (800 * c)) by (apply Z.mul_le_mono_nonneg_l; lia).
    apply plenty; [exact Hi | lia |].
    destruct (Z.le_gt_cases 0 (799 * Y - 800 * V)) as [W | W].
    + assert (K2 : x * (799 * Y - 800 * V) <= (all_value - V) * (799 * Y - 800 * V)).
      { apply Z.mul_le_mono_nonneg_r; lia. }
      assert (K3 : potential V Y F =
        800 * V * (V + F - Y) - (all_value - V) * (799 * Y - 800 * V))
        by (unfold potential; ring).
      assert (K5 : 800 * V * (1900000000000000 - slip * i) - 801 * price_b * Y <=
                   800 * V * (V' - Y' + F')).
      { subst V' Y' F'. lia. }
      assert (K6 : 800 * V * (tau - slip * (i + 1)) <= 800 * V * (V' - Y' + F')).
      { eapply Z.le_trans; [| exact K5]. consts. lia. }
      apply Z.mul_le_mono_pos_l in K6; [lia | lia].
    + assert (K1 : x * (799 * Y - 800 * V) <= x * 0) by (apply Z.mul_le_mono_nonneg_l; lia).
      assert (K2 : 800 * ((n - x) * V) <= 801 * price_b * Y) by lia.
      assert (K4 : (n - x) * V <= (5 * price_b) * V) by (consts; lia).
      apply Z.mul_le_mono_pos_r in K4; [| exact P1].
      consts. lia.
Qed.

Lemma withdraw_all_left i V A Y F V' A' Y' F' t f g :
  0 <= i < 100000 -> range V A Y F -> range V' A' Y' F' -> good i V A Y F ->
  Y' = Y - t -> F' = F + f -> A - g <= A' -> V' <= V -> 0 <= t -> 0 <= f -> 0 <= g ->
  V * Y' <= V' * Y -> 2 * g * Y <= t * V -> 3 * t <= 2000 * f ->
  near (i + 1) V' Y' F' /\ roomy V' A' Y' F'.
Proof.
  intros Hi R R' G E2 E3 EA HV Ht Hf Hg Hb Hgt Htf.
  destruct G as [_ _ GN GR].
  destruct R as [H1 H2 A0 A1 Hz Hs _]. destruct R' as [H1' H2' A0' A1' Hz' Hs' _].
  assert (P1 : 0 < V) by (consts; lia). assert (P2 : 0 < V') by (consts; lia).
  destruct (Z.le_gt_cases Y V) as [D | D].
  - assert (V' * Y <= V' * V) by (apply Z.mul_le_mono_nonneg_l; lia).
    assert (V * Y' <= V * V') by lia.
    apply Z.mul_le_mono_pos_l in H0; [| exact P1]. apply no_excess; lia.
  - assert (X : Y' - V' <= Y - V).
    { apply (Z.mul_le_mono_pos_l _ _ V); [exact P1 |].
      assert ((V' - V) * (Y - V) <= 0 * (Y - V)) by (apply Z.mul_le_mono_nonneg_r; lia). lia. }
    assert (T1 : V - Y + F + f <= V' - Y' + F') by lia.
    destruct (Z.le_gt_cases (Y - V) tau) as [C | C].
    2:{ apply plenty; [exact Hi | lia | consts; lia]. }
    specialize (GR D ltac:(lia)). split; [unfold near; consts; lia |].
    intros M1 M2.
    assert (Q : 3 * g <= 1000 * f).
    { assert (2 * g * V <= 2 * g * Y) by (apply Z.mul_le_mono_nonneg_l; lia).
      assert (2 * g * V <= t * V) by lia.
      apply Z.mul_le_mono_pos_r in H0; [lia | exact P1]. }
    assert (K1 : (Y' - V') * (room_a - A') <= (Y - V) * (room_a - A + g)).
    { apply Z.mul_le_mono_nonneg; consts; lia. }
    assert (K2 : (Y - V) * g <= tau * g) by (apply Z.mul_le_mono_nonneg_r; lia).
    consts. lia.
Qed.

Lemma withdraw_left i V A Y F V' A' Y' F' n c t f g :
  0 <= i < 100000 -> range V A Y F -> range V' A' Y' F' -> good i V A Y F ->
  V' = V - n -> Y' = Y - t -> F' = F + f -> A - g <= A' -> 0 <= n -> 0 <= c -> c <= n ->
  0 <= t -> unit_value <= f -> 0 <= g ->
  (c <= price_b \/ 800 * c <= n) -> (g = 0 \/ c <= 1000000000) ->
  Y * (n - c) <= t * V -> 3 * t <= 2000 * f -> 3 * t <= 1000 * (f + unit_value) ->
  near (i + 1) V' Y' F' /\ roomy V' A' Y' F'.
Proof.
  intros Hi R R' G E1 E2 E3 EA Hn Hc Hcn Ht Hf Hg Hd Hgc Hb Ht1 Ht2.
  destruct G as [_ _ GN GR].
  destruct R as [H1 H2 A0 A1 Hz Hs _]. destruct R' as [H1' H2' A0' A1' Hz' Hs' _].
  assert (P1 : 0 < V) by (consts; lia). assert (P2 : 0 < V') by (consts; lia).
  assert (P3 : 0 < Y) by (consts; lia).
  assert (Hx : 800 * c <= n + 800 * price_b) by (destruct Hd; consts; lia).
  assert (T1 : V' - Y' + F' = V - Y + F - n + t + f) by lia.
  destruct (Z.le_gt_cases Y V) as [D | D].
  - (* the excess is below the charge *)
    assert (X : V * (Y' - V') <= Y * c).
    { assert (Y * n - V * n = (Y - V) * n) by ring.
      assert (0 <= (V - Y) * (V - n)) by (apply Z.mul_nonneg_nonneg; lia).
      subst V' Y'. lia. }
    destruct (Z.le_gt_cases Y' V') as [D' | D']; [apply no_excess; lia |].
    assert (F1 : 3 * (Y * (n - c)) <= 1000 * (f + unit_value) * V).
    { apply Z.le_trans with (3 * t * V); [lia | apply Z.mul_le_mono_nonneg_r; lia]. }
    assert (F2 : 3 * (Y * (n - c)) <= 2000 * f * V).
    { apply Z.le_trans with (3 * t * V); [lia | apply Z.mul_le_mono_nonneg_r; lia]. }
    assert (U : V * unit_value <= V * f) by (apply Z.mul_le_mono_nonneg_l; lia).
    assert (PY : price_b * Y <= price_b * V) by (apply Z.mul_le_mono_nonneg_l; consts; lia).
    split.
    + unfold near.
      assert (B : V * (2 * (Y' - V')) <= V * (f + slip)).
      { assert (Y * (800 * c) <= Y * (n + 800 * price_b)) by (apply Z.mul_le_mono_nonneg_l; lia).
        assert (0 <= Y * c) by (apply Z.mul_nonneg_nonneg; lia).
        consts. lia. }
      apply Z.mul_le_mono_pos_l in B; [| exact P1].
      assert (0 <= slip * i) by (consts; lia). lia.
    + intros M1 M2.
      assert (B : V * (11 * (Y' - V')) <= V * (10 * f)).
      { destruct Hd as [Hd | Hd].
        - assert (Y * c <= Y * price_b) by (apply Z.mul_le_mono_nonneg_l; lia).
          consts. lia.
        - assert (Y * (800 * c) <= Y * n) by (apply Z.mul_le_mono_nonneg_l; lia). lia. }
      apply Z.mul_le_mono_pos_l in B; [| exact P1].
      assert (K1 : (Y' - V') * (room_a - A') <= (Y' - V') * room_a)
        by (apply Z.mul_le_mono_nonneg_l; lia).
      consts. lia.
  - assert (N : n - c <= t).
    { apply (Z.mul_le_mono_pos_r _ _ V); [exact P1 |]. eapply Z.le_trans; [| exact Hb].
      rewrite Z.mul_comm. apply Z.mul_le_mono_nonneg_r; lia. }
    assert (FC : 11 * c <= 10 * f) by (destruct Hd; consts; lia).
    destruct (Z.le_gt_cases (Y - V) tau) as [C | C].
    2:{ apply plenty; [exact Hi | lia | consts; lia]. }
    specialize (GR D ltac:(lia)).
    assert (X : Y' - V' <= Y - V + c) by lia.
    split.
    + unfold near. consts. lia.
    + intros M1 M2.
      assert (AG : A - A' <= 356000000000) by lia.
      set (g' := Z.min g 356000000000).
      assert (Hg' : A - g' <= A') by (unfold g'; lia).
      assert (Hg0 : 0 <= g' <= 356000000000) by (unfold g'; lia).
      assert (K1 : (Y' - V') * (room_a - A') <= (Y - V) * (room_a - A + g') + c * room_a).
      { apply Z.le_trans with ((Y - V + c) * (room_a - A')).
        - apply Z.mul_le_mono_nonneg_r; consts; lia.
        - assert ((Y - V) * (room_a - A') <= (Y - V) * (room_a - A + g'))
            by (apply Z.mul_le_mono_nonneg_l; lia).
          assert (c * (room_a - A') <= c * room_a) by (apply Z.mul_le_mono_nonneg_l; lia). lia. }
      assert (K2 : (Y - V) * g' <= tau * g') by (apply Z.mul_le_mono_nonneg_r; lia).
      destruct Hgc as [Hgc | Hgc].
      * assert (g' = 0) by (unfold g'; lia). consts. lia.
      * consts. lia.
Qed.

Lemma step_good i V A Y F V' A' Y' F' :
  0 <= i < 100000 -> range V A Y F -> range V' A' Y' F' -> good i V A Y F ->
  step V A Y F V' A' Y' F' -> good (i + 1) V' A' Y' F'.
Proof.
  intros Hi R R' G St.
  assert (H : near (i + 1) V' Y' F' /\ roomy V' A' Y' F').
  { destruct St as [u m g E1 E2 E3 EA Hu Hm Hg Hgu Hor | n x a E1 E2 E3 EA Hx Ha Hn Hxa Hb Hc
      | n x c E1 E2 E3 EA Hx Hn Hc Hcx Hc1 Hc2 Hb | t f g E2 E3 EA HV Ht Hf Hg Hb Hgt Htf
      | n c t f g E1 E2 E3 EA Hn Hc Hcn Ht Hf Hg Hd Hgc Hb Ht1 Ht2].
    - apply (swap_left i V A Y F V' A' Y' F' u m g); assumption.
    - apply (deposit_all_left i V A Y F V' A' Y' F' n x a); assumption.
    - apply (deposit_left i V A Y F V' A' Y' F' n x c); assumption.
    - apply (withdraw_all_left i V A Y F V' A' Y' F' t f g); assumption.
    - apply (withdraw_left i V A Y F V' A' Y' F' n c t f g); assumption. }
  destruct H as [HN HR]. constructor.
  - apply (step_ratio i V A Y F V' A' Y' F'); assumption.
  - apply (step_pot i V A Y F V' A' Y' F'); assumption.
  - exact HN.
  - exact HR.
Qed.

Lemma good_start A : good 0 first_value A first_value 0.
Proof.
  constructor.
  - consts. lia.
  - unfold potential, short. consts. cbn [Z.max Z.compare]. lia.
  - consts. lia.
  - intros H. lia.
Qed.

(** The vaults are worth at least the counted pool tokens at their first value. *)
Lemma good_value i V A Y F :
  0 <= i <= 100000 -> range V A Y F -> good i V A Y F -> Y <= V + F.
Proof.
  intros Hi [H1 H2 A0 A1 Hz Hs _] [_ _ GN GR].
  destruct (Z.le_gt_cases Y V) as [D | D]; [lia |].
  destruct (Z.le_gt_cases Y (V + tau)) as [C | C].
  - specialize (GR D C).
    assert (0 <= (Y - V) * (room_a - A)) by (apply Z.mul_nonneg_nonneg; consts; lia). lia.
  - consts. lia.
Qed.
