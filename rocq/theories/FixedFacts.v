(** Assembled statements for Props_Fixed.v. *)
From Verif Require Import Tactics SplMath DfsPrecise SqrtFacts DfsFacts.

Lemma babylonian_down x : is_u64 x ->
  exists r, sqrt_babylonian x false = Val r /\ 0 <= r /\
            forall n, 0 <= n -> (n * n <= x <-> n <= r).
Proof.
  intros Hx. exists (Z.sqrt x). rewrite babylonian_correct by exact Hx. cbv iota.
  unfold is_u64 in Hx. split; [reflexivity |]. split; [apply Z.sqrt_nonneg |].
  intros n Hn. apply Z.sqrt_le_square; lia.
Qed.

Lemma babylonian_up x : is_u64 x ->
  exists r, sqrt_babylonian x true = Val r /\ 0 <= r /\
            forall n, 0 <= n -> (x <= n * n <-> r <= n).
Proof.
  intros Hx. exists (Z.sqrt_up x). rewrite babylonian_correct by exact Hx. cbv iota.
  unfold is_u64 in Hx. split; [reflexivity |]. split; [apply Z.sqrt_up_nonneg |].
  intros n Hn. apply Z.sqrt_up_le_square; lia.
Qed.

Lemma dfs_sqrt_panic_iff x up : is_u256 x ->
  dfs_sqrt_u64 x up <> Non /\
  (dfs_sqrt_u64 x up = Panic <->
   up = true /\ exists k, 1 <= k /\ (2 ^ 64 - 1) * 4 ^ k < x < 2 ^ 64 * 4 ^ k).
Proof.
  intros Hx. destruct (dfs_sqrt_total x up Hx) as [[r Hr] | (Hp & Hup & Hk)].
  - rewrite Hr. split; [discriminate |]. split; [discriminate |].
    intros (-> & k & Hk & Hb). rewrite (dfs_sqrt_panics x k Hx Hk Hb) in Hr. discriminate.
  - rewrite Hp. split; [discriminate |]. split; [intros _; split; assumption | reflexivity].
Qed.
