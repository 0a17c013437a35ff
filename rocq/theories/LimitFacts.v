(** The limits in an instruction only limit: they never change what it does. *)
From Verif Require Import Ints Tactics Fees LinearCurve SwapCurve Codec Token Processor Api History
  Spec LedgerSpec LimitSpec CodecFacts TokenFacts ProcFacts.

Definition slippage : error := ESwap ExceededSlippage.

(** [r'] gives what [r] gives, or complains about a limit, which it does not do
    if [loose]. *)
Definition rel {A} (loose : Prop) (r r' : result A) : Prop :=
  forall x, r = Ok x -> r' = Ok x \/ ~ loose /\ r' = Err slippage.

Lemma rel_refl {A} loose (r : result A) : rel loose r r.
Proof. intros x H. left. exact H. Qed.

Lemma rel_bind {A B} loose (m : result A) (f f' : A -> result B) :
  (forall x, rel loose (f x) (f' x)) -> rel loose (rbind m f) (rbind m f').
Proof. intros H x E. apply rbind_ok in E. destruct E as (y & -> & E). exact (H y x E). Qed.

Lemma rel_guard {A} (loose : Prop) b b' (f : unit -> result A) (f' : unit -> result A) :
  (loose -> b = false -> b' = false) -> rel loose (f tt) (f' tt) ->
  rel loose (rbind (guard b slippage) f) (rbind (guard b' slippage) f').
Proof.
  intros Hb Hf x E. apply rbind_ok in E. destruct E as ([] & G & E). apply guard_ok in G. subst b.
  destruct b' eqn:Q; cbn.
  - right. split; [| reflexivity]. intros L. specialize (Hb L eq_refl). discriminate.
  - exact (Hf x E).
Qed.

Ltac rels := repeat first
  [ match goal with |- rel _ ?r ?r => apply rel_refl end
  | match goal with |- rel _ (rbind (guard _ (ESwap ExceededSlippage)) _) _ => apply (rel_guard _ _ _ _ _); [rewrite !Z.ltb_ge; lia |] end
  | match goal with |- rel _ (rbind _ _) (rbind _ _) => apply rel_bind; intros end
  | match goal with |- rel _ (match ?x with _ => _ end) _ => destruct x end ].

Lemma swap_limits e signers w ain m m' l : rel (m' <= m) (process_swap e signers w ain m l) (process_swap e signers w ain m' l).
Proof. unfold process_swap. rels. Qed.
Lemma deposit_all_limits e signers w n ma mb ma' mb' l : rel (ma <= ma' /\ mb <= mb')
  (process_deposit_all e signers w n ma mb l) (process_deposit_all e signers w n ma' mb' l).
Proof. unfold process_deposit_all. rels. Qed.
Lemma withdraw_all_limits e signers w n ma mb ma' mb' l : rel (ma' <= ma /\ mb' <= mb)
  (process_withdraw_all e signers w n ma mb l) (process_withdraw_all e signers w n ma' mb' l).
Proof. unfold process_withdraw_all. rels. Qed.
Lemma deposit_single_limits e signers w n m m' l : rel (m' <= m)
  (process_deposit_single e signers w n m l) (process_deposit_single e signers w n m' l).
Proof. unfold process_deposit_single. rels. Qed.
Lemma withdraw_single_limits e signers w n m m' l : rel (m <= m')
  (process_withdraw_single e signers w n m l) (process_withdraw_single e signers w n m' l).
Proof. unfold process_withdraw_single. rels. Qed.

Lemma u64b_iff x : u64b x = true <-> is_u64 x.
Proof. unfold u64b, is_u64. rewrite andb_true_iff, !Z.leb_le. reflexivity. Qed.

Lemma args_guard {A} loose l l' (k k' : result A) : (forallb u64b l = true -> forallb u64b l' = true) -> rel loose k k' ->
  rel loose (rbind (guard (negb (forallb u64b l)) ERuntime) (fun _ => k)) (rbind (guard (negb (forallb u64b l')) ERuntime) (fun _ => k')).
Proof.
  intros Hl Hk x E. apply rbind_ok in E. destruct E as (u & G & E). apply guard_ok in G. apply negb_false_iff in G.
  rewrite (Hl G). cbn. exact (Hk x E).
Qed.

Lemma limits_only_limit e signers w i i' w' : relimited i i' -> exec e signers w i = Ok w' ->
  exec e signers w i' = Ok w' \/ ~ loosened i i' /\ exec e signers w i' = Err (ESwap ExceededSlippage).
Proof.
  intros R H. revert w' H. fold slippage. change (rel (loosened i i') (exec e signers w i) (exec e signers w i')).
  destruct i, i'; cbn [relimited] in R; try contradiction; unfold exec; cbn [loosened].
  all: repeat match goal with H : _ /\ _ |- _ => destruct H end; subst.
  all: apply args_guard; [cbn [instr_args forallb]; rewrite !andb_true_iff, !u64b_iff; intuition |].
  all: apply rel_bind; intros.
  - apply swap_limits.
  - apply deposit_all_limits.
  - apply withdraw_all_limits.
  - apply deposit_single_limits.
  - apply withdraw_single_limits.
Qed.

Lemma loosened_runs e signers w i i' w' : relimited i i' -> loosened i i' -> exec e signers w i = Ok w' ->
  exec e signers w i' = Ok w'.
Proof. intros R L H. destruct (limits_only_limit _ _ _ _ _ _ R H) as [E | (N & _)]; [exact E | contradiction]. Qed.
