(** A sale of more than the pool has sold, and a purchase that undoes it (C72). *)
From Verif Require Import Ints Tactics DfsPrecise Fees LinearCurve SwapCurve Codec Token Processor Api History
  Spec LedgerSpec TraceSpec LinearBacked EffectFacts HistoryFacts LedgerExamples HistoryExamples.

Definition cw_buy (n : Z) : instr := Swap [100; auth 100; 901; 111; 101; 102; 112; 203; 103; TOKEN_PROGRAM_ID] n 0.
Definition cw_sell (n : Z) : instr := Swap [100; auth 100; 901; 112; 102; 101; 111; 203; 103; TOKEN_PROGRAM_ID] n 0.
Definition cw_a : world := run1 [901] ex_w2 (cw_buy 125).
Definition cw_b : world := run1 [901] cw_a (cw_sell 3).
Definition cw_c : world := run1 [901] cw_b (cw_buy 101).

Ltac cw_step := apply ex_run; [apply ex_signers; lia | unfold cw_buy, cw_sell; keys_ok | reflexivity | vm_compute; reflexivity].
Lemma cw_step_a : step ex_env ex_w2 (Instruction [901] (cw_buy 125)) cw_a.
Proof. cw_step. Qed.
Lemma cw_step_b : step ex_env cw_a (Instruction [901] (cw_sell 3)) cw_b.
Proof. cw_step. Qed.
Lemma cw_step_c : step ex_env cw_b (Instruction [901] (cw_buy 101)) cw_c.
Proof. cw_step. Qed.
Lemma cw_reachable : reachable ex_env cw_a.
Proof. apply (reachable_step _ ex_w2 (Instruction [901] (cw_buy 125))); [apply ex_reachable | apply cw_step_a]. Qed.

Lemma cw_decimal : decimal (mk_linear 1 2 50 1).
Proof. split; [exists (25 * 10 ^ 16) | exists (50 * 10 ^ 9)]; vm_compute; reflexivity. Qed.

Lemma cw_loop : exists e w l w' k s c,
  env_ok e /\ reachable e w /\ trace e w l w' /\ pool_at w k s /\ st_curve s = LinearPrice c /\ decimal c /\
  Forall (fun p => swaps_on k (fst p) = true /\ 0 < balance (snd p) (st_token_b s)) l /\
  balance w' (st_token_b s) = balance w (st_token_b s) /\
  balance w' (st_token_a s) < balance w (st_token_a s).
Proof.
  exists ex_env, cw_a, [(Instruction [901] (cw_sell 3), cw_b); (Instruction [901] (cw_buy 101), cw_c)], cw_c, 100, ex_pool1,
    (mk_linear 1 2 50 1).
  split; [exact ex_env_ok |]. split; [exact cw_reachable |].
  split; [econstructor; [exact cw_step_b |]; econstructor; [exact cw_step_c | constructor] |].
  split; [split; vm_compute; reflexivity |]. split; [reflexivity |]. split; [exact cw_decimal |].
  split; [repeat (apply Forall_cons; [split; vm_compute; reflexivity |]); apply Forall_nil |].
  split; vm_compute; reflexivity.
Qed.
