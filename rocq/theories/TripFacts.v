(** Entering a constant-price pool and leaving it again. *)
From Verif Require Import Ints Tactics Fees LinearCurve ConstantPrice SwapCurve Codec Token Processor Api History
  Spec LedgerSpec TraceSpec TripSpec EffectFacts HistoryFacts LedgerPrice LedgerExamples HistoryExamples ExitFacts.

(** Price 1000, 10000 A and 10 B, the fees of the fuzz harness; user 902 holds as much. *)
Definition trip_fees : fees := mk_fees 25 10000 5 10000 30 10000 1 5.
Definition trip_w0 : world := of_list
  [ (300, zeroed); (301, tok 201 (auth 300) 10000); (302, tok 202 (auth 300) 10); (403, a_mint (auth 300) 0);
    (303, tok 403 900 0); (304, tok 403 901 0); (305, tok 403 902 0);
    (113, tok 201 902 10000); (114, tok 202 902 10); (201, a_mint 999 0); (202, a_mint 999 0) ].
Definition trip_init : instr :=
  InitConstantPrice [300; auth 300; 301; 302; 403; 303; 304; TOKEN_PROGRAM_ID] trip_fees 1000.
Definition trip_w1 : world := run1 [300] trip_w0 trip_init.
Definition trip_enter : instr :=
  DepositAll [300; auth 300; 902; 113; 114; 301; 302; 403; 305; TOKEN_PROGRAM_ID] (10 ^ 9) 10000 10.
Definition trip_b : instr := WithdrawSingle [300; auth 300; 902; 403; 305; 301; 302; 114; 303; TOKEN_PROGRAM_ID] 2 (10 ^ 9).
Definition trip_a : instr := WithdrawSingle [300; auth 300; 902; 403; 305; 301; 302; 113; 303; TOKEN_PROGRAM_ID] 10000 (10 ^ 9).
Definition trip_pool : swap_state :=
  mk_swap_state true 255 TOKEN_PROGRAM_ID 301 302 403 201 202 303 trip_fees (ConstantPrice 1000).

Definition trip_instrs : list instr := [trip_enter; trip_b; trip_b; trip_b; trip_b; trip_b; trip_a].
Fixpoint trip_from (w : world) (l : list instr) : list (event * world) :=
  match l with
  | [] => []
  | i :: l' => let w1 := run1 [902] w i in (Instruction [902] i, w1) :: trip_from w1 l'
  end.
Definition trip_end : world := fold_left (run1 [902]) trip_instrs trip_w1.

Lemma trip_genesis : genesis_ok trip_w0.
Proof.
  split.
  - intros k. apply (of_list_all _ (fun _ a => account_wf a)); [intros ?; exact (Forall_nil _) |].
    repeat (apply Forall_cons; [| try apply Forall_nil]);
      cbn [snd]; unfold account_wf, zeroed, tok, a_mint; cbn [a_data]; unfold is_u64, u64_max, is_pubkey;
      try (cbn; vm_compute; intuition congruence).
    all: apply Forall_forall; intros x Hx; apply repeat_spec in Hx; subst; unfold is_u8; lia.
  - intros k. apply (of_list_all _ (fun _ a => a_owner a = PROGRAM_ID -> ~ versioned (a_data a))).
    + intros _ H. discriminate H.
    + repeat (apply Forall_cons; [| try apply Forall_nil]); cbn [snd]; intros H; try discriminate H; intros (l & E); discriminate E.
Qed.
Lemma trip_reachable : reachable ex_env trip_w1.
Proof.
  apply (reachable_step _ trip_w0 (Instruction [300] trip_init)).
  - exists trip_w0, []. split; [apply trip_genesis | constructor].
  - apply ex_run; [apply ex_signers; lia | unfold trip_init; keys_ok | reflexivity | vm_compute; reflexivity].
Qed.

Lemma trip_trace : trace ex_env trip_w1 (trip_from trip_w1 trip_instrs) trip_end.
Proof.
  unfold trip_end, trip_instrs. cbn [trip_from fold_left].
  repeat (apply trace_cons; [apply ex_run; [apply ex_signers; lia | unfold trip_enter, trip_a, trip_b; keys_ok | reflexivity | vm_compute; reflexivity] |]).
  apply trace_nil.
Qed.

Lemma trip_profit : exists e user w l w' s p own_a own_b own, env_ok e /\ reachable e w /\ signers_ok e [user] /\
  trace e w l w' /\ Forall (fun x => exists i, fst x = Instruction [user] i) l /\
  (exists k, pool_at w k s) /\ st_curve s = ConstantPrice p /\ 0 < owner_withdraw_fee_num (st_fees s) /\
  (forall k, In k [st_token_a s; st_token_b s; own_a; own_b] -> balance w' k = balance w k) /\
  balance w own = 0 /\ 13 * shares w' s <= 100 * balance w' own.
Proof.
  exists ex_env, 902, trip_w1, (trip_from trip_w1 trip_instrs), trip_end, trip_pool, 1000, 113, 114, 305.
  split; [exact ex_env_ok |]. split; [exact trip_reachable |]. split; [apply ex_signers; lia |]. split; [exact trip_trace |].
  split. { unfold trip_instrs. cbn [trip_from]. repeat (apply Forall_cons; [eexists; reflexivity |]). apply Forall_nil. }
  split. { exists 300. split; vm_compute; reflexivity. }
  split; [reflexivity |]. split; [reflexivity |]. split.
  { intros k Hk. cbn [In trip_pool st_token_a st_token_b] in Hk. destruct Hk as [<- | [<- | [<- | [<- | []]]]]; vm_compute; reflexivity. }
  split; [vm_compute; reflexivity |]. vm_compute. discriminate.
Qed.

Lemma trip_step e w ev w' k s p : env_ok e -> inv e w -> step e w ev w' -> pool_at w k s -> st_curve s = ConstantPrice p ->
  trade_fee_num (st_fees s) = 0 -> owner_trade_fee_num (st_fees s) = 0 -> 0 < shares w s ->
  worth w s p * shares w' s <= worth w' s p * shares w s + (if enters k ev then shares w' s - shares w s else 0) /\
  (enters k ev = true -> shares w s <= shares w' s).
Proof.
  intros He I S Hp Hl F1 F2 S0. destruct (enters k ev) eqn:E.
  - destruct S as [w sg i w' Sg Hpk H | w w' X]; [| discriminate E].
    destruct i as [acc f q | acc a b c d | accounts ain mout | accounts n ma mb | accounts n ma mb | accounts n mp | accounts n mp];
      try discriminate E. cbn [enters] in E. apply Z.eqb_eq in E. subst k.
    destruct (deposit_all_price _ _ _ _ _ _ _ _ _ _ He I H Hp Hl S0) as (K & L). split; [exact K | intros _; exact L].
  - rewrite Z.add_0_r. split; [| discriminate]. eapply price_step; eauto.
    intros sg acc n ma mb -> Ek. cbn [enters] in E. rewrite Ek, Z.eqb_refl in E. discriminate E.
Qed.

Lemma trip_invariant V0 S0 V S V' S' m N d : 0 < m <= S0 -> m <= S -> m <= S' -> 0 <= N -> 0 <= S0 ->
  V0 * S * m <= V * S0 * m + N * S0 * S ->
  V * S' <= V' * S + (if d : bool then S' - S else 0) -> (d = true -> S <= S') ->
  V0 * S' * m <= V' * S0 * m + (N + if d then 1 else 0) * S0 * S'.
Proof.
  intros Hm L L' HN H0 K T D. apply Z.mul_le_mono_pos_r with (p := S); [lia |].
  assert (K' : V0 * S * m * S' <= (V * S0 * m + N * S0 * S) * S') by (apply Z.mul_le_mono_nonneg_r; lia).
  assert (T' : V * S' * (S0 * m) <= (V' * S + (if d then S' - S else 0)) * (S0 * m)) by (apply Z.mul_le_mono_nonneg_r; [nia | exact T]).
  assert (Q : (if d then S' - S else 0) * (S0 * m) <= (if d then 1 else 0) * S0 * S' * S).
  { destruct d; [| lia]. specialize (D eq_refl). rewrite Z.mul_1_l.
    transitivity (S' * (S0 * m)); [apply Z.mul_le_mono_nonneg_r; nia |].
    replace (S0 * S' * S) with (S' * (S0 * S)) by ring. apply Z.mul_le_mono_nonneg_l; [lia |]. apply Z.mul_le_mono_nonneg_l; lia. }
  destruct d; lia.
Qed.

Lemma entries_cons k x l : entries k (x :: l) = (if enters k (fst x) then 1 else 0) + entries k l.
Proof. unfold entries. cbn [filter]. destruct (enters k (fst x)); [cbn [length]; lia | lia]. Qed.

Lemma trip_run e w l w' k s p m V0 S0 : env_ok e -> trace e w l w' -> st_curve s = ConstantPrice p ->
  trade_fee_num (st_fees s) = 0 -> owner_trade_fee_num (st_fees s) = 0 -> 0 < m <= S0 ->
  forall N, 0 <= N -> inv e w -> pool_at w k s -> m <= shares w s -> Forall (fun x => m <= shares (snd x) s) l ->
  V0 * shares w s * m <= worth w s p * S0 * m + N * S0 * shares w s ->
  V0 * shares w' s * m <= worth w' s p * S0 * m + (N + entries k l) * S0 * shares w' s.
Proof.
  intros He T Hl F1 F2 Hm. induction T as [w | w ev w1 l w2 St T IH]; intros N HN I Hp L F K.
  - change (entries k []) with 0. rewrite Z.add_0_r. exact K.
  - apply Forall_cons_iff in F. destruct F as [L1 F]. cbn [snd] in L1.
    destruct (trip_step _ _ _ _ _ _ _ He I St Hp Hl F1 F2 ltac:(lia)) as (B & D).
    rewrite entries_cons. cbn [fst]. rewrite Z.add_assoc.
    apply IH; [destruct (enters k ev); lia | exact (step_inv _ _ _ _ He I St) |
      exact (step_pool_stays _ _ _ _ _ _ He (proj1 I) St Hp) | exact L1 | exact F |].
    exact (trip_invariant _ _ _ _ _ _ _ _ _ Hm L L1 HN ltac:(lia) K B D).
Qed.

Lemma trip_fair e w l w' k s p m : env_ok e -> reachable e w -> trace e w l w' ->
  pool_at w k s -> st_curve s = ConstantPrice p ->
  trade_fee_num (st_fees s) = 0 -> owner_trade_fee_num (st_fees s) = 0 ->
  0 < m <= shares w s -> Forall (fun x => m <= shares (snd x) s) l -> shares w s <= shares w' s ->
  worth w s p * m <= worth w' s p * m + entries k l * shares w s.
Proof.
  intros He R T Hp Hl F1 F2 Hm F L. pose proof (reachable_inv _ _ He R) as I.
  pose proof (trip_run e w l w' k s p m (worth w s p) (shares w s) He T Hl F1 F2 Hm 0 ltac:(lia) I Hp ltac:(lia) F ltac:(lia)) as K.
  rewrite Z.add_0_l in K.
  assert (V0 : 0 <= worth w' s p).
  { pose proof (price_config _ _ _ _ _ (proj2 I _ _ Hp) Hl) as (_ & P). pose proof (proj1 (trace_inv _ _ _ _ He T I)) as W'.
    unfold worth, pool_value. pose proof (balance_u64 w' (st_token_a s) W') as UA. pose proof (balance_u64 w' (st_token_b s) W') as UB.
    unfold is_u64 in *. nia. }
  apply Z.mul_le_mono_pos_r with (p := shares w' s); [lia |].
  assert (worth w' s p * m * shares w s <= worth w' s p * m * shares w' s) by (apply Z.mul_le_mono_nonneg_l; nia).
  lia.
Qed.

Lemma two_for_one c a b supply d f : fees_wf f -> 0 < trade_fee_num f < trade_fee_den f ->
  curve_withdraw_single c 2 a b supply d f = calc_withdraw_single c 1 a b supply d.
Proof.
  intros Wf T. unfold curve_withdraw_single. change (2 =? 0) with false. cbn iota. change (cdiv 2 2) with (Val 1). cbn [obind].
  change (Z.max 1 1) with 1. unfold trading_fee, calculate_fee.
  destruct (Z.eqb_spec (trade_fee_num f) 0); [lia |]. cbn [orb Z.eqb].
  assert (U : trade_fee_num f <= u64_max) by (destruct Wf as (H & _); unfold is_u64 in H; lia).
  unfold mul_in. rewrite Z.mul_1_l.
  destruct (Z.leb_spec (trade_fee_num f) u128_max) as [_ | L]; [| unfold u64_max, u128_max in *; lia]. cbn [obind].
  unfold cdiv. destruct (Z.eqb_spec (trade_fee_den f) 0); [lia |]. cbn [obind].
  rewrite Z.div_small by lia. reflexivity.
Qed.
