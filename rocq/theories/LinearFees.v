(** Linear pools with fees: the instructions create none, the processor would (C117). *)
From Verif Require Import Ints Tactics Fees LinearCurve SwapCurve Codec Token Processor Api History
  Spec LedgerSpec CallSpec CurveFacts LinearFacts SwapFacts TokenFacts EffectFacts CreateFacts ExactFacts HistoryFacts
  LedgerExamples HistoryExamples.

Lemma linear_owner_fee e signers w accounts ain mout s c : world_wf w ->
  pool_at w (nth 0 accounts 0) s -> st_curve s = LinearPrice c -> owner_trade_fee_num (st_fees s) <> 0 ->
  ~ exists w', exec e signers w (Swap accounts ain mout) = Ok w'.
Proof.
  intros W Hp Hl Hz (w' & H). apply swap_exact in H.
  destruct H as (pool & au & user & source & ssrc & sdst & dest & rest & s' & ta & tb & pm & r & minted & -> & Ua & _ & _ & Hp' & _ & _ &
    _ & _ & _ & _ & Ta & Tb & Pm & H).
  cbn [nth] in Hp. destruct (pool_fun _ _ _ _ Hp Hp'). cbv zeta in H. destruct H as (Sw & _ & _ & Mi & _).
  destruct (pool_wf _ _ _ W Hp) as [(_ & _ & _ & _ & _ & _ & _ & _ & Hff & Hcf) _]. rewrite Hl in *.
  assert (Fz : owner_fee r <> 0).
  { pose proof (curve_swap_bounds _ _ _ _ _ _ _ Hcf Hff Ua (token_u64 _ _ _ W Ta) (token_u64 _ _ _ W Tb) Sw) as Bd.
    intros E. unfold curve_swap in Sw. cbn [swap_without_fees] in Sw. unfold linear_swap, map_zero_to_none in Sw. inv.
    all: cbn [owner_fee source_amount_swapped trade_fee] in *; subst v0.
    all: repeat match goal with K : (if ?x =? 0 then Non else Val ?x) = Val ?z |- _ =>
           let N := fresh in destruct (Z.eqb_spec x 0) as [| N]; [discriminate K |]; injection K as <- end.
    all: unfold owner_trading_fee, calculate_fee in *; apply Z.eqb_neq in Hz; rewrite Hz in *; cbn [orb] in *.
    all: destruct (Z.eqb_spec ain 0) as [Ea | _]; [lia |]; inv.
    all: match goal with K : (if ?x =? 0 then _ else _) = Val 0 |- _ => destruct (Z.eqb_spec x 0); [discriminate K | congruence] end. }
  unfold curve_withdraw_single in Mi. apply Z.eqb_neq in Fz. rewrite Fz in Mi. cbn [calc_withdraw_single] in Mi. inv. 
Qed.

(** With the trading fee alone a swap is the swap of the amount less the fee, which stays in the pool. *)
Definition paying_fee (fee : Z) (r : swap_result) : swap_result :=
  mk_swap_result (new_swap_source_amount r + fee) (new_swap_destination_amount r)
    (source_amount_swapped r + fee) (destination_amount_swapped r) fee 0.

Lemma zero_fees c n ss sd d r : 0 <= n -> (curve_swap c n ss sd d (mk_fees 0 1 0 1 0 1 0 1) = Val r) <->
  (exists x y, swap_without_fees c n ss sd d = Val (x, y) /\ x <= u128_max /\ ss + x <= u128_max /\ y <= sd /\
    r = mk_swap_result (ss + x) (sd - y) x y 0 0).
Proof.
  intros Hn. unfold curve_swap, trading_fee, owner_trading_fee, calculate_fee. cbn [trade_fee_num owner_trade_fee_num Z.eqb orb obind].
  change (add_in u128_max 0 0) with (Val 0). cbn [obind]. unfold csub at 1. rewrite (proj2 (Z.leb_le 0 n) Hn), Z.sub_0_r. cbn [obind].
  split.
  - intros H. inv. rewrite !Z.add_0_r in *. exists z, z0. auto 6.
  - intros (x & y & -> & A & B & C & ->). cbn [obind]. unfold add_in, csub. rewrite !Z.add_0_r.
    rewrite (proj2 (Z.leb_le _ _) A). cbn [obind]. rewrite (proj2 (Z.leb_le _ _) B). cbn [obind]. rewrite (proj2 (Z.leb_le _ _) C). reflexivity.
Qed.
Lemma linear_trade_fee c f n ss sd d r : linear_wf c -> fees_wf f -> is_u64 n -> is_u64 ss -> is_u64 sd -> owner_trade_fee_num f = 0 ->
  (curve_swap (LinearPrice c) n ss sd d f = Val r) <->
  (exists fee r0, trading_fee f n = Val fee /\ fee <= n /\
    curve_swap (LinearPrice c) (n - fee) ss sd d (mk_fees 0 1 0 1 0 1 0 1) = Val r0 /\ r = paying_fee fee r0).
Proof.
  intros Hc Hf Hn Hss Hsd Ho.
  assert (Tf : forall fee, trading_fee f n = Val fee -> 0 <= fee).
  { intros fee H. unfold trading_fee in H. destruct Hf as (F1 & F2 & _). unfold is_u64 in *.
    eapply calculate_fee_nonneg; [| | | exact H]; lia. }
  assert (Of : owner_trading_fee f n = Val 0) by (unfold owner_trading_fee, calculate_fee; rewrite Ho; reflexivity).
  assert (Z0 : fees_wf (mk_fees 0 1 0 1 0 1 0 1)) by (vm_compute; repeat split; discriminate).
  split.
  - intros H. unfold curve_swap in H. rewrite Of in H. inv. specialize (Tf _ Hm).
    rewrite !Z.add_0_r in *. exists v, (mk_swap_result (ss + z) (sd - z0) z z0 0 0).
    split; [exact Hm |]. split; [exact H2 |]. split; [| unfold paying_fee; cbn [source_amount_swapped trade_fee owner_fee destination_amount_swapped new_swap_source_amount new_swap_destination_amount]; f_equal; ring].
    apply zero_fees; [lia |]. exists z, z0. split; [exact Hm2 |]. split; [lia |]. split; [lia |]. auto.
  - intros (fee & r0 & Ef & Le & Sw & ->). specialize (Tf _ Ef).
    assert (Un : is_u64 (n - fee)) by (unfold is_u64 in *; lia).
    pose proof (curve_swap_bounds (LinearPrice c) _ _ _ _ _ _ Hc Z0 Un Hss Hsd Sw) as Bd.
    apply zero_fees in Sw; [| lia]. destruct Sw as (z & z0 & Sw & _ & _ & L & ->).
    cbn [source_amount_swapped trade_fee owner_fee destination_amount_swapped new_swap_source_amount new_swap_destination_amount] in Bd.
    unfold curve_swap. rewrite Ef, Of. cbn [obind]. unfold is_u64 in *.
    assert (u64_max + u64_max + u64_max <= u128_max) by (vm_compute; discriminate).
    unfold add_in at 1, csub at 1. rewrite Z.add_0_r, (proj2 (Z.leb_le _ _)) by lia. cbn [obind].
    rewrite (proj2 (Z.leb_le _ _)) by exact Le. cbn [obind]. rewrite Sw. cbn [obind]. unfold add_in, csub.
    rewrite (proj2 (Z.leb_le _ _)) by lia. cbn [obind]. rewrite (proj2 (Z.leb_le _ _)) by lia. cbn [obind].
    rewrite (proj2 (Z.leb_le _ _)) by lia. cbn [obind]. unfold paying_fee; cbn [source_amount_swapped trade_fee owner_fee destination_amount_swapped new_swap_source_amount new_swap_destination_amount]. do 2 f_equal; ring.
Qed.

(** The pool 100 of the examples, created by the processor with other fees. *)
Definition lf_init (f : fees) : result world :=
  process_initialize ex_env [100] ex_w0 f (LinearPrice (mk_linear 1 2 50 1)) [100; auth 100; 101; 102; 203; 103; 104; TOKEN_PROGRAM_ID].
Definition lf_w (f : fees) : world := match lf_init f with Ok w => w | Err _ => fun _ => empty_account end.
Definition lf_trade : fees := mk_fees 1 100 0 1 0 1 0 1.
Definition lf_owner : fees := mk_fees 0 1 1 100 0 1 0 1.
Definition lf_swap : instr := Swap [100; auth 100; 901; 111; 101; 102; 112; 203; 103; TOKEN_PROGRAM_ID] 1000 1.

Lemma trade_fee_works : exists e signers w accounts f c w1 i w2 s,
  env_ok e /\ process_initialize e signers w f (LinearPrice c) accounts = Ok w1 /\ trade_fee_num f <> 0 /\
  pool_at w1 (nth 0 accounts 0) s /\ st_curve s = LinearPrice c /\ st_fees s = f /\
  named_pool i = nth 0 accounts 0 /\ exec e [901] w1 i = Ok w2 /\ balance w2 (st_token_b s) < balance w1 (st_token_b s).
Proof.
  exists ex_env, [100], ex_w0, [100; auth 100; 101; 102; 203; 103; 104; TOKEN_PROGRAM_ID], lf_trade, (mk_linear 1 2 50 1),
    (lf_w lf_trade), lf_swap, (run1 [901] (lf_w lf_trade) lf_swap),
    (mk_swap_state true 255 TOKEN_PROGRAM_ID 101 102 203 201 202 103 lf_trade (LinearPrice (mk_linear 1 2 50 1))).
  split; [exact ex_env_ok |]. split.
  { unfold lf_w, lf_init. destruct (process_initialize _ _ _ _ _ _) eqn:E; [reflexivity |]. exfalso. revert E. vm_compute. discriminate. }
  split; [discriminate |]. split; [split; vm_compute; reflexivity |]. split; [reflexivity |]. split; [reflexivity |].
  split; [reflexivity |]. split.
  { unfold run1. destruct (exec ex_env [901] (lf_w lf_trade) lf_swap) eqn:E; [reflexivity |]. exfalso. revert E. vm_compute. discriminate. }
  vm_compute. reflexivity.
Qed.
