(** Whose tokens move, which accounts are accepted, and fee-free pools. *)
From Verif Require Import Ints Tactics Fees LinearCurve ConstantPrice SwapCurve Codec Token Processor Api History
  Spec LedgerSpec CurveFacts LinearFacts SwapFacts CodecFacts TokenFacts ProcFacts AmountFacts EffectFacts TradeFacts
  CreateFacts.

Lemma balance_token w k x : x < balance w k -> 0 <= x -> exists t, token_at w k t.
Proof.
  unfold balance, token_at. intros H Hx. destruct (Z.eqb_spec (a_owner (w k)) TOKEN_PROGRAM_ID); [| lia].
  destruct (a_data (w k)); try lia. eauto.
Qed.

(** Creation takes tokens from nobody. *)
Lemma create_no_debit e signers w i w' k : creates i -> exec e signers w i = Ok w' -> balance w k <= balance w' k.
Proof.
  intros Hc H. destruct (create_inv _ _ _ _ _ Hc H)
    as (pool & authority & ka & kb & mint & fee & dest & tp & rest & f & c & _ & _ & _ & _ & _ & Hi).
  apply initialize_trace in Hi.
  destruct Hi as (bump & ta & tb & tf & td & pm & w1 & bytes & _ & _ & _ & -> & _ & _ & _ & _ & _ &
    _ & _ & _ & _ & _ & _ & _ & _ & _ & _ & _ & _ & _ & _ & _ & _ & _ & (auth' & Hpda & Hrun) & Ow & _ & ->).
  apply run_change in Hrun. destruct Hrun as (R1 & _). destruct (Z.eq_dec k pool) as [-> | N].
  - unfold balance at 1. rewrite Ow. cbn. unfold balance. rewrite upd_same. cbn. lia.
  - rewrite (same_balance w1 (upd w1 pool _) k) by (now apply upd_other). rewrite R1. cbn [sum_ops op_balance].
    unfold only_at, INITIAL_SWAP_POOL_AMOUNT. destruct (_ =? _); lia.
Qed.

Lemma vault_dec s k : (k = st_token_a s \/ k = st_token_b s) \/ ~ (k = st_token_a s \/ k = st_token_b s).
Proof. destruct (Z.eq_dec k (st_token_a s)), (Z.eq_dec k (st_token_b s)); tauto. Qed.
Lemma pays_out_dec i : pays_out i \/ ~ pays_out i.
Proof. destruct i; cbn; tauto. Qed.

Lemma debit_authorised e signers w i w' k : world_wf w -> exec e signers w i = Ok w' ->
  balance w' k < balance w k ->
  may_debit signers w k (balance w k - balance w' k) \/
  (pays_out i /\ exists s, pool_at w (named_pool i) s /\ (k = st_token_a s \/ k = st_token_b s)).
Proof.
  intros W H Hk.
  assert (Dc : creates i \/ ~ creates i) by (destruct i; cbn; tauto).
  destruct Dc as [Hc | Nc]; [pose proof (create_no_debit _ _ _ _ _ k Hc H); lia |].
  destruct (trade_ops _ _ _ _ _ W H Nc) as (s & authority & user & ops & Hp & _ & Hu & Hrun & Ha & Ho).
  destruct (vault_dec s k) as [V | V]; destruct (pays_out_dec i) as [P | P];
    try (right; split; [exact P |]; exists s; split; [exact Hp | exact V]); left.
  all: assert (Hw' : world_wf w') by (eapply run_wf; eassumption).
  all: destruct (balance_token w k (balance w' k) Hk) as (t & Ht);
    [destruct (balance_u64 w' k Hw'); assumption |].
  all: assert (Hf : Forall (fun o => op_source o = Some k -> In (op_authority o) signers) ops) by
    (eapply Forall_impl; [| exact Ho]; intros o Hoo Hs; destruct o as [so dd a x | m dd a x | so m a x];
     cbn in *; try discriminate; injection Hs as ->; [destruct Hoo as [-> | (_ & Hv & Hpo)]; tauto | now subst]).
  all: destruct (run_fair _ signers k _ _ _ _ Hrun Ha Hf Ht) as (t' & Ht' & Hown & F).
  all: exists t; split; [exact Ht |]; rewrite (token_balance _ _ _ Ht), (token_balance _ _ _ Ht') in *;
    destruct F as [F | (sp & S0 & S1 & _ & S3 & _)]; [left; exact F | right];
    destruct S3 as (dl & D1 & D2 & D3); [lia |]; exists dl; repeat split; auto; lia.
Qed.

(** ** Extra accounts are ignored *)
Lemma nth_firstn A n m (l : list A) d : (n < m)%nat -> nth n (firstn m l) d = nth n l d.
Proof.
  revert m l. induction n as [| n IH]; intros [| m] [| x l] H; cbn; try lia; auto. apply IH. lia.
Qed.
Lemma anchor_firstn n sg signers l : (sg < n)%nat ->
  anchor_accounts n sg signers (firstn n l) = anchor_accounts n sg signers l.
Proof.
  intros H. unfold anchor_accounts. rewrite nth_firstn by exact H. rewrite firstn_firstn, Nat.min_id.
  rewrite firstn_length. replace (Nat.ltb (Nat.min n (length l)) n) with (Nat.ltb (length l) n); [reflexivity |].
  destruct (Nat.ltb_spec (length l) n), (Nat.ltb_spec (Nat.min n (length l)) n); try lia; reflexivity.
Qed.
Lemma swap_ignores_extra e signers w accounts ain mout :
  exec e signers w (Swap accounts ain mout) = exec e signers w (Swap (firstn 10 accounts) ain mout).
Proof. unfold exec. cbn [instr_args]. rewrite anchor_firstn by lia. reflexivity. Qed.

(** ** Pools without trading fees *)
Lemma no_fee_swap c source ss sd d f r :
  trade_fee_num f = 0 -> owner_trade_fee_num f = 0 ->
  curve_swap c source ss sd d f = Val r -> trade_fee r = 0 /\ owner_fee r = 0.
Proof.
  intros H1 H2 H. unfold curve_swap in H. obs H. destruct v3. obs H. injection H as <-.
  cbn [trade_fee owner_fee]. unfold trading_fee, owner_trading_fee, calculate_fee in *.
  rewrite H1 in E. rewrite H2 in E0. cbn in E, E0. split; congruence.
Qed.

Lemma change_ext w w' db ds t d db' ds' : ledger_change w w' db ds t d ->
  (forall k, db k = db' k) -> (forall k, ds k = ds' k) -> ledger_change w w' db' ds' t d.
Proof. intros H H1 H2. eapply change_weaken; eauto using incl_refl. Qed.

Lemma no_fee_swap_effect e signers w accounts ain mout w' s : world_wf w ->
  exec e signers w (Swap accounts ain mout) = Ok w' ->
  pool_at w (nth 0 accounts 0) s -> trade_fee_num (st_fees s) = 0 -> owner_trade_fee_num (st_fees s) = 0 ->
  let source := nth 3 accounts 0 in let ssrc := nth 4 accounts 0 in let sdst := nth 5 accounts 0 in
  let dest := nth 6 accounts 0 in
  exists x y,
    swap_without_fees (st_curve s) ain (balance w ssrc) (balance w sdst)
      (if ssrc =? st_token_a s then AtoB else BtoA) = Val (x, y) /\
    (forall k, supply w' k = supply w k) /\
    (forall k, balance w' k = balance w k + only_at ssrc k x - only_at source k x + only_at dest k y
                              - only_at sdst k y).
Proof.
  intros W H Hp F1 F2. cbv zeta.
  destruct (swap_effect _ _ _ _ _ _ _ W H) as (s' & r & minted & Hp' & Hs & _ & _ & _ & _ & Hm & _ & Hch).
  rewrite (pool_fun _ _ _ _ Hp' Hp) in *. cbv zeta in *.
  destruct (no_fee_swap _ _ _ _ _ _ _ F1 F2 Hs) as (Z1 & Z2).
  rewrite Z2 in Hm. unfold curve_withdraw_single in Hm. cbn in Hm. injection Hm as <-.
  exists (source_amount_swapped r), (destination_amount_swapped r). split.
  - unfold curve_swap in Hs. obs Hs. destruct v3 as [x y]. obs Hs. injection Hs as <-.
    cbn [trade_fee owner_fee source_amount_swapped destination_amount_swapped] in *. subst.
    apply add_in_val in E1. destruct E1 as [-> _]. apply csub_val in E2. destruct E2 as [-> _].
    apply add_in_val in E4. destruct E4 as [-> _]. rewrite !Z.add_0_r. rewrite Z.sub_0_r in E3. exact E3.
  - destruct Hch as (C1 & C2 & _). split; intros k.
    + rewrite C2, only_at_zero by reflexivity. lia.
    + rewrite C1. rewrite (only_at_zero (nth 8 accounts 0) k 0 eq_refl). lia.
Qed.

(** ** Accounts accepted *)
Lemma swap_accounts e signers w accounts ain mout w' : exec e signers w (Swap accounts ain mout) = Ok w' ->
  let pool := nth 0 accounts 0 in let source := nth 3 accounts 0 in
  let ssrc := nth 4 accounts 0 in let sdst := nth 5 accounts 0 in let dest := nth 6 accounts 0 in
  exists s, pool_at w pool s /\ create_pda e pool (st_bump_seed s) = Some (nth 1 accounts 0) /\
    In (nth 2 accounts 0) signers /\
    (ssrc = st_token_a s /\ sdst = st_token_b s \/ ssrc = st_token_b s /\ sdst = st_token_a s) /\ ssrc <> sdst /\
    source <> ssrc /\ dest <> sdst /\
    nth 7 accounts 0 = st_pool_mint s /\ nth 8 accounts 0 = st_pool_fee_account s /\
    nth 9 accounts 0 = st_token_program_id s /\ st_token_program_id s = TOKEN_PROGRAM_ID.
Proof.
  intros H. apply swap_trace in H.
  destruct H as (pool & authority & user & source & ssrc & sdst & dest & mint & fee & tp & rest & s & ta & tb & pm
    & r & pt & -> & _ & _ & Hu & Hp & Hpda & V1 & V2 & N1 & N2 & N3 & -> & -> & -> & Htp & _).
  cbn [nth]. exists s. repeat (split; [assumption |]). split.
  { destruct V1 as [V1 | V1], V2 as [V2 | V2]; try (exfalso; congruence); auto. }
  auto 10.
Qed.
Lemma deposit_all_accounts e signers w accounts n ma mb w' : exec e signers w (DepositAll accounts n ma mb) = Ok w' ->
  let pool := nth 0 accounts 0 in
  exists s, pool_at w pool s /\ create_pda e pool (st_bump_seed s) = Some (nth 1 accounts 0) /\
    In (nth 2 accounts 0) signers /\ allows_deposits (st_curve s) = true /\
    nth 5 accounts 0 = st_token_a s /\ nth 6 accounts 0 = st_token_b s /\
    nth 3 accounts 0 <> st_token_a s /\ nth 4 accounts 0 <> st_token_b s /\
    nth 7 accounts 0 = st_pool_mint s /\
    nth 9 accounts 0 = st_token_program_id s /\ st_token_program_id s = TOKEN_PROGRAM_ID.
Proof.
  intros H. apply deposit_all_trace in H.
  destruct H as (pool & authority & user & sa & sb & ka & kb & mint & dest & tp & rest & s & ta & tb & pm
    & a & b & -> & _ & _ & _ & Hu & Hp & Hpda & -> & -> & -> & -> & Htp & N1 & N2 & Al & _).
  cbn [nth]. exists s. auto 15.
Qed.
Lemma withdraw_all_accounts e signers w accounts n ma mb w' : exec e signers w (WithdrawAll accounts n ma mb) = Ok w' ->
  let pool := nth 0 accounts 0 in
  exists s, pool_at w pool s /\ create_pda e pool (st_bump_seed s) = Some (nth 1 accounts 0) /\
    In (nth 2 accounts 0) signers /\ nth 3 accounts 0 = st_pool_mint s /\
    nth 5 accounts 0 = st_token_a s /\ nth 6 accounts 0 = st_token_b s /\
    nth 7 accounts 0 <> st_token_a s /\ nth 8 accounts 0 <> st_token_b s /\
    nth 9 accounts 0 = st_pool_fee_account s /\
    nth 10 accounts 0 = st_token_program_id s /\ st_token_program_id s = TOKEN_PROGRAM_ID.
Proof.
  intros H. apply withdraw_all_trace in H.
  destruct H as (pool & authority & user & mint & source & ka & kb & da & db & fee & tp & rest & s & ta & tb & pm
    & wf & ra & rb & -> & _ & _ & _ & Hu & Hp & Hpda & -> & -> & -> & -> & -> & Htp & N1 & N2 & _).
  cbn [nth]. exists s. auto 15.
Qed.
Lemma deposit_single_accounts e signers w accounts n mp w' : exec e signers w (DepositSingle accounts n mp) = Ok w' ->
  let pool := nth 0 accounts 0 in let source := nth 3 accounts 0 in
  exists s, pool_at w pool s /\ create_pda e pool (st_bump_seed s) = Some (nth 1 accounts 0) /\
    In (nth 2 accounts 0) signers /\
    nth 4 accounts 0 = st_token_a s /\ nth 5 accounts 0 = st_token_b s /\
    (same_mint w source (st_token_a s) /\ source <> st_token_a s \/
     same_mint w source (st_token_b s) /\ source <> st_token_b s) /\
    nth 6 accounts 0 = st_pool_mint s /\
    nth 8 accounts 0 = st_token_program_id s /\ st_token_program_id s = TOKEN_PROGRAM_ID.
Proof.
  intros H. apply deposit_single_trace in H.
  destruct H as (pool & authority & user & source & ka & kb & mint & dest & tp & rest & s & ts & ta & tb & pm
    & d & p & -> & _ & _ & Hu & Hp & Hpda & -> & -> & -> & -> & Htp & Hts & Hta & Htb & _ & Hd & Nv & _).
  cbn [nth]. exists s. do 5 (split; [auto |]). split; [| auto 10].
  destruct d; cbn [direction_of vault_of] in *; [left | right]; (split; [| assumption]);
    [exists ts, ta | exists ts, tb]; tauto.
Qed.
Lemma withdraw_single_accounts e signers w accounts n mp w' : exec e signers w (WithdrawSingle accounts n mp) = Ok w' ->
  let pool := nth 0 accounts 0 in let dest := nth 7 accounts 0 in
  exists s, pool_at w pool s /\ create_pda e pool (st_bump_seed s) = Some (nth 1 accounts 0) /\
    In (nth 2 accounts 0) signers /\ nth 3 accounts 0 = st_pool_mint s /\
    nth 5 accounts 0 = st_token_a s /\ nth 6 accounts 0 = st_token_b s /\
    (same_mint w dest (st_token_a s) /\ dest <> st_token_a s \/
     same_mint w dest (st_token_b s) /\ dest <> st_token_b s) /\
    nth 8 accounts 0 = st_pool_fee_account s /\
    nth 9 accounts 0 = st_token_program_id s /\ st_token_program_id s = TOKEN_PROGRAM_ID.
Proof.
  intros H. apply withdraw_single_trace in H.
  destruct H as (pool & authority & user & mint & source & ka & kb & dest & fee & tp & rest & s & td & ta & tb & pm
    & d & p & wf & -> & _ & _ & Hu & Hp & Hpda & -> & -> & -> & -> & -> & Htp & Htd & Hta & Htb & _ & Hd & Nv & _).
  cbn [nth]. exists s. do 6 (split; [auto |]). split; [| auto 10].
  destruct d; cbn [direction_of vault_of] in *; [left | right]; (split; [| assumption]);
    [exists td, ta | exists td, tb]; tauto.
Qed.

(** Creation stores proper fees. *)
Lemma create_fees e signers w i w' f c : creates i -> exec e signers w i = Ok w' -> requested i = Some (f, c) ->
  proper_fraction (trade_fee_num f) (trade_fee_den f) /\
  proper_fraction (owner_trade_fee_num f) (owner_trade_fee_den f) /\
  proper_fraction (owner_withdraw_fee_num f) (owner_withdraw_fee_den f) /\
  proper_fraction (host_fee_num f) (host_fee_den f) /\
  exists tf, token_at w (nth 5 (instr_accounts i) 0) tf /\ constraints_ok e f c (t_owner tf).
Proof.
  intros Hc H Hr. destruct (create_inv _ _ _ _ _ Hc H)
    as (pool & authority & ka & kb & mint & fee & dest & tp & rest & f' & c' & Hacc & Hr' & Hf & _ & _ & Hi).
  rewrite Hr in Hr'. injection Hr' as <- <-. rewrite Hacc. cbn [nth].
  apply initialize_trace in Hi.
  destruct Hi as (bump & ta & tb & tf & td & pm & w1 & bytes & _ & _ & _ & -> & _ & _ & Htf & _ & _ &
    _ & _ & _ & _ & _ & _ & _ & _ & _ & _ & _ & _ & _ & _ & Cs & Fv & _).
  apply fees_validate_ok in Fv; [| exact Hf]. destruct Fv as (A & B & C & D). eauto 10.
Qed.
