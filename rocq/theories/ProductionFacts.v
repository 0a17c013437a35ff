(** Pools of a production build, in which the owner's constraints (constraints.rs
    63-77) are compiled in: what is created, and what a trade pays the owner. *)
From Verif Require Import Ints Tactics Fees LinearCurve SwapCurve Codec Token Processor Api History Spec LedgerSpec
  QuoteSpec TraceSpec DfsFacts TokenFacts ExactFacts CurveFacts SwapFacts AmountFacts QuoteCurves EffectFacts CreateFacts HistoryFacts VaultFacts PermFacts
  LedgerExamples HistoryExamples.

Lemma production_pool e o w k s : env_ok e -> constraints e = Some (production_constraints o) ->
  reachable e w -> pool_at w k s ->
  exists owner p t own, o = Some owner /\ st_curve s = ConstantPrice p /\ 0 < p <= u64_max /\
    st_fees s = mk_fees t 10000 own 10000 0 0 20 100 /\ 0 <= t < 10000 /\ 5 <= own < 10000.
Proof.
  intros He Hc Hr Hp. destruct (pool_wf _ _ _ (proj1 (reachable_inv _ _ He Hr)) Hp) as (Ws & _).
  destruct Ws as (_ & _ & _ & _ & _ & _ & _ & _ & Wf & _).
  pose proof (reachable_pool _ _ _ _ He Hr Hp) as (au & _ & _ & _ & _ & _ & _ & _ & _ & Cf).
  destruct Cf as ((owner & Co) & P1 & P2 & P3 & P4 & Cu).
  unfold constraints_ok in Co. rewrite Hc in Co. unfold production_constraints in Co. cbn [sc_owner_key sc_valid_curve_tags sc_fees] in Co.
  destruct Co as (-> & Tag & Co). cbv zeta in Co.
  cbn [trade_fee_num trade_fee_den owner_trade_fee_num owner_trade_fee_den owner_withdraw_fee_num owner_withdraw_fee_den
    host_fee_num host_fee_den] in Co. destruct Co as (C1 & C2 & C3 & C4 & C5 & C6 & C7 & C8).
  destruct (st_fees s) as [f1 f2 f3 f4 f5 f6 f7 f8].
  cbn [trade_fee_num trade_fee_den owner_trade_fee_num owner_trade_fee_den owner_withdraw_fee_num owner_withdraw_fee_den
    host_fee_num host_fee_den] in *. subst f2 f4 f6 f7 f8.
  destruct (st_curve s) as [| p | | | l] eqn:Ec; try tauto.
  - exists owner, p, f1, f3. unfold proper_fraction, is_u64 in *. destruct Cu as (Up & Pp).
    split; [reflexivity |]. split; [reflexivity |]. split; [lia |].
    assert (f5 = 0) by lia. subst f5. split; [reflexivity |]. lia.
  - exfalso. cbn [curve_tag In] in Tag. lia.
Qed.

(** What a trade with a production pool pays the owner: the owner's fee, less
    half of the trading fee on it, in pool tokens at the value after the trade,
    rounded up unless it is worth less than half a pool token. *)
Lemma production_pays e o signers w accounts ain mout w' s : env_ok e ->
  constraints e = Some (production_constraints o) -> reachable e w ->
  exec e signers w (Swap accounts ain mout) = Ok w' -> pool_at w (nth 0 accounts 0) s ->
  exists p t own, st_curve s = ConstantPrice p /\ st_fees s = mk_fees t 10000 own 10000 0 0 20 100 /\
    0 < p /\ 0 <= t < 10000 /\ 5 <= own < 10000 /\ 0 < ain /\
    let d := if nth 4 accounts 0 =? st_token_a s then AtoB else BtoA in
    let fee := Z.max 1 (ain * own / 10000) in
    let half := if t =? 0 then 0 else Z.max 1 (Z.max 1 (fee / 2) * t / 10000) in
    let m := shares w' s - shares w s in
    let V := worth w' s p in let v := value_of p (fee - half) d in
    0 <= half <= fee /\ 0 < V /\
    (m = 0 /\ 2 * (shares w s * v) < V \/ 0 < m /\ V <= 2 * (shares w s * v) /\ (m - 1) * V < shares w s * v <= m * V).
Proof.
  intros He Hc Hr H Hp.
  destruct (production_pool _ _ _ _ _ He Hc Hr Hp) as (owner & p & t & own & -> & Ec & Hpp & Ef & Ht & Ho).
  pose proof (reachable_inv _ _ He Hr) as Hi. pose proof Hi as (W & _).
  destruct (pool_wf _ _ _ W Hp) as (Ws & _). destruct Ws as (_ & _ & _ & _ & _ & _ & _ & _ & Wf & _).
  pose proof (swap_vaults_at _ _ _ _ _ _ _ _ Hi H Hp) as (r & minted & Ua & Hsw & Hm & M0 & Ba & Bb & Su).
  exists p, t, own. split; [exact Ec |]. split; [exact Ef |]. split; [lia |]. split; [lia |]. split; [lia |].
  set (d := if nth 4 accounts 0 =? st_token_a s then AtoB else BtoA) in *.
  unfold shares, worth. rewrite Ba, Bb, Su. rewrite Ec, Ef in *.
  pose proof (balance_u64 _ (st_token_a s) W) as U1. pose proof (balance_u64 _ (st_token_b s) W) as U2.
  pose proof (supply_u64 _ (st_pool_mint s) W) as U3.
  assert (Us : is_u64 match d with AtoB => balance w (st_token_a s) | BtoA => balance w (st_token_b s) end) by (destruct d; assumption).
  assert (Ud : is_u64 match d with AtoB => balance w (st_token_b s) | BtoA => balance w (st_token_a s) end) by (destruct d; assumption).
  assert (Up : is_u64 p) by (unfold is_u64; lia).
  pose proof (curve_swap_bounds (ConstantPrice p) _ _ _ _ _ _ Up Wf Ua Us Ud Hsw) as (B1 & B2 & B3 & B4 & B5 & B6 & _).
  pose proof (creatable_pays (ConstantPrice p) _ _ _ _ _ _ Up Wf Ua Us Ud ltac:(cbn; lia) Hsw) as (X0 & _).
  assert (A0 : 0 < ain) by lia. split; [exact A0 |].
  assert (Eo : owner_fee r = Z.max 1 (ain * own / 10000)).
  { unfold curve_swap in Hsw. obs Hsw. destruct v3 as [x y]. obs Hsw. injection Hsw as <-. cbn [owner_fee].
    destruct (fees_exact (mk_fees t 10000 own 10000 0 0 20 100) ain Wf ltac:(lia)) as (_ & EF & _).
    match goal with Hq : owner_trading_fee _ _ = Val ?v |- ?v = _ => rewrite EF in Hq; rename Hq into Q end.
    cbn [owner_trade_fee_num owner_trade_fee_den] in Q. unfold fee_of in Q.
    destruct (Z.eqb_spec own 0); [lia |]. destruct (Z.eqb_spec ain 0); [lia |]. cbn [orb] in Q.
    destruct (_ || _); [discriminate |]. injection Q as <-. reflexivity. }
  cbv zeta. rewrite <- Eo.
  assert (G0 : 1 <= owner_fee r) by lia.
  assert (Uo : is_u64 (owner_fee r)) by (unfold is_u64 in *; lia).
  destruct (half_fee_both (ConstantPrice p) (owner_fee r)
      (side_a d (new_swap_source_amount r) (new_swap_destination_amount r))
      (side_b d (new_swap_source_amount r) (new_swap_destination_amount r)) (supply w (st_pool_mint s)) d _ Wf Uo) as [_ E].
  rewrite E in Hm. unfold after_half_fee in Hm. destruct (Z.eqb_spec (owner_fee r) 0); [lia |].
  cbn [trade_fee_num trade_fee_den] in Hm. unfold fee_of in Hm.
  set (g := owner_fee r) in *. set (h0 := Z.max 1 (g / 2)) in *.
  assert (H0 : 1 <= h0) by lia.
  assert (Hh : 0 <= (if t =? 0 then 0 else Z.max 1 (h0 * t / 10000)) <= g /\
    calc_withdraw_single (ConstantPrice p) (g - (if t =? 0 then 0 else Z.max 1 (h0 * t / 10000)))
      (side_a d (new_swap_source_amount r) (new_swap_destination_amount r))
      (side_b d (new_swap_source_amount r) (new_swap_destination_amount r)) (supply w (st_pool_mint s)) d = Val minted).
  { destruct (Z.eqb_spec t 0); cbn [orb] in Hm |- *.
    - destruct (Z.ltb_spec g 0); [discriminate |]. split; [lia | exact Hm].
    - destruct (Z.eqb_spec h0 0); [lia |]. destruct (_ || _); [discriminate |].
      destruct (Z.ltb_spec g (Z.max 1 (h0 * t / 10000))); [discriminate |]. split; [lia | exact Hm]. }
  set (hf := if t =? 0 then 0 else Z.max 1 (h0 * t / 10000)) in *. destruct Hh as (Hh & Hw).
  split; [exact Hh |].
  replace (supply w (st_pool_mint s) + minted - supply w (st_pool_mint s)) with minted by lia.
  set (A := side_a d (new_swap_source_amount r) (new_swap_destination_amount r)) in *.
  set (B := side_b d (new_swap_source_amount r) (new_swap_destination_amount r)) in *.
  assert (UA : 0 <= A <= 2 * u64_max /\ 0 <= B <= 2 * u64_max).
  { unfold A, B, is_u64 in *. destruct d; cbn [side_a side_b]; lia. }
  assert (L : 2 * u64_max <= u128_max) by discriminate.
  destruct (cprice_singles p (g - hf) A B (supply w (st_pool_mint s)) d Up) as [_ Q];
    [unfold is_u128, is_u64 in *; lia | unfold is_u128; lia | unfold is_u128; lia | exact U3 |].
  rewrite Q in Hw. unfold price_single_quote in Hw.
  assert (V0 : 0 <= pool_value p A B) by (unfold pool_value; nia).
  destruct (Z.eqb_spec (pool_value p A B) 0); [discriminate |]. cbv zeta in Hw.
  destruct (_ <=? _); [| discriminate]. injection Hw as Hw. split; [lia |]. rewrite <- Hw in *. clear Hw Q.
  cbn [round_div]. set (V := pool_value p A B) in *. set (n' := supply w (st_pool_mint s) * value_of p (g - hf) d).
  assert (N0 : 0 <= n') by (unfold n', value_of, is_u64 in *; destruct d; nia).
  unfold up_div. destruct (Z.ltb_spec n' V).
  - destruct (Z.leb_spec V (2 * n')); [right; lia | left; lia].
  - pose proof (div_bounds (n' + V - 1) V ltac:(lia)). right. nia.
Qed.

(** What can be created: constant-price pools with a fee account of the owner. *)
Lemma production_creates e o signers w i w' : constraints e = Some (production_constraints o) ->
  creates i -> exec e signers w i = Ok w' ->
  exists accounts p t own tf, i = InitConstantPrice accounts (mk_fees t 10000 own 10000 0 0 20 100) p /\
    0 <= t < 10000 /\ 5 <= own < 10000 /\
    token_at w (nth 5 accounts 0) tf /\ o = Some (t_owner tf).
Proof.
  intros Hc Hcr H.
  assert (R : exists f c, requested i = Some (f, c)) by (destruct i; cbn in Hcr; try tauto; eexists; eexists; reflexivity).
  destruct R as (f & c & R).
  destruct (create_fees _ _ _ _ _ _ _ Hcr H R) as (P1 & P2 & P3 & P4 & tf & Tf & Co).
  unfold constraints_ok in Co. rewrite Hc in Co. unfold production_constraints in Co. cbn [sc_owner_key sc_valid_curve_tags sc_fees] in Co.
  destruct Co as (-> & Tag & Co). cbv zeta in Co.
  destruct f as [f1 f2 f3 f4 f5 f6 f7 f8].
  cbn [trade_fee_num trade_fee_den owner_trade_fee_num owner_trade_fee_den owner_withdraw_fee_num owner_withdraw_fee_den
    host_fee_num host_fee_den] in *. destruct Co as (C1 & C2 & C3 & C4 & C5 & C6 & C7 & C8). subst f2 f4 f6 f7 f8.
  unfold proper_fraction in *. assert (f5 = 0) by lia. subst f5.
  destruct i as [acc fr p | acc sn sd pn pd | | | | |]; cbn [requested instr_accounts] in *; try discriminate R.
  - injection R as -> <-. exists acc, p, f1, f3, tf. split; [reflexivity |]. split; [lia |]. split; [lia |]. auto.
Qed.

(** A production build for the owner 900 and a large constant-price pool (price 3) in it. *)
Definition prod_env : env := mk_env (find_pda ex_env) (create_pda ex_env) (Some (production_constraints (Some 900))).
Definition prod_run (signers : list Z) (w : world) (i : instr) : world :=
  match exec prod_env signers w i with Ok w' => w' | Err _ => fun _ => empty_account end.
Definition prod_w0 : world := of_list
  [ (300, zeroed); (301, tok 201 (auth 300) (10 ^ 10)); (302, tok 202 (auth 300) (10 ^ 10)); (403, a_mint (auth 300) 0);
    (303, tok 403 900 0); (304, tok 403 901 0);
    (111, tok 201 901 (10 ^ 9)); (112, tok 202 901 0); (201, a_mint 999 0); (202, a_mint 999 0) ].
Definition prod_fees : fees := mk_fees 0 10000 5 10000 0 0 20 100.
Definition prod_init : instr :=
  InitConstantPrice [300; auth 300; 301; 302; 403; 303; 304; TOKEN_PROGRAM_ID] prod_fees 3.
Definition prod_w1 : world := prod_run [300] prod_w0 prod_init.
Definition prod_pool : swap_state :=
  mk_swap_state true 255 TOKEN_PROGRAM_ID 301 302 403 201 202 303 prod_fees (ConstantPrice 3).
Definition prod_accounts : list Z := [300; auth 300; 901; 111; 301; 302; 112; 403; 303; TOKEN_PROGRAM_ID].

Lemma prod_env_ok : env_ok prod_env.
Proof. exact ex_env_ok. Qed.
Lemma prod_signers k : 0 <= k < 2 ^ 200 -> signers_ok prod_env [k].
Proof. exact (ex_signers k). Qed.
Lemma prod_genesis : genesis_ok prod_w0.
Proof.
  split.
  - intros k. apply (of_list_all _ (fun _ a => account_wf a)); [intros ?; exact (Forall_nil _) |].
    repeat (apply Forall_cons; [| try apply Forall_nil]);
      cbn [snd]; unfold account_wf, zeroed, tok, a_mint; cbn [a_data]; unfold is_u64, u64_max, is_pubkey;
      try (cbn; vm_compute; intuition congruence).
    all: apply Forall_forall; intros x Hx; apply repeat_spec in Hx; subst; unfold is_u8; lia.
  - intros k. apply (of_list_all _ (fun _ a => a_owner a = PROGRAM_ID -> ~ versioned (a_data a))).
    + intros _ H. discriminate H.
    + repeat (apply Forall_cons; [| try apply Forall_nil]); cbn [snd]; intros H; try discriminate H; intros (l & E); discriminate E.
Qed.
Lemma prod_ran signers w i : match exec prod_env signers w i with Ok _ => true | Err _ => false end = true ->
  exec prod_env signers w i = Ok (prod_run signers w i).
Proof. unfold prod_run. destruct (exec prod_env signers w i); [reflexivity | discriminate]. Qed.
Lemma prod_reachable : reachable prod_env prod_w1.
Proof.
  apply (reachable_step _ prod_w0 (Instruction [300] prod_init)); [exists prod_w0, []; split; [exact prod_genesis | constructor] |].
  apply step_instruction; [apply prod_signers; lia | unfold prod_init; keys_ok | apply prod_ran; vm_compute; reflexivity].
Qed.
Lemma prod_pool_at : pool_at prod_w1 300 prod_pool.
Proof. split; vm_compute; reflexivity. Qed.

Lemma production_unpaid : exists e owner signers w accounts ain w' s,
  env_ok e /\ constraints e = Some (production_constraints (Some owner)) /\ reachable e w /\ signers_ok e signers /\
  exec e signers w (Swap accounts ain 0) = Ok w' /\ pool_at w (nth 0 accounts 0) s /\
  (exists t, token_at w (st_pool_fee_account s) t /\ t_owner t = owner) /\
  ain = 30000 /\ balance w' (st_token_a s) = balance w (st_token_a s) + 30000 /\
  balance w' (st_token_b s) = balance w (st_token_b s) - 9995 /\ st_curve s = ConstantPrice 3 /\
  balance w' (st_pool_fee_account s) = balance w (st_pool_fee_account s) /\ shares w' s = shares w s.
Proof.
  exists prod_env, 900, [901], prod_w1, prod_accounts, 30000, (prod_run [901] prod_w1 (Swap prod_accounts 30000 0)), prod_pool.
  split; [exact prod_env_ok |]. split; [reflexivity |]. split; [exact prod_reachable |]. split; [apply prod_signers; lia |].
  split; [apply prod_ran; vm_compute; reflexivity |]. split; [exact prod_pool_at |].
  split; [eexists; split; [split; vm_compute; reflexivity | reflexivity] |].
  vm_compute. repeat split; reflexivity.
Qed.
