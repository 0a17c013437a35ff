(** The end of the fuzz test: all pool tokens are gathered and redeemed. *)
From Verif Require Import Ints Tactics SplMath Fees LinearCurve ConstantPrice SwapCurve Codec Token Processor Api History
  Spec LedgerSpec CallSpec WireSpec TotalSpec LiveSpec RequestSpec TraceSpec CurveFacts LinearFacts SwapFacts CurveProps CodecFacts TokenFacts ProcFacts
  AmountFacts EffectFacts TradeFacts CreateFacts PermFacts HistoryFacts LiquidityFacts VaultFacts LedgerPrice TotalFacts
  LinearProps RequestFacts RedeemAll LedgerExamples HistoryExamples Fuzz FuzzSpec FuzzState FuzzFacts FuzzRun.

Lemma not_pda_900 : ~ is_pda ex_env 900.
Proof. apply signers_900. now left. Qed.

Lemma move_eq w s d ts td n : token_at w s ts -> token_at w d td -> s <> d -> forall k,
  move w s d n k = if k =? d then mk_account TOKEN_PROGRAM_ID (DToken (with_amount td (t_amount td + n)))
                   else if k =? s then mk_account TOKEN_PROGRAM_ID (DToken (with_amount ts (t_amount ts - n))) else w k.
Proof.
  intros (Os & Ds) (Od & Dd) N k. unfold move. rewrite Ds, Dd. cbv zeta. unfold set_token.
  destruct (Z.eqb_spec k d) as [-> | Nd].
  - rewrite upd_same, upd_other by congruence. rewrite Od. reflexivity.
  - rewrite upd_other by exact Nd. destruct (Z.eqb_spec k s) as [-> | Ns]; [rewrite upd_same, Os; reflexivity |].
    rewrite upd_other by exact Ns. reflexivity.
Qed.

Lemma in_p_p k : In k list_p -> k = 303 \/ k = 304 \/ 3000 <= k < 3256.
Proof. intros [<- | [<- | H]]; auto. apply ids_in in H. lia. Qed.

Lemma fz_move w k : fz w -> In k list_p -> k <> 303 -> let w' := move w k 303 (balance w k) in
  fz w' /\ balance w' k = 0 /\ (forall j, j <> k -> j <> 303 -> w' j = w j).
Proof.
  intros F Hk Nk w'. pose proof (fz_inv _ F) as (W & _).
  pose proof (fz_p _ F k Hk) as (t & T & O & M & D & C & Fr & N). pose proof (fee_p _ F) as (u & U & O' & M' & D' & C' & Fr' & N').
  pose proof (move_eq w k 303 t u (balance w k) T U Nk) as E. fold w' in E.
  assert (Bk : balance w k = t_amount t) by exact (token_balance _ _ _ T).
  assert (Bu : balance w 303 = t_amount u) by exact (token_balance _ _ _ U).
  assert (Sum : balance w k + balance w 303 <= supply w 403).
  { rewrite <- (fz_tp _ F). unfold list_p. cbn [total]. pose proof (held_holds _ _ _ _ 403 (fee_p _ F)) as H3. rewrite Z.eqb_refl in H3. rewrite H3.
    destruct Hk as [Hk | Hk]; [congruence |].
    assert (L : held w 403 k <= total w 403 (304 :: ids 3000)) by (apply held_le; assumption).
    pose proof (held_holds _ _ _ _ 403 (fz_p _ F k (or_intror Hk))) as H4. rewrite Z.eqb_refl in H4. cbn [total] in L. lia. }
  pose proof (supply_u64 w 403 W) as US. pose proof (balance_u64 w k W) as UK. pose proof (balance_u64 w 303 W) as U3. unfold is_u64 in *.
  assert (T' : token_at w' k (with_amount t 0)).
  { split; rewrite E; destruct (Z.eqb_spec k 303); try congruence; rewrite Z.eqb_refl; [reflexivity |]. cbn [a_data]. f_equal. f_equal. lia. }
  assert (U' : token_at w' 303 (with_amount u (t_amount u + balance w k))).
  { split; rewrite E, Z.eqb_refl; reflexivity. }
  assert (O3 : forall j, j <> k -> j <> 303 -> w' j = w j).
  { intros j J1 J2. rewrite E. destruct (Z.eqb_spec j 303); [congruence |]. destruct (Z.eqb_spec j k); [congruence | reflexivity]. }
  assert (Ext : external_ok ex_env w w').
  { split.
    - intros j. rewrite E. destruct (Z.eqb_spec j 303) as [-> | ]; [| destruct (Z.eqb_spec j k) as [-> | ]; [| apply W]].
      + specialize (W 303). unfold account_wf in *. destruct U as (_ & Du). rewrite Du in W. cbn [a_data with_amount t_amount t_delegated_amount t_mint].
        unfold is_u64 in *. destruct W as (_ & W2 & W3). repeat split; try assumption; try (apply W2); try apply W3; lia.
      + specialize (W k). unfold account_wf in *. destruct T as (_ & Dt). rewrite Dt in W. cbn [a_data with_amount t_amount t_delegated_amount t_mint].
        unfold is_u64 in *. destruct W as (_ & W2 & W3). repeat split; try assumption; try (apply W2); try apply W3; lia.
    - intros j. rewrite E. destruct (Z.eqb_spec j 303) as [-> | ]; [| destruct (Z.eqb_spec j k) as [-> | ]; [| apply external_refl]].
      + destruct U as (Ou & Du). unfold external_account_ok. rewrite Ou, Du. cbn [a_owner a_data].
        split; [discriminate |]. split; [discriminate |]. split; [| discriminate].
        intros t' _ Q P. injection Q as <-. rewrite O' in P. destruct (not_pda_900 P).
      + destruct T as (Ou & Du). unfold external_account_ok. rewrite Ou, Du. cbn [a_owner a_data].
        split; [discriminate |]. split; [discriminate |]. split; [| discriminate].
        intros t' _ Q P. injection Q as <-. rewrite O in P. destruct (not_pda_900 P). }
  assert (H' : forall j o m, holds w j o m -> holds w' j o m).
  { intros j o m (v & V & V1 & V2 & V3 & V4 & V5 & V6).
    destruct (Z.eq_dec j 303) as [-> | J3].
    - rewrite (token_fun _ _ _ _ V U) in *. eexists. split; [exact U' |]. cbn. auto 8.
    - destruct (Z.eq_dec j k) as [-> | Jk].
      + rewrite (token_fun _ _ _ _ V T) in *. eexists. split; [exact T' |]. cbn. auto 8.
      + exists v. split; [unfold token_at in *; rewrite (O3 _ Jk J3); exact V | auto 8]. }
  assert (Sup : forall m, supply w' m = supply w m).
  { intros m. unfold supply. rewrite E. destruct (Z.eqb_spec m 303) as [-> | ]; [| destruct (Z.eqb_spec m k) as [-> | ]; [| reflexivity]].
    - destruct U as (Ou & Du). rewrite Ou, Du. reflexivity.
    - destruct T as (Ou & Du). rewrite Ou, Du. reflexivity. }
  assert (Tot : forall l m, (forall j, In j l -> holds w j (holder j) m) -> m <> 403 -> total w' m l = total w m l).
  { intros l m Hl Nm. apply total_same. intros j Hj. apply held_same, O3; intros ->; specialize (Hl _ Hj).
    - destruct Hl as (v & V & _ & V2 & _). rewrite (token_fun _ _ _ _ V T) in V2. congruence.
    - destruct Hl as (v & V & _ & V2 & _). rewrite (token_fun _ _ _ _ V U) in V2. congruence. }
  split; [| split; [exact (token_balance _ _ _ T') | exact O3]]. split.
  - eapply reachable_step; [exact (fz_reach _ F) | apply step_external; exact Ext].
  - eapply pool_at_eq; [| exact (fz_state _ F)]. apply O3; [| discriminate]. apply in_p_p in Hk. lia.
  - intros j Hj. apply H', (fz_a _ F), Hj.
  - intros j Hj. apply H', (fz_b _ F), Hj.
  - intros j Hj. apply H', (fz_p _ F), Hj.
  - rewrite (Tot _ _ (fz_a _ F)) by discriminate. exact (fz_ta _ F).
  - rewrite (Tot _ _ (fz_b _ F)) by discriminate. exact (fz_tb _ F).
  - rewrite Sup, <- (fz_tp _ F).
    assert (ND : NoDup list_p) by (assert (Q : nodup Z.eq_dec list_p = list_p) by (vm_compute; reflexivity); rewrite <- Q; apply NoDup_nodup).
    rewrite (total_change w w' 403 (fun j => only_at 303 j (balance w k) + only_at k j (- balance w k))).
    + rewrite sum_add, (sum_at 303), (sum_at k); try assumption; [lia | now left].
    + intros j Hj. rewrite (held_holds _ _ _ _ 403 (fz_p _ F j Hj)), (held_holds _ _ _ _ 403 (H' _ _ _ (fz_p _ F j Hj))), Z.eqb_refl.
      unfold only_at. destruct (Z.eqb_spec j 303) as [-> | J3].
      * destruct (Z.eqb_spec 303 k); [congruence |]. rewrite (token_balance _ _ _ U'), Bu. cbn [with_amount t_amount]. lia.
      * destruct (Z.eqb_spec j k) as [-> | Jk]; [rewrite (token_balance _ _ _ T'); cbn [with_amount t_amount]; lia |].
        unfold balance. rewrite (O3 _ Jk J3). lia.
  - rewrite O3; [exact (fz_user _ F) | | discriminate]. apply in_p_p in Hk. lia.
  - rewrite O3; [exact (fz_auth _ F) | | discriminate]. apply in_p_p in Hk.
    assert (1000000 < auth 300) by (vm_compute; reflexivity). lia.
Qed.

(** After gathering, the fee account holds all pool tokens. *)
Definition gather (w : world) (k : Z) : world := let n := balance w k in if 0 <? n then move w k 303 n else w.
Lemma gather_ok : forall l w, fz w -> incl l list_p -> ~ In 303 l ->
  let w' := fold_left gather l w in
  fz w' /\ (forall k, In k l \/ In k list_p /\ k <> 303 /\ balance w k = 0 -> balance w' k = 0) /\
  (forall j, ~ In j list_p -> w' j = w j).
Proof.
  induction l as [| k l IH]; intros w F I N; cbn [fold_left]; cbv zeta.
  - split; [exact F |]. split; [| reflexivity]. intros k [[] | (_ & _ & H)]. exact H.
  - assert (Hk : In k list_p) by (apply I; now left). assert (Nk : k <> 303) by (intros ->; apply N; now left).
    assert (G : fz (gather w k) /\ balance (gather w k) k = 0 /\ (forall j, j <> k -> j <> 303 -> gather w k j = w j)).
    { unfold gather. cbv zeta. destruct (Z.ltb_spec 0 (balance w k)) as [L | L].
      - exact (fz_move _ _ F Hk Nk).
      - split; [exact F |]. split; [| reflexivity]. pose proof (balance_u64 w k (proj1 (fz_inv _ F))) as U. unfold is_u64 in U. lia. }
    destruct G as (F1 & B1 & O1).
    destruct (IH _ F1) as (F2 & B2 & O2); [intros j Hj; apply I; now right | intros H; apply N; now right |].
    split; [exact F2 |]. split.
    + intros j Hj. apply B2. destruct (Z.eq_dec j k) as [-> | J]; [right; auto |].
      destruct Hj as [[-> | Hj] | (Hj & J3 & Bj)]; [congruence | now left |]. right. split; [exact Hj |]. split; [exact J3 |].
      unfold balance in *. rewrite O1 by assumption. exact Bj.
    + intros j Hj. rewrite O2 by exact Hj. apply O1; intros ->; apply Hj; [exact Hk | now left].
Qed.

Lemma collect_eq w : collect w = fold_left gather (ids 3000 ++ [304]) w.
Proof. unfold collect. generalize (ids 3000 ++ [304]). reflexivity. Qed.

Lemma collect_ok w : fz w -> let w' := collect w in
  fz w' /\ balance w' 303 = supply w' 403 /\ supply w' 403 = supply w 403 /\ balance w' 301 = balance w 301 /\ balance w' 302 = balance w 302.
Proof.
  intros F. cbv zeta. rewrite (collect_eq w).
  destruct (gather_ok (ids 3000 ++ [304]) w F) as (F' & B & O).
  - intros j Hj. apply in_app_or in Hj. destruct Hj as [Hj | [<- | []]]; [right; right; exact Hj | right; now left].
  - intros Hj. apply in_app_or in Hj. destruct Hj as [Hj | [Hj | []]]; [apply ids_in in Hj; lia | discriminate Hj].
  - generalize dependent (fold_left gather (ids 3000 ++ [304]) w). intros w' F' B O. split; [exact F' |]. split; [| split; [| split]].
    + rewrite <- (fz_tp _ F'). unfold list_p. cbn [total].
      rewrite (held_holds _ _ _ _ 403 (fee_p _ F')), Z.eqb_refl.
      rewrite (held_holds _ _ _ _ 403 (fz_p _ F' 304 (or_intror (or_introl eq_refl)))), Z.eqb_refl.
      rewrite (B 304) by (left; apply in_or_app; right; now left).
      rewrite total_zero; [lia |]. intros j Hj.
      rewrite (held_holds _ _ _ _ 403 (fz_p _ F' j (or_intror (or_intror Hj)))), Z.eqb_refl. apply B. left. apply in_or_app. now left.
    + unfold supply. rewrite O; [reflexivity |]. intros H. apply in_p_p in H. lia.
    + unfold balance. rewrite O; [reflexivity |]. intros H. apply in_p_p in H. lia.
    + unfold balance. rewrite O; [reflexivity |]. intros H. apply in_p_p in H. lia.
Qed.

Lemma held_bound_a w k : fz w -> In k (4001 :: ids 1000) -> balance w 301 + balance w k <= 356000000000.
Proof.
  intros F H. rewrite <- (fz_ta _ F). unfold list_a. set (l := 4001 :: ids 1000) in *. cbn [total].
  pose proof (held_holds _ _ _ _ 201 (vault_a _ F)) as E. rewrite Z.eqb_refl in E. rewrite E.
  pose proof (held_le w 201 l k (proj1 (fz_inv _ F)) H) as L.
  pose proof (held_holds _ _ _ _ 201 (fz_a _ F k (or_intror H))) as E'. rewrite Z.eqb_refl in E'. lia.
Qed.
Lemma held_bound_b w k : fz w -> In k (4002 :: ids 2000) -> balance w 302 + balance w k <= 1068000000000.
Proof.
  intros F H. rewrite <- (fz_tb _ F). unfold list_b. set (l := 4002 :: ids 2000) in *. cbn [total].
  pose proof (held_holds _ _ _ _ 202 (vault_b _ F)) as E. rewrite Z.eqb_refl in E. rewrite E.
  pose proof (held_le w 202 l k (proj1 (fz_inv _ F)) H) as L.
  pose proof (held_holds _ _ _ _ 202 (fz_b _ F k (or_intror H))) as E'. rewrite Z.eqb_refl in E'. lia.
Qed.

Lemma leave_all n : leave_none n n = n.
Proof. unfold leave_none. destruct (_ =? _); reflexivity. Qed.

Lemma totals_ok w : fz w -> totals_kept w = true.
Proof.
  intros F. unfold totals_kept. fold list_a list_b. rewrite (fz_ta _ F), (fz_tb _ F). reflexivity.
Qed.

Lemma cash_in_ok w : fz w -> balance w 303 = supply w 403 -> 0 < supply w 403 -> 2 * fuzz_price <= pool_worth w ->
  exists w', cash_in w = Some w' /\ fz w' /\ supply w' 403 = 0.
Proof.
  intros F B3 S0 V. pose proof (fz_inv _ F) as I. pose proof (proj1 I) as W.
  set (i := WithdrawAll [300; auth 300; 900; 403; 303; 301; 302; 4001; 4002; 303; TOKEN_PROGRAM_ID] (balance w 303) 0 0).
  assert (A1 : In 4001 (4001 :: ids 1000)) by now left. assert (A2 : In 4002 (4002 :: ids 2000)) by now left.
  pose proof (held_bound_a _ _ F A1) as LA. pose proof (held_bound_b _ _ F A2) as LB.
  pose proof (balance_u64 w 301 W) as UA. pose proof (balance_u64 w 302 W) as UB.
  pose proof (balance_u64 w 4001 W) as UA'. pose proof (balance_u64 w 4002 W) as UB'. unfold is_u64 in UA, UB, UA', UB'.
  pose proof (fz_a _ F 4001 (or_intror A1)) as HA. pose proof (fz_b _ F 4002 (or_intror A2)) as HB.
  assert (Z0 : is_u64 0) by (unfold is_u64, u64_max; lia).
  assert (E : exists w', exec ex_env [900] w i = Ok w').
  { pose proof (redeem_all_when ex_env [900] w 300 (auth 300) fz_pool 900 303 4001 4002 [] 0 0 fuzz_price
      ex_env_ok (fz_reach _ F) signers_900 (fz_state _ F) pda_300 eq_refl Z0 Z0 (or_introl eq_refl) (single_900 _ F) (single_auth _ F)
      (holds_thawed _ _ _ _ (vault_a _ F)) (holds_thawed _ _ _ _ (vault_b _ F))) as R.
    cbv zeta in R. rewrite shares_eq, worth_eq in R. rewrite <- B3 in R.
    specialize (R (holds_wallet _ _ _ _ (fee_p _ F)) (holds_plain _ _ _ _ (fee_p _ F)) ltac:(discriminate) ltac:(discriminate) (or_introl eq_refl)).
    cbn [st_pool_mint st_pool_fee_account st_token_a st_token_b st_token_a_mint st_token_b_mint fz_pool] in R.
    apply R. clear R.
    assert (Vd : pool_worth w = balance w 301 + fuzz_price * balance w 302) by (unfold pool_worth, pool_value; ring).
    pose proof (Z.div_mod (pool_worth w) 2 ltac:(lia)) as D2. pose proof (Z.mod_pos_bound (pool_worth w) 2 ltac:(lia)).
    set (half := pool_worth w / 2) in *.
    assert (0 <= half / fuzz_price) by (apply Z.div_pos; [unfold fuzz_price in *; lia | reflexivity]).
    unfold fuzz_price, u64_max in *.
    split; [discriminate |]. split; [discriminate |]. split; [lia |]. split; [lia |]. split; [lia |]. split; [lia |]. split; [lia |]. split; [lia |].
    destruct HA as (ta & Ta & _ & Ma & _ & _ & Fa & _). destruct HB as (tb & Tb & _ & Mb & _ & _ & Fb & _).
    pose proof (token_balance _ _ _ Ta). pose proof (token_balance _ _ _ Tb).
    split; intros _; [exists ta | exists tb]; repeat split; try assumption; try apply Ta; try apply Tb; unfold u64_max; lia. }
  destruct E as (w' & E). exists w'. unfold cash_in. cbv zeta. rewrite leave_all. fold i. rewrite E.
  destruct (Z.ltb_spec 0 (balance w 303)); [| lia]. split; [reflexivity |]. split.
  - apply (fz_step w i w' F E (fun x => x)).
    + repeat (apply Forall_cons; [vm_compute; intuition congruence |]). apply Forall_nil.
    + intros k Hk. unfold list_all, list_a, list_b, list_p. cbn [must_write i In] in Hk.
      rewrite !in_app_iff || idtac. cbn [In]. rewrite !in_app_iff. cbn [In].
      repeat (destruct Hk as [<- | Hk]; [tauto |]). destruct Hk.
    + reflexivity.
  - pose proof (withdraw_all_effect _ _ _ _ _ _ _ _ W E) as (s & c & x & y & Hp & Eff). cbv zeta in Eff. cbn [nth] in Hp, Eff.
    rewrite (pool_fun _ _ _ _ Hp (fz_state _ F)) in Eff. cbn [nth] in Eff.
    destruct Eff as ([(_ & ->) | (Nf & _)] & _ & _ & _ & _ & _ & _ & _ & _ & (_ & Su & _)); [| destruct (Nf eq_refl)].
    rewrite Su. unfold only_at. rewrite Z.eqb_refl. lia.
Qed.
