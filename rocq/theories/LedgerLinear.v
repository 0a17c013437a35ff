(** Linear pools on the ledger: every history of the chain is a history of the
    pool's two balances, so the collateral backs the tokens that left the vault. *)
From Verif Require Import Ints Tactics DfsPrecise Fees LinearCurve ConstantPrice SwapCurve Codec Token Processor Api History
  Spec LedgerSpec TraceSpec CurveFacts DfsFacts LinearFacts SwapFacts LinearExact LinearProps LinearRound LinearHistory LinearBacked
  CodecFacts TokenFacts ProcFacts AmountFacts EffectFacts
  TradeFacts CreateFacts PermFacts HistoryFacts LiquidityFacts VaultFacts.

Lemma linear_config e w k s c : pool_ok e w k s -> st_curve s = LinearPrice c ->
  st_fees s = linear_fees /\ linear_pos c.
Proof.
  intros (au & _ & _ & _ & _ & _ & _ & _ & _ & Cf) Hl. destruct Cf as (_ & _ & _ & _ & _ & Cf). rewrite Hl in Cf.
  destruct Cf as (F & Wf & N1 & N2 & N3 & _). split; [exact F |]. split; [exact Wf |].
  destruct Wf as (H1 & H2 & H3 & H4). unfold is_u64 in *. lia.
Qed.

Lemma linear_feeless : feeless linear_fees.
Proof. split; reflexivity. Qed.

Definition lstate (w : world) (s : swap_state) (x : Z) : lpool :=
  mk_lpool (balance w (st_token_a s)) (balance w (st_token_b s)) x.

Lemma lstate_u64 w s x : world_wf w -> pool_u64 (lstate w s x).
Proof. intros W. split; apply balance_u64; exact W. Qed.

Lemma step_linear e w ev w' k s c : env_ok e -> inv e w -> step e w ev w' -> pool_at w k s -> st_curve s = LinearPrice c ->
  if swaps_on k ev then
    exists o, (exists n, o = Buy n \/ o = Sell n) /\
      forall x, lstep c linear_fees (lstate w s x) o =
                lstate w' s (x + balance w (st_token_b s) - balance w' (st_token_b s))
  else balance w (st_token_a s) <= balance w' (st_token_a s) /\ balance w (st_token_b s) <= balance w' (st_token_b s).
Proof.
  intros He I S Hp Hl. pose proof (step_inv _ _ _ _ He I S) as I'.
  destruct S as [w sg i w' Sg Hpk H | w w' X].
  2:{ cbn [swaps_on]. destruct I as (_ & I). specialize (I _ _ Hp). pose proof (pool_pda _ _ _ _ He I) as Hpda.
      destruct I as (au & Hf & _ & Va & Vb & _). destruct (Hpda _ _ Hf) as (_ & Hi).
      split; [exact (proj2 (external_vault _ _ _ _ _ _ X Hi Va)) | exact (proj2 (external_vault _ _ _ _ _ _ X Hi Vb))]. }
  destruct (swaps_on k (Instruction sg i)) eqn:Q.
  - destruct i as [| | accounts ain mout | | | |]; cbn [swaps_on] in Q; try discriminate. apply Z.eqb_eq in Q. subst k.
    pose proof (linear_config _ _ _ _ _ (proj2 I _ _ Hp) Hl) as (Hf & Hc).
    destruct (swap_vaults _ _ _ _ _ _ _ _ I H Hp) as (d & r & minted & Ha & Sw & _ & _ & Ba & Bb & _). cbv zeta in *.
    rewrite Hl, Hf in Sw.
    pose proof (balance_u64 w' (st_token_a s) (proj1 I')) as Ua. pose proof (balance_u64 w' (st_token_b s) (proj1 I')) as Ub.
    unfold is_u64 in Ua, Ub.
    pose proof (proj1 (feeless_swap _ _ _ _ _ _ _ linear_feeless Ha) Sw) as (_ & _ & _ & _ & N & M & _).
    unfold is_u64 in Ha.
    destruct d; cbn [side_a side_b] in *.
    + exists (Buy ain). split; [eauto |]. intros x. cbn [lstep lstate held left sold].
      unfold lstate. cbn [held left sold]. rewrite Sw.
      replace ((0 <=? ain) && (ain <=? u64_max) && (new_swap_source_amount r <=? u64_max)) with true
        by (symmetry; rewrite !andb_true_iff, !Z.leb_le; lia).
      rewrite Ba, Bb. f_equal. lia.
    + exists (Sell ain). split; [eauto |]. intros x. cbn [lstep].
      unfold lstate. cbn [held left sold]. rewrite Sw.
      replace ((0 <=? ain) && (ain <=? u64_max) && (new_swap_source_amount r <=? u64_max)) with true
        by (symmetry; rewrite !andb_true_iff, !Z.leb_le; lia).
      rewrite Ba, Bb. f_equal. lia.
  - assert (N : named_pool i <> k \/ ~ pays_out i).
    { destruct (Z.eq_dec (named_pool i) k) as [E | E]; [right | auto]. intros P. subst k.
      destruct i as [| | accounts ain mout | accounts n ma mb | accounts n ma mb | accounts n mp | accounts n mp];
        cbn [pays_out] in P; try contradiction.
      - cbn [swaps_on] in Q. unfold named_pool in Q. cbn [instr_accounts] in Q. rewrite Z.eqb_refl in Q. discriminate.
      - destruct (linear_liquidity _ _ _ _ _ _ _ (proj1 I) Hp Hl (or_intror Logic.I) H) as ((? & ? & ? & E) & _). discriminate E.
      - destruct (linear_liquidity _ _ _ _ _ _ _ (proj1 I) Hp Hl (or_intror Logic.I) H) as ((? & ? & ? & E) & _). discriminate E. }
    split; (eapply vault_protected; [exact He | exact I | exact Sg | exact Hpk | exact H | exact Hp | | exact N]);
      unfold vault_of_pool; auto.
Qed.

Lemma gifts_lrun c f A B A' B' x : is_u64 A' -> is_u64 B' -> A <= A' -> B <= B' ->
  lrun c f (mk_lpool A B x) [GiveA (A' - A); GiveB (B' - B)] = mk_lpool A' B' (x + B - B').
Proof.
  intros UA UB LA LB. unfold is_u64 in *. unfold lrun. cbn [fold_left lstep held left sold].
  replace ((0 <=? A' - A) && (A + (A' - A) <=? u64_max)) with true by (symmetry; rewrite !andb_true_iff, !Z.leb_le; lia).
  cbn [held left sold].
  replace ((0 <=? B' - B) && (B + (B' - B) <=? u64_max)) with true by (symmetry; rewrite !andb_true_iff, !Z.leb_le; lia).
  f_equal; lia.
Qed.

Lemma history_linear e w evs w' k s c : env_ok e -> inv e w -> history e w evs w' -> pool_at w k s -> st_curve s = LinearPrice c ->
  exists ops, Forall no_topup ops /\
    forall x, lrun c linear_fees (lstate w s x) ops =
              lstate w' s (x + balance w (st_token_b s) - balance w' (st_token_b s)).
Proof.
  intros He I H Hp Hl. revert I Hp. induction H as [w | w ev w1 evs w2 S _ IH]; intros I Hp.
  - exists []. split; [constructor |]. intros x. cbn. unfold lstate. f_equal. lia.
  - pose proof (step_inv _ _ _ _ He I S) as I1. pose proof (step_pool_stays _ _ _ _ _ _ He (proj1 I) S Hp) as Hp1.
    destruct (IH I1 Hp1) as (ops & F & R). pose proof (step_linear _ _ _ _ _ _ _ He I S Hp Hl) as L.
    destruct (swaps_on k ev).
    + destruct L as (o & (n & Ho) & L). exists (o :: ops). split.
      * constructor; [destruct Ho as [-> | ->]; exact Logic.I | exact F].
      * intros x. change (lrun c linear_fees ?st (o :: ops)) with (lrun c linear_fees (lstep c linear_fees st o) ops).
        rewrite L, R. unfold lstate. f_equal. lia.
    + destruct L as (LA & LB). eexists. split.
      2:{ intros x. rewrite lrun_app. unfold lstate at 1. rewrite gifts_lrun; try eassumption; try (apply balance_u64; apply I1).
          match goal with |- lrun _ _ (mk_lpool ?a ?b ?y) _ = _ => change (mk_lpool a b y) with (lstate w1 s y) end.
          rewrite R. unfold lstate. f_equal. lia. }
      apply Forall_app. split; [repeat constructor | exact F].
Qed.

(** Creation leaves the collateral vault of a linear pool empty. *)
Lemma created_linear e signers w accounts sn sd pn pd w' s : env_ok e -> inv e w -> signers_ok e signers ->
  Forall is_pubkey accounts -> exec e signers w (InitLinearPrice accounts sn sd pn pd) = Ok w' ->
  pool_at w' (nth 0 accounts 0) s ->
  st_curve s = LinearPrice (mk_linear sn sd pn pd) /\ st_token_a s = nth 2 accounts 0 /\ st_token_b s = nth 3 accounts 0 /\
  balance w' (st_token_a s) = 0 /\ balance w' (st_token_b s) = balance w (st_token_b s) /\ 0 < balance w (st_token_b s).
Proof.
  intros He (W & I) Sg Hpk H Hp.
  pose proof (create_effect _ _ _ (InitLinearPrice accounts sn sd pn pd) _ He W Hpk Logic.I H) as Eff. cbv zeta in Eff. cbn [instr_accounts] in Eff.
  destruct Eff as (f & c & bump & ta & tb & tf & td & pm & Rq & _ & _ & _ & _ & _ & Hfind &
      Ta & Tb & _ & Td & Hpm & Oa & Ob & _ & _ & _ & _ & _ & _ & _ & _ & _ & _ & _ & Od & _ & _ & _ & Vs & P' & _ & Bal & _).
  cbn [requested] in Rq. injection Rq as <- <-.
  rewrite (pool_fun _ _ _ _ Hp P'). cbn [st_curve st_token_a st_token_b].
  cbn [curve_validate_supply linear_validate_supply] in Vs.
  unfold linear_validate_supply in Vs. apply rbind_ok in Vs. destruct Vs as (u & V1 & V2).
  apply guard_ok in V1. apply guard_ok in V2.
  apply Z.eqb_neq in V1. apply negb_false_iff, Z.eqb_eq in V2.
  assert (N : forall v t, token_at w v t -> t_owner t = nth 1 accounts 0 -> v <> nth 6 accounts 0).
  { intros v t T O E. rewrite E in T. rewrite (token_fun _ _ _ _ T Td) in O. contradiction. }
  split; [reflexivity |]. split; [reflexivity |]. split; [reflexivity |].
  pose proof (N _ _ Ta Oa) as Na. pose proof (N _ _ Tb Ob) as Nb.
  rewrite !Bal, !only_at_other by auto. rewrite (token_balance _ _ _ Ta), (token_balance _ _ _ Tb).
  pose proof (token_u64 _ _ _ W Tb) as U. unfold is_u64 in U. lia.
Qed.

Lemma ledger_backed e w signers accounts sn sd pn pd w1 evs w2 s : env_ok e -> reachable e w ->
  step e w (Instruction signers (InitLinearPrice accounts sn sd pn pd)) w1 -> pool_at w1 (nth 0 accounts 0) s ->
  history e w1 evs w2 ->
  let c := mk_linear sn sd pn pd in
  let va := st_token_a s in let vb := st_token_b s in
  decimal c -> price_num_at c (balance w1 vb * ONE) <= 10 ^ 17 * (slope_den c * price_den c * ONE) ->
  cost_num c (Z.max 0 (balance w1 vb - balance w2 vb)) <= cost_den c * (balance w2 va + 1).
Proof.
  intros He R S Hp H. cbv zeta. intros Hdec Hpr. pose proof (reachable_inv _ _ He R) as I.
  pose proof (step_inv _ _ _ _ He I S) as I1. inversion S as [w0 sg i w0' Sg Hpk H0 | ]; subst.
  destruct (created_linear _ _ _ _ _ _ _ _ _ _ He I Sg Hpk H0 Hp) as (Hl & _ & _ & A0 & B0 & _).
  pose proof (linear_config _ _ _ _ _ (proj2 I1 _ _ Hp) Hl) as (_ & Hc).
  destruct (history_linear _ _ _ _ _ _ _ He I1 H Hp Hl) as (ops & F & Run).
  pose proof (backed_always (mk_linear sn sd pn pd) linear_fees (balance w1 (st_token_b s)) ops Hc linear_feeless Hdec
    (balance_u64 _ _ (proj1 I1)) Hpr F) as B. cbv zeta in B.
  specialize (Run 0). unfold lstate in Run. rewrite A0 in Run. rewrite Run in B. cbn [sold held] in B.
  rewrite Z.add_0_l in B. exact B.
Qed.

(** Without a swap that leaves the vault of the bonded token empty, the backing is
    exact, also for what was drawn and only later made up for by gifts. *)
Lemma topups_lrun c f A B A' B' x : is_u64 A' -> is_u64 B' -> A <= A' -> B <= B' ->
  lrun c f (mk_lpool A B x) [GiveA (A' - A); TopUp (B' - B)] = mk_lpool A' B' x.
Proof.
  intros UA UB LA LB. unfold is_u64 in *. unfold lrun. cbn [fold_left lstep held left sold].
  replace ((0 <=? A' - A) && (A + (A' - A) <=? u64_max)) with true by (symmetry; rewrite !andb_true_iff, !Z.leb_le; lia).
  cbn [held left sold].
  replace ((0 <=? B' - B) && (B + (B' - B) <=? u64_max)) with true by (symmetry; rewrite !andb_true_iff, !Z.leb_le; lia).
  f_equal; lia.
Qed.

Lemma trace_backed e w l w' k s c x : env_ok e -> inv e w -> trace e w l w' -> pool_at w k s -> st_curve s = LinearPrice c ->
  decimal c -> Forall (fun p => 0 < balance (snd p) (st_token_b s)) l ->
  0 <= total (lstate w s x) -> backed c (total (lstate w s x) * ONE) (lstate w s x) ->
  let st' := lstate w' s (x + drawn k (st_token_b s) w l) in 0 <= total st' /\ backed c (total st' * ONE) st'.
Proof.
  intros He I H Hp Hl Hdec. cbv zeta. revert x I Hp. induction H as [w | w ev w1 l w2 S _ IH]; intros x I Hp F T B.
  - cbn [drawn]. rewrite Z.add_0_r. auto.
  - pose proof (step_inv _ _ _ _ He I S) as I1. pose proof (step_pool_stays _ _ _ _ _ _ He (proj1 I) S Hp) as Hp1.
    pose proof (linear_config _ _ _ _ _ (proj2 I _ _ Hp) Hl) as (_ & Hc).
    apply Forall_cons_iff in F. destruct F as [F0 F]. cbn [snd] in F0.
    pose proof (step_linear _ _ _ _ _ _ _ He I S Hp Hl) as L. cbn [drawn].
    destruct (swaps_on k ev) eqn:Q.
    + destruct L as (o & _ & L).
      pose proof (backed_run c linear_fees (lstate w s x) [o] Hc linear_feeless Hdec (lstate_u64 _ _ _ (proj1 I)) T B) as Bk.
      cbv zeta in Bk. unfold lrun in Bk. cbn [fold_left] in Bk. rewrite L in Bk.
      rewrite Z.add_assoc, Z.add_sub_assoc. apply (IH _ I1 Hp1 F); apply Bk.
      all: intros pre o' post E; destruct pre as [| ? pre]; [| destruct pre; discriminate E];
        injection E as <- _; cbn; intros (n & _ & _ & Z0); rewrite L in Z0; cbn [lstate left] in Z0; unfold lstate in Z0;
        cbn [left] in Z0; lia.
    + destruct L as (LA & LB).
      pose proof (backed_run c linear_fees (lstate w s x)
        [GiveA (balance w1 (st_token_a s) - balance w (st_token_a s)); TopUp (balance w1 (st_token_b s) - balance w (st_token_b s))]
        Hc linear_feeless Hdec (lstate_u64 _ _ _ (proj1 I)) T B) as Bk.
      cbv zeta in Bk.
      assert (E1 : lrun c linear_fees (lstate w s x)
        [GiveA (balance w1 (st_token_a s) - balance w (st_token_a s)); TopUp (balance w1 (st_token_b s) - balance w (st_token_b s))]
        = lstate w1 s x) by (apply topups_lrun; try assumption; apply balance_u64; apply I1).
      rewrite E1 in Bk.
      rewrite Z.add_0_l. apply (IH _ I1 Hp1 F); apply Bk.
      all: intros pre o' post E (n & -> & _); destruct pre as [| ? [| ? [| ? pre]]]; discriminate E.
Qed.

Lemma ledger_backed_exact e w signers accounts sn sd pn pd w1 l w2 s : env_ok e -> reachable e w ->
  step e w (Instruction signers (InitLinearPrice accounts sn sd pn pd)) w1 -> pool_at w1 (nth 0 accounts 0) s ->
  trace e w1 l w2 ->
  let c := mk_linear sn sd pn pd in
  let va := st_token_a s in let vb := st_token_b s in
  decimal c -> Forall (fun p => 0 < balance (snd p) vb) l ->
  cost_num c (Z.max 0 (drawn (nth 0 accounts 0) vb w1 l)) <= cost_den c * balance w2 va.
Proof.
  intros He R S Hp H. cbv zeta. intros Hdec F. pose proof (reachable_inv _ _ He R) as I.
  pose proof (step_inv _ _ _ _ He I S) as I1. inversion S as [w0 sg i w0' Sg Hpk H0 | ]; subst.
  destruct (created_linear _ _ _ _ _ _ _ _ _ _ He I Sg Hpk H0 Hp) as (Hl & _ & _ & A0 & B0 & _).
  pose proof (linear_config _ _ _ _ _ (proj2 I1 _ _ Hp) Hl) as (_ & Hc).
  pose proof (start_backed (mk_linear sn sd pn pd) _ (balance_u64 w1 (st_token_b s) (proj1 I1))) as (_ & T0 & Bk0).
  pose proof (trace_backed _ _ _ _ _ _ _ 0 He I1 H Hp Hl Hdec F) as Bk. cbv zeta in Bk.
  unfold lstate at 1 2 3 in Bk. rewrite A0 in Bk. specialize (Bk T0 Bk0). destruct Bk as (_ & Bk).
  rewrite Z.add_0_l in Bk. apply (backed_exact _ _ Hc) in Bk. exact Bk.
Qed.
