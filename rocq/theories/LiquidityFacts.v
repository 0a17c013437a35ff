(** Deposits, withdrawals and minted pool tokens. *)
From Verif Require Import Ints Tactics Fees LinearCurve ConstantPrice SwapCurve Codec Token Processor Api History
  Spec LedgerSpec CurveFacts LinearFacts SwapFacts CurveProps LinearProps CodecFacts TokenFacts ProcFacts AmountFacts EffectFacts
  TradeFacts CreateFacts PermFacts HistoryFacts.

(** ** Linear pools (C19) *)
Lemma linear_liquidity e signers w i w' s l : world_wf w -> pool_at w (named_pool i) s -> st_curve s = LinearPrice l ->
  deposits i \/ withdraws i -> exec e signers w i = Ok w' ->
  (exists accounts n mp, i = DepositSingle accounts n mp) /\ supply w (st_pool_mint s) = 0.
Proof.
  intros W Hp Hl Hi H.
  destruct i as [| | | acc n ma mb | acc n ma mb | acc n mp | acc n mp]; cbn [deposits withdraws] in Hi; try tauto;
    unfold named_pool in Hp; cbn [instr_accounts] in Hp.
  - exfalso. destruct (deposit_all_accounts _ _ _ _ _ _ _ _ H) as (s' & Hp' & _ & _ & Al & _).
    rewrite (pool_fun _ _ _ _ Hp' Hp), Hl in Al. discriminate Al.
  - exfalso. destruct (withdraw_all_effect _ _ _ _ _ _ _ _ W H) as (s' & ch & a & b & Hp' & _ & _ & Q & _).
    rewrite (pool_fun _ _ _ _ Hp' Hp), Hl in Q. discriminate Q.
  - split; [eauto |].
    destruct (deposit_single_accounts _ _ _ _ _ _ _ H) as (s1 & Hp1 & _ & _ & _ & _ & _ & Em & _).
    rewrite (pool_fun _ _ _ _ Hp1 Hp) in Em.
    destruct (deposit_single_effect _ _ _ _ _ _ _ W H) as (s' & d & x & Hp' & _ & Q & _ & Px & _).
    rewrite (pool_fun _ _ _ _ Hp' Hp), Hl, Em in Q. cbv zeta in *. destruct (Z.eqb_spec (supply w (st_pool_mint s)) 0) as [E | E]; [exact E |].
    exfalso. unfold curve_deposit_single in Q. destruct (Z.eqb_spec n 0); [injection Q as <-; lia |].
    obs Q. discriminate Q.
  - exfalso. destruct (withdraw_single_effect _ _ _ _ _ _ _ W H) as (s' & d & x & ch & Hp' & _ & Q & Fee & _ & _ & Px & _).
    rewrite (pool_fun _ _ _ _ Hp' Hp), Hl in Q. unfold curve_withdraw_single in Q.
    destruct (Z.eqb_spec n 0); [| obs Q; discriminate Q]. injection Q as <-.
    destruct Fee as [(_ & ->) | (_ & Fee)]; [lia |].
    unfold owner_withdraw_fee, calculate_fee in Fee. cbn in Fee. rewrite orb_true_r in Fee. injection Fee as <-. lia.
Qed.

(** ** Fee-free linear pools (C20) *)
Lemma linear_no_mint e signers w accounts ain mout w' s l : env_ok e -> reachable e w ->
  exec e signers w (Swap accounts ain mout) = Ok w' ->
  pool_at w (nth 0 accounts 0) s -> st_curve s = LinearPrice l ->
  let source := nth 3 accounts 0 in let ssrc := nth 4 accounts 0 in let sdst := nth 5 accounts 0 in
  let dest := nth 6 accounts 0 in
  exists x y,
    linear_swap l ain (balance w ssrc) (balance w sdst) (if ssrc =? st_token_a s then AtoB else BtoA) = Val (x, y) /\
    (forall k, supply w' k = supply w k) /\
    (forall k, balance w' k = balance w k + only_at ssrc k x - only_at source k x + only_at dest k y
                              - only_at sdst k y).
Proof.
  intros He R H Hp Hl. destruct (reachable_inv _ _ He R) as (W & I). destruct (I _ _ Hp) as (au & _ & _ & _ & _ & _ & _ & _ & _ & Cf).
  destruct Cf as (_ & _ & _ & _ & _ & Cf). rewrite Hl in Cf. destruct Cf as (Ff & _).
  pose proof (no_fee_swap_effect _ _ _ _ _ _ _ _ W H Hp) as N. rewrite Ff, Hl in N.
  exact (N eq_refl eq_refl).
Qed.

(** ** Minted pool tokens (C40) *)
Lemma minted_to e signers w i w' s : world_wf w -> exec e signers w i = Ok w' -> pool_at w (named_pool i) s -> mints i ->
  exists x, 0 <= x /\
    (forall k, supply w' k = supply w k + only_at (st_pool_mint s) k x) /\
    (~ In (mint_target i) (other_token_accounts i) ->
       balance w' (mint_target i) = balance w (mint_target i) + x).
Proof.
  intros W H Hp Hm. unfold named_pool in Hp.
  destruct i as [| | acc ain mout | acc n ma mb | acc n ma mb | acc n mp | acc n mp]; cbn [mints] in Hm; try tauto;
    cbn [instr_accounts mint_target other_token_accounts] in *.
  - pose proof (swap_accounts _ _ _ _ _ _ _ H) as (s1 & Hp1 & _ & _ & _ & _ & _ & _ & Em & _).
    pose proof (swap_trace _ _ _ _ _ _ _ H) as (a0 & a1 & a2 & a3 & a4 & a5 & a6 & a7 & a8 & a9 & rest & _ & _ & _ & _ & _ & _ & Ea & _).
    destruct (swap_effect _ _ _ _ _ _ _ W H) as (s2 & r & x & Hp2 & _ & _ & _ & _ & _ & _ & X0 & (B & S & _)).
    rewrite (pool_fun _ _ _ _ Hp1 Hp) in Em. exists x. split; [exact X0 |].
    split; [intros k; rewrite S, Em; reflexivity |]. subst acc. cbn [nth firstn skipn In] in *. intros N.
    rewrite B, only_at_same, !only_at_other by (intros E; apply N; auto). lia.
  - pose proof (deposit_all_accounts _ _ _ _ _ _ _ _ H) as (s1 & Hp1 & _ & _ & _ & _ & _ & _ & _ & Em & _).
    pose proof (deposit_all_trace _ _ _ _ _ _ _ _ H) as (a0 & a1 & a2 & a3 & a4 & a5 & a6 & a7 & a8 & a9 & rest & _ & _ & _ & _ & _ & _ & Ea & Hn & _).
    destruct (deposit_all_effect _ _ _ _ _ _ _ _ W H) as (s2 & a & b & Hp2 & Eff).
    rewrite (pool_fun _ _ _ _ Hp1 Hp) in Em. unfold is_u64 in Hn.
    subst acc. cbn [nth firstn skipn In] in *.
    destruct (supply w a7 =? 0); destruct Eff as (_ & _ & _ & (B & S & _));
      (eexists; split; [| split; [intros k; rewrite S, Em; reflexivity |];
        intros N; rewrite B, only_at_same, !only_at_other by (intros E; apply N; auto); lia]); lia.
  - pose proof (deposit_single_accounts _ _ _ _ _ _ _ H) as (s1 & Hp1 & _ & _ & _ & _ & _ & Em & _).
    pose proof (deposit_single_trace _ _ _ _ _ _ _ H) as (a0 & a1 & a2 & a3 & a4 & a5 & a6 & a7 & a8 & rest & _ & _ & _ & _ & _ & _ & _ & Ea & _).
    destruct (deposit_single_effect _ _ _ _ _ _ _ W H) as (s2 & d & x & Hp2 & _ & _ & _ & X0 & _ & (B & S & _)).
    rewrite (pool_fun _ _ _ _ Hp1 Hp) in Em. exists x. split; [lia |].
    split; [intros k; rewrite S, Em; reflexivity |]. subst acc. cbn [nth firstn skipn In] in *. intros N.
    rewrite B, only_at_same, !only_at_other by (intros E; apply N; destruct d; auto). lia.
Qed.

(** ** Nothing for nothing (C45) *)
Lemma deposit_pays e signers w i w' s : env_ok e -> reachable e w -> deposits i ->
  exec e signers w i = Ok w' -> pool_at w (named_pool i) s ->
  supply w (st_pool_mint s) <> 0 \/ (exists accounts n ma mb, i = DepositAll accounts n ma mb) ->
  exists v, vault_of_pool s v /\ balance w v < balance w' v.
Proof.
  intros He R Hd H Hp Hs. destruct (reachable_inv _ _ He R) as (W & I). specialize (I _ _ Hp).
  destruct I as (au & _ & _ & (ta & Ta & _ & Ma & _) & (tb & Tb & _ & Mb & _) & Nm & _).
  unfold named_pool in Hp.
  destruct i as [| | acc ain mout | acc n ma mb | acc n ma mb | acc n mp | acc n mp]; cbn [deposits] in Hd; try tauto;
    cbn [instr_accounts] in *.
  - pose proof (deposit_all_trace _ _ _ _ _ _ _ _ H) as
      (a0 & a1 & user & sa & sb & ka & kb & a7 & a8 & a9 & rest & s1 & t0 & t00 & pm & x & y & Ea & _ & _ & _ & _ & Hp1 & _ &
       Ka & Kb & _ & _ & _ & N1 & N2 & _ & _ & _ & _ & Run).
    pose proof (deposit_all_effect _ _ _ _ _ _ _ _ W H) as (s2 & a & b & Hp2 & Eff).
    subst acc. cbn [nth] in *. rewrite (pool_fun _ _ _ _ Hp1 Hp) in *. exists ka. split; [left; exact Ka |].
    destruct (deposit_terms _ _ _) as [p sup]. destruct Run as (_ & _ & _ & _ & _ & _ & Run).
    assert (Nb : sb <> ka).
    { intros ->. apply (run_same_mint _ _ [OTransfer sa ka user x]) in Run. destruct Run as (t1 & t2 & T1 & T2 & E).
      rewrite Ka in T1. rewrite Kb in T2.
      rewrite (token_fun _ _ _ _ T1 Ta), (token_fun _ _ _ _ T2 Tb) in E. congruence. }
    assert (Nv : kb <> ka).
    { intros E. rewrite Ka, Kb in E. rewrite E in Tb. rewrite (token_fun _ _ _ _ Tb Ta) in *. congruence. }
    destruct (supply w a7 =? 0); destruct Eff as (_ & P1 & P2 & (B & _)); rewrite B, only_at_same;
      rewrite (only_at_other sa), (only_at_other sb), (only_at_other kb) by auto;
      unfold only_at; destruct (_ =? _); pose proof (deposit_all_trace _ _ _ _ _ _ _ _ H) as D; lia || idtac.
    all: destruct D as (? & ? & ? & ? & ? & ? & ? & ? & ? & ? & ? & ? & ? & ? & ? & ? & ? & _ & Hn & _); unfold is_u64 in Hn; lia.
  - pose proof (deposit_single_accounts _ _ _ _ _ _ _ H) as (s1 & Hp1 & _ & _ & Ka & Kb & V & Em & _).
    pose proof (deposit_single_effect _ _ _ _ _ _ _ W H) as (s2 & d & x & Hp2 & Sm & Q & _ & X0 & N0 & (B & _)).
    rewrite (pool_fun _ _ _ _ Hp1 Hp), (pool_fun _ _ _ _ Hp2 Hp) in *. cbv zeta in *. rewrite Em in Q.
    assert (S0 : supply w (st_pool_mint s) <> 0) by (destruct Hs as [Hs | (? & ? & ? & ? & Hs)]; [exact Hs | discriminate Hs]).
    destruct (Z.eqb_spec (supply w (st_pool_mint s)) 0); [contradiction |].
    assert (n <> 0). { intros ->. unfold curve_deposit_single in Q. cbn in Q. injection Q as <-. lia. }
    rewrite Ka, Kb in *.
    exists (match d with AtoB => st_token_a s | BtoA => st_token_b s end). split; [destruct d; [left | right]; reflexivity |].
    rewrite B, only_at_same.
    assert (Ns : nth 3 acc 0 <> match d with AtoB => st_token_a s | BtoA => st_token_b s end).
    { destruct Sm as (t1 & t2 & T1 & T2 & E).
      destruct V as [((t3 & t4 & T3 & T4 & E') & N) | ((t3 & t4 & T3 & T4 & E') & N)]; destruct d; auto; exfalso;
        rewrite (token_fun _ _ _ _ T3 T1), ?(token_fun _ _ _ _ T4 Ta), ?(token_fun _ _ _ _ T4 Tb) in E';
        rewrite ?(token_fun _ _ _ _ T2 Ta), ?(token_fun _ _ _ _ T2 Tb) in E; congruence. }
    rewrite (only_at_other (nth 3 acc 0)) by auto. unfold only_at. destruct (_ =? _); lia.
Qed.
