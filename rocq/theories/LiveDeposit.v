(** When deposits go through on the ledger. *)
From Verif Require Import Ints Tactics Fees LinearCurve ConstantPrice SwapCurve Codec Token Processor Api History
  Spec LedgerSpec CallSpec LiveSpec CurveFacts LinearFacts SwapFacts LinearProps CodecFacts TokenFacts ProcFacts AmountFacts
  EffectFacts TradeFacts CreateFacts PermFacts HistoryFacts LiquidityFacts VaultFacts ExactFacts LedgerLinear LiveFacts LiveWithdraw.

Lemma deposit_all_live e signers w pool authority s user source_a source_b dest rest n ma mb xa xb :
  env_ok e -> reachable e w -> signers_ok e signers ->
  pool_at w pool s -> find_pda e pool = Some (authority, st_bump_seed s) ->
  is_u64 n -> is_u64 ma -> is_u64 mb -> In user signers -> single_signer w user -> single_signer w authority ->
  thawed w (st_token_a s) -> thawed w (st_token_b s) ->
  wallet w source_a user (st_token_a_mint s) xa -> wallet w source_b user (st_token_b_mint s) xb ->
  st_pool_mint s <> st_token_a_mint s -> st_pool_mint s <> st_token_b_mint s ->
  let accounts := pool :: authority :: user :: source_a :: source_b :: st_token_a s :: st_token_b s
                    :: st_pool_mint s :: dest :: TOKEN_PROGRAM_ID :: rest in
  let bal_a := balance w (st_token_a s) in
  let bal_b := balance w (st_token_b s) in
  let sup := supply w (st_pool_mint s) in
  let minted := if sup =? 0 then 10 ^ 9 else n in
  let outstanding := if sup =? 0 then 10 ^ 9 else sup in
  (exists w', exec e signers w (DepositAll accounts n ma mb) = Ok w') <->
  takes_deposits (st_curve s) /\
  exists a b,
    pool_tokens_to_trading_tokens (st_curve s) minted outstanding bal_a bal_b Ceiling = Val (a, b) /\
    a <> 0 /\ b <> 0 /\ a <= ma /\ b <= mb /\ a <= xa /\ b <= xb /\
    bal_a + a <= u64_max /\ bal_b + b <= u64_max /\
    accepts_new w dest (st_pool_mint s) minted.
Proof.
  intros He Hr Hsig Hp Hpda Hn Hma Hmb Hus Hsu Hsa (ta & Ta & Fa) (tb & Tb & Fb)
    (ts & Ts & Ow & De & Mi & Fs & Am) (tt & Tt & Ow2 & De2 & Mi2 & Fs2 & Am2) Na Nb accounts bal_a bal_b sup minted outstanding.
  subst bal_a bal_b.
  pose proof (reachable_inv _ _ He Hr) as [Hwf Hok]. pose proof (Hok _ _ Hp) as Hpo.
  pose proof (vaults_apart _ _ _ _ Hpo) as Nv.
  destruct Hpo as (au & Hf & Htp & Va & Vb & Nm & Nfa & Nfb & (pm & Pm & Pa & Pf) & Cf).
  assert (au = authority) by congruence. subst au.
  assert (Hcr : create_pda e pool (st_bump_seed s) = Some authority) by (apply (proj1 He); exact Hf).
  destruct Va as (ta' & Ta' & Oa & Ma & Da & _). destruct (token_fun _ _ _ _ Ta Ta').
  destruct Vb as (tb' & Tb' & Ob & Mb & Db & _). destruct (token_fun _ _ _ _ Tb Tb').
  clear Ta' Tb'.
  rewrite (token_balance _ _ _ Ta), (token_balance _ _ _ Tb).
  assert (Esup : sup = m_supply pm) by (apply mint_supply; exact Pm). clearbody sup. subst sup.
  assert (Nuser : user <> authority).
  { intros E. apply (Hsig user Hus). exists pool, (st_bump_seed s). rewrite E. exact Hcr. }
  assert (Nsa : source_a <> st_token_a s) by (intros E; rewrite E in Ts; rewrite (token_fun _ _ _ _ Ts Ta) in Ow; congruence).
  assert (Nsb : source_a <> st_token_b s) by (intros E; rewrite E in Ts; rewrite (token_fun _ _ _ _ Ts Tb) in Ow; congruence).
  assert (Nta : source_b <> st_token_a s) by (intros E; rewrite E in Tt; rewrite (token_fun _ _ _ _ Tt Ta) in Ow2; congruence).
  assert (Ntb : source_b <> st_token_b s) by (intros E; rewrite E in Tt; rewrite (token_fun _ _ _ _ Tt Tb) in Ow2; congruence).
  assert (Nst : source_b <> source_a) by (intros E; rewrite E in Tt; rewrite (token_fun _ _ _ _ Tt Ts) in Mi2; congruence).
  assert (Nms : st_pool_mint s <> source_a) by (intros E; rewrite E in Pm; exact (token_not_mint _ _ _ _ Ts Pm)).
  assert (Nmt : st_pool_mint s <> source_b) by (intros E; rewrite E in Pm; exact (token_not_mint _ _ _ _ Tt Pm)).
  assert (Nma : st_pool_mint s <> st_token_a s) by (intros E; rewrite E in Pm; exact (token_not_mint _ _ _ _ Ta Pm)).
  assert (Nmb : st_pool_mint s <> st_token_b s) by (intros E; rewrite E in Pm; exact (token_not_mint _ _ _ _ Tb Pm)).
  assert (Elet : (if m_supply pm =? 0 then (10 ^ 9, 10 ^ 9) else (n, m_supply pm)) = (minted, outstanding)).
  { unfold minted, outstanding. destruct (m_supply pm =? 0); reflexivity. }
  clearbody minted outstanding.
  split.
  - intros (w' & H). apply deposit_all_exact in H; [| exact Hwf].
    destruct H as (pool' & au' & user' & sa' & sb' & dest' & rest' & s' & ta' & tb' & pm' & a & b &
      E & _ & _ & _ & _ & Hp' & _ & _ & _ & _ & Htd & Ta' & Tb' & Pm' & Hq).
    injection E as <- <- <- <- <- E1 E2 E3 <- <-.
    destruct (pool_fun _ _ _ _ Hp Hp'). destruct (token_fun _ _ _ _ Ta Ta'). destruct (token_fun _ _ _ _ Tb Tb').
    destruct (mint_fun _ _ _ _ Pm Pm'). clear E1 E2 E3 Ta' Tb' Pm' Hp'.
    rewrite Elet in Hq. destruct Hq as (Hq & L1 & L2 & Z1 & Z2 & Hcalls).
    split; [exact Htd |]. exists a, b.
    cbn [calls_ok] in Hcalls. destruct Hcalls as (w1 & C1 & w2 & C2 & w3 & C3 & _).
    cbn [call_ok] in C1. destruct C1 as (t1 & t2 & t1' & T1 & T2 & _ & _ & _ & Hdb & [[E _] | (_ & Room & ->)]); [congruence |].
    destruct (token_fun _ _ _ _ Ts T1). destruct (token_fun _ _ _ _ Ta T2). clear T1 T2.
    destruct (debit_retoken _ _ _ _ _ _ Hdb) as (am & dl & y & ->).
    match type of C2 with call_ok _ ?w1' _ _ => set (w1 := w1') in * end.
    assert (W1 : forall k, k <> source_a -> k <> st_token_a s -> w1 k = w k) by (intros; apply with2_other; assumption).
    assert (T1 : forall k t, token_at w1 k t -> token_at w k t \/ t_mint t = st_token_a_mint s).
    { intros k t T. apply token_transferred in T. destruct T as [[T _] | [T | T]]; [left; exact T | right | right]; congruence. }
    cbn [call_ok] in C2. destruct C2 as (t1 & t2 & t1' & T3 & T2 & _ & _ & _ & Hdb2 & [[E _] | (_ & Room2 & ->)]); [congruence |].
    apply (token_other w) in T3; [| apply W1; assumption]. apply (token_other w) in T2; [| apply W1; congruence].
    destruct (token_fun _ _ _ _ Tt T3). destruct (token_fun _ _ _ _ Tb T2). clear T3 T2.
    destruct (debit_retoken _ _ _ _ _ _ Hdb2) as (am2 & dl2 & y2 & ->).
    match type of C3 with call_ok _ ?w2' _ _ => set (w2 := w2') in * end.
    assert (W2 : forall k, k <> source_b -> k <> st_token_b s -> w2 k = w1 k) by (intros; apply with2_other; assumption).
    assert (T2 : forall k t, token_at w2 k t -> token_at w k t \/ t_mint t = st_token_a_mint s \/ t_mint t = st_token_b_mint s).
    { intros k t T. apply token_transferred in T. destruct T as [[T _] | [T | T]]; [destruct (T1 _ _ T); auto | right; right | right; right]; congruence. }
    cbn [call_ok] in C3. destruct C3 as (mt & td & Mt & Td & Fd & Nd & Md & _ & _ & R1 & R2 & _).
    apply (mint_other w) in Mt; [| rewrite W2, W1 by assumption; reflexivity]. destruct (mint_fun _ _ _ _ Pm Mt).
    destruct (T2 _ _ Td) as [Td' | [E | E]]; [| congruence | congruence].
    split; [exact Hq |]. split; [exact Z1 |]. split; [exact Z2 |]. split; [exact L1 |]. split; [exact L2 |].
    split; [rewrite <- Am; exact (proj1 (proj2 Hdb)) |]. split; [rewrite <- Am2; exact (proj1 (proj2 Hdb2)) |].
    split; [exact Room |]. split; [exact Room2 |].
    split; [exists td; auto |]. split; [| rewrite (mint_supply _ _ _ Pm); exact R2].
    intros t T. rewrite (token_fun _ _ _ _ T Td'). exact Nd.
  - intros (Htd & a & b & Hq & Z1 & Z2 & L1 & L2 & Hxa & Hxb & Ra & Rb & (td & Td & Md & Fd & Rd) & Nd & Rs).
    rewrite (mint_supply _ _ _ Pm) in Rs.
    assert (S0 : signs w (authority :: signers) user) by (apply pool_signs; assumption).
    assert (S0' : signs w (authority :: signers) authority) by (apply pda_signs; assumption).
    pose proof (transfer_live (authority :: signers) w source_a (st_token_a s) user a ts ta Ts Ta Nsa Fs Fa
      ltac:(congruence) S0 Ow De ltac:(rewrite Am; exact Hxa) Ra) as C1.
    match type of C1 with call_ok _ _ _ ?w' => set (w1 := w') in * end.
    assert (W1 : forall k, k <> source_a -> k <> st_token_a s -> w1 k = w k) by (intros; apply with2_other; assumption).
    assert (S1 : signs w1 (authority :: signers) user) by (apply signs_with2; [exact S0 | exact I | exact I]).
    assert (S1' : signs w1 (authority :: signers) authority) by (apply signs_with2; [exact S0' | exact I | exact I]).
    pose proof (transfer_live (authority :: signers) w1 source_b (st_token_b s) user b tt tb
      ltac:(apply (token_other w); [apply W1; assumption | exact Tt])
      ltac:(apply (token_other w); [apply W1; congruence | exact Tb]) Ntb Fs2 Fb
      ltac:(congruence) S1 Ow2 De2 ltac:(rewrite Am2; exact Hxb) Rb) as C2.
    match type of C2 with call_ok _ _ _ ?w' => set (w2 := w') in * end.
    assert (W2 : forall k, k <> source_b -> k <> st_token_b s -> w2 k = w1 k) by (intros; apply with2_other; assumption).
    assert (S2' : signs w2 (authority :: signers) authority) by (apply signs_with2; [exact S1' | exact I | exact I]).
    assert (Nd1 : dest <> source_a) by (intros E; rewrite E in Td; rewrite (token_fun _ _ _ _ Td Ts) in Md; congruence).
    assert (Nd2 : dest <> source_b) by (intros E; rewrite E in Td; rewrite (token_fun _ _ _ _ Td Tt) in Md; congruence).
    assert (Nd3 : dest <> st_token_a s) by (intros E; rewrite E in Td; rewrite (token_fun _ _ _ _ Td Ta) in Md; congruence).
    assert (Nd4 : dest <> st_token_b s) by (intros E; rewrite E in Td; rewrite (token_fun _ _ _ _ Td Tb) in Md; congruence).
    eexists. apply deposit_all_exact; [exact Hwf |].
    exists pool, authority, user, source_a, source_b, dest, rest, s, ta, tb, pm, a, b.
    split; [reflexivity |]. split; [exact Hn |]. split; [exact Hma |]. split; [exact Hmb |]. split; [exact Hus |].
    split; [exact Hp |]. split; [exact Htp |]. split; [exact Hcr |]. split; [exact Nsa |]. split; [exact Ntb |].
    split; [exact Htd |]. split; [exact Ta |]. split; [exact Tb |]. split; [exact Pm |].
    rewrite Elet. split; [exact Hq |]. split; [exact L1 |]. split; [exact L2 |]. split; [exact Z1 |]. split; [exact Z2 |].
    cbn [calls_ok]. exists w1. split; [exact C1 |]. exists w2. split; [exact C2 |].
    eexists. split; [| reflexivity]. apply mint_live.
    + apply (mint_other w); [rewrite W2, W1 by assumption; reflexivity | exact Pm].
    + apply (token_other w); [rewrite W2, W1 by assumption; reflexivity | exact Td].
    + exact Fd.
    + apply Nd. exact Td.
    + exact Md.
    + exact Pa.
    + exact S2'.
    + exact Rd.
    + exact Rs.
Qed.
