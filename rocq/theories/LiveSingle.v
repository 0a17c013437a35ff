(** When one-sided deposits and withdrawals go through on the ledger. *)
From Verif Require Import Ints Tactics Fees LinearCurve ConstantPrice SwapCurve Codec Token Processor Api History
  Spec LedgerSpec CallSpec LiveSpec CurveFacts LinearFacts SwapFacts LinearProps CodecFacts TokenFacts ProcFacts AmountFacts
  EffectFacts TradeFacts CreateFacts PermFacts HistoryFacts LiquidityFacts VaultFacts ExactFacts LedgerLinear LiveFacts LiveWithdraw.

Lemma deposit_single_live e signers w pool authority s d user source dest rest n mp x :
  env_ok e -> reachable e w -> signers_ok e signers ->
  pool_at w pool s -> find_pda e pool = Some (authority, st_bump_seed s) ->
  is_u64 n -> is_u64 mp -> In user signers -> single_signer w user -> single_signer w authority ->
  thawed w (side_vault d s) -> wallet w source user (mint_on d s) x -> st_pool_mint s <> mint_on d s ->
  let accounts := pool :: authority :: user :: source :: st_token_a s :: st_token_b s
                    :: st_pool_mint s :: dest :: TOKEN_PROGRAM_ID :: rest in
  (exists w', exec e signers w (DepositSingle accounts n mp) = Ok w') <->
  exists minted,
    (if supply w (st_pool_mint s) =? 0 then Val (10 ^ 9) else
       curve_deposit_single (st_curve s) n (balance w (st_token_a s)) (balance w (st_token_b s))
         (supply w (st_pool_mint s)) d (st_fees s)) = Val minted /\
    mp <= minted /\ minted <> 0 /\ n <= x /\ balance w (side_vault d s) + n <= u64_max /\
    accepts_new w dest (st_pool_mint s) minted.
Proof.
  intros He Hr Hsig Hp Hpda Hn Hmp Hus Hsu Hsa (tv & Tv & Fv) (ts & Ts & Ow & De & Mi & Fs & Am) Np accounts.
  pose proof (reachable_inv _ _ He Hr) as [Hwf Hok]. pose proof (Hok _ _ Hp) as Hpo.
  pose proof (vaults_apart _ _ _ _ Hpo) as Nv.
  destruct Hpo as (au & Hf & Htp & Va & Vb & Nm & Nfa & Nfb & (pm & Pm & Pa & Pf) & Cf).
  assert (au = authority) by congruence. subst au.
  assert (Hcr : create_pda e pool (st_bump_seed s) = Some authority) by (apply (proj1 He); exact Hf).
  destruct Va as (ta & Ta & Oa & Ma & Da & _). destruct Vb as (tb & Tb & Ob & Mb & Db & _).
  assert (Ev : t_mint tv = mint_on d s /\ t_owner tv = authority /\ t_delegate tv = None).
  { destruct d; cbn [side_vault mint_on] in *; [destruct (token_fun _ _ _ _ Ta Tv) | destruct (token_fun _ _ _ _ Tb Tv)]; auto. }
  destruct Ev as (Mv & Ov & Dv).
  rewrite (token_balance _ _ _ Ta), (token_balance _ _ _ Tb), (token_balance _ _ _ Tv), (mint_supply _ _ _ Pm).
  pose proof (mint_u64 _ _ _ Hwf Pm) as Um.
  assert (Nuser : user <> authority).
  { intros E. apply (Hsig user Hus). exists pool, (st_bump_seed s). rewrite E. exact Hcr. }
  assert (Nsv : source <> side_vault d s) by (intros E; rewrite E in Ts; rewrite (token_fun _ _ _ _ Ts Tv) in Ow; congruence).
  assert (Nms : st_pool_mint s <> source) by (intros E; rewrite E in Pm; exact (token_not_mint _ _ _ _ Ts Pm)).
  assert (Nmv : st_pool_mint s <> side_vault d s) by (intros E; rewrite E in Pm; exact (token_not_mint _ _ _ _ Tv Pm)).
  assert (Hpk : forall d', picks (t_mint ts) (t_mint ta) (t_mint tb) d' <-> d' = d).
  { intros d'. destruct d, d'; cbn [picks mint_on] in *; split; intros H; try reflexivity; try discriminate; try congruence.
    - destruct H. congruence.
    - split; congruence. }
  split.
  - intros (w' & H). apply deposit_single_exact in H; [| exact Hwf].
    destruct H as (pool' & au' & user' & source' & dest' & rest' & s' & ts' & ta' & tb' & pm' & d' & minted &
      E & _ & _ & _ & Hp' & _ & _ & Ts' & Ta' & Tb' & Pm' & Hpk' & _ & Hq & (Hmin & _) & Hz & Hcalls).
    injection E as <- <- <- <- E1 E2 E3 <- <-.
    destruct (pool_fun _ _ _ _ Hp Hp'). destruct (token_fun _ _ _ _ Ts Ts'). destruct (token_fun _ _ _ _ Ta Ta').
    destruct (token_fun _ _ _ _ Tb Tb'). destruct (mint_fun _ _ _ _ Pm Pm'). clear E1 E2 E3 Ts' Ta' Tb' Pm' Hp'.
    apply Hpk in Hpk'. subst d'. exists minted. split; [exact Hq |]. split; [exact Hmin |]. split; [exact Hz |].
    cbn [calls_ok] in Hcalls. destruct Hcalls as (w1 & C1 & w2 & C2 & _).
    cbn [call_ok] in C1. destruct C1 as (t1 & t2 & t1' & T1 & T2 & _ & _ & _ & Hdb & [[E _] | (_ & Room & ->)]); [congruence |].
    destruct (token_fun _ _ _ _ Ts T1). destruct (token_fun _ _ _ _ Tv T2). clear T1 T2.
    destruct (debit_retoken _ _ _ _ _ _ Hdb) as (am & dl & y & ->).
    match type of C2 with call_ok _ ?w1' _ _ => set (w1 := w1') in * end.
    assert (W1 : forall k, k <> source -> k <> side_vault d s -> w1 k = w k) by (intros; apply with2_other; assumption).
    assert (T1 : forall k t, token_at w1 k t -> token_at w k t \/ t_mint t = mint_on d s).
    { intros k t T. apply token_transferred in T. destruct T as [[T _] | [T | T]]; [left; exact T | right | right]; congruence. }
    cbn [call_ok] in C2. destruct C2 as (mt & td & Mt & Td & Fd & Nd & Md & _ & _ & R1 & R2 & _).
    apply (mint_other w) in Mt; [| apply W1; assumption]. destruct (mint_fun _ _ _ _ Pm Mt).
    destruct (T1 _ _ Td) as [Td' | E]; [| congruence].
    split; [rewrite <- Am; exact (proj1 (proj2 Hdb)) |]. split; [exact Room |].
    split; [exists td; auto |]. split; [| rewrite (mint_supply _ _ _ Pm); exact R2].
    intros t T. rewrite (token_fun _ _ _ _ T Td'). exact Nd.
  - intros (minted & Hq & Hmin & Hz & Hx & Room & (td & Td & Md & Fd & Rd) & Nd & Rs).
    rewrite (mint_supply _ _ _ Pm) in Rs.
    assert (S0 : signs w (authority :: signers) user) by (apply pool_signs; assumption).
    assert (S0' : signs w (authority :: signers) authority) by (apply pda_signs; assumption).
    pose proof (transfer_live (authority :: signers) w source (side_vault d s) user n ts tv Ts Tv Nsv Fs Fv
      ltac:(congruence) S0 Ow De ltac:(rewrite Am; exact Hx) Room) as C1.
    match type of C1 with call_ok _ _ _ ?w' => set (w1 := w') in * end.
    assert (W1 : forall k, k <> source -> k <> side_vault d s -> w1 k = w k) by (intros; apply with2_other; assumption).
    assert (S1' : signs w1 (authority :: signers) authority) by (apply signs_with2; [exact S0' | exact I | exact I]).
    assert (Nd1 : dest <> source) by (intros E; rewrite E in Td; rewrite (token_fun _ _ _ _ Td Ts) in Md; congruence).
    assert (Nd3 : dest <> side_vault d s) by (intros E; rewrite E in Td; rewrite (token_fun _ _ _ _ Td Tv) in Md; congruence).
    eexists. apply deposit_single_exact; [exact Hwf |].
    exists pool, authority, user, source, dest, rest, s, ts, ta, tb, pm, d, minted.
    split; [reflexivity |]. split; [exact Hn |]. split; [exact Hmp |]. split; [exact Hus |].
    split; [exact Hp |]. split; [exact Htp |]. split; [exact Hcr |]. split; [exact Ts |].
    split; [exact Ta |]. split; [exact Tb |]. split; [exact Pm |]. split; [apply Hpk; reflexivity |]. split; [exact Nsv |].
    split; [exact Hq |]. split.
    { split; [exact Hmin |]. clear - Rs Um. unfold is_u64 in Um. lia. }
    split; [exact Hz |].
    cbn [calls_ok]. exists w1. split; [exact C1 |].
    eexists. split; [| reflexivity]. apply mint_live.
    + apply (mint_other w); [rewrite W1 by assumption; reflexivity | exact Pm].
    + apply (token_other w); [rewrite W1 by assumption; reflexivity | exact Td].
    + exact Fd.
    + apply Nd. exact Td.
    + exact Md.
    + exact Pa.
    + exact S1'.
    + exact Rd.
    + exact Rs.
Qed.

Lemma withdraw_single_live e signers w pool authority s d user source dest rest n mp x :
  env_ok e -> reachable e w -> signers_ok e signers ->
  pool_at w pool s -> find_pda e pool = Some (authority, st_bump_seed s) ->
  is_u64 n -> is_u64 mp -> In user signers -> single_signer w user -> single_signer w authority ->
  thawed w (side_vault d s) -> (exists t, token_at w dest t /\ t_mint t = mint_on d s) ->
  wallet w source user (st_pool_mint s) x -> (forall t, token_at w source t -> t_native t = false) ->
  st_pool_mint s <> mint_on d s ->
  let accounts := pool :: authority :: user :: st_pool_mint s :: source :: st_token_a s :: st_token_b s
                    :: dest :: st_pool_fee_account s :: TOKEN_PROGRAM_ID :: rest in
  (exists w', exec e signers w (WithdrawSingle accounts n mp) = Ok w') <->
  dest <> side_vault d s /\
  exists burnt charge,
    curve_withdraw_single (st_curve s) n (balance w (st_token_a s)) (balance w (st_token_b s))
      (supply w (st_pool_mint s)) d (st_fees s) = Val burnt /\
    (st_pool_fee_account s = source /\ charge = 0 \/
     st_pool_fee_account s <> source /\ owner_withdraw_fee (st_fees s) burnt = Val charge) /\
    burnt + charge <= mp /\ burnt + charge <> 0 /\ burnt + charge <= x /\ burnt <= supply w (st_pool_mint s) /\
    (0 < charge -> accepts w (st_pool_fee_account s) (st_pool_mint s) charge) /\
    n <= balance w (side_vault d s) /\ accepts w dest (mint_on d s) n.
Proof.
  intros He Hr Hsig Hp Hpda Hn Hmp Hus Hsu Hsa (tv & Tv & Fv) (td & Td & Md)
    (ts & Ts & Ow & De & Mi & Fs & Am) Nt Np accounts.
  pose proof (reachable_inv _ _ He Hr) as [Hwf Hok]. pose proof (Hok _ _ Hp) as Hpo.
  pose proof (vaults_apart _ _ _ _ Hpo) as Nv.
  destruct Hpo as (au & Hf & Htp & Va & Vb & Nm & Nfa & Nfb & (pm & Pm & Pa & Pf) & Cf).
  assert (au = authority) by congruence. subst au.
  destruct (pool_wf _ _ _ Hwf Hp) as [(_ & _ & _ & _ & _ & _ & _ & _ & Hff & Hcf) _].
  assert (Hcr : create_pda e pool (st_bump_seed s) = Some authority) by (apply (proj1 He); exact Hf).
  destruct Va as (ta & Ta & Oa & Ma & Da & _). destruct Vb as (tb & Tb & Ob & Mb & Db & _).
  assert (Ev : t_mint tv = mint_on d s /\ t_owner tv = authority /\ t_delegate tv = None /\ st_pool_fee_account s <> side_vault d s).
  { destruct d; cbn [side_vault mint_on] in *; [destruct (token_fun _ _ _ _ Ta Tv) | destruct (token_fun _ _ _ _ Tb Tv)]; auto. }
  destruct Ev as (Mv & Ov & Dv & Nfv).
  rewrite (token_balance _ _ _ Ta), (token_balance _ _ _ Tb), (token_balance _ _ _ Tv), (mint_supply _ _ _ Pm).
  pose proof (token_u64 _ _ _ Hwf Ta) as Ua. pose proof (token_u64 _ _ _ Hwf Tb) as Ub.
  pose proof (mint_u64 _ _ _ Hwf Pm) as Um.
  assert (Nuser : user <> authority).
  { intros E. apply (Hsig user Hus). exists pool, (st_bump_seed s). rewrite E. exact Hcr. }
  assert (Nsv : source <> side_vault d s) by (intros E; rewrite E in Ts; rewrite (token_fun _ _ _ _ Ts Tv) in Ow; congruence).
  assert (Nms : st_pool_mint s <> source) by (intros E; rewrite E in Pm; exact (token_not_mint _ _ _ _ Ts Pm)).
  assert (Nmv : st_pool_mint s <> side_vault d s) by (intros E; rewrite E in Pm; exact (token_not_mint _ _ _ _ Tv Pm)).
  assert (Nmd : st_pool_mint s <> dest) by (intros E; rewrite E in Pm; exact (token_not_mint _ _ _ _ Td Pm)).
  assert (Nds : dest <> source) by (intros E; rewrite E in Td; rewrite (token_fun _ _ _ _ Td Ts) in Md; congruence).
  assert (Hb0 : forall burnt, curve_withdraw_single (st_curve s) n (t_amount ta) (t_amount tb) (m_supply pm) d (st_fees s) = Val burnt -> 0 <= burnt).
  { intros burnt Hw. eapply withdraw_single_nonneg; [exact Hcf | .. | exact Hw];
      clear - Hn Ua Ub Um; unfold is_u64, u64_max, u128_max in *; lia. }
  assert (Hch0 : forall burnt charge, 0 <= burnt ->
    (st_pool_fee_account s = source /\ charge = 0 \/
     st_pool_fee_account s <> source /\ owner_withdraw_fee (st_fees s) burnt = Val charge) -> 0 <= charge).
  { intros burnt charge B0 [[_ ->] | [_ Hch]]; [apply Z.le_refl |]. exact (withdraw_fee_bound _ _ _ Hff B0 Hch). }
  assert (Hpk : forall d', picks (t_mint td) (t_mint ta) (t_mint tb) d' <-> d' = d).
  { intros d'. destruct d, d'; cbn [picks mint_on] in *; split; intros H; try reflexivity; try discriminate; try congruence.
    - destruct H. congruence.
    - split; congruence. }
  split.
  - intros (w' & H). apply withdraw_single_exact in H; [| exact Hwf].
    destruct H as (pool' & au' & user' & source' & dest' & rest' & s' & td' & ta' & tb' & pm' & d' & burnt & charge &
      E & _ & _ & _ & Hp' & _ & _ & Td' & Ta' & Tb' & Pm' & Hpk' & Nd & Hq & Hch & Hmax & Hz & Hcalls).
    injection E as <- <- <- _ <- _ _ <- _ <-.
    destruct (pool_fun _ _ _ _ Hp Hp'). destruct (token_fun _ _ _ _ Td Td'). destruct (token_fun _ _ _ _ Ta Ta').
    destruct (token_fun _ _ _ _ Tb Tb'). destruct (mint_fun _ _ _ _ Pm Pm'). clear Td' Ta' Tb' Pm' Hp'.
    apply Hpk in Hpk'. subst d'. split; [exact Nd |].
    pose proof (Hb0 _ Hq) as B0. pose proof (Hch0 _ _ B0 Hch) as C0.
    exists burnt, charge. split; [exact Hq |]. split; [exact Hch |]. split; [exact Hmax |]. split; [exact Hz |].
    apply calls_split in Hcalls. destruct Hcalls as (w1 & C1 & Hcalls).
    assert (X : w1 (side_vault d s) = w (side_vault d s) /\ w1 (st_pool_mint s) = w (st_pool_mint s) /\
      (exists ts1, token_at w1 source ts1 /\ t_amount ts1 = x - charge /\ t_mint ts1 = st_pool_mint s) /\
      (0 < charge -> accepts w (st_pool_fee_account s) (st_pool_mint s) charge) /\
      (forall k t, token_at w1 k t -> token_at w k t \/ t_mint t = st_pool_mint s)).
    { unfold if_any in C1. destruct (Z.ltb_spec 0 charge) as [L | L]; cbn [calls_ok] in C1.
      - destruct C1 as (w1' & C1 & ->). cbn [call_ok] in C1.
        destruct C1 as (t1 & t2 & t1' & T1 & T2 & _ & F2 & M2 & Db1 & [[E _] | (Nsf & Room & ->)]).
        { exfalso. destruct Hch as [[_ E'] | [N _]]; [rewrite E' in L; exact (Z.lt_irrefl _ L) | congruence]. }
        destruct (token_fun _ _ _ _ Ts T1).
        assert (Et : exists dl y, t1' = retoken ts (t_amount ts - charge) dl y).
        { destruct Db1 as (_ & _ & [(_ & _ & ->) | (_ & _ & ->)]); eauto. }
        destruct Et as (dl & y & ->).
        assert (Nmf : st_pool_mint s <> st_pool_fee_account s).
        { intros E. rewrite <- E in T2. exact (token_not_mint _ _ _ _ T2 Pm). }
        split; [apply with2_other; auto |]. split; [apply with2_other; auto |].
        split. { eexists. split; [split; rewrite with2_fst by assumption; reflexivity |]. cbn [t_amount t_mint]. rewrite Am. auto. }
        split. { intros _. exists t2. repeat (split; [assumption || congruence |]). exact Room. }
        intros k t T. apply token_transferred in T. destruct T as [[T _] | [T | T]]; [left; exact T | right | right]; congruence.
      - subst w1. assert (charge = 0) by (apply Z.le_antisymm; assumption). subst charge.
        split; [reflexivity |]. split; [reflexivity |]. split; [exists ts; rewrite Z.sub_0_r; auto |].
        split; [intros L'; destruct (Z.lt_irrefl _ L') |]. auto. }
    destruct X as (Ev & Em & (ts1 & Ts1 & A1 & M1) & Hfee & T1).
    cbn [calls_ok] in Hcalls. destruct Hcalls as (w2 & C2 & w3 & C3 & _).
    cbn [call_ok] in C2. destruct C2 as (mt & t2 & t2' & Mt & T2 & _ & _ & M2 & Db2 & Ls & ->).
    destruct (token_fun _ _ _ _ Ts1 T2). apply (mint_other w) in Mt; [| exact Em]. destruct (mint_fun _ _ _ _ Pm Mt).
    destruct (debit_retoken _ _ _ _ _ _ Db2) as (am & dl & y & ->).
    match type of C3 with call_ok _ ?w2' _ _ => set (w2 := w2') in * end.
    assert (W2v : w2 (side_vault d s) = w (side_vault d s)) by (unfold w2; rewrite with2_other by auto; exact Ev).
    assert (T2w : forall k t, token_at w2 k t -> token_at w k t \/ t_mint t = st_pool_mint s).
    { intros k t T. apply token_minted in T. destruct T as [[T _] | T]; [apply T1; exact T |]. right. congruence. }
    split. { destruct Db2 as (_ & Le & _). rewrite A1 in Le. clear - Le. lia. }
    split; [exact Ls |]. split; [exact Hfee |].
    cbn [call_ok] in C3. destruct C3 as (u1 & u2 & u1' & U1 & U2 & _ & G2 & Mu & Db3 & [[E _] | (_ & Room3 & _)]); [congruence |].
    apply (token_other w) in U1; [| exact W2v]. destruct (token_fun _ _ _ _ Tv U1).
    split; [exact (proj1 (proj2 Db3)) |].
    destruct (T2w _ _ U2) as [U2' | E]; [| congruence].
    exists u2. repeat (split; [assumption || congruence |]). exact Room3.
  - intros (Nd & burnt & charge & Hq & Hch & Hmax & Hz & Hx & Hsup & Hfee & Hv & (td' & Td' & _ & Fd & Rd)).
    destruct (token_fun _ _ _ _ Td Td'). clear Td'.
    pose proof (Hb0 _ Hq) as B0. pose proof (Hch0 _ _ B0 Hch) as C0.
    assert (S0 : signs w (authority :: signers) user) by (apply pool_signs; assumption).
    assert (S0' : signs w (authority :: signers) authority) by (apply pda_signs; assumption).
    assert (X : exists w1 ts1, calls_ok (authority :: signers) w
        (if_any charge (CTransfer source (st_pool_fee_account s) user charge)) w1 /\
      (forall k, k <> source -> k <> st_pool_fee_account s \/ ~ 0 < charge -> w1 k = w k) /\
      token_at w1 source ts1 /\ t_amount ts1 = x - charge /\ t_owner ts1 = user /\ t_delegate ts1 <> Some user /\
      t_mint ts1 = st_pool_mint s /\ t_frozen ts1 = false /\ t_native ts1 = false /\
      signs w1 (authority :: signers) user /\ signs w1 (authority :: signers) authority).
    { unfold if_any. destruct (Z.ltb_spec 0 charge) as [L | L].
      - destruct (Hfee L) as (tf & Tf & Mf & Ff & Rf).
        assert (Nsf : source <> st_pool_fee_account s).
        { destruct Hch as [[_ E'] | [N _]]; [rewrite E' in L; destruct (Z.lt_irrefl _ L) | congruence]. }
        eexists. eexists. cbn [calls_ok]. split.
        { eexists. split; [| reflexivity]. apply transfer_live; try eassumption; try congruence.
          rewrite Am. clear - Hx B0. lia. }
        split. { intros k N1 [N2 | N2]; [apply with2_other; assumption | destruct (N2 L)]. }
        split. { split; rewrite with2_fst by assumption; reflexivity. }
        cbn [t_amount t_owner t_delegate t_mint t_frozen t_native].
        split; [rewrite Am; reflexivity |]. split; [exact Ow |]. split; [exact De |]. split; [exact Mi |].
        split; [exact Fs |]. split; [apply Nt; exact Ts |].
        split; apply signs_with2; try exact I; assumption.
      - assert (charge = 0) by (apply Z.le_antisymm; assumption). subst charge. rewrite Z.sub_0_r.
        exists w, ts. split; [reflexivity |]. split; [reflexivity |]. split; [exact Ts |]. split; [exact Am |].
        split; [exact Ow |]. split; [exact De |]. split; [exact Mi |]. split; [exact Fs |].
        split; [apply Nt; exact Ts |]. auto. }
    destruct X as (w1 & ts1 & C1 & W1 & Ts1 & A1 & O1 & D1 & M1 & F1 & N1 & S1 & S1').
    assert (Wm : w1 (st_pool_mint s) = w (st_pool_mint s)).
    { apply W1; [exact Nms |]. destruct (Z.eq_dec (st_pool_mint s) (st_pool_fee_account s)) as [E | N]; [right | left; exact N].
      intros L. destruct (Hfee L) as (tf & Tf & _). rewrite <- E in Tf. exact (token_not_mint _ _ _ _ Tf Pm). }
    pose proof (burn_live (authority :: signers) w1 source (st_pool_mint s) user burnt ts1 pm
      ltac:(apply (mint_other w); [exact Wm | exact Pm]) Ts1 F1 N1 M1 S1 O1 D1
      ltac:(rewrite A1; clear - Hx; lia) Hsup) as C2.
    match type of C2 with call_ok _ _ _ ?w2' => set (w2 := w2') in * end.
    assert (W2 : forall k t, token_at w k t -> t_mint t <> st_pool_mint s -> w2 k = w k).
    { intros k t T N. unfold w2.
      assert (k <> source) by (intros ->; rewrite (token_fun _ _ _ _ T Ts) in N; congruence).
      rewrite with2_other; [| assumption | intros ->; exact (token_not_mint _ _ _ _ T Pm)].
      apply W1; [assumption |].
      destruct (Z.eq_dec k (st_pool_fee_account s)) as [-> | Nk]; [right | left; exact Nk].
      intros L. destruct (Hfee L) as (tf & Tf & Mf & _). rewrite (token_fun _ _ _ _ T Tf) in N. congruence. }
    assert (S2 : signs w2 (authority :: signers) authority) by (apply signs_with2; [exact S1' | exact I | exact I]).
    eexists. apply withdraw_single_exact; [exact Hwf |].
    exists pool, authority, user, source, dest, rest, s, td, ta, tb, pm, d, burnt, charge.
    split; [reflexivity |]. split; [exact Hn |]. split; [exact Hmp |]. split; [exact Hus |].
    split; [exact Hp |]. split; [exact Htp |]. split; [exact Hcr |]. split; [exact Td |].
    split; [exact Ta |]. split; [exact Tb |]. split; [exact Pm |]. split; [apply Hpk; reflexivity |]. split; [exact Nd |].
    split; [exact Hq |]. split; [exact Hch |]. split; [exact Hmax |]. split; [exact Hz |].
    apply calls_app. exists w1. split; [exact C1 |]. cbn [calls_ok]. exists w2. split; [exact C2 |].
    eexists. split; [| reflexivity]. apply transfer_live.
    + apply (token_other w); [eapply W2; [exact Tv | congruence] | exact Tv].
    + apply (token_other w); [eapply W2; [exact Td | congruence] | exact Td].
    + congruence.
    + exact Fv.
    + exact Fd.
    + congruence.
    + exact S2.
    + exact Ov.
    + congruence.
    + exact Hv.
    + exact Rd.
Qed.
