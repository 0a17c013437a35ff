(** When withdrawals go through on the ledger. *)
From Verif Require Import Ints Tactics Fees LinearCurve ConstantPrice SwapCurve Codec Token Processor Api History
  Spec LedgerSpec CallSpec LiveSpec CurveFacts LinearFacts SwapFacts LinearProps CodecFacts TokenFacts ProcFacts AmountFacts
  EffectFacts TradeFacts CreateFacts PermFacts HistoryFacts LiquidityFacts VaultFacts ExactFacts LedgerLinear LiveFacts.

Lemma burn_live signed w s m a x ts mt : mint_at w m mt -> token_at w s ts ->
  t_frozen ts = false -> t_native ts = false -> t_mint ts = m -> signs w signed a ->
  t_owner ts = a -> t_delegate ts <> Some a -> x <= t_amount ts -> x <= m_supply mt ->
  call_ok signed w (CBurn s m a x)
    (with2 w s (retoken ts (t_amount ts - x) (t_delegate ts) (t_delegated_amount ts)) m (remint mt (m_supply mt - x))).
Proof.
  intros Mt Ts F Nt M Sg O D Le Ls. unfold call_ok.
  exists mt, ts, (retoken ts (t_amount ts - x) (t_delegate ts) (t_delegated_amount ts)).
  split; [exact Mt |]. split; [exact Ts |]. split; [exact F |]. split; [exact Nt |]. split; [exact M |].
  split; [| split; [exact Ls | reflexivity]].
  split; [exact Sg |]. split; [exact Le |]. right. auto.
Qed.

(** A payment out of a vault that is made only for a non-zero amount. *)
Lemma vault_pay signed w v d au x tv : token_at w v tv -> t_frozen tv = false -> t_owner tv = au -> t_delegate tv = None ->
  signs w signed au -> d <> v -> x <= t_amount tv -> (0 < x -> accepts w d (t_mint tv) x) ->
  exists w', calls_ok signed w (if_any x (CTransfer v d au x)) w' /\ signs w' signed au /\
    forall k, k <> v -> k <> d \/ x <= 0 -> w' k = w k.
Proof.
  intros Tv Fv Ov Dv Sg N Le Hacc. unfold if_any. destruct (Z.ltb_spec 0 x) as [L | L].
  - destruct (Hacc L) as (td & Td & Md & Fd & Rd).
    eexists. cbn [calls_ok]. split.
    { eexists. split; [| reflexivity]. apply transfer_live; try eassumption; try congruence. }
    split; [apply signs_with2; [exact Sg | exact I | exact I] |].
    intros k N1 [N2 | L']; [apply with2_other; assumption |]. destruct (Z.lt_irrefl 0). apply Z.lt_le_trans with x; assumption.
  - exists w. split; [reflexivity |]. split; [exact Sg |]. reflexivity.
Qed.

Lemma vault_paid signed w v d au x w' tv : calls_ok signed w (if_any x (CTransfer v d au x)) w' ->
  token_at w v tv -> d <> v ->
  (0 < x -> accepts w d (t_mint tv) x) /\
  (forall k t, token_at w' k t -> token_at w k t \/ t_mint t = t_mint tv) /\
  (forall k, k <> v -> w' k = w k \/ 0 < x /\ k = d).
Proof.
  intros H Tv N. unfold if_any in H. destruct (Z.ltb_spec 0 x) as [L | L]; cbn [calls_ok] in H.
  - destruct H as (w1 & H & ->). cbn [call_ok] in H.
    destruct H as (ts & td & ts' & Ts & Td & Fs & Fd & M & Db & [[E _] | (_ & R & ->)]); [congruence |].
    destruct (token_fun _ _ _ _ Tv Ts). split; [intros _; exists td; auto |]. split.
    + intros k t T. destruct (debit_retoken _ _ _ _ _ _ Db) as (am & dl & y & ->).
      apply token_transferred in T. destruct T as [[T _] | [T | T]]; [left; exact T | right | right]; congruence.
    + intros k Nk. unfold with2. destruct (Z.eqb_spec k d) as [E | Nd]; [right; auto |].
      apply Z.eqb_neq in Nk. rewrite Nk. left. reflexivity.
  - subst w'. split; [intros L'; destruct (Z.lt_irrefl 0); apply Z.lt_le_trans with x; assumption |]. auto.
Qed.

Lemma withdraw_all_live e signers w pool authority s user source dest_a dest_b rest n ma mb x :
  env_ok e -> reachable e w -> signers_ok e signers ->
  pool_at w pool s -> find_pda e pool = Some (authority, st_bump_seed s) ->
  is_u64 n -> is_u64 ma -> is_u64 mb -> In user signers -> single_signer w user -> single_signer w authority ->
  thawed w (st_token_a s) -> thawed w (st_token_b s) ->
  wallet w source user (st_pool_mint s) x -> (forall t, token_at w source t -> t_native t = false) ->
  st_pool_mint s <> st_token_a_mint s -> st_pool_mint s <> st_token_b_mint s ->
  let accounts := pool :: authority :: user :: st_pool_mint s :: source :: st_token_a s :: st_token_b s
                    :: dest_a :: dest_b :: st_pool_fee_account s :: TOKEN_PROGRAM_ID :: rest in
  let bal_a := balance w (st_token_a s) in
  let bal_b := balance w (st_token_b s) in
  (exists w', exec e signers w (WithdrawAll accounts n ma mb) = Ok w') <->
  dest_a <> st_token_a s /\ dest_b <> st_token_b s /\ n <= x /\
  exists charge share_a share_b,
    (st_pool_fee_account s = source /\ charge = 0 \/
     st_pool_fee_account s <> source /\ owner_withdraw_fee (st_fees s) n = Val charge) /\
    charge <= n /\ n - charge <= supply w (st_pool_mint s) /\
    (0 < charge -> accepts w (st_pool_fee_account s) (st_pool_mint s) charge) /\
    pool_tokens_to_trading_tokens (st_curve s) (n - charge) (supply w (st_pool_mint s)) bal_a bal_b Floor
      = Val (share_a, share_b) /\
    share_a <= u64_max /\ share_b <= u64_max /\
    let a := Z.min bal_a share_a in let b := Z.min bal_b share_b in
    ma <= a /\ mb <= b /\ (a = 0 -> bal_a = 0) /\ (b = 0 -> bal_b = 0) /\
    (0 < a -> accepts w dest_a (st_token_a_mint s) a) /\ (0 < b -> accepts w dest_b (st_token_b_mint s) b).
Proof.
  intros He Hr Hsig Hp Hpda Hn Hma Hmb Hus Hsu Hsa (ta & Ta & Fa) (tb & Tb & Fb)
    (ts & Ts & Ow & De & Mi & Fs & Am) Nt Na Nb accounts bal_a bal_b. subst bal_a bal_b.
  pose proof (reachable_inv _ _ He Hr) as [Hwf Hok]. pose proof (Hok _ _ Hp) as Hpo.
  pose proof (vaults_apart _ _ _ _ Hpo) as Nv.
  destruct Hpo as (au & Hf & Htp & Va & Vb & Nm & Nfa & Nfb & (pm & Pm & Pa & Pf) & Cf).
  assert (au = authority) by congruence. subst au.
  destruct (pool_wf _ _ _ Hwf Hp) as [(_ & _ & _ & _ & _ & _ & _ & _ & Hff & Hcf) _].
  assert (Hcr : create_pda e pool (st_bump_seed s) = Some authority) by (apply (proj1 He); exact Hf).
  destruct Va as (ta' & Ta' & Oa & Ma & Da & _). destruct (token_fun _ _ _ _ Ta Ta').
  destruct Vb as (tb' & Tb' & Ob & Mb & Db & _). destruct (token_fun _ _ _ _ Tb Tb').
  clear Ta' Tb'.
  rewrite (token_balance _ _ _ Ta), (token_balance _ _ _ Tb), (mint_supply _ _ _ Pm).
  pose proof (token_u64 _ _ _ Hwf Ta) as Ua. pose proof (token_u64 _ _ _ Hwf Tb) as Ub.
  pose proof (mint_u64 _ _ _ Hwf Pm) as Um.
  assert (Nuser : user <> authority).
  { intros E. apply (Hsig user Hus). exists pool, (st_bump_seed s). rewrite E. exact Hcr. }
  assert (Nsa : source <> st_token_a s) by (intros E; rewrite E in Ts; rewrite (token_fun _ _ _ _ Ts Ta) in Ow; congruence).
  assert (Nsb : source <> st_token_b s) by (intros E; rewrite E in Ts; rewrite (token_fun _ _ _ _ Ts Tb) in Ow; congruence).
  assert (Nms : st_pool_mint s <> source) by (intros E; rewrite E in Pm; exact (token_not_mint _ _ _ _ Ts Pm)).
  assert (Nma : st_pool_mint s <> st_token_a s) by (intros E; rewrite E in Pm; exact (token_not_mint _ _ _ _ Ta Pm)).
  assert (Nmb : st_pool_mint s <> st_token_b s) by (intros E; rewrite E in Pm; exact (token_not_mint _ _ _ _ Tb Pm)).
  split.
  - intros (w' & H). apply withdraw_all_exact in H; [| exact Hwf].
    destruct H as (pool' & au' & user' & source' & dest_a' & dest_b' & rest' & s' & ta' & tb' & pm' & charge & sha & shb &
      E & _ & _ & _ & _ & Hp' & _ & _ & Nda & Ndb & Ta' & Tb' & Pm' & Hch & Hcn & Hq & Ha & Hb & Hlim).
    injection E as <- <- <- _ <- _ _ <- <- _ <-.
    destruct (pool_fun _ _ _ _ Hp Hp'). destruct (token_fun _ _ _ _ Ta Ta'). destruct (token_fun _ _ _ _ Tb Tb').
    destruct (mint_fun _ _ _ _ Pm Pm'). clear Ta' Tb' Pm' Hp'.
    cbv zeta in Hlim. destruct Hlim as (L1 & L2 & Z1 & Z2 & Hcalls).
    split; [exact Nda |]. split; [exact Ndb |].
    (* the charge *)
    assert (X : exists w1 ts1, calls_ok (authority :: signers) w1
        ([CBurn source (st_pool_mint s) user (n - charge)] ++
         if_any (Z.min (t_amount ta) sha) (CTransfer (st_token_a s) dest_a authority (Z.min (t_amount ta) sha)) ++
         if_any (Z.min (t_amount tb) shb) (CTransfer (st_token_b s) dest_b authority (Z.min (t_amount tb) shb))) w' /\
      w1 (st_token_a s) = w (st_token_a s) /\ w1 (st_token_b s) = w (st_token_b s) /\ w1 (st_pool_mint s) = w (st_pool_mint s) /\
      token_at w1 source ts1 /\ t_amount ts1 = x - Z.max 0 charge /\
      (0 < charge -> accepts w (st_pool_fee_account s) (st_pool_mint s) charge) /\
      (forall k t, token_at w1 k t -> token_at w k t \/ t_mint t = st_pool_mint s)).
    { unfold if_any in Hcalls at 1. destruct (Z.ltb_spec 0 charge) as [L | L]; cbn [app calls_ok] in Hcalls.
      - destruct Hcalls as (w1 & C1 & Hcalls). cbn [call_ok] in C1.
        destruct C1 as (t1 & t2 & t1' & T1 & T2 & _ & F2 & M2 & Db1 & [[E _] | (Nsf & Room & ->)]).
        { exfalso. destruct Hch as [[_ E'] | [N _]]; [rewrite E' in L; exact (Z.lt_irrefl _ L) | congruence]. }
        destruct (token_fun _ _ _ _ Ts T1).
        assert (Et : exists dl y, t1' = retoken ts (t_amount ts - charge) dl y).
        { destruct Db1 as (_ & _ & [(_ & _ & ->) | (_ & _ & ->)]); eauto. }
        destruct Et as (dl & y & ->).
        eexists. eexists. split; [exact Hcalls |].
        assert (Nmf : st_pool_mint s <> st_pool_fee_account s).
        { intros E. rewrite <- E in T2. exact (token_not_mint _ _ _ _ T2 Pm). }
        split; [apply with2_other; auto |]. split; [apply with2_other; auto |]. split; [apply with2_other; auto |].
        split. { split; rewrite with2_fst by assumption; reflexivity. }
        split. { cbn [t_amount]. rewrite Am, Z.max_r by (apply Z.lt_le_incl; exact L). reflexivity. }
        split. { intros _. exists t2. repeat (split; [assumption || congruence |]). exact Room. }
        intros k t T. apply token_transferred in T. destruct T as [[T _] | [T | T]]; [left; exact T | right | right]; congruence.
      - exists w, ts. split; [exact Hcalls |]. split; [reflexivity |]. split; [reflexivity |]. split; [reflexivity |].
        split; [exact Ts |]. split; [rewrite Am, Z.max_l, Z.sub_0_r by exact L; reflexivity |].
        split; [intros L'; destruct (Z.lt_irrefl 0); apply Z.lt_le_trans with charge; assumption |]. auto. }
    destruct X as (w1 & ts1 & Hc1 & Ea & Eb & Em & Ts1 & A1 & Hfee & T1).
    assert (Hch0 : 0 <= charge).
    { destruct Hch as [[_ ->] | [_ Hch]]; [apply Z.le_refl |].
      exact (withdraw_fee_bound _ _ _ Hff (proj1 Hn) Hch). }
    cbn [app calls_ok] in Hc1. destruct Hc1 as (w2 & C2 & Hc2). cbn [call_ok] in C2.
    destruct C2 as (mt & t2 & t2' & Mt & T2 & _ & _ & M2 & Db2 & Ls & ->).
    destruct (token_fun _ _ _ _ Ts1 T2). apply (mint_other w) in Mt; [| exact Em]. destruct (mint_fun _ _ _ _ Pm Mt).
    destruct (debit_retoken _ _ _ _ _ _ Db2) as (am & dl & y & ->).
    set (w2 := with2 w1 source (retoken ts1 am dl y) (st_pool_mint s) (remint pm (m_supply pm - (n - charge)))) in *.
    assert (W2a : w2 (st_token_a s) = w (st_token_a s)) by (unfold w2; rewrite with2_other by auto; exact Ea).
    assert (W2b : w2 (st_token_b s) = w (st_token_b s)) by (unfold w2; rewrite with2_other by auto; exact Eb).
    assert (T2w : forall k t, token_at w2 k t -> token_at w k t \/ t_mint t = st_pool_mint s).
    { intros k t T. apply token_minted in T. destruct T as [[T _] | T]; [apply T1; exact T |].
      right. congruence. }
    assert (Hnx : n <= x).
    { destruct Db2 as (_ & Le & _). rewrite A1, Z.max_r in Le by exact Hch0. clear - Le. lia. }
    split; [exact Hnx |]. exists charge, sha, shb.
    split; [exact Hch |]. split; [exact Hcn |]. split; [exact Ls |]. split; [exact Hfee |].
    split; [exact Hq |]. split; [exact Ha |]. split; [exact Hb |]. cbv zeta.
    split; [exact L1 |]. split; [exact L2 |]. split; [exact Z1 |]. split; [exact Z2 |].
    apply calls_split in Hc2. destruct Hc2 as (w3 & Hc2 & Hc3).
    pose proof (vault_paid _ _ _ _ _ _ _ ta Hc2 ltac:(apply (token_other w); [exact W2a | exact Ta]) Nda) as (P1 & P2 & P3).
    assert (W3b : token_at w3 (st_token_b s) tb).
    { destruct (P3 (st_token_b s)) as [E | [Lx E]]; [congruence | |].
      - apply (token_other w2); [exact E |]. apply (token_other w); [exact W2b | exact Tb].
      - exfalso. destruct (P1 Lx) as (td & Td & Md & _). rewrite <- E in Td.
        apply (token_other w) in Td; [| exact W2b]. destruct (token_fun _ _ _ _ Tb Td). congruence. }
    pose proof (vault_paid _ _ _ _ _ _ _ tb Hc3 W3b Ndb) as (Q1 & _).
    split.
    + intros Lx. destruct (P1 Lx) as (td & Td & Md & Fd & Rd). destruct (T2w _ _ Td) as [Td' | E]; [| congruence].
      exists td. repeat (split; [assumption || congruence |]). exact Rd.
    + intros Lx. destruct (Q1 Lx) as (td & Td & Md & Fd & Rd).
      destruct (P2 _ _ Td) as [Td' | E]; [| congruence]. destruct (T2w _ _ Td') as [Td'' | E]; [| congruence].
      exists td. repeat (split; [assumption || congruence |]). exact Rd.
  - intros (Nda & Ndb & Hnx & charge & sha & shb & Hch & Hcn & Hsup & Hfee & Hq & Ha & Hb & Hlim).
    cbv zeta in Hlim. destruct Hlim as (L1 & L2 & Z1 & Z2 & Acc_a & Acc_b).
    assert (Hch0 : 0 <= charge).
    { destruct Hch as [[_ ->] | [_ Hch]]; [apply Z.le_refl |].
      exact (withdraw_fee_bound _ _ _ Hff (proj1 Hn) Hch). }
    assert (S0 : signs w (authority :: signers) user) by (apply pool_signs; assumption).
    assert (S0' : signs w (authority :: signers) authority) by (apply pda_signs; assumption).
    (* the charge *)
    assert (X : exists w1 ts1, calls_ok (authority :: signers) w
        (if_any charge (CTransfer source (st_pool_fee_account s) user charge)) w1 /\
      (forall k, k <> source -> k <> st_pool_fee_account s \/ ~ 0 < charge -> w1 k = w k) /\
      token_at w1 source ts1 /\ t_amount ts1 = x - charge /\ t_owner ts1 = user /\ t_delegate ts1 <> Some user /\
      t_mint ts1 = st_pool_mint s /\ t_frozen ts1 = false /\ t_native ts1 = false /\
      signs w1 (authority :: signers) user /\ signs w1 (authority :: signers) authority).
    { unfold if_any. destruct (Z.ltb_spec 0 charge) as [L | L].
      - destruct (Hfee L) as (tf & Tf & Mf & Ff & Rf).
        assert (Nsf : source <> st_pool_fee_account s).
        { destruct Hch as [[_ E'] | [N _]]; [rewrite E' in L; destruct (Z.lt_irrefl _ L) | congruence]. }
        eexists. eexists. cbn [calls_ok]. split.
        { eexists. split; [| reflexivity]. apply transfer_live; try eassumption; try congruence.
          rewrite Am. apply Z.le_trans with n; assumption. }
        split. { intros k N1 [N2 | N2]; [apply with2_other; assumption | destruct (N2 L)]. }
        split. { split; rewrite with2_fst by assumption; reflexivity. }
        cbn [t_amount t_owner t_delegate t_mint t_frozen t_native].
        split; [rewrite Am; reflexivity |]. split; [exact Ow |]. split; [exact De |]. split; [exact Mi |].
        split; [exact Fs |]. split; [apply Nt; exact Ts |].
        split; apply signs_with2; try exact I; assumption.
      - assert (charge = 0) by (apply Z.le_antisymm; assumption). subst charge. rewrite Z.sub_0_r.
        exists w, ts. split; [reflexivity |]. split; [reflexivity |]. split; [exact Ts |]. split; [exact Am |].
        split; [exact Ow |]. split; [exact De |]. split; [exact Mi |]. split; [exact Fs |].
        split; [apply Nt; exact Ts |]. auto. }
    destruct X as (w1 & ts1 & C1 & W1 & Ts1 & A1 & O1 & D1 & M1 & F1 & N1 & S1 & S1').
    assert (Hfeek : forall k t, token_at w k t -> t_mint t <> st_pool_mint s -> k <> st_pool_fee_account s \/ ~ 0 < charge).
    { intros k t T N. destruct (Z.eq_dec k (st_pool_fee_account s)) as [-> | Nk]; [right | left; exact Nk].
      intros L. destruct (Hfee L) as (tf & Tf & Mf & _). rewrite (token_fun _ _ _ _ T Tf) in N. congruence. }
    assert (Wm : w1 (st_pool_mint s) = w (st_pool_mint s)).
    { apply W1; [exact Nms |]. destruct (Z.eq_dec (st_pool_mint s) (st_pool_fee_account s)) as [E | N]; [right | left; exact N].
      intros L. destruct (Hfee L) as (tf & Tf & _). rewrite <- E in Tf. exact (token_not_mint _ _ _ _ Tf Pm). }
    pose proof (burn_live (authority :: signers) w1 source (st_pool_mint s) user (n - charge) ts1 pm
      ltac:(apply (mint_other w); [exact Wm | exact Pm]) Ts1 F1 N1 M1 S1 O1 D1
      ltac:(rewrite A1; clear - Hnx; lia) Hsup) as C2.
    match type of C2 with call_ok _ _ _ ?w2' => set (w2 := w2') in * end.
    assert (W2 : forall k t, token_at w k t -> t_mint t <> st_pool_mint s -> w2 k = w k).
    { intros k t T N. unfold w2.
      assert (k <> source) by (intros ->; rewrite (token_fun _ _ _ _ T Ts) in N; congruence).
      rewrite with2_other; [| assumption | intros ->; exact (token_not_mint _ _ _ _ T Pm)].
      apply W1; [assumption |]. exact (Hfeek _ _ T N). }
    assert (S2 : signs w2 (authority :: signers) authority) by (apply signs_with2; [exact S1' | exact I | exact I]).
    assert (E2a : w2 (st_token_a s) = w (st_token_a s)) by (eapply W2; [exact Ta | congruence]).
    assert (E2b : w2 (st_token_b s) = w (st_token_b s)) by (eapply W2; [exact Tb | congruence]).
    destruct (vault_pay (authority :: signers) w2 (st_token_a s) dest_a authority (Z.min (t_amount ta) sha) ta)
      as (w3 & C3 & S3 & W3); try assumption.
    { apply (token_other w); [exact E2a | exact Ta]. }
    { apply Z.le_min_l. }
    { intros Lx. destruct (Acc_a Lx) as (td & Td & Md & Fd & Rd). exists td.
      split; [apply (token_other w); [eapply W2; [exact Td | congruence] | exact Td] |].
      split; [congruence |]. auto. }
    assert (W3' : forall k t, token_at w k t -> t_mint t <> st_pool_mint s -> t_mint t <> t_mint ta -> w3 k = w k).
    { intros k t T N N'. rewrite W3; [eapply W2; eassumption | |].
      - intros ->. rewrite (token_fun _ _ _ _ T Ta) in N'. congruence.
      - destruct (Z.lt_ge_cases 0 (Z.min (t_amount ta) sha)) as [Lx | Lx]; [left | right; exact Lx].
        intros ->. destruct (Acc_a Lx) as (td & Td & Md & _). rewrite (token_fun _ _ _ _ T Td) in N'. congruence. }
    destruct (vault_pay (authority :: signers) w3 (st_token_b s) dest_b authority (Z.min (t_amount tb) shb) tb)
      as (w4 & C4 & _ & _); try assumption.
    { apply (token_other w); [eapply W3'; [exact Tb | congruence | congruence] | exact Tb]. }
    { apply Z.le_min_l. }
    { intros Lx. destruct (Acc_b Lx) as (td & Td & Md & Fd & Rd). exists td.
      split; [apply (token_other w); [eapply W3'; [exact Td | congruence | congruence] | exact Td] |].
      split; [congruence |]. auto. }
    exists w4. apply withdraw_all_exact; [exact Hwf |].
    exists pool, authority, user, source, dest_a, dest_b, rest, s, ta, tb, pm, charge, sha, shb.
    split; [reflexivity |]. split; [exact Hn |]. split; [exact Hma |]. split; [exact Hmb |]. split; [exact Hus |].
    split; [exact Hp |]. split; [exact Htp |]. split; [exact Hcr |]. split; [exact Nda |]. split; [exact Ndb |].
    split; [exact Ta |]. split; [exact Tb |]. split; [exact Pm |]. split; [exact Hch |]. split; [exact Hcn |].
    split; [exact Hq |]. split; [exact Ha |]. split; [exact Hb |]. cbv zeta.
    split; [exact L1 |]. split; [exact L2 |]. split; [exact Z1 |]. split; [exact Z2 |].
    apply calls_app. exists w1. split; [exact C1 |]. cbn [app calls_ok]. exists w2. split; [exact C2 |].
    apply calls_app. exists w3. split; [exact C3 | exact C4].
Qed.
