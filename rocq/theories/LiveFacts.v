(** When requests go through on the ledger. *)
From Verif Require Import Ints Tactics Fees LinearCurve ConstantPrice SwapCurve Codec Token Processor Api History
  Spec LedgerSpec CallSpec LiveSpec CurveFacts LinearFacts SwapFacts LinearProps CodecFacts TokenFacts ProcFacts AmountFacts
  EffectFacts TradeFacts CreateFacts PermFacts HistoryFacts LiquidityFacts VaultFacts ExactFacts LedgerLinear.

(** ** Ledgers with two accounts replaced *)
Lemma with2_other w k1 a1 k2 a2 k : k <> k1 -> k <> k2 -> with2 w k1 a1 k2 a2 k = w k.
Proof. intros N1 N2. unfold with2. apply Z.eqb_neq in N1, N2. now rewrite N1, N2. Qed.
Lemma with2_snd w k1 a1 k2 a2 : with2 w k1 a1 k2 a2 k2 = a2.
Proof. unfold with2. now rewrite Z.eqb_refl. Qed.
Lemma with2_fst w k1 a1 k2 a2 : k1 <> k2 -> with2 w k1 a1 k2 a2 k1 = a1.
Proof. intros N. unfold with2. apply Z.eqb_neq in N. now rewrite N, Z.eqb_refl. Qed.

Lemma token_other w w' k t : w' k = w k -> token_at w' k t <-> token_at w k t.
Proof. intros E. unfold token_at. now rewrite E. Qed.
Lemma mint_other w w' k t : w' k = w k -> mint_at w' k t <-> mint_at w k t.
Proof. intros E. unfold mint_at. now rewrite E. Qed.

(** Token accounts and mints: not multisig accounts. *)
Definition decoded (a : account) : Prop := match a_data a with DRaw _ => False | _ => True end.
Lemma decoded_retoken t a d x : decoded (retoken t a d x).
Proof. exact I. Qed.
Lemma decoded_remint m x : decoded (remint m x).
Proof. exact I. Qed.
Lemma signs_with2 w signed a k1 a1 k2 a2 : signs w signed a -> decoded a1 -> decoded a2 ->
  signs (with2 w k1 a1 k2 a2) signed a.
Proof.
  intros (Hin & Hm) D1 D2. split; [exact Hin |]. unfold with2.
  destruct (Z.eqb_spec a k2) as [E | N]; [| destruct (Z.eqb_spec a k1) as [E | N']; [| exact Hm]].
  - intros (_ & l & E' & _). unfold decoded in D2. rewrite E' in D2. exact D2.
  - intros (_ & l & E' & _). unfold decoded in D1. rewrite E' in D1. exact D1.
Qed.

Lemma transfer_live signed w s d a x ts td : token_at w s ts -> token_at w d td -> s <> d ->
  t_frozen ts = false -> t_frozen td = false -> t_mint ts = t_mint td -> signs w signed a ->
  t_owner ts = a -> t_delegate ts <> Some a -> x <= t_amount ts -> t_amount td + x <= u64_max ->
  call_ok signed w (CTransfer s d a x)
    (with2 w s (retoken ts (t_amount ts - x) (t_delegate ts) (t_delegated_amount ts))
             d (retoken td (t_amount td + x) (t_delegate td) (t_delegated_amount td))).
Proof.
  intros Ts Td N Fs Fd M Sg O D Le Room. unfold call_ok.
  exists ts, td, (retoken ts (t_amount ts - x) (t_delegate ts) (t_delegated_amount ts)).
  split; [exact Ts |]. split; [exact Td |]. split; [exact Fs |]. split; [exact Fd |]. split; [exact M |].
  split; [| right; auto].
  split; [exact Sg |]. split; [exact Le |]. right. auto.
Qed.

Lemma mint_live signed w m d a x mt td : mint_at w m mt -> token_at w d td ->
  t_frozen td = false -> t_native td = false -> t_mint td = m -> m_authority mt = Some a -> signs w signed a ->
  t_amount td + x <= u64_max -> m_supply mt + x <= u64_max ->
  call_ok signed w (CMint m d a x)
    (with2 w d (retoken td (t_amount td + x) (t_delegate td) (t_delegated_amount td)) m (remint mt (m_supply mt + x))).
Proof.
  intros Mt Td F Nt M Au Sg R1 R2. unfold call_ok. exists mt, td.
  repeat (split; [assumption |]). reflexivity.
Qed.

Lemma pool_signs w signers user : In user signers -> single_signer w user -> forall a, signs w (a :: signers) user.
Proof. intros Hin Hs a. split; [right; exact Hin | exact Hs]. Qed.
Lemma pda_signs w signers a : single_signer w a -> signs w (a :: signers) a.
Proof. intros Hs. split; [left; reflexivity | exact Hs]. Qed.

(** Token accounts after a transfer, and after a mint. *)
Lemma token_transferred w s ts as' ds xs d td ad dd xd k t :
  token_at (with2 w s (retoken ts as' ds xs) d (retoken td ad dd xd)) k t ->
  token_at w k t /\ k <> s /\ k <> d \/ t_mint t = t_mint ts \/ t_mint t = t_mint td.
Proof.
  intros H. unfold token_at, with2 in H.
  destruct (Z.eqb_spec k d) as [_ | N]; [| destruct (Z.eqb_spec k s) as [_ | N']].
  - destruct H as [_ H]. cbn [a_data retoken] in H. injection H as <-. right. right. reflexivity.
  - destruct H as [_ H]. cbn [a_data retoken] in H. injection H as <-. right. left. reflexivity.
  - left. split; [exact H |]. auto.
Qed.
Lemma token_minted w d td ad dd xd m mt sm k t :
  token_at (with2 w d (retoken td ad dd xd) m (remint mt sm)) k t ->
  token_at w k t /\ k <> d \/ t_mint t = t_mint td.
Proof.
  intros H. unfold token_at, with2 in H.
  destruct (Z.eqb_spec k m) as [_ | N]; [| destruct (Z.eqb_spec k d) as [_ | N']].
  - destruct H as [_ H]. cbn [a_data remint] in H. discriminate H.
  - destruct H as [_ H]. cbn [a_data retoken] in H. injection H as <-. right. reflexivity.
  - left. split; [exact H |]. auto.
Qed.

Lemma debit_retoken w signed t a x t' : debit w signed t a x t' ->
  exists am d y, t' = retoken t am d y.
Proof. intros (_ & _ & [(_ & _ & ->) | (_ & _ & ->)]); eauto. Qed.

Lemma calls_app signed w l1 l2 w' : (exists w1, calls_ok signed w l1 w1 /\ calls_ok signed w1 l2 w') ->
  calls_ok signed w (l1 ++ l2) w'.
Proof.
  revert w. induction l1 as [| c l1 IH]; intros w (w1 & H1 & H2); cbn [app calls_ok] in *.
  - subst w1. exact H2.
  - destruct H1 as (w0 & Hc & H1). exists w0. split; [exact Hc |]. apply IH. exists w1. auto.
Qed.

(** ** Swaps *)
Lemma swap_live e signers w pool authority s user source ssrc sdst dest rest ain mout x :
  env_ok e -> reachable e w -> signers_ok e signers ->
  pool_at w pool s -> find_pda e pool = Some (authority, st_bump_seed s) ->
  is_u64 ain -> is_u64 mout -> In user signers -> single_signer w user -> single_signer w authority ->
  (ssrc = st_token_a s /\ sdst = st_token_b s \/ ssrc = st_token_b s /\ sdst = st_token_a s) ->
  thawed w ssrc -> thawed w sdst ->
  wallet w source user (vault_mint_of s ssrc) x ->
  feeless (st_fees s) \/ st_pool_mint s <> st_token_a_mint s /\ st_pool_mint s <> st_token_b_mint s ->
  let accounts := pool :: authority :: user :: source :: ssrc :: sdst :: dest
                    :: st_pool_mint s :: st_pool_fee_account s :: TOKEN_PROGRAM_ID :: rest in
  let d := if ssrc =? st_token_a s then AtoB else BtoA in
  (exists w', exec e signers w (Swap accounts ain mout) = Ok w') <->
  dest <> sdst /\
  exists r minted,
    curve_swap (st_curve s) ain (balance w ssrc) (balance w sdst) d (st_fees s) = Val r /\
    mout <= destination_amount_swapped r /\ source_amount_swapped r <= x /\
    balance w ssrc + source_amount_swapped r <= u64_max /\
    accepts w dest (vault_mint_of s sdst) (destination_amount_swapped r) /\
    curve_withdraw_single (st_curve s) (owner_fee r)
      (side_a d (new_swap_source_amount r) (new_swap_destination_amount r))
      (side_b d (new_swap_source_amount r) (new_swap_destination_amount r))
      (supply w (st_pool_mint s)) d (st_fees s) = Val minted /\
    (0 < minted -> accepts_new w (st_pool_fee_account s) (st_pool_mint s) minted).
Proof.
  intros He Hr Hsig Hp Hpda Hain Hmout Hus Hsu Hsa Hside (ta & Ta & Fa) (tb & Tb & Fb)
    (ts & Ts & Ow & De & Mi & Fs & Am) Hfm accounts d.
  pose proof (reachable_inv _ _ He Hr) as [Hwf Hok]. pose proof (Hok _ _ Hp) as Hpo.
  pose proof (vaults_apart _ _ _ _ Hpo) as Nv.
  destruct Hpo as (au & Hf & Htp & Va & Vb & Nm & Nfa & Nfb & (pm & Pm & Pa & Pf) & Cf).
  assert (au = authority) by congruence. subst au.
  destruct (pool_wf _ _ _ Hwf Hp) as [(_ & _ & _ & _ & _ & _ & _ & _ & Hff & Hcf) _].
  assert (Hcr : create_pda e pool (st_bump_seed s) = Some authority) by (apply (proj1 He); exact Hf).
  (* the two vaults *)
  assert (Vs : vault_ok w authority ssrc (vault_mint_of s ssrc) /\ vault_ok w authority sdst (vault_mint_of s sdst)
               /\ vault_mint_of s ssrc <> vault_mint_of s sdst /\ ssrc <> sdst /\
               (feeless (st_fees s) \/ st_pool_mint s <> vault_mint_of s ssrc /\ st_pool_mint s <> vault_mint_of s sdst)).
  { unfold vault_mint_of. destruct Hside as [[-> ->] | [-> ->]].
    - rewrite Z.eqb_refl. destruct (Z.eqb_spec (st_token_b s) (st_token_a s)); [congruence |]. intuition congruence.
    - rewrite Z.eqb_refl. destruct (Z.eqb_spec (st_token_b s) (st_token_a s)); [congruence |]. intuition congruence. }
  destruct Vs as (Vsrc & Vdst & Nmm & Nss & Hfp).
  destruct Vsrc as (ta' & Ta' & Oa & Ma & Da & _). destruct (token_fun _ _ _ _ Ta Ta').
  destruct Vdst as (tb' & Tb' & Ob & Mb & Db & _). destruct (token_fun _ _ _ _ Tb Tb').
  clear Ta' Tb'.
  rewrite (token_balance _ _ _ Ta), (token_balance _ _ _ Tb), (mint_supply _ _ _ Pm).
  pose proof (token_u64 _ _ _ Hwf Ta) as Ua. pose proof (token_u64 _ _ _ Hwf Tb) as Ub.
  pose proof (mint_u64 _ _ _ Hwf Pm) as Um.
  assert (Nuser : user <> authority).
  { intros E. apply (Hsig user Hus). exists pool, (st_bump_seed s). rewrite E. exact Hcr. }
  assert (Nsrc : source <> ssrc) by (intros E; rewrite E in Ts; rewrite (token_fun _ _ _ _ Ts Ta) in Ow; congruence).
  assert (Nsd : source <> sdst) by (intros E; rewrite E in Ts; rewrite (token_fun _ _ _ _ Ts Tb) in Mi; congruence).
  assert (Nms : st_pool_mint s <> source) by (intros E; rewrite E in Pm; exact (token_not_mint _ _ _ _ Ts Pm)).
  assert (Nma : st_pool_mint s <> ssrc) by (intros E; rewrite E in Pm; exact (token_not_mint _ _ _ _ Ta Pm)).
  assert (Nmb : st_pool_mint s <> sdst) by (intros E; rewrite E in Pm; exact (token_not_mint _ _ _ _ Tb Pm)).
  assert (Nfs : st_pool_fee_account s <> ssrc /\ st_pool_fee_account s <> sdst).
  { destruct Hside as [[-> ->] | [-> ->]]; auto. }
  destruct Nfs as [Nfs Nfd].
  assert (Hpm : forall r minted, curve_swap (st_curve s) ain (t_amount ta) (t_amount tb) d (st_fees s) = Val r ->
    curve_withdraw_single (st_curve s) (owner_fee r)
      (side_a d (new_swap_source_amount r) (new_swap_destination_amount r))
      (side_b d (new_swap_source_amount r) (new_swap_destination_amount r))
      (m_supply pm) d (st_fees s) = Val minted -> 0 < minted ->
    st_pool_mint s <> vault_mint_of s ssrc /\ st_pool_mint s <> vault_mint_of s sdst).
  { intros r minted Hc Hw Hm. destruct Hfp as [Hfl | Hfp]; [exfalso | exact Hfp].
    apply feeless_swap in Hc; try assumption. destruct Hc as (_ & _ & _ & _ & _ & _ & _ & E).
    rewrite E in Hw. unfold curve_withdraw_single in Hw. rewrite Z.eqb_refl in Hw. injection Hw as <-.
    exact (Z.lt_irrefl _ Hm). }
  split.
  - intros (w' & H). apply swap_exact in H.
    destruct H as (pool' & au' & user' & source' & ssrc' & sdst' & dest' & rest' & s' & ta' & tb' & pm' & r & minted &
      E & _ & _ & _ & Hp' & _ & _ & _ & _ & _ & Nd & Ta' & Tb' & Pm' & Hq).
    injection E as <- <- <- <- <- <- <- E1 E2 <-.
    destruct (pool_fun _ _ _ _ Hp Hp'). destruct (token_fun _ _ _ _ Ta Ta'). destruct (token_fun _ _ _ _ Tb Tb').
    destruct (mint_fun _ _ _ _ Pm Pm'). clear E1 E2 Ta' Tb' Pm' Hp'.
    cbv zeta in Hq. fold d in Hq.
    destruct Hq as (Hc & (Hmo & _) & _ & Hw & _ & Hcalls).
    split; [exact Nd |]. exists r, minted.
    pose proof (curve_swap_bounds _ _ _ _ _ _ _ Hcf Hff Hain Ua Ub Hc) as (B1 & B2 & B3 & B4 & B5 & B6 & _).
    cbn [app calls_ok] in Hcalls. destruct Hcalls as (w1 & C1 & Hcalls).
    cbn [call_ok] in C1. destruct C1 as (t1 & t2 & t1' & T1 & T2 & _ & _ & _ & Hdb & [[E _] | (_ & Room & ->)]);
      [congruence |].
    destruct (token_fun _ _ _ _ Ts T1). destruct (token_fun _ _ _ _ Ta T2). clear T1 T2.
    destruct (debit_retoken _ _ _ _ _ _ Hdb) as (am & dl & y & ->).
    split; [exact Hc |]. split; [exact Hmo |]. split; [rewrite <- Am; exact (proj1 (proj2 Hdb)) |]. split; [exact Room |].
    set (w1 := with2 w source (retoken ts am dl y) ssrc
                 (retoken ta (t_amount ta + source_amount_swapped r) (t_delegate ta) (t_delegated_amount ta))) in *.
    assert (W1 : forall k, k <> source -> k <> ssrc -> w1 k = w k) by (intros; apply with2_other; assumption).
    assert (T1 : forall k t, token_at w1 k t -> token_at w k t \/ t_mint t = vault_mint_of s ssrc).
    { intros k t T. apply token_transferred in T. destruct T as [[T _] | [T | T]]; [left; exact T | right | right]; congruence. }
    assert (X : exists w2, calls_ok (authority :: signers) w2 [CTransfer sdst dest authority (destination_amount_swapped r)] w' /\
      w2 sdst = w sdst /\
      (forall k t, token_at w2 k t -> token_at w k t \/ t_mint t = vault_mint_of s ssrc \/ t_mint t <> vault_mint_of s sdst) /\
      (0 < minted -> accepts_new w (st_pool_fee_account s) (st_pool_mint s) minted)).
    { unfold if_any in Hcalls. destruct (Z.ltb_spec 0 minted) as [L | L]; cbn [app calls_ok] in Hcalls.
      - destruct (Hpm _ _ Hc Hw L) as [Nps Npd].
        destruct Hcalls as (w2 & C2 & Hcalls). exists w2. split; [exact Hcalls |].
        cbn [call_ok] in C2. destruct C2 as (mt & tf & Mt & Tf & Ff & Nf & Mf & _ & _ & R1 & R2 & ->).
        apply (mint_other w) in Mt; [| apply W1; assumption]. destruct (mint_fun _ _ _ _ Pm Mt).
        destruct (T1 _ _ Tf) as [Tf' | E]; [| congruence].
        split; [rewrite with2_other, W1 by auto; reflexivity |]. split.
        + intros k t T. apply token_minted in T. destruct T as [[T _] | T]; [| right; right; congruence].
          destruct (T1 _ _ T); auto.
        + intros _. split; [exists tf; auto |]. split; [| rewrite (mint_supply _ _ _ Pm); exact R2].
          intros t T. rewrite (token_fun _ _ _ _ T Tf'). exact Nf.
      - exists w1. split; [exact Hcalls |]. split; [apply W1; auto |].
        split; [intros k t T; destruct (T1 _ _ T); auto | intros L'; destruct (Z.lt_irrefl 0); apply Z.lt_le_trans with minted; assumption]. }
    destruct X as (w2 & Hc2 & Es & T2 & Hfee).
    split; [| split; [exact Hw | exact Hfee]].
    cbn [calls_ok] in Hc2. destruct Hc2 as (w3 & C3 & _). cbn [call_ok] in C3.
    destruct C3 as (u1 & u2 & u1' & U1 & U2 & _ & G2 & Mu & _ & [[E _] | (_ & Room3 & _)]); [congruence |].
    apply (token_other w) in U1; [| exact Es]. destruct (token_fun _ _ _ _ Tb U1).
    destruct (T2 _ _ U2) as [U2' | [E | E]]; [| congruence | congruence].
    exists u2. repeat (split; [assumption || congruence |]). exact Room3.
  - intros (Nd & r & minted & Hc & Hmo & Hx & Hroom & (td & Td & Md & Fd & Rd) & Hw & Hfee).
    pose proof (curve_swap_bounds _ _ _ _ _ _ _ Hcf Hff Hain Ua Ub Hc) as (B1 & B2 & B3 & B4 & B5 & B6 & _).
    assert (Nds : dest <> source) by (intros E; rewrite E in Td; rewrite (token_fun _ _ _ _ Td Ts) in Md; congruence).
    assert (Ndv : dest <> ssrc) by (intros E; rewrite E in Td; rewrite (token_fun _ _ _ _ Td Ta) in Md; congruence).
    assert (Ndm : dest <> st_pool_mint s) by (intros E; rewrite E in Td; exact (token_not_mint _ _ _ _ Td Pm)).
    set (w1 := with2 w source (retoken ts (t_amount ts - source_amount_swapped r) (t_delegate ts) (t_delegated_amount ts))
                 ssrc (retoken ta (t_amount ta + source_amount_swapped r) (t_delegate ta) (t_delegated_amount ta))).
    assert (W1 : forall k, k <> source -> k <> ssrc -> w1 k = w k) by (intros; apply with2_other; assumption).
    assert (C1 : call_ok (authority :: signers) w (CTransfer source ssrc user (source_amount_swapped r)) w1).
    { apply transfer_live; try assumption; try congruence. apply pool_signs; assumption. }
    assert (S1 : signs w1 (authority :: signers) authority).
    { apply signs_with2; [apply pda_signs; assumption | exact I | exact I]. }
    assert (Hm0 : 0 <= minted).
    { eapply withdraw_single_nonneg; [exact Hcf | .. | exact Hw]; unfold is_u64 in *; destruct d; cbn [side_a side_b]; 
      clear - B1 B2 B3 B4 B5 B6 Ua Ub Um; lia. }
    assert (X : exists w2, calls_ok (authority :: signers) w1 (if_any minted (CMint (st_pool_mint s) (st_pool_fee_account s) authority minted)) w2 /\
      w2 sdst = w sdst /\ w2 dest = w dest /\ signs w2 (authority :: signers) authority /\ minted <= u64_max).
    { unfold if_any. destruct (Z.ltb_spec 0 minted) as [L | L].
      - destruct (Hpm _ _ Hc Hw L) as [Nps Npd]. destruct (Hfee L) as ((tf & Tf & Mf & Ff & Rf) & Nf & Rs). rewrite (mint_supply _ _ _ Pm) in Rs.
        assert (Nfs' : st_pool_fee_account s <> source) by (intros E; rewrite E in Tf; rewrite (token_fun _ _ _ _ Tf Ts) in Mf; congruence).
        assert (Nfd' : st_pool_fee_account s <> dest) by (intros E; rewrite E in Tf; rewrite (token_fun _ _ _ _ Tf Td) in Mf; congruence).
        eexists. cbn [calls_ok]. split.
        { eexists. split; [| reflexivity]. apply mint_live.
          - apply (mint_other w); [apply W1; assumption | exact Pm].
          - apply (token_other w); [apply W1; assumption | exact Tf].
          - exact Ff.
          - apply Nf. exact Tf.
          - exact Mf.
          - exact Pa.
          - exact S1.
          - exact Rf.
          - exact Rs. }
        split; [rewrite with2_other, W1 by auto; reflexivity |].
        split; [rewrite with2_other, W1 by auto; reflexivity |].
        split; [apply signs_with2; [exact S1 | exact I | exact I] |].
        clear - Rs Um L. unfold is_u64 in Um. lia.
      - exists w1. split; [reflexivity |]. split; [apply W1; auto |]. split; [apply W1; auto |].
        split; [exact S1 |]. clear - L. unfold u64_max. lia. }
    destruct X as (w2 & C2 & Es & Ed & S2 & Hm).
    eexists. apply swap_exact.
    exists pool, authority, user, source, ssrc, sdst, dest, rest, s, ta, tb, pm, r, minted.
    split; [reflexivity |]. split; [exact Hain |]. split; [exact Hmout |]. split; [exact Hus |].
    split; [exact Hp |]. split; [exact Htp |]. split; [exact Hcr |]. split; [exact Hside |].
    split; [exact Nss |]. split; [exact Nsrc |]. split; [exact Nd |].
    split; [exact Ta |]. split; [exact Tb |]. split; [exact Pm |]. cbv zeta. fold d.
    split; [exact Hc |]. split.
    { split; [exact Hmo |]. clear - B3 B4 B5 B6 Ub. unfold is_u64 in Ub. lia. }
    split. { clear - B1 Hain. unfold is_u64 in Hain. lia. }
    split; [exact Hw |]. split; [exact Hm |].
    cbn [app calls_ok]. exists w1. split; [exact C1 |].
    apply calls_app. exists w2. split; [exact C2 |].
    cbn [calls_ok]. eexists. split; [| reflexivity].
    apply transfer_live.
    + apply (token_other w); [exact Es | exact Tb].
    + apply (token_other w); [exact Ed | exact Td].
    + congruence.
    + exact Fb.
    + exact Fd.
    + congruence.
    + exact S2.
    + exact Ob.
    + congruence.
    + clear - B3 B4 B5 B6. lia.
    + exact Rd.
Qed.

Lemma linear_swap_live e signers w pool authority s c user source ssrc sdst dest rest ain mout x :
  env_ok e -> reachable e w -> signers_ok e signers ->
  pool_at w pool s -> st_curve s = LinearPrice c -> find_pda e pool = Some (authority, st_bump_seed s) ->
  is_u64 ain -> is_u64 mout -> In user signers -> single_signer w user -> single_signer w authority ->
  (ssrc = st_token_a s /\ sdst = st_token_b s \/ ssrc = st_token_b s /\ sdst = st_token_a s) ->
  thawed w ssrc -> thawed w sdst ->
  wallet w source user (vault_mint_of s ssrc) x ->
  let accounts := pool :: authority :: user :: source :: ssrc :: sdst :: dest
                    :: st_pool_mint s :: st_pool_fee_account s :: TOKEN_PROGRAM_ID :: rest in
  let d := if ssrc =? st_token_a s then AtoB else BtoA in
  (exists w', exec e signers w (Swap accounts ain mout) = Ok w') <->
  dest <> sdst /\
  exists taken paid,
    linear_swap c ain (balance w ssrc) (balance w sdst) d = Val (taken, paid) /\
    mout <= paid <= balance w sdst /\ taken <= x /\
    balance w ssrc + taken <= u64_max /\ accepts w dest (vault_mint_of s sdst) paid.
Proof.
  intros He Hr Hsig Hp Hl Hpda Hain Hmout Hus Hsu Hsa Hside Tsrc Tdst Hwal accounts d.
  pose proof (reachable_inv _ _ He Hr) as [Hwf Hok].
  destruct (linear_config _ _ _ _ _ (Hok _ _ Hp) Hl) as [Hf Hpos].
  assert (Hfl : feeless (st_fees s)) by (rewrite Hf; exact linear_feeless).
  pose proof (balance_u64 _ ssrc Hwf) as U1. pose proof (balance_u64 _ sdst Hwf) as U2.
  unfold accounts. rewrite (swap_live e signers w pool authority s user source ssrc sdst dest rest ain mout x) by (try assumption; left; exact Hfl).
  fold d. rewrite Hl. split.
  - intros (Nd & r & minted & Hc & Hmo & Hx & Hroom & Hacc & _). split; [exact Nd |].
    apply feeless_swap in Hc; try assumption. destruct Hc as (Hc & _ & _ & Hle & _). cbn [swap_without_fees] in Hc.
    exists (source_amount_swapped r), (destination_amount_swapped r). auto 10.
  - intros (Nd & taken & paid & Hc & [Hmo Hle] & Hx & Hroom & Hacc). split; [exact Nd |].
    pose proof (linear_swap_bounds _ _ _ _ _ _ _ (proj1 Hpos) Hain U1 U2 Hc) as B.
    exists (mk_swap_result (balance w ssrc + taken) (balance w sdst - paid) taken paid 0 0), 0.
    cbn [source_amount_swapped destination_amount_swapped new_swap_source_amount new_swap_destination_amount owner_fee].
    split.
    { apply feeless_swap; try assumption.
      cbn [swap_without_fees source_amount_swapped destination_amount_swapped new_swap_source_amount
           new_swap_destination_amount trade_fee owner_fee].
      split; [exact Hc |]. clear - B Hain U1 U2 Hle Hroom. unfold is_u64, u64_max, u128_max in *. repeat split; lia. }
    split; [exact Hmo |]. split; [exact Hx |]. split; [exact Hroom |]. split; [exact Hacc |].
    split; [reflexivity |]. intros L. destruct (Z.lt_irrefl _ L).
Qed.

Lemma calls_split signed w l1 l2 w' : calls_ok signed w (l1 ++ l2) w' ->
  exists w1, calls_ok signed w l1 w1 /\ calls_ok signed w1 l2 w'.
Proof.
  revert w. induction l1 as [| c l1 IH]; intros w H; cbn [app calls_ok] in *.
  - exists w. auto.
  - destruct H as (w0 & Hc & H). destruct (IH _ H) as (w1 & H1 & H2). exists w1. split; [| exact H2]. exists w0. auto.
Qed.
