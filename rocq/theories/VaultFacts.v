(** What an instruction on a pool does to the pool's own vaults and supply. *)
From Verif Require Import Ints Tactics Fees LinearCurve ConstantPrice SwapCurve Codec Token Processor Api History
  Spec LedgerSpec CurveFacts LinearFacts SwapFacts CodecFacts TokenFacts ProcFacts AmountFacts EffectFacts
  TradeFacts CreateFacts PermFacts HistoryFacts LiquidityFacts.

Lemma vault_mint w au v m t : vault_ok w au v m -> token_at w v t -> t_mint t = m.
Proof. intros (t' & T & _ & M & _) T'. now rewrite (token_fun _ _ _ _ T' T). Qed.

(** Accounts for the same token as one vault are not the other vault. *)
Lemma same_mint_apart e w k s v v' x : pool_ok e w k s -> vault_of_pool s v -> vault_of_pool s v' -> v <> v' ->
  same_mint w x v \/ same_mint w v x -> x <> v'.
Proof.
  intros (au & _ & _ & Va & Vb & Nm & _) Hv Hv' N S ->.
  assert (S' : same_mint w v v') by (destruct S as [(t & t' & T & T' & E) | S]; [exists t', t; auto | exact S]).
  destruct S' as (t & t' & T & T' & E).
  destruct Hv as [-> | ->], Hv' as [-> | ->]; try (apply N; reflexivity);
    rewrite (vault_mint _ _ _ _ _ Va) with (1 := T) in E || rewrite (vault_mint _ _ _ _ _ Vb) with (1 := T) in E;
    (rewrite (vault_mint _ _ _ _ _ Va T') in E || rewrite (vault_mint _ _ _ _ _ Vb T') in E); congruence.
Qed.

Lemma vaults_apart e w k s : pool_ok e w k s -> st_token_a s <> st_token_b s.
Proof.
  intros (au & _ & _ & Va & Vb & Nm & _) E. rewrite E in Va. destruct Va as (t & T & _ & M & _).
  rewrite (vault_mint _ _ _ _ _ Vb T) in M. congruence.
Qed.

Lemma swap_vaults_at e signers w accounts ain mout w' s : inv e w ->
  exec e signers w (Swap accounts ain mout) = Ok w' -> pool_at w (nth 0 accounts 0) s ->
  let d := if nth 4 accounts 0 =? st_token_a s then AtoB else BtoA in
  exists r minted,
    let va := st_token_a s in let vb := st_token_b s in
    let x := source_amount_swapped r in let y := destination_amount_swapped r in
    is_u64 ain /\
    curve_swap (st_curve s) ain (match d with AtoB => balance w va | BtoA => balance w vb end)
      (match d with AtoB => balance w vb | BtoA => balance w va end) d (st_fees s) = Val r /\
    curve_withdraw_single (st_curve s) (owner_fee r)
      (side_a d (new_swap_source_amount r) (new_swap_destination_amount r))
      (side_b d (new_swap_source_amount r) (new_swap_destination_amount r))
      (supply w (st_pool_mint s)) d (st_fees s) = Val minted /\ 0 <= minted /\
    balance w' va = side_a d (new_swap_source_amount r) (new_swap_destination_amount r) /\
    balance w' vb = side_b d (new_swap_source_amount r) (new_swap_destination_amount r) /\
    supply w' (st_pool_mint s) = supply w (st_pool_mint s) + minted.
Proof.
  intros (W & I) H Hp. specialize (I _ _ Hp). pose proof (vaults_apart _ _ _ _ I) as Nv.
  pose proof (swap_effect _ _ _ _ _ _ _ W H) as Eff.
  pose proof H as H'. apply swap_trace in H'.
  destruct H' as (pool & authority & user & source & ssrc & sdst & dest & mint & fee & tp & rest & s' & ta & tb & pm
      & r & pt & -> & Ha & Hmo & Hu & Hp' & Hpda & V1 & V2 & N1 & N2 & N3 & -> & -> & _ & _ & Hta & Htb & Hpm & H').
  cbn [nth] in *. cbv zeta in *. rewrite (pool_fun _ _ _ _ Hp' Hp) in *.
  destruct H' as (Hsw & Hy & Hx & Hpt & Hpt' & Hrun).
  destruct Eff as (s1 & r' & pt' & Hp1 & Sw & _ & _ & _ & _ & Mi & M0 & (B & S & _)).
  rewrite (pool_fun _ _ _ _ Hp1 Hp) in *.
  rewrite (token_balance _ _ _ Hta), (token_balance _ _ _ Htb) in Sw.
  assert (r' = r) by congruence. subst r'.
  assert (HS : new_swap_source_amount r = balance w ssrc + source_amount_swapped r /\
               new_swap_destination_amount r = balance w sdst - destination_amount_swapped r).
  { unfold curve_swap in Hsw. obs Hsw. destruct v3 as [x y]. obs Hsw. injection Hsw as <-.
    rewrite (token_balance _ _ _ Hta), (token_balance _ _ _ Htb).
    cbn [new_swap_source_amount new_swap_destination_amount source_amount_swapped destination_amount_swapped].
    repeat match goal with H : add_in _ _ _ = Val _ |- _ => apply add_in_val in H; destruct H as [-> _] 
      | H : csub _ _ = Val _ |- _ => apply csub_val in H; destruct H as [-> _] end. lia. }
  destruct HS as (HS & HD). rewrite <- HS, <- HD in Mi.
  assert (Ns : source <> sdst).
  { eapply (same_mint_apart _ _ _ _ ssrc sdst source I); try assumption. left.
    exact (run_same_mint _ _ [] _ _ _ _ _ _ Hrun). }
  assert (Nd : dest <> ssrc).
  { eapply (same_mint_apart _ _ _ _ sdst ssrc dest I); try assumption; [now apply not_eq_sym |]. right.
    unfold swap_ops in Hrun. rewrite app_comm_cons in Hrun.
    exact (run_same_mint _ _ _ _ _ _ _ _ _ Hrun). }
  destruct I as (au & _ & _ & _ & _ & _ & Nf1 & Nf2 & _).
  assert (F1 : st_pool_fee_account s <> ssrc) by (destruct V1 as [-> | ->]; assumption).
  assert (F2 : st_pool_fee_account s <> sdst) by (destruct V2 as [-> | ->]; assumption).
  assert (Bs : balance w' ssrc = new_swap_source_amount r).
  { rewrite B, HS, only_at_same, !only_at_other by congruence. lia. }
  assert (Bd : balance w' sdst = new_swap_destination_amount r).
  { rewrite B, HD, only_at_same, !only_at_other by congruence. lia. }
  assert (Su : supply w' (st_pool_mint s) = supply w (st_pool_mint s) + pt') by (rewrite S, only_at_same; reflexivity).
  rewrite <- (token_balance _ _ _ Hta), <- (token_balance _ _ _ Htb) in Hsw.
  destruct (Z.eqb_spec ssrc (st_token_a s)) as [Q | Q].
  - exists r, pt'. subst ssrc. destruct V2 as [-> | ->]; [congruence |]. cbn [side_a side_b] in *. auto 10.
  - exists r, pt'. destruct V1 as [-> | ->]; [congruence |]. destruct V2 as [-> | ->]; [| congruence].
    cbn [side_a side_b] in *. auto 10.
Qed.

Lemma swap_vaults e signers w accounts ain mout w' s : inv e w ->
  exec e signers w (Swap accounts ain mout) = Ok w' -> pool_at w (nth 0 accounts 0) s ->
  exists d r minted,
    let va := st_token_a s in let vb := st_token_b s in
    let x := source_amount_swapped r in let y := destination_amount_swapped r in
    is_u64 ain /\
    curve_swap (st_curve s) ain (match d with AtoB => balance w va | BtoA => balance w vb end)
      (match d with AtoB => balance w vb | BtoA => balance w va end) d (st_fees s) = Val r /\
    curve_withdraw_single (st_curve s) (owner_fee r)
      (side_a d (new_swap_source_amount r) (new_swap_destination_amount r))
      (side_b d (new_swap_source_amount r) (new_swap_destination_amount r))
      (supply w (st_pool_mint s)) d (st_fees s) = Val minted /\ 0 <= minted /\
    balance w' va = side_a d (new_swap_source_amount r) (new_swap_destination_amount r) /\
    balance w' vb = side_b d (new_swap_source_amount r) (new_swap_destination_amount r) /\
    supply w' (st_pool_mint s) = supply w (st_pool_mint s) + minted.
Proof. intros I H Hp. eexists. exact (swap_vaults_at _ _ _ _ _ _ _ _ I H Hp). Qed.

(** The user of an instruction cannot debit a vault. *)
Lemma user_no_vault e signers w k s v signed user o l w' : env_ok e -> pool_ok e w k s -> vault_of_pool s v ->
  signers_ok e signers -> In user signers -> op_authority o = user -> run_ops signed w (o :: l) = Ok w' ->
  op_source o <> Some v.
Proof.
  intros He I Hv Sg Hu Ho Hrun Hs. pose proof (pool_pda _ _ _ _ He I) as Hpda.
  destruct I as (au & Hf & _ & Va & Vb & _). destruct (Hpda _ _ Hf) as (_ & Hi).
  assert (V : exists m, vault_ok w au v m) by (destruct Hv as [-> | ->]; eauto).
  destruct V as (m & t & T & O & _ & D & _).
  cbn [run_ops] in Hrun. apply rbind_ok in Hrun. destruct Hrun as (w1 & H1 & _).
  destruct (op_source_auth _ _ _ _ _ H1 Hs) as (t0 & T0 & _ & [A | A]); rewrite (token_fun _ _ _ _ T0 T) in A.
  - apply (Sg user Hu). rewrite <- Ho. congruence.
  - congruence.
Qed.

Lemma deposit_all_vaults e signers w accounts n ma mb w' s : inv e w ->
  exec e signers w (DepositAll accounts n ma mb) = Ok w' -> pool_at w (nth 0 accounts 0) s ->
  exists a b minted outstanding gift_a gift_b,
    let va := st_token_a s in let vb := st_token_b s in let m := st_pool_mint s in
    is_u64 n /\ 0 < a /\ 0 < b /\ 0 <= gift_a /\ 0 <= gift_b /\
    (supply w m = 0 /\ minted = 10 ^ 9 /\ outstanding = 10 ^ 9 \/
     supply w m <> 0 /\ minted = n /\ outstanding = supply w m) /\
    pool_tokens_to_trading_tokens (st_curve s) minted outstanding (balance w va) (balance w vb) Ceiling = Val (a, b) /\
    balance w' va = balance w va + a + gift_a /\ balance w' vb = balance w vb + b + gift_b /\
    supply w' m = supply w m + minted.
Proof.
  intros (W & I) H Hp. specialize (I _ _ Hp). pose proof (vaults_apart _ _ _ _ I) as Nv.
  pose proof (deposit_all_effect _ _ _ _ _ _ _ _ W H) as (s1 & a & b & Hp1 & Eff).
  apply deposit_all_trace in H.
  destruct H as (pool & authority & user & sa & sb & ka & kb & mint & dest & tp & rest & s' & ta & tb & pm
      & a' & b' & -> & Hn & Hma & Hmb & Hu & Hp' & Hpda & -> & -> & -> & _ & _ & N1 & N2 & _ & Hta & Htb & Hpm & H).
  cbn [nth] in *. cbv zeta in *. rewrite (pool_fun _ _ _ _ Hp' Hp), (pool_fun _ _ _ _ Hp1 Hp) in *.
  destruct (deposit_terms _ _ _) as [p sup]. destruct H as (_ & _ & _ & _ & _ & _ & Hrun).
  assert (Na : sa <> st_token_b s).
  { eapply (same_mint_apart _ _ _ _ (st_token_a s) _ sa I); unfold vault_of_pool; auto.
    left. exact (run_same_mint _ _ [] _ _ _ _ _ _ Hrun). }
  assert (Nb : sb <> st_token_a s).
  { eapply (same_mint_apart _ _ _ _ (st_token_b s) _ sb I); unfold vault_of_pool; auto.
    left. exact (run_same_mint _ _ [_] _ _ _ _ _ _ Hrun). }
  assert (G : forall k x, 0 <= x -> 0 <= only_at dest k x) by (intros k x X; unfold only_at; destruct (k =? dest); [exact X | apply Z.le_refl]).
  assert (Hn0 : 0 <= n) by (unfold is_u64 in Hn; lia).
  destruct (Z.eqb_spec (supply w (st_pool_mint s)) 0) as [Q | Q]; destruct Eff as (C & A & B & (Ba & S & _)).
  - exists a, b, (10 ^ 9), (10 ^ 9), (only_at dest (st_token_a s) (10 ^ 9)), (only_at dest (st_token_b s) (10 ^ 9)).
    split; [exact Hn |]. split; [lia |]. split; [lia |]. split; [apply G; lia |]. split; [apply G; lia |].
    split; [auto |]. split; [exact C |].
    rewrite !Ba, S, !only_at_same. rewrite !(only_at_other sa), !(only_at_other sb), !(only_at_other (st_token_a s)), !(only_at_other (st_token_b s)) by auto. lia.
  - exists a, b, n, (supply w (st_pool_mint s)), (only_at dest (st_token_a s) n), (only_at dest (st_token_b s) n).
    split; [exact Hn |]. split; [lia |]. split; [lia |]. split; [apply G; lia |]. split; [apply G; lia |].
    split; [auto |]. split; [exact C |].
    rewrite !Ba, S, !only_at_same. rewrite !(only_at_other sa), !(only_at_other sb), !(only_at_other (st_token_a s)), !(only_at_other (st_token_b s)) by auto. lia.
Qed.

Lemma deposit_single_vaults e signers w accounts n mp w' s : inv e w ->
  exec e signers w (DepositSingle accounts n mp) = Ok w' -> pool_at w (nth 0 accounts 0) s ->
  exists d minted gift_a gift_b,
    let va := st_token_a s in let vb := st_token_b s in let m := st_pool_mint s in
    is_u64 n /\ 0 < minted /\ 0 <= gift_a /\ 0 <= gift_b /\
    (if supply w m =? 0 then Val (10 ^ 9) else
       curve_deposit_single (st_curve s) n (balance w va) (balance w vb) (supply w m) d (st_fees s)) = Val minted /\
    balance w' va = balance w va + (match d with AtoB => n | BtoA => 0 end) + gift_a /\
    balance w' vb = balance w vb + (match d with AtoB => 0 | BtoA => n end) + gift_b /\
    supply w' m = supply w m + minted.
Proof.
  intros (W & I) H Hp. specialize (I _ _ Hp). pose proof (vaults_apart _ _ _ _ I) as Nv.
  pose proof H as H'. apply deposit_single_trace in H'.
  destruct H' as (pool & authority & user & source & ka & kb & mint & dest & tp & rest & s' & ts & ta & tb & pm
      & d & p & -> & Hn & Hmp & Hu & Hp' & Hpda & -> & -> & -> & _ & _ & Hts & Hta & Htb & Hpm & Hd & N & Hc & Mp & Np & Hrun).
  cbn [nth] in *. rewrite (pool_fun _ _ _ _ Hp' Hp) in *.
  pose proof (run_same_mint _ _ [] _ _ _ _ _ _ Hrun) as Sm.
  pose proof (mint_u64 _ _ _ W Hpm) as Um. unfold is_u64 in Um.
  assert (P0 : 0 < p) by (unfold is_u64 in Hmp; lia).
  assert (G : forall k, 0 <= only_at dest k p) by (intros k; unfold only_at; destruct (k =? dest); lia).
  exists d, p, (only_at dest (st_token_a s) p), (only_at dest (st_token_b s) p). cbv zeta.
  split; [exact Hn |]. split; [exact P0 |]. split; [apply G |]. split; [apply G |]. split.
  { rewrite (mint_supply _ _ _ Hpm), (token_balance _ _ _ Hta), (token_balance _ _ _ Htb).
    destruct Hc as [(L & Hc) | (L & ->)]; destruct (Z.eqb_spec (m_supply pm) 0); try lia; [exact Hc | reflexivity]. }
  apply run_change in Hrun. destruct Hrun as (B & S & _). rewrite !B, S. cbn [sum_ops op_balance op_supply].
  destruct d; cbn [vault_of] in *; rewrite !only_at_same.
  - assert (source <> st_token_b s)
      by (eapply (same_mint_apart _ _ _ _ (st_token_a s) _ source I); unfold vault_of_pool; auto).
    rewrite !(only_at_other source), !(only_at_other (st_token_a s)) by auto. lia.
  - assert (source <> st_token_a s)
      by (eapply (same_mint_apart _ _ _ _ (st_token_b s) _ source I); unfold vault_of_pool; auto).
    rewrite !(only_at_other source), !(only_at_other (st_token_b s)) by auto. lia.
Qed.

Lemma withdraw_all_vaults e signers w accounts n ma mb w' s : env_ok e -> inv e w -> signers_ok e signers ->
  exec e signers w (WithdrawAll accounts n ma mb) = Ok w' -> pool_at w (nth 0 accounts 0) s ->
  exists charge share_a share_b,
    let va := st_token_a s in let vb := st_token_b s in let m := st_pool_mint s in
    is_u64 n /\ 0 <= charge <= n /\ 0 <= share_a /\ 0 <= share_b /\
    pool_tokens_to_trading_tokens (st_curve s) (n - charge) (supply w m) (balance w va) (balance w vb) Floor
      = Val (share_a, share_b) /\
    balance w' va = balance w va - Z.min (balance w va) share_a /\
    balance w' vb = balance w vb - Z.min (balance w vb) share_b /\
    supply w' m = supply w m - (n - charge).
Proof.
  intros He (W & I) Sg H Hp. specialize (I _ _ Hp). pose proof (vaults_apart _ _ _ _ I) as Nv.
  pose proof (withdraw_all_effect _ _ _ _ _ _ _ _ W H) as Eff. apply withdraw_all_trace in H.
  destruct H as (pool & authority & user & mint & source & ka & kb & da & db & fee & tp & rest & s' & ta & tb & pm
      & wf & ra & rb & -> & Hn & Hma & Hmb & Hu & Hp' & Hpda & -> & -> & -> & -> & _ & _ & N1 & N2 & Hta & Htb & Hpm & H).
  cbn [nth] in *. cbv zeta in *. rewrite (pool_fun _ _ _ _ Hp' Hp) in *.
  destruct H as (_ & _ & _ & _ & Hc & R1 & R2 & Ma & Mb & Za & Zb & Hrun).
  destruct Eff as (s1 & ch & sa & sb & Hp1 & Fee & Ch & Q & Ba & Bb & A0 & B0 & _ & _ & (B & S & _)).
  rewrite (pool_fun _ _ _ _ Hp1 Hp) in *.
  exists ch, sa, sb. split; [exact Hn |]. split; [exact Ch |].
  split; [lia |]. split; [lia |]. split; [exact Q |].
  assert (Ns : forall v, vault_of_pool s v -> source <> v).
  { intros v Hv ->. unfold when in Hrun. destruct (0 <? wf).
    - (eapply user_no_vault; [exact He | exact I | exact Hv | exact Sg | exact Hu | | exact Hrun |]; reflexivity).
    - (eapply user_no_vault; [exact He | exact I | exact Hv | exact Sg | exact Hu | | exact Hrun |]; reflexivity). }
  assert (Sh : supply w (st_pool_mint s) - supply w' (st_pool_mint s) = n - wf /\ ch = wf).
  { assert (X : supply w' (st_pool_mint s) = supply w (st_pool_mint s) - (n - wf)).
    { apply run_change in Hrun. destruct Hrun as (_ & S' & _). rewrite S', !sum_app, !sum_when by (intros; reflexivity).
      cbn [sum_ops op_supply]. rewrite only_at_same. lia. }
    rewrite S, only_at_same in X. rewrite S, only_at_same. lia. }
  destruct Sh as (_ & ->).
  rewrite (mint_supply _ _ _ Hpm), (token_balance _ _ _ Hta), (token_balance _ _ _ Htb) in Q.
  assert (E : sa = ra /\ sb = rb) by (split; congruence). destruct E as (-> & ->).
  rewrite <- (token_balance _ _ _ Hta), <- (token_balance _ _ _ Htb) in Hrun.
  set (a := Z.min (balance w (st_token_a s)) ra) in *. set (b := Z.min (balance w (st_token_b s)) rb) in *.
  assert (Da : 0 < a -> da <> st_token_b s).
  { intros L. eapply (same_mint_apart _ _ _ _ (st_token_a s) _ da I); unfold vault_of_pool; auto. right.
    unfold when in Hrun at 2. rewrite (proj2 (Z.ltb_lt 0 a)) in Hrun by exact L.
    rewrite app_assoc in Hrun. exact (run_same_mint _ _ _ _ _ _ _ _ _ Hrun). }
  assert (Db : 0 < b -> db <> st_token_a s).
  { intros L. eapply (same_mint_apart _ _ _ _ (st_token_b s) _ db I); unfold vault_of_pool; auto. right.
    unfold when in Hrun at 3. rewrite (proj2 (Z.ltb_lt 0 b)) in Hrun by exact L.
    rewrite !app_assoc in Hrun. exact (run_same_mint _ _ _ _ _ _ _ _ _ Hrun). }
  assert (Oa : only_at da (st_token_b s) a = 0).
  { destruct (Z.eq_dec a 0) as [-> | Z0]; [apply only_at_zero; reflexivity |]. apply only_at_other. apply not_eq_sym, Da. lia. }
  assert (Ob : only_at db (st_token_a s) b = 0).
  { destruct (Z.eq_dec b 0) as [-> | Z0]; [apply only_at_zero; reflexivity |]. apply only_at_other. apply not_eq_sym, Db. lia. }
  destruct I as (au & _ & _ & _ & _ & _ & Nf1 & Nf2 & _).
  pose proof (Ns _ (or_introl eq_refl)) as Ns1. pose proof (Ns _ (or_intror eq_refl)) as Ns2.
  rewrite !B, S, !only_at_same, Oa, Ob.
  rewrite !(only_at_other source), !(only_at_other (st_pool_fee_account s)), (only_at_other da), (only_at_other db),
    (only_at_other (st_token_a s)), (only_at_other (st_token_b s)) by auto. lia.
Qed.

Lemma withdraw_single_vaults e signers w accounts n mp w' s : env_ok e -> inv e w -> signers_ok e signers ->
  exec e signers w (WithdrawSingle accounts n mp) = Ok w' -> pool_at w (nth 0 accounts 0) s ->
  exists d burnt charge,
    let va := st_token_a s in let vb := st_token_b s in let m := st_pool_mint s in
    is_u64 n /\ 0 < burnt /\ 0 <= charge /\
    curve_withdraw_single (st_curve s) n (balance w va) (balance w vb) (supply w m) d (st_fees s) = Val burnt /\
    balance w' va = balance w va - (match d with AtoB => n | BtoA => 0 end) /\
    balance w' vb = balance w vb - (match d with AtoB => 0 | BtoA => n end) /\
    supply w' m = supply w m - burnt.
Proof.
  intros He (W & I) Sg H Hp. specialize (I _ _ Hp). pose proof (vaults_apart _ _ _ _ I) as Nv.
  pose proof (withdraw_single_effect _ _ _ _ _ _ _ W H) as Eff. apply withdraw_single_trace in H.
  destruct H as (pool & authority & user & mint & source & ka & kb & dest & fee & tp & rest & s' & td & ta & tb & pm
      & d & p & wf & -> & Hn & Hmp & Hu & Hp' & Hpda & -> & -> & -> & -> & _ & _ & Htd & Hta & Htb & Hpm & Hd & N & Hc & Hfee
      & Mp & Np & P64 & Wf64 & Hrun).
  cbn [nth] in *. cbv zeta in *. rewrite (pool_fun _ _ _ _ Hp' Hp) in *.
  destruct Eff as (s1 & d1 & p1 & ch & Hp1 & _ & _ & Fee & P0 & C0 & _ & _ & (_ & S & _)).
  assert (p1 = p).
  { apply run_change in Hrun. destruct Hrun as (_ & S' & _). specialize (S (st_pool_mint s)).
    rewrite S', sum_app, sum_when in S by (intros; reflexivity). cbn [sum_ops op_supply] in S.
    rewrite !only_at_same in S. lia. }
  subst p1.
  assert (W0 : 0 <= wf).
  { rewrite (pool_fun _ _ _ _ Hp1 Hp) in Fee.
    destruct Hfee as [(E & ->) | (E & F)]; [lia |]. destruct Fee as [(E' & _) | (_ & F')]; [contradiction |]. congruence. }
  exists d, p, wf. split; [exact Hn |]. split.
  { destruct Hfee as [(_ & ->) | (_ & F)]; [lia |]. destruct (Z.eq_dec p 0) as [-> | Z0]; [exfalso | lia].
    unfold owner_withdraw_fee, calculate_fee in F. cbn in F. rewrite orb_true_r in F. injection F as <-. lia. }
  split; [exact W0 |]. split.
  { rewrite (mint_supply _ _ _ Hpm), (token_balance _ _ _ Hta), (token_balance _ _ _ Htb). exact Hc. }
  assert (Ns : forall v, vault_of_pool s v -> source <> v).
  { intros v Hv ->. unfold when in Hrun. destruct (0 <? wf);
      (eapply user_no_vault; [exact He | exact I | exact Hv | exact Sg | exact Hu | | exact Hrun |]; reflexivity). }
  assert (Sm : same_mint w (vault_of d (st_token_a s) (st_token_b s)) dest).
  { change [OBurn source (st_pool_mint s) user p; OTransfer (vault_of d (st_token_a s) (st_token_b s)) dest authority n]
      with ([OBurn source (st_pool_mint s) user p] ++ OTransfer (vault_of d (st_token_a s) (st_token_b s)) dest authority n :: []) in Hrun.
    rewrite app_assoc in Hrun. exact (run_same_mint _ _ _ _ _ _ _ _ _ Hrun). }
  assert (Dv : forall v, vault_of_pool s v -> dest <> v).
  { intros v Hv. destruct (Z.eq_dec v (vault_of d (st_token_a s) (st_token_b s))) as [-> | Q]; [exact N |].
    eapply (same_mint_apart _ _ _ _ (vault_of d (st_token_a s) (st_token_b s)) _ dest I); auto. apply vault_of_cases. }
  destruct I as (au & _ & _ & _ & _ & _ & Nf1 & Nf2 & _).
  pose proof (Ns _ (or_introl eq_refl)) as Ns1. pose proof (Ns _ (or_intror eq_refl)) as Ns2.
  pose proof (Dv _ (or_introl eq_refl)) as D1. pose proof (Dv _ (or_intror eq_refl)) as D2.
  apply run_change in Hrun. destruct Hrun as (B & S' & _). rewrite !B, S', !sum_app.
  rewrite !sum_when; try (intros; reflexivity).
  2,3: intros L; apply Z.ltb_ge in L; replace wf with 0 by lia; cbn [op_balance]; rewrite !only_at_zero by reflexivity; reflexivity.
  cbn [sum_ops op_balance op_supply]. rewrite !only_at_same.
  rewrite !(only_at_other source), !(only_at_other dest), !(only_at_other (st_pool_fee_account s)) by auto.
  destruct d; cbn [vault_of]; rewrite !only_at_same;
    [rewrite (only_at_other (st_token_a s)) by auto | rewrite (only_at_other (st_token_b s)) by auto]; lia.
Qed.
