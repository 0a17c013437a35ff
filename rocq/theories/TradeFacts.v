(** Swaps, deposits and withdrawals seen uniformly: calls of the token program
    made with the user's authority, or with the pool's on the pool's own accounts. *)
From Verif Require Import Ints Tactics Fees LinearCurve ConstantPrice SwapCurve Codec Token Processor Api History
  Spec LedgerSpec CurveFacts LinearFacts SwapFacts CodecFacts TokenFacts ProcFacts AmountFacts EffectFacts.

Definition own_op (s : swap_state) (i : instr) (authority user : Z) (o : op) : Prop :=
  match o with
  | OTransfer src _ a _ =>
      a = user \/ a = authority /\ (src = st_token_a s \/ src = st_token_b s) /\ pays_out i
  | OBurn _ _ a _ => a = user
  | OMint m _ a _ => a = authority /\ m = st_pool_mint s /\ mints i
  end.

Lemma vault_of_cases d ka kb : vault_of d ka kb = ka \/ vault_of d ka kb = kb.
Proof. destruct d; auto. Qed.

Lemma Forall_when (P : op -> Prop) x o : (0 < x -> P o) -> Forall P (when x o).
Proof. intros H. unfold when. destruct (Z.ltb_spec 0 x); auto. Qed.

Lemma trade_ops e signers w i w' : world_wf w -> exec e signers w i = Ok w' -> ~ creates i ->
  exists s authority user ops,
    pool_at w (named_pool i) s /\ create_pda e (named_pool i) (st_bump_seed s) = Some authority /\
    In user signers /\ run_ops (authority :: signers) w ops = Ok w' /\
    Forall (fun o => 0 <= op_amount o) ops /\ Forall (own_op s i authority user) ops.
Proof.
  intros W H Nc. destruct i as [| | l ain mout | l n ma mb | l n ma mb | l n mp | l n mp];
    cbn [creates] in Nc; try (exfalso; exact (Nc I)); unfold named_pool; cbn [instr_accounts].
  - pose proof (swap_effect _ _ _ _ _ _ _ W H) as Eff. apply swap_trace in H.
    destruct H as (pool & authority & user & source & ssrc & sdst & dest & mint & fee & tp & rest & s & ta & tb & pm
      & r & pt & -> & Ha & Hmo & Hu & Hp & Hpda & V1 & V2 & N1 & _ & _ & -> & _ & _ & _ & Hta & Htb & Hpm & H).
    cbn [nth] in *. cbv zeta in *. destruct H as (Hsw & Hy & Hx & Hpt & Hpt' & Hrun).
    destruct Eff as (s' & r' & pt' & Hp' & Sw' & X1 & X2 & X3 & _ & X4 & X5 & _).
    rewrite (pool_fun _ _ _ _ Hp' Hp) in *.
    rewrite (token_balance _ _ _ Hta), (token_balance _ _ _ Htb) in Sw'.
    assert (r' = r) by congruence. subst r'.
    exists s, authority, user, (swap_ops source ssrc sdst dest (st_pool_mint s) fee user authority
      (source_amount_swapped r) pt (destination_amount_swapped r)).
    do 4 (split; [assumption |]). unfold swap_ops. split.
    + constructor; [cbn; lia |]. apply Forall_app. split; [| constructor; [cbn; lia | constructor]].
      apply (Forall_when _ pt (OMint (st_pool_mint s) fee authority pt)). cbn. lia.
    + constructor; [cbn; auto |]. apply Forall_app. split.
      * apply (Forall_when _ pt (OMint (st_pool_mint s) fee authority pt)). cbn. auto.
      * constructor; [cbn | constructor]. right. auto.
  - pose proof (deposit_all_effect _ _ _ _ _ _ _ _ W H) as Eff. apply deposit_all_trace in H.
    destruct H as (pool & authority & user & sa & sb & ka & kb & mint & dest & tp & rest & s & ta & tb & pm
      & a & b & -> & Hn & Hma & Hmb & Hu & Hp & Hpda & -> & -> & -> & _ & _ & _ & _ & _ & Hta & Htb & Hpm & H).
    cbn [nth] in *. cbv zeta in *.
    destruct Eff as (s' & a' & b' & Hp' & Eff). rewrite (pool_fun _ _ _ _ Hp' Hp) in *.
    rewrite (token_balance _ _ _ Hta), (token_balance _ _ _ Htb), (mint_supply _ _ _ Hpm) in Eff.
    pose proof (mint_u64 _ _ _ W Hpm) as Um. unfold is_u64 in *.
    unfold deposit_terms, new_pool_supply in H.
    change INITIAL_SWAP_POOL_AMOUNT with (10 ^ 9) in H.
    destruct (Z.ltb_spec 0 (m_supply pm)) as [L | L], (Z.eqb_spec (m_supply pm) 0) as [Q | Q]; try lia;
      destruct H as (Hc & H1 & H2 & H3 & H4 & H5 & Hrun); destruct Eff as (Hc' & E1 & E2 & _);
      assert (a' = a /\ b' = b) as (-> & ->) by (split; congruence);
      (eexists s, authority, user, _; do 3 (split; [assumption |]); split; [exact Hrun |]; split;
       [repeat (constructor; [cbn [op_amount]; lia |]); constructor
       | repeat (constructor; [cbn; auto |]); constructor]).
  - pose proof (withdraw_all_effect _ _ _ _ _ _ _ _ W H) as Eff. apply withdraw_all_trace in H.
    destruct H as (pool & authority & user & mint & source & ka & kb & da & db & fee & tp & rest & s & ta & tb & pm
      & wf & ra & rb & -> & Hn & Hma & Hmb & Hu & Hp & Hpda & -> & -> & -> & _ & _ & _ & _ & _ & Hta & Htb & Hpm & H).
    cbn [nth] in *. cbv zeta in *. destruct H as (Hfee & Hwf & Hwf' & Hp64 & Hc & R1 & R2 & Ma & Mb & Za & Zb & Hrun).
    eexists s, authority, user, _. do 3 (split; [assumption |]). split; [exact Hrun |]. split.
    + repeat (apply Forall_app; split); try (apply Forall_when; cbn; lia).
      constructor; [cbn; lia | constructor].
    + repeat (apply Forall_app; split); try (apply Forall_when; cbn; auto).
      constructor; [cbn; auto | constructor].
  - apply deposit_single_trace in H.
    destruct H as (pool & authority & user & source & ka & kb & mint & dest & tp & rest & s & ts & ta & tb & pm
      & d & p & -> & Hn & Hmp & Hu & Hp & Hpda & -> & -> & -> & _ & _ & Hts & Hta & Htb & Hpm & Hd & Nv & Hc & Mp & Np & Hrun).
    cbn [nth]. eexists s, authority, user, _. do 3 (split; [assumption |]). split; [exact Hrun |].
    unfold is_u64 in *. split.
    + repeat (constructor; [cbn; lia |]); constructor.
    + repeat (constructor; [cbn; auto |]); constructor.
  - pose proof (withdraw_single_effect _ _ _ _ _ _ _ W H) as Eff. apply withdraw_single_trace in H.
    destruct H as (pool & authority & user & mint & source & ka & kb & dest & fee & tp & rest & s & td & ta & tb & pm
      & d & p & wf & -> & Hn & Hmp & Hu & Hp & Hpda & -> & -> & -> & _ & _ & _ & Htd & Hta & Htb & Hpm & Hd & Nv & Hc & Hfee
      & Mp & Np & P64 & Wf64 & Hrun).
    cbn [nth] in *. cbv zeta in *.
    pose proof (mint_u64 _ _ _ W Hpm) as Um.
    pose proof (token_u64 _ _ _ W Hta) as Ua. pose proof (token_u64 _ _ _ W Htb) as Ub. unfold is_u64 in *.
    destruct (pool_wf _ _ _ W Hp) as (Ws & _). destruct Ws as (_ & _ & _ & _ & _ & _ & _ & _ & Wf & Wc).
    assert (P0 : 0 <= p) by (eapply withdraw_single_nonneg; [exact Wc | | | | exact Hc]; lia).
    eexists s, authority, user, _. do 3 (split; [assumption |]). split; [exact Hrun |]. split.
    + apply Forall_app. split; [apply Forall_when; cbn; lia |].
      repeat (constructor; [cbn; lia |]); constructor.
    + apply Forall_app. split; [apply Forall_when; cbn; auto |].
      constructor; [cbn; auto |]. constructor; [cbn | constructor]. right. split; [reflexivity |].
      split; [apply vault_of_cases | exact I].
Qed.
