(** Requests that other people can block, and a pool that issues the token it trades. *)
From Verif Require Import Ints Tactics Fees LinearCurve SwapCurve Codec Token Processor Api History Spec LedgerSpec CallSpec LiveSpec
  CurveFacts SwapFacts LinearProps TokenFacts ProcFacts AmountFacts EffectFacts CreateFacts HistoryFacts VaultFacts ExactFacts LedgerExamples HistoryExamples LiveFacts LiveWithdraw.

(** Closing an empty token account is an external action of its owner. *)
Lemma close_external e w k t : world_wf w -> token_at w k t -> ~ is_pda e (t_owner t) ->
  external_ok e w (upd w k empty_account).
Proof.
  intros W (Ow & Hd) Np. split; intros j; (destruct (Z.eq_dec j k) as [-> | N]; [rewrite upd_same | rewrite upd_other by exact N]).
  - exact (Forall_nil _).
  - apply W.
  - unfold external_account_ok. rewrite Ow, Hd.
    split; [discriminate |]. split; [discriminate |]. split; [| discriminate].
    intros t' _ E P. injection E as <-. contradiction.
  - apply external_refl.
Qed.

Definition ex_buy : instr := Swap [300; auth 300; 901; 111; 301; 302; 112; 403; 303; TOKEN_PROGRAM_ID] 600 100.
Definition ex_leave : instr := WithdrawAll [300; auth 300; 901; 403; 304; 301; 302; 111; 112; 303; TOKEN_PROGRAM_ID] 500000000 0 0.
Definition ex_leave_a : instr := WithdrawSingle [300; auth 300; 901; 403; 304; 301; 302; 111; 303; TOKEN_PROGRAM_ID] 1000 (10 ^ 9).
Definition ex_closed : world := upd ex_w2 303 empty_account.
Definition fee_holder : token_account := mk_token 403 900 0 None 0 false false None.

Definition failed (r : result world) : bool := match r with Ok _ => false | Err _ => true end.
Lemma failed_spec r : failed r = true <-> ~ exists w, r = Ok w.
Proof.
  unfold failed. destruct r; split; intros H; try discriminate.
  - exfalso. apply H. eauto.
  - intros (w & E). discriminate.
  - reflexivity.
Qed.
Lemma ok_spec r : failed r = false -> exists w : world, r = Ok w.
Proof. unfold failed. destruct r; [eauto | discriminate]. Qed.

Lemma fee_holder_blocks : exists e w k t w', env_ok e /\ reachable e w /\ step e w External w' /\
  token_at w k t /\ t_owner t = 900 /\ t_amount t = 0 /\ w' k = empty_account /\ (forall j, j <> k -> w' j = w j) /\
  Forall (fun i => (exists w1, exec e [901] w i = Ok w1) /\ ~ exists w1, exec e [901] w' i = Ok w1)
    [ex_buy; ex_leave; ex_leave_a].
Proof.
  exists ex_env, ex_w2, 303, fee_holder, ex_closed.
  assert (T : token_at ex_w2 303 fee_holder) by (split; vm_compute; reflexivity).
  split; [exact ex_env_ok |]. split; [exact ex_reachable |]. split.
  { apply step_external. unfold ex_closed. apply (close_external _ _ _ fee_holder).
    - exact (proj1 (reachable_inv _ _ ex_env_ok ex_reachable)).
    - exact T.
    - intros P. apply (ex_signers 900 ltac:(lia) 900); [now left | exact P]. }
  split; [exact T |]. split; [reflexivity |]. split; [reflexivity |]. split; [apply upd_same |].
  split; [intros j N; apply upd_other; exact N |].
  repeat (apply Forall_cons; [split; [apply ok_spec | apply failed_spec]; vm_compute; reflexivity |]). apply Forall_nil.
Qed.

(** While the fee account is missing, nobody can take liquidity out of a pool that charges
    for it. *)
Lemma fee_positive f n charge : fees_wf f -> owner_withdraw_fee_num f <> 0 -> 0 < n ->
  owner_withdraw_fee f n = Val charge -> 0 < charge.
Proof.
  intros Hf Hz Hn H. pose proof (withdraw_fee_bound _ _ _ Hf (Z.lt_le_incl _ _ Hn) H) as C0.
  destruct (Z.eq_dec charge 0) as [-> | N]; [exfalso | lia].
  unfold owner_withdraw_fee, calculate_fee in H.
  destruct (Z.eqb_spec (owner_withdraw_fee_num f) 0) as [E | _]; [contradiction |].
  destruct (Z.eqb_spec n 0) as [E | _]; [lia |].
  revert H. cbn [orb]. intros H. repeat inv1.
  match goal with H : (if ?x =? 0 then _ else _) = _ |- _ => destruct (Z.eqb_spec x 0); [discriminate | congruence] end.
Qed.

Lemma no_fee_account_all e signers w accounts n ma mb s : world_wf w ->
  pool_at w (nth 0 accounts 0) s -> owner_withdraw_fee_num (st_fees s) <> 0 ->
  (forall t, ~ token_at w (st_pool_fee_account s) t) -> 0 < n ->
  ~ exists w', exec e signers w (WithdrawAll accounts n ma mb) = Ok w'.
Proof.
  intros Hwf Hp Hz Nt Hn (w' & H). apply withdraw_all_exact in H; [| exact Hwf].
  destruct H as (pool' & au' & user' & source' & dest_a' & dest_b' & rest' & s' & ta' & tb' & pm' & charge & sha & shb &
      -> & Un & _ & _ & _ & Hp' & _ & _ & Nda & Ndb & Ta' & Tb' & Pm' & Hch & Hcn & Hq & Ha & Hb & Hlim).
  cbn [nth] in Hp. destruct (pool_fun _ _ _ _ Hp Hp'). cbv zeta in Hlim. destruct Hlim as (_ & _ & _ & _ & Hc).
  destruct (pool_wf _ _ _ Hwf Hp) as [(_ & _ & _ & _ & _ & _ & _ & _ & Hff & _) _].
  destruct Hch as [[E ->] | [_ Hch]].
  - cbn [if_any Z.ltb Z.compare app calls_ok] in Hc. destruct Hc as (w1 & C1 & _). cbn [call_ok] in C1.
    destruct C1 as (mt & t2 & t2' & _ & T2 & _). rewrite <- E in T2. exact (Nt _ T2).
  - pose proof (fee_positive _ _ _ Hff Hz Hn Hch) as L. unfold if_any at 1 in Hc. apply Z.ltb_lt in L. rewrite L in Hc.
    cbn [app calls_ok] in Hc. destruct Hc as (w1 & C1 & _). cbn [call_ok] in C1.
    destruct C1 as (t1 & t2 & t1' & _ & T2 & _). exact (Nt _ T2).
Qed.

Lemma no_fee_account_single e signers w accounts n mp s : world_wf w ->
  pool_at w (nth 0 accounts 0) s -> owner_withdraw_fee_num (st_fees s) <> 0 ->
  (forall t, ~ token_at w (st_pool_fee_account s) t) ->
  ~ exists w', exec e signers w (WithdrawSingle accounts n mp) = Ok w'.
Proof.
  intros Hwf Hp Hz Nt (w' & H). apply withdraw_single_exact in H; [| exact Hwf].
  destruct H as (pool' & au' & user' & source' & dest' & rest' & s' & td' & ta' & tb' & pm' & d' & burnt & charge &
      -> & Un & _ & _ & Hp' & _ & _ & Td' & Ta' & Tb' & Pm' & Hpk' & Nd & Hq & Hch & Hmax & Hzz & Hc).
  cbn [nth] in Hp. destruct (pool_fun _ _ _ _ Hp Hp').
  destruct (pool_wf _ _ _ Hwf Hp) as [(_ & _ & _ & _ & _ & _ & _ & _ & Hff & Hcf) _].
  pose proof (token_u64 _ _ _ Hwf Ta') as Ua. pose proof (token_u64 _ _ _ Hwf Tb') as Ub. pose proof (mint_u64 _ _ _ Hwf Pm') as Um.
  assert (B0 : 0 <= burnt).
  { eapply withdraw_single_nonneg; [exact Hcf | .. | exact Hq];
      clear - Un Ua Ub Um; unfold is_u64, u64_max, u128_max in *; lia. }
  destruct Hch as [[E ->] | [_ Hch]].
  - cbn [if_any Z.ltb Z.compare app calls_ok] in Hc. destruct Hc as (w1 & C1 & _). cbn [call_ok] in C1.
    destruct C1 as (mt & t2 & t2' & _ & T2 & _). rewrite <- E in T2. exact (Nt _ T2).
  - assert (L0 : 0 < burnt).
    { destruct (Z.eq_dec burnt 0) as [-> | N]; [| clear - B0 N; lia]. exfalso. apply Hzz.
      unfold owner_withdraw_fee, calculate_fee in Hch. rewrite Z.eqb_refl, orb_true_r in Hch. injection Hch as <-. reflexivity. }
    pose proof (fee_positive _ _ _ Hff Hz L0 Hch) as L. unfold if_any at 1 in Hc. apply Z.ltb_lt in L. rewrite L in Hc.
    cbn [app calls_ok] in Hc. destruct Hc as (w1 & C1 & _). cbn [call_ok] in C1.
    destruct C1 as (t1 & t2 & t1' & _ & T2 & _). exact (Nt _ T2).
Qed.

(** Trades with linear pools depend neither on the fee account nor on the pool mint. *)
Lemma linear_swap_same e signers w w' pool authority s c user source ssrc sdst dest rest ain mout x :
  env_ok e -> reachable e w -> reachable e w' -> signers_ok e signers ->
  pool_at w pool s -> st_curve s = LinearPrice c -> find_pda e pool = Some (authority, st_bump_seed s) ->
  is_u64 ain -> is_u64 mout -> In user signers -> single_signer w user -> single_signer w authority ->
  (ssrc = st_token_a s /\ sdst = st_token_b s \/ ssrc = st_token_b s /\ sdst = st_token_a s) ->
  thawed w ssrc -> thawed w sdst ->
  wallet w source user (vault_mint_of s ssrc) x ->
  (forall k, In k [pool; authority; user; source; ssrc; sdst; dest] -> w' k = w k) ->
  let i := Swap (pool :: authority :: user :: source :: ssrc :: sdst :: dest
                    :: st_pool_mint s :: st_pool_fee_account s :: TOKEN_PROGRAM_ID :: rest) ain mout in
  (exists w1, exec e signers w i = Ok w1) <-> (exists w1, exec e signers w' i = Ok w1).
Proof.
  intros He Hr Hr' Hsig Hp Hl Hpda Hain Hmout Hus Hsu Hsa Hside Tsrc Tdst Hwal Hsame i. unfold i.
  assert (E : w' pool = w pool /\ w' authority = w authority /\ w' user = w user /\ w' source = w source /\
              w' ssrc = w ssrc /\ w' sdst = w sdst /\ w' dest = w dest).
  { repeat split; apply Hsame; cbn [In]; auto 10. }
  destruct E as (E1 & E2 & E3 & E4 & E5 & E6 & E7).
  rewrite (linear_swap_live e signers w pool authority s c user source ssrc sdst dest rest ain mout x) by assumption.
  rewrite (linear_swap_live e signers w' pool authority s c user source ssrc sdst dest rest ain mout x).
  - unfold balance, accepts, token_at. rewrite E5, E6, E7. reflexivity.
  - exact He.
  - exact Hr'.
  - exact Hsig.
  - unfold pool_at in *. rewrite E1. exact Hp.
  - exact Hl.
  - exact Hpda.
  - exact Hain.
  - exact Hmout.
  - exact Hus.
  - unfold single_signer in *. rewrite E3. exact Hsu.
  - unfold single_signer in *. rewrite E2. exact Hsa.
  - exact Hside.
  - unfold thawed, token_at in *. rewrite E5. exact Tsrc.
  - unfold thawed, token_at in *. rewrite E6. exact Tdst.
  - unfold wallet, token_at in *. rewrite E4. exact Hwal.
Qed.

(** A linear pool whose collateral is its own pool token. *)
Definition own_w0 : world := of_list
  [ (100, zeroed); (101, tok 203 (auth 100) 0); (102, tok 202 (auth 100) 5000); (203, a_mint (auth 100) 0);
    (103, tok 203 900 0); (104, tok 203 901 0); (112, tok 202 901 0); (202, a_mint 999 0) ].
Definition own_w1 : world := run1 [100] own_w0 ex_init1.

Lemma own_genesis : genesis_ok own_w0.
Proof.
  split.
  - intros k. apply (of_list_all _ (fun _ a => account_wf a)); [intros ?; exact (Forall_nil _) |].
    repeat (apply Forall_cons; [| try apply Forall_nil]);
      cbn [snd]; unfold account_wf, zeroed, tok, a_mint; cbn [a_data]; unfold is_u64, u64_max, is_pubkey;
      try (cbn; vm_compute; intuition congruence).
    all: apply Forall_forall; intros x Hx; apply repeat_spec in Hx; subst; unfold is_u8; lia.
  - intros k. apply (of_list_all _ (fun _ a => a_owner a = PROGRAM_ID -> ~ versioned (a_data a))).
    + intros _ H. discriminate H.
    + repeat (apply Forall_cons; [| try apply Forall_nil]); cbn [snd]; intros H; try discriminate H; intros (l & E); discriminate E.
Qed.

Lemma own_token : exists e w pool s, env_ok e /\ reachable e w /\ pool_at w pool s /\
  st_pool_mint s = st_token_a_mint s /\
  exists signers i w', step e w (Instruction signers i) w' /\ 
    balance w (st_token_a s) = 0 /\ balance w (st_token_b s) = 5000 /\ balance w' (st_token_b s) = 0.
Proof.
  assert (Hr : reachable ex_env own_w1).
  { apply (reachable_step _ own_w0 (Instruction [100] ex_init1)).
    - exists own_w0, []. split; [apply own_genesis | constructor].
    - apply ex_run; [apply ex_signers; lia | keys_ok | reflexivity | vm_compute; reflexivity]. }
  exists ex_env, own_w1, 100,
    (mk_swap_state true 255 TOKEN_PROGRAM_ID 101 102 203 203 202 103 linear_fees (LinearPrice (mk_linear 1 2 50 1))).
  split; [exact ex_env_ok |]. split; [exact Hr |]. split; [split; vm_compute; reflexivity |]. split; [reflexivity |].
  set (i := Swap [100; auth 100; 901; 104; 101; 102; 112; 203; 103; TOKEN_PROGRAM_ID] (10 ^ 9) 0).
  exists [901], i, (run1 [901] own_w1 i). split.
  { apply ex_run; [apply ex_signers; lia | unfold i; keys_ok | reflexivity | vm_compute; reflexivity]. }
  repeat split; vm_compute; reflexivity.
Qed.

(** With honest books a pool can only issue the token it trades if that vault is empty. *)
Lemma own_token_empty e signers w i w' : env_ok e -> world_wf w -> Forall is_pubkey (instr_accounts i) ->
  creates i -> exec e signers w i = Ok w' ->
  (forall k t, token_at w k t -> t_amount t <= supply w (t_mint t)) ->
  exists s, pool_at w' (named_pool i) s /\
    (st_pool_mint s = st_token_a_mint s ->
       (exists l, st_curve s = LinearPrice l) /\ balance w (st_token_a s) = 0) /\
    (st_pool_mint s = st_token_b_mint s ->
       (exists p, st_curve s = ConstantPrice p) /\ balance w (st_token_b s) = 0).
Proof.
  intros He Hwf Hpk Hc H Hbooks.
  pose proof (create_effect _ _ _ _ _ He Hwf Hpk Hc H) as X. cbv zeta in X.
  destruct X as (f & c & bump & ta & tb & tf & td & pm & Hreq & _ & _ & _ & _ & _ & _ & Ta & Tb & _ & _ & Pm & _ & _ & _ &
    _ & _ & _ & _ & S0 & _ & _ & _ & _ & _ & _ & _ & _ & _ & Vs & Hp & _).
  assert (Hk : match c with ConstantPrice _ | LinearPrice _ => True | _ => False end).
  { destruct i; try contradiction; cbn [requested] in Hreq; injection Hreq as _ <-; exact I. }
  assert (Za : nth 4 (instr_accounts i) 0 = t_mint ta -> t_amount ta = 0).
  { intros E. pose proof (Hbooks _ _ Ta) as B. rewrite <- E, (mint_supply _ _ _ Pm), S0 in B.
    pose proof (token_u64 _ _ _ Hwf Ta) as U. clear - B U. unfold is_u64 in U. lia. }
  assert (Zb : nth 4 (instr_accounts i) 0 = t_mint tb -> t_amount tb = 0).
  { intros E. pose proof (Hbooks _ _ Tb) as B. rewrite <- E, (mint_supply _ _ _ Pm), S0 in B.
    pose proof (token_u64 _ _ _ Hwf Tb) as U. clear - B U. unfold is_u64 in U. lia. }
  eexists. split; [exact Hp |]. cbn [st_pool_mint st_token_a_mint st_token_b_mint st_curve st_token_a st_token_b].
  rewrite (token_balance _ _ _ Ta), (token_balance _ _ _ Tb). split; intros E.
  - specialize (Za E). split; [| exact Za]. destruct c; try contradiction; [| eauto].
    exfalso. cbn [curve_validate_supply] in Vs. unfold ConstantPrice.cprice_validate_supply in Vs. rewrite Za in Vs. discriminate.
  - specialize (Zb E). split; [| exact Zb]. destruct c; try contradiction; [eauto |].
    exfalso. cbn [curve_validate_supply] in Vs. unfold linear_validate_supply in Vs. rewrite Zb in Vs.
    destruct (t_amount ta =? 0); discriminate.
Qed.
