(** What a successful instruction does to the ledger. *)
From Verif Require Import Ints Tactics Fees LinearCurve ConstantPrice SwapCurve Codec Token Processor Api History
  Spec LedgerSpec
  CurveFacts LinearFacts SwapFacts CodecFacts TokenFacts ProcFacts AmountFacts.

Lemma raw_u8 w k : world_wf w -> Forall is_u8 (raw_of (a_data (w k))).
Proof.
  intros W. specialize (W k). unfold account_wf in W. destruct (a_data (w k)); cbn [raw_of]; auto.
Qed.
Lemma pool_wf w k s : world_wf w -> pool_at w k s -> swap_state_wf s /\ st_is_initialized s = true.
Proof. intros W (_ & H). apply pack_unpack in H; [tauto | now apply raw_u8]. Qed.
Lemma pool_fun w k s s' : pool_at w k s -> pool_at w k s' -> s = s'.
Proof. intros (_ & H) (_ & H'). congruence. Qed.
Lemma token_u64 w k t : world_wf w -> token_at w k t -> is_u64 (t_amount t).
Proof. intros W (_ & H). specialize (W k). unfold account_wf in W. rewrite H in W. tauto. Qed.
Lemma mint_u64 w k t : world_wf w -> mint_at w k t -> is_u64 (m_supply t).
Proof. intros W (_ & H). specialize (W k). unfold account_wf in W. rewrite H in W. tauto. Qed.
Lemma balance_u64 w k : world_wf w -> is_u64 (balance w k).
Proof.
  intros W. specialize (W k). unfold account_wf in W. unfold balance, is_u64, u64_max in *.
  destruct (_ =? _); [destruct (a_data (w k)) |]; try lia; tauto.
Qed.
Lemma supply_u64 w k : world_wf w -> is_u64 (supply w k).
Proof.
  intros W. specialize (W k). unfold account_wf in W. unfold supply, is_u64, u64_max in *.
  destruct (_ =? _); [destruct (a_data (w k)) |]; try lia; tauto.
Qed.

Definition ops_sources (l : list op) : list Z :=
  flat_map (fun o => match op_source o with Some k => [k] | None => [] end) l.

Lemma run_change signed l w w' : run_ops signed w l = Ok w' ->
  ledger_change w w' (sum_ops op_balance l) (sum_ops op_supply l) (ops_keys l) (ops_sources l).
Proof.
  intros H. apply run_effect in H. destruct H as (_ & H2 & H3 & H4 & _ & _ & H7 & H8).
  unfold ledger_change. repeat (split; [assumption |]). split; [| assumption].
  intros k Hk. apply H7. intros o Ho E. apply Hk. unfold ops_sources. apply in_flat_map.
  exists o. rewrite E. split; [exact Ho | now left].
Qed.
Lemma change_weaken w w' db ds t d db' ds' t' d' :
  ledger_change w w' db ds t d -> (forall k, db k = db' k) -> (forall k, ds k = ds' k) ->
  incl t t' -> incl d d' -> ledger_change w w' db' ds' t' d'.
Proof.
  intros (A & B & C & D & E) H1 H2 H3 H4. repeat split; try assumption.
  - intros k. rewrite <- H1. apply A.
  - intros k. rewrite <- H2. apply B.
  - intros k Hk. apply C. intros F. apply Hk. auto.
  - intros k Hk. apply D. intros F. apply Hk. auto.
Qed.

Lemma sum_when f x o k : (0 <? x = false -> f o k = 0) -> sum_ops f (when x o) k = f o k.
Proof. intros H. unfold when. destruct (0 <? x); cbn [sum_ops]; [lia | rewrite H; auto]. Qed.
Lemma sum_app f l l' k : sum_ops f (l ++ l') k = sum_ops f l k + sum_ops f l' k.
Proof. induction l as [| o l IH]; cbn [app sum_ops]; [reflexivity | rewrite IH; lia]. Qed.
Lemma only_at_zero k j x : x = 0 -> only_at k j x = 0.
Proof. intros ->. unfold only_at. destruct (_ =? _); reflexivity. Qed.
Lemma zero_of x : 0 <= x -> (0 <? x) = false -> x = 0.
Proof. intros H E. apply Z.ltb_ge in E. lia. Qed.

Lemma keys_when x o : incl (ops_keys (when x o)) (op_keys o).
Proof. unfold when. destruct (0 <? x); cbn; [rewrite app_nil_r; apply incl_refl | intros ? []]. Qed.
Lemma keys_app l l' : ops_keys (l ++ l') = ops_keys l ++ ops_keys l'.
Proof. apply flat_map_app. Qed.
Lemma sources_app l l' : ops_sources (l ++ l') = ops_sources l ++ ops_sources l'.
Proof. apply flat_map_app. Qed.
Lemma sources_when x o : incl (ops_sources (when x o)) (match op_source o with Some k => [k] | None => [] end).
Proof. unfold when. destruct (0 <? x); cbn; [rewrite app_nil_r; apply incl_refl | intros ? []]. Qed.

(** ** Swap *)
Lemma creatable_pays c source ss sd d f r :
  curve_wf c -> fees_wf f -> is_u64 source -> is_u64 ss -> is_u64 sd -> creatable c ->
  curve_swap c source ss sd d f = Val r -> 0 < source_amount_swapped r /\ 0 < destination_amount_swapped r.
Proof.
  intros Hc Hf Hs Hss Hsd Hcr H. pose proof (curve_swap_bounds _ _ _ _ _ _ _ Hc Hf Hs Hss Hsd H) as B.
  split; [| destruct B as (_ & _ & _ & _ & _ & _ & B); apply B; destruct c; cbn in *; tauto].
  unfold curve_swap in H. obs H. destruct v3 as [src0 dst]. obs H. injection H as <-.
  cbn [source_amount_swapped trade_fee owner_fee] in *.
  assert (Hl : is_u64 v2).
  { apply csub_val in E2. unfold is_u64 in *. apply add_in_val in E1. lia. }
  assert (0 < src0).
  { destruct c; try contradiction; cbn [swap_without_fees curve_wf] in *.
    - match goal with E : cprice_swap _ _ _ = _ |- _ => apply cprice_swap_bounds in E; try assumption; lia end.
    - match goal with E : linear_swap _ _ _ _ _ = _ |- _ => apply linear_swap_bounds in E; try assumption; lia end. }
  apply add_in_val in E4. apply add_in_val in E1. lia.
Qed.

Lemma swap_effect e signers w accounts ain mout w' : world_wf w ->
  exec e signers w (Swap accounts ain mout) = Ok w' ->
  let pool := nth 0 accounts 0 in let source := nth 3 accounts 0 in
  let ssrc := nth 4 accounts 0 in let sdst := nth 5 accounts 0 in
  let dest := nth 6 accounts 0 in let mint := nth 7 accounts 0 in let fee := nth 8 accounts 0 in
  exists s r minted, pool_at w pool s /\
    let d := if ssrc =? st_token_a s then AtoB else BtoA in
    let x := source_amount_swapped r in let y := destination_amount_swapped r in
    curve_swap (st_curve s) ain (balance w ssrc) (balance w sdst) d (st_fees s) = Val r /\
    0 <= x <= ain /\ mout <= y <= balance w sdst /\ 0 <= y /\
    (creatable (st_curve s) -> 0 < x /\ 0 < y) /\
    curve_withdraw_single (st_curve s) (owner_fee r)
      (side_a d (balance w ssrc + x) (balance w sdst - y))
      (side_b d (balance w ssrc + x) (balance w sdst - y)) (supply w mint) d (st_fees s) = Val minted /\
    0 <= minted /\
    ledger_change w w'
      (fun k => only_at ssrc k x - only_at source k x + only_at dest k y - only_at sdst k y
                + only_at fee k minted)
      (fun k => only_at mint k minted)
      [source; ssrc; mint; fee; sdst; dest] [source; sdst].
Proof.
  intros W H. apply swap_trace in H.
  destruct H as (pool & authority & user & source & ssrc & sdst & dest & mint & fee & tp & rest & s & ta & tb & pm
    & r & pt & -> & Ha & Hmo & Hu & Hp & Hpda & _ & _ & N1 & _ & _ & _ & _ & _ & _ & Hta & Htb & Hpm & H).
  cbn [nth]. cbv zeta in *. destruct H as (Hsw & Hy & Hx & Hpt & Hpt' & Hrun).
  exists s, r, pt. split; [exact Hp |].
  rewrite (token_balance _ _ _ Hta), (token_balance _ _ _ Htb), (mint_supply _ _ _ Hpm).
  destruct (pool_wf _ _ _ W Hp) as (Ws & _). destruct Ws as (_ & _ & _ & _ & _ & _ & _ & _ & Wf & Wc).
  pose proof (token_u64 _ _ _ W Hta) as Ua. pose proof (token_u64 _ _ _ W Htb) as Ub.
  pose proof (curve_swap_bounds _ _ _ _ _ _ _ Wc Wf Ha Ua Ub Hsw) as (B1 & B2 & B3 & B4 & B5 & B6 & _).
  rewrite <- B5, <- B6.
  assert (P0 : 0 <= pt).
  { pose proof (mint_u64 _ _ _ W Hpm). unfold is_u64 in *.
    eapply withdraw_single_nonneg; [exact Wc | | | | exact Hpt]; destruct (ssrc =? st_token_a s); cbn [side_a side_b]; lia. }
  split; [exact Hsw |]. split; [lia |]. split; [lia |]. split; [lia |].
  split; [intros Hcr; exact (creatable_pays _ _ _ _ _ _ _ Wc Wf Ha Ua Ub Hcr Hsw) |].
  split; [exact Hpt |]. split; [exact P0 |].
  apply run_change in Hrun. eapply change_weaken; [exact Hrun | | | |]; unfold swap_ops; intros k.
  - cbn [sum_ops op_balance]. rewrite sum_app. cbn [sum_ops op_balance].
    rewrite (sum_when op_balance pt (OMint mint fee authority pt)) by (intros E; cbn; apply only_at_zero, zero_of; assumption).
    cbn [op_balance]. lia.
  - cbn [sum_ops op_supply]. rewrite sum_app. cbn [sum_ops op_supply].
    rewrite (sum_when op_supply pt (OMint mint fee authority pt)) by (intros E; cbn; apply only_at_zero, zero_of; assumption).
    cbn [op_supply]. lia.
  - cbn [ops_keys flat_map]. fold ops_keys. intros Hk.
    change (In k (op_keys (OTransfer source ssrc user (source_amount_swapped r)) ++
      ops_keys (when pt (OMint mint fee authority pt) ++ [OTransfer sdst dest authority (destination_amount_swapped r)]))) in Hk.
    rewrite keys_app in Hk. rewrite !in_app_iff in Hk. destruct Hk as [Hk | [Hk | Hk]].
    + cbn in *. tauto.
    + apply keys_when in Hk. cbn in *. tauto.
    + cbn in *. tauto.
  - intros Hk.
    change (In k (source :: ops_sources (when pt (OMint mint fee authority pt) ++ [OTransfer sdst dest authority (destination_amount_swapped r)]))) in Hk.
    rewrite sources_app in Hk. destruct Hk as [Hk | Hk]; [cbn; tauto |]. rewrite in_app_iff in Hk.
    destruct Hk as [Hk | Hk]; [apply sources_when in Hk; destruct Hk | cbn in *; tauto].
Qed.

Ltac chg Hrun :=
  apply run_change in Hrun; (eapply change_weaken; [exact Hrun | | | |]); intros k.
Ltac sums :=
  rewrite ?sum_app;
  repeat match goal with |- context [sum_ops ?f (when ?x ?o) ?k] =>
    rewrite (sum_when f x o k) by (intros E; cbn; rewrite ?only_at_zero by (apply zero_of; [lia | exact E]); reflexivity) end;
  cbn [sum_ops op_balance op_supply]; try lia.
Ltac keys :=
  let Hk := fresh "Hk" in intros Hk;
  rewrite ?keys_app, ?sources_app in Hk; rewrite ?in_app_iff in Hk;
  repeat match goal with
  | Hk : _ \/ _ |- _ => destruct Hk as [Hk | Hk]
  | Hk : In _ (ops_keys (when _ _)) |- _ => apply keys_when in Hk
  | Hk : In _ (ops_sources (when _ _)) |- _ => apply sources_when in Hk
  end; cbn in *; try tauto.

Lemma deposit_all_effect e signers w accounts n ma mb w' : world_wf w ->
  exec e signers w (DepositAll accounts n ma mb) = Ok w' ->
  let pool := nth 0 accounts 0 in let source_a := nth 3 accounts 0 in let source_b := nth 4 accounts 0 in
  let vault_a := nth 5 accounts 0 in let vault_b := nth 6 accounts 0 in
  let mint := nth 7 accounts 0 in let dest := nth 8 accounts 0 in
  exists s a b, pool_at w pool s /\
    let (minted, outstanding) := if supply w mint =? 0 then (10 ^ 9, 10 ^ 9) else (n, supply w mint) in
    pool_tokens_to_trading_tokens (st_curve s) minted outstanding (balance w vault_a) (balance w vault_b)
      Ceiling = Val (a, b) /\
    0 < a <= ma /\ 0 < b <= mb /\
    ledger_change w w'
      (fun k => only_at vault_a k a - only_at source_a k a + only_at vault_b k b - only_at source_b k b
                + only_at dest k minted)
      (fun k => only_at mint k minted)
      [source_a; vault_a; source_b; vault_b; mint; dest] [source_a; source_b].
Proof.
  intros W H. apply deposit_all_trace in H.
  destruct H as (pool & authority & user & sa & sb & ka & kb & mint & dest & tp & rest & s & ta & tb & pm
    & a & b & -> & Hn & Hma & Hmb & Hu & Hp & Hpda & _ & _ & _ & _ & _ & _ & _ & _ & Hta & Htb & Hpm & H).
  cbn [nth]. cbv zeta. exists s, a, b. split; [exact Hp |].
  rewrite (token_balance _ _ _ Hta), (token_balance _ _ _ Htb), (mint_supply _ _ _ Hpm).
  pose proof (mint_u64 _ _ _ W Hpm) as Um. unfold is_u64 in Um.
  pose proof (token_u64 _ _ _ W Hta) as Ua. pose proof (token_u64 _ _ _ W Htb) as Ub. unfold is_u64 in *.
  destruct (pool_wf _ _ _ W Hp) as (Ws & _). destruct Ws as (_ & _ & _ & _ & _ & _ & _ & _ & Wf & Wc).
  unfold deposit_terms, new_pool_supply in H.
  destruct (Z.ltb_spec 0 (m_supply pm)) as [L | L], (Z.eqb_spec (m_supply pm) 0) as [Q | Q]; try lia;
    destruct H as (Hc & H1 & H2 & H3 & H4 & H5 & Hrun).
  - split; [exact Hc |].
    apply tokens_nonneg in Hc; [| exact Wc | lia | lia | lia | lia]. split; [lia |]. split; [lia |].
    chg Hrun; [sums | sums | keys | keys].
  - change INITIAL_SWAP_POOL_AMOUNT with (10 ^ 9) in *. split; [exact Hc |].
    apply tokens_nonneg in Hc; [| exact Wc | lia | lia | lia | lia]. split; [lia |]. split; [lia |].
    chg Hrun; [sums | sums | keys | keys].
Qed.

Lemma withdraw_fee_bound f n wf : fees_wf f -> 0 <= n -> owner_withdraw_fee f n = Val wf -> 0 <= wf.
Proof.
  intros (_ & _ & _ & _ & A & B & _) Hn H. unfold is_u64 in *.
  eapply calculate_fee_nonneg; [| | | exact H]; lia.
Qed.

Lemma withdraw_all_effect e signers w accounts n ma mb w' : world_wf w ->
  exec e signers w (WithdrawAll accounts n ma mb) = Ok w' ->
  let pool := nth 0 accounts 0 in let mint := nth 3 accounts 0 in let source := nth 4 accounts 0 in
  let vault_a := nth 5 accounts 0 in let vault_b := nth 6 accounts 0 in
  let dest_a := nth 7 accounts 0 in let dest_b := nth 8 accounts 0 in let fee := nth 9 accounts 0 in
  exists s charge share_a share_b, pool_at w pool s /\
    (fee = source /\ charge = 0 \/ fee <> source /\ owner_withdraw_fee (st_fees s) n = Val charge) /\
    0 <= charge <= n /\
    pool_tokens_to_trading_tokens (st_curve s) (n - charge) (supply w mint)
      (balance w vault_a) (balance w vault_b) Floor = Val (share_a, share_b) /\
    let a := Z.min (balance w vault_a) share_a in let b := Z.min (balance w vault_b) share_b in
    ma <= a <= balance w vault_a /\ mb <= b <= balance w vault_b /\ 0 <= a /\ 0 <= b /\
    (a = 0 -> balance w vault_a = 0) /\ (b = 0 -> balance w vault_b = 0) /\
    ledger_change w w'
      (fun k => only_at fee k charge - only_at source k n + only_at dest_a k a - only_at vault_a k a
                + only_at dest_b k b - only_at vault_b k b)
      (fun k => - only_at mint k (n - charge))
      [source; fee; mint; vault_a; dest_a; vault_b; dest_b] [source; vault_a; vault_b].
Proof.
  intros W H. apply withdraw_all_trace in H.
  destruct H as (pool & authority & user & mint & source & ka & kb & da & db & fee & tp & rest & s & ta & tb & pm
    & wf & ra & rb & -> & Hn & Hma & Hmb & Hu & Hp & Hpda & _ & _ & _ & _ & _ & _ & _ & _ & Hta & Htb & Hpm & H).
  cbn [nth]. cbv zeta in *. destruct H as (Hfee & Hwf & Hwf' & Hp64 & Hc & R1 & R2 & Ma & Mb & Za & Zb & Hrun).
  exists s, wf, ra, rb. split; [exact Hp |].
  rewrite (token_balance _ _ _ Hta), (token_balance _ _ _ Htb), (mint_supply _ _ _ Hpm).
  pose proof (mint_u64 _ _ _ W Hpm) as Um.
  pose proof (token_u64 _ _ _ W Hta) as Ua. pose proof (token_u64 _ _ _ W Htb) as Ub. unfold is_u64 in *.
  destruct (pool_wf _ _ _ W Hp) as (Ws & _). destruct Ws as (_ & _ & _ & _ & _ & _ & _ & _ & Wf & Wc).
  assert (W0 : 0 <= wf).
  { destruct Hfee as [(_ & ->) | (_ & Hf)]; [lia |]. eapply withdraw_fee_bound; [exact Wf | | exact Hf]; lia. }
  assert (Hc' := Hc). apply tokens_nonneg in Hc'; [| exact Wc | lia | lia | lia | lia].
  split; [exact Hfee |]. split; [lia |]. split; [exact Hc |]. split; [lia |]. split; [lia |].
  split; [lia |]. split; [lia |]. split; [exact Za |]. split; [exact Zb |].
  chg Hrun; [sums | sums | keys | keys].
  unfold only_at. destruct (k =? source); lia.
Qed.

Lemma run_same_mint signed w l1 s d a x l2 w' : run_ops signed w (l1 ++ OTransfer s d a x :: l2) = Ok w' ->
  same_mint w s d.
Proof.
  intros H. rewrite run_app in H. apply rbind_ok in H. destruct H as (w1 & H1 & H2).
  cbn [run_ops] in H2. apply rbind_ok in H2. destruct H2 as (w2 & H2 & _).
  apply transfer_ok in H2. destruct H2 as (ts & td & _ & Hs & Hd & Hm & _).
  apply run_effect in H1. destruct H1 as (_ & _ & _ & _ & _ & _ & _ & H8).
  destruct (sans_token w1 w s ts) as (t1 & T1 & M1 & _); [symmetry; apply H8 | exact Hs |].
  destruct (sans_token w1 w d td) as (t2 & T2 & M2 & _); [symmetry; apply H8 | exact Hd |].
  exists t1, t2. repeat split; try apply T1; try apply T2. congruence.
Qed.

Lemma deposit_single_effect e signers w accounts n mp w' : world_wf w ->
  exec e signers w (DepositSingle accounts n mp) = Ok w' ->
  let pool := nth 0 accounts 0 in let source := nth 3 accounts 0 in
  let vault_a := nth 4 accounts 0 in let vault_b := nth 5 accounts 0 in
  let mint := nth 6 accounts 0 in let dest := nth 7 accounts 0 in
  exists s d minted, pool_at w pool s /\
    let vault := match d with AtoB => vault_a | BtoA => vault_b end in
    same_mint w source vault /\
    (if supply w mint =? 0 then Val (10 ^ 9) else
       curve_deposit_single (st_curve s) n (balance w vault_a) (balance w vault_b) (supply w mint) d (st_fees s))
      = Val minted /\
    mp <= minted /\ 0 < minted /\ 0 <= n /\
    ledger_change w w'
      (fun k => only_at vault k n - only_at source k n + only_at dest k minted)
      (fun k => only_at mint k minted)
      [source; vault; mint; dest] [source].
Proof.
  intros W H. apply deposit_single_trace in H.
  destruct H as (pool & authority & user & source & ka & kb & mint & dest & tp & rest & s & ts & ta & tb & pm
    & d & p & -> & Hn & Hmp & Hu & Hp & Hpda & _ & _ & _ & _ & _ & Hts & Hta & Htb & Hpm & Hd & Nv & Hc & Mp & Np & Hrun).
  cbn [nth]. cbv zeta in *. exists s, d, p. split; [exact Hp |].
  split. { exact (run_same_mint _ _ [] _ _ _ _ _ _ Hrun). }
  rewrite (token_balance _ _ _ Hta), (token_balance _ _ _ Htb), (mint_supply _ _ _ Hpm).
  pose proof (mint_u64 _ _ _ W Hpm) as Um. unfold is_u64 in *.
  split.
  { destruct Hc as [(L & Hc) | (L & ->)].
    - destruct (Z.eqb_spec (m_supply pm) 0); [lia | exact Hc].
    - destruct (Z.eqb_spec (m_supply pm) 0); [reflexivity | lia]. }
  split; [lia |]. split; [lia |]. split; [lia |].
  chg Hrun; unfold vault_of; [sums | sums | keys | keys].
Qed.

Lemma withdraw_single_effect e signers w accounts n mp w' : world_wf w ->
  exec e signers w (WithdrawSingle accounts n mp) = Ok w' ->
  let pool := nth 0 accounts 0 in let mint := nth 3 accounts 0 in let source := nth 4 accounts 0 in
  let vault_a := nth 5 accounts 0 in let vault_b := nth 6 accounts 0 in
  let dest := nth 7 accounts 0 in let fee := nth 8 accounts 0 in
  exists s d burnt charge, pool_at w pool s /\
    let vault := match d with AtoB => vault_a | BtoA => vault_b end in
    same_mint w vault dest /\
    curve_withdraw_single (st_curve s) n (balance w vault_a) (balance w vault_b) (supply w mint) d (st_fees s)
      = Val burnt /\
    (fee = source /\ charge = 0 \/ fee <> source /\ owner_withdraw_fee (st_fees s) burnt = Val charge) /\
    0 <= burnt /\ 0 <= charge /\ 0 < burnt + charge <= mp /\ 0 <= n /\
    ledger_change w w'
      (fun k => only_at fee k charge - only_at source k (burnt + charge) + only_at dest k n - only_at vault k n)
      (fun k => - only_at mint k burnt)
      [source; fee; mint; vault; dest] [source; vault].
Proof.
  intros W H. apply withdraw_single_trace in H.
  destruct H as (pool & authority & user & mint & source & ka & kb & dest & fee & tp & rest & s & td & ta & tb & pm
    & d & p & wf & -> & Hn & Hmp & Hu & Hp & Hpda & _ & _ & _ & _ & _ & _ & Htd & Hta & Htb & Hpm & Hd & Nv & Hc & Hfee
    & Mp & Np & P64 & Wf64 & Hrun).
  cbn [nth]. cbv zeta in *. exists s, d, p, wf. split; [exact Hp |].
  split.
  { refine (run_same_mint (authority :: signers) w (when wf (OTransfer source fee user wf) ++ [OBurn source mint user p])
      (vault_of d ka kb) dest authority n [] w' _). rewrite <- app_assoc. exact Hrun. }
  rewrite (token_balance _ _ _ Hta), (token_balance _ _ _ Htb), (mint_supply _ _ _ Hpm).
  pose proof (mint_u64 _ _ _ W Hpm) as Um.
  pose proof (token_u64 _ _ _ W Hta) as Ua. pose proof (token_u64 _ _ _ W Htb) as Ub. unfold is_u64 in *.
  destruct (pool_wf _ _ _ W Hp) as (Ws & _). destruct Ws as (_ & _ & _ & _ & _ & _ & _ & _ & Wf & Wc).
  assert (P0 : 0 <= p) by (eapply withdraw_single_nonneg; [exact Wc | | | | exact Hc]; lia).
  assert (W0 : 0 <= wf).
  { destruct Hfee as [(_ & ->) | (_ & Hf)]; [lia |]. eapply withdraw_fee_bound; [exact Wf | | exact Hf]; lia. }
  split; [exact Hc |]. split; [exact Hfee |]. do 4 (split; [lia |]).
  chg Hrun; unfold vault_of; [sums | sums | keys | keys].
  unfold only_at. destruct (k =? source); lia.
Qed.
