(** Trades requested through a loaded pool (C126). *)
From Verif Require Import Tactics Ints Fees LinearCurve SwapCurve Codec Token Processor Api History Entry Client
  Spec LedgerSpec WireSpec ClientSpec CallSpec LiveSpec.
From Verif Require Import LinearProps HistoryFacts ClientFacts LiveFacts LiveWithdraw LiveDeposit LiveSingle.

Lemma loaded_swap e w k s payer user source ssrc sdst dest host n m : env_ok e -> reachable e w -> pool_at w k s ->
  is_u64 n -> is_u64 m ->
  exists ts authority c, load_token_swap e w k PROGRAM_ID = Some ts /\ find_pda e k = Some (authority, st_bump_seed s) /\
    ts_swap ts source ssrc sdst dest host user n m = Some c /\
    entry e w (retagged (Swap [] 0 0) (call_of payer [] c)) =
    exec e [payer; user] w (Swap (k :: authority :: user :: source :: ssrc :: sdst :: dest
      :: st_pool_mint s :: st_pool_fee_account s :: TOKEN_PROGRAM_ID :: match host with Some h => [h] | None => [] end) n m).
Proof.
  intros He R Hp Un Um. destruct (loaded_methods e w k s payer R He Hp) as (ts & authority & Hl & Hc & Hs & _).
  pose proof (reachable_inv _ _ He R) as I. destruct (proj2 I k s Hp) as (au & Ha & _).
  exists ts, authority.
  assert (E : exists c, ts_swap ts source ssrc sdst dest host user n m = Some c).
  { unfold ts_swap, swap_instruction. rewrite !to_buffer_spec. unfold is_u64 in Un, Um.
    rewrite !Z.abs_eq by lia. assert (N : n <=? u64_max = true) by (apply Z.leb_le; lia). assert (M : m <=? u64_max = true) by (apply Z.leb_le; lia).
    rewrite N, M. cbn [bind_opt]. eexists. reflexivity. }
  destruct E as (c & E). exists c. split; [exact Hl |]. split.
  - destruct (proj1 He _ _ _ Ha) as (Q & _). rewrite Q in Hc. injection Hc as ->. exact Ha.
  - split; [exact E |]. pose proof (Hs _ _ _ _ _ _ _ _ _ E) as X. cbv zeta in X. unfold is_u64 in Un, Um. rewrite !Z.abs_eq in X by lia.
    exact X.
Qed.

Lemma client_swap_when e w k s payer user source ssrc sdst dest host n m x :
  env_ok e -> reachable e w -> pool_at w k s -> ~ is_pda e payer -> ~ is_pda e user ->
  is_u64 n -> is_u64 m -> single_signer w user ->
  (forall authority, create_pda e k (st_bump_seed s) = Some authority -> single_signer w authority) ->
  (ssrc = st_token_a s /\ sdst = st_token_b s \/ ssrc = st_token_b s /\ sdst = st_token_a s) ->
  thawed w ssrc -> thawed w sdst -> wallet w source user (vault_mint_of s ssrc) x ->
  feeless (st_fees s) \/ st_pool_mint s <> st_token_a_mint s /\ st_pool_mint s <> st_token_b_mint s ->
  let d := if ssrc =? st_token_a s then AtoB else BtoA in
  exists ts c, load_token_swap e w k PROGRAM_ID = Some ts /\ ts_swap ts source ssrc sdst dest host user n m = Some c /\
  ((exists w', entry e w (retagged (Swap [] 0 0) (call_of payer [] c)) = Ok w') <->
  dest <> sdst /\
  exists r minted,
    curve_swap (st_curve s) n (balance w ssrc) (balance w sdst) d (st_fees s) = Val r /\
    m <= destination_amount_swapped r /\ source_amount_swapped r <= x /\
    balance w ssrc + source_amount_swapped r <= u64_max /\
    accepts w dest (vault_mint_of s sdst) (destination_amount_swapped r) /\
    curve_withdraw_single (st_curve s) (owner_fee r)
      (side_a d (new_swap_source_amount r) (new_swap_destination_amount r))
      (side_b d (new_swap_source_amount r) (new_swap_destination_amount r))
      (supply w (st_pool_mint s)) d (st_fees s) = Val minted /\
    (0 < minted -> accepts_new w (st_pool_fee_account s) (st_pool_mint s) minted)).
Proof.
  intros He R Hp Np Nu Un Um Su Sa Hd T1 T2 Hw Hf d.
  destruct (loaded_swap e w k s payer user source ssrc sdst dest host n m He R Hp Un Um) as (ts & authority & c & Hl & Hpda & Hc & E).
  exists ts, c. split; [exact Hl |]. split; [exact Hc |]. rewrite E.
  apply (swap_live e [payer; user] w k authority s user source ssrc sdst dest _ n m x); try assumption.
  - intros a [<- | [<- | []]]; assumption.
  - right. left. reflexivity.
  - apply Sa. exact (proj1 (proj1 He _ _ _ Hpda)).
Qed.

Lemma client_linear_swap_when e w k s lc payer user source ssrc sdst dest host n m x :
  env_ok e -> reachable e w -> pool_at w k s -> st_curve s = LinearPrice lc -> ~ is_pda e payer -> ~ is_pda e user ->
  is_u64 n -> is_u64 m -> single_signer w user ->
  (forall authority, create_pda e k (st_bump_seed s) = Some authority -> single_signer w authority) ->
  (ssrc = st_token_a s /\ sdst = st_token_b s \/ ssrc = st_token_b s /\ sdst = st_token_a s) ->
  thawed w ssrc -> thawed w sdst -> wallet w source user (vault_mint_of s ssrc) x ->
  let d := if ssrc =? st_token_a s then AtoB else BtoA in
  exists ts c, load_token_swap e w k PROGRAM_ID = Some ts /\ ts_swap ts source ssrc sdst dest host user n m = Some c /\
  ((exists w', entry e w (retagged (Swap [] 0 0) (call_of payer [] c)) = Ok w') <->
  dest <> sdst /\
  exists taken paid,
    linear_swap lc n (balance w ssrc) (balance w sdst) d = Val (taken, paid) /\
    m <= paid <= balance w sdst /\ taken <= x /\
    balance w ssrc + taken <= u64_max /\ accepts w dest (vault_mint_of s sdst) paid).
Proof.
  intros He R Hp Hlin Np Nu Un Um Su Sa Hd T1 T2 Hw d.
  destruct (loaded_swap e w k s payer user source ssrc sdst dest host n m He R Hp Un Um) as (ts & authority & c & Hl & Hpda & Hc & E).
  exists ts, c. split; [exact Hl |]. split; [exact Hc |]. rewrite E.
  apply (linear_swap_live e [payer; user] w k authority s lc user source ssrc sdst dest _ n m x); try assumption.
  - intros a [<- | [<- | []]]; assumption.
  - right. left. reflexivity.
  - apply Sa. exact (proj1 (proj1 He _ _ _ Hpda)).
Qed.

Lemma loaded_withdraw_all e w k s payer user ua ub source n a b : env_ok e -> reachable e w -> pool_at w k s ->
  is_u64 n -> is_u64 a -> is_u64 b ->
  exists ts authority c, load_token_swap e w k PROGRAM_ID = Some ts /\ find_pda e k = Some (authority, st_bump_seed s) /\
    ts_withdraw_all ts ua ub source user n a b = Some c /\
    entry e w (retagged (WithdrawAll [] 0 0 0) (call_of payer [] c)) =
    exec e [payer; user] w (WithdrawAll [k; authority; user; st_pool_mint s; source; st_token_a s; st_token_b s; ua; ub;
      st_pool_fee_account s; TOKEN_PROGRAM_ID] n a b).
Proof.
  intros He R Hp Un Ua Ub. destruct (loaded_methods e w k s payer R He Hp) as (ts & authority & Hl & Hc & _ & _ & Hs & _).
  pose proof (reachable_inv _ _ He R) as I. destruct (proj2 I k s Hp) as (au & Ha & _).
  exists ts, authority. unfold is_u64 in Un, Ua, Ub.
  assert (E : exists c, ts_withdraw_all ts ua ub source user n a b = Some c).
  { unfold ts_withdraw_all, withdraw_all_instruction. rewrite !to_buffer_spec. rewrite !Z.abs_eq by lia.
    assert (N : n <=? u64_max = true) by (apply Z.leb_le; lia). assert (A : a <=? u64_max = true) by (apply Z.leb_le; lia).
    assert (B : b <=? u64_max = true) by (apply Z.leb_le; lia).
    rewrite N, A, B. cbn [bind_opt]. eexists. reflexivity. }
  destruct E as (c & E). exists c. split; [exact Hl |]. split.
  - destruct (proj1 He _ _ _ Ha) as (Q & _). rewrite Q in Hc. injection Hc as ->. exact Ha.
  - split; [exact E |]. pose proof (Hs _ _ _ _ _ _ _ _ E) as X. cbv zeta in X. rewrite !Z.abs_eq in X by lia. exact X.
Qed.

Lemma client_withdraw_when e w k s payer user dest_a dest_b source n ma mb x :
  env_ok e -> reachable e w -> pool_at w k s -> ~ is_pda e payer -> ~ is_pda e user ->
  is_u64 n -> is_u64 ma -> is_u64 mb -> single_signer w user ->
  (forall authority, create_pda e k (st_bump_seed s) = Some authority -> single_signer w authority) ->
  thawed w (st_token_a s) -> thawed w (st_token_b s) ->
  wallet w source user (st_pool_mint s) x -> (forall t, token_at w source t -> t_native t = false) ->
  st_pool_mint s <> st_token_a_mint s -> st_pool_mint s <> st_token_b_mint s ->
  let bal_a := balance w (st_token_a s) in
  let bal_b := balance w (st_token_b s) in
  exists ts c, load_token_swap e w k PROGRAM_ID = Some ts /\ ts_withdraw_all ts dest_a dest_b source user n ma mb = Some c /\
  ((exists w', entry e w (retagged (WithdrawAll [] 0 0 0) (call_of payer [] c)) = Ok w') <->
  dest_a <> st_token_a s /\ dest_b <> st_token_b s /\ n <= x /\
  exists charge share_a share_b,
    (st_pool_fee_account s = source /\ charge = 0 \/
     st_pool_fee_account s <> source /\ owner_withdraw_fee (st_fees s) n = Val charge) /\
    charge <= n /\ n - charge <= supply w (st_pool_mint s) /\
    (0 < charge -> accepts w (st_pool_fee_account s) (st_pool_mint s) charge) /\
    pool_tokens_to_trading_tokens (st_curve s) (n - charge) (supply w (st_pool_mint s)) bal_a bal_b Floor
      = Val (share_a, share_b) /\
    share_a <= u64_max /\ share_b <= u64_max /\
    let a := Z.min bal_a share_a in let b := Z.min bal_b share_b in
    ma <= a /\ mb <= b /\ (a = 0 -> bal_a = 0) /\ (b = 0 -> bal_b = 0) /\
    (0 < a -> accepts w dest_a (st_token_a_mint s) a) /\ (0 < b -> accepts w dest_b (st_token_b_mint s) b)).
Proof.
  intros He R Hp Np Nu Un Ua Ub Su Sa T1 T2 Hw Nn M1 M2 bal_a bal_b.
  destruct (loaded_withdraw_all e w k s payer user dest_a dest_b source n ma mb He R Hp Un Ua Ub) as (ts & authority & c & Hl & Hpda & Hc & E).
  exists ts, c. split; [exact Hl |]. split; [exact Hc |]. rewrite E.
  apply (withdraw_all_live e [payer; user] w k authority s user source dest_a dest_b [] n ma mb x); try assumption.
  - intros a [<- | [<- | []]]; assumption.
  - right. left. reflexivity.
  - apply Sa. exact (proj1 (proj1 He _ _ _ Hpda)).
Qed.

Lemma loaded_deposit_all e w k s payer user ua ub dest n a b : env_ok e -> reachable e w -> pool_at w k s ->
  is_u64 n -> is_u64 a -> is_u64 b ->
  exists ts authority c, load_token_swap e w k PROGRAM_ID = Some ts /\ find_pda e k = Some (authority, st_bump_seed s) /\
    ts_deposit_all ts ua ub dest user n a b = Some c /\
    entry e w (retagged (DepositAll [] 0 0 0) (call_of payer [] c)) =
    exec e [payer; user] w (DepositAll [k; authority; user; ua; ub; st_token_a s; st_token_b s; st_pool_mint s; dest; TOKEN_PROGRAM_ID] n a b).
Proof.
  intros He R Hp Un Ua Ub. destruct (loaded_methods e w k s payer R He Hp) as (ts & authority & Hl & Hc & _ & Hs & _).
  pose proof (reachable_inv _ _ He R) as I. destruct (proj2 I k s Hp) as (au & Ha & _).
  exists ts, authority. unfold is_u64 in Un, Ua, Ub.
  assert (E : exists c, ts_deposit_all ts ua ub dest user n a b = Some c).
  { unfold ts_deposit_all, deposit_all_instruction. rewrite !to_buffer_spec. rewrite !Z.abs_eq by lia.
    assert (N : n <=? u64_max = true) by (apply Z.leb_le; lia). assert (A : a <=? u64_max = true) by (apply Z.leb_le; lia).
    assert (B : b <=? u64_max = true) by (apply Z.leb_le; lia).
    rewrite N, A, B. cbn [bind_opt]. eexists. reflexivity. }
  destruct E as (c & E). exists c. split; [exact Hl |]. split.
  - destruct (proj1 He _ _ _ Ha) as (Q & _). rewrite Q in Hc. injection Hc as ->. exact Ha.
  - split; [exact E |]. pose proof (Hs _ _ _ _ _ _ _ _ E) as X. cbv zeta in X. rewrite !Z.abs_eq in X by lia. exact X.
Qed.

Lemma client_deposit_when e w k s payer user source_a source_b dest n ma mb xa xb :
  env_ok e -> reachable e w -> pool_at w k s -> ~ is_pda e payer -> ~ is_pda e user ->
  is_u64 n -> is_u64 ma -> is_u64 mb -> single_signer w user ->
  (forall authority, create_pda e k (st_bump_seed s) = Some authority -> single_signer w authority) ->
  thawed w (st_token_a s) -> thawed w (st_token_b s) ->
  wallet w source_a user (st_token_a_mint s) xa -> wallet w source_b user (st_token_b_mint s) xb ->
  st_pool_mint s <> st_token_a_mint s -> st_pool_mint s <> st_token_b_mint s ->
  let bal_a := balance w (st_token_a s) in
  let bal_b := balance w (st_token_b s) in
  let sup := supply w (st_pool_mint s) in
  let minted := if sup =? 0 then 10 ^ 9 else n in
  let outstanding := if sup =? 0 then 10 ^ 9 else sup in
  exists ts c, load_token_swap e w k PROGRAM_ID = Some ts /\ ts_deposit_all ts source_a source_b dest user n ma mb = Some c /\
  ((exists w', entry e w (retagged (DepositAll [] 0 0 0) (call_of payer [] c)) = Ok w') <->
  takes_deposits (st_curve s) /\
  exists a b,
    pool_tokens_to_trading_tokens (st_curve s) minted outstanding bal_a bal_b Ceiling = Val (a, b) /\
    a <> 0 /\ b <> 0 /\ a <= ma /\ b <= mb /\ a <= xa /\ b <= xb /\
    bal_a + a <= u64_max /\ bal_b + b <= u64_max /\
    accepts_new w dest (st_pool_mint s) minted).
Proof.
  intros He R Hp Np Nu Un Ua Ub Su Sa T1 T2 Hw1 Hw2 M1 M2 bal_a bal_b sup minted outstanding.
  destruct (loaded_deposit_all e w k s payer user source_a source_b dest n ma mb He R Hp Un Ua Ub) as (ts & authority & c & Hl & Hpda & Hc & E).
  exists ts, c. split; [exact Hl |]. split; [exact Hc |]. rewrite E.
  apply (deposit_all_live e [payer; user] w k authority s user source_a source_b dest [] n ma mb xa xb); try assumption.
  - intros a [<- | [<- | []]]; assumption.
  - right. left. reflexivity.
  - apply Sa. exact (proj1 (proj1 He _ _ _ Hpda)).
Qed.

Lemma loaded_deposit_single e w k s payer user source dest n m : env_ok e -> reachable e w -> pool_at w k s ->
  is_u64 n -> is_u64 m ->
  exists ts authority c, load_token_swap e w k PROGRAM_ID = Some ts /\ find_pda e k = Some (authority, st_bump_seed s) /\
    ts_deposit_single ts source dest user n m = Some c /\
    entry e w (retagged (DepositSingle [] 0 0) (call_of payer [] c)) =
    exec e [payer; user] w (DepositSingle [k; authority; user; source; st_token_a s; st_token_b s; st_pool_mint s; dest; TOKEN_PROGRAM_ID] n m).
Proof.
  intros He R Hp Un Um. destruct (loaded_methods e w k s payer R He Hp) as (ts & authority & Hl & Hc & _ & _ & _ & Hs & _).
  pose proof (reachable_inv _ _ He R) as I. destruct (proj2 I k s Hp) as (au & Ha & _).
  exists ts, authority. unfold is_u64 in Un, Um.
  assert (E : exists c, ts_deposit_single ts source dest user n m = Some c).
  { unfold ts_deposit_single, deposit_single_instruction. rewrite !to_buffer_spec. rewrite !Z.abs_eq by lia.
    assert (N : n <=? u64_max = true) by (apply Z.leb_le; lia). assert (M : m <=? u64_max = true) by (apply Z.leb_le; lia).
    rewrite N, M. cbn [bind_opt]. eexists. reflexivity. }
  destruct E as (c & E). exists c. split; [exact Hl |]. split.
  - destruct (proj1 He _ _ _ Ha) as (Q & _). rewrite Q in Hc. injection Hc as ->. exact Ha.
  - split; [exact E |]. pose proof (Hs _ _ _ _ _ _ E) as X. cbv zeta in X. rewrite !Z.abs_eq in X by lia. exact X.
Qed.

Lemma client_deposit_single_when e w k s d payer user source dest n mp x :
  env_ok e -> reachable e w -> pool_at w k s -> ~ is_pda e payer -> ~ is_pda e user ->
  is_u64 n -> is_u64 mp -> single_signer w user ->
  (forall authority, create_pda e k (st_bump_seed s) = Some authority -> single_signer w authority) ->
  thawed w (side_vault d s) -> wallet w source user (mint_on d s) x -> st_pool_mint s <> mint_on d s ->
  exists ts c, load_token_swap e w k PROGRAM_ID = Some ts /\ ts_deposit_single ts source dest user n mp = Some c /\
  ((exists w', entry e w (retagged (DepositSingle [] 0 0) (call_of payer [] c)) = Ok w') <->
  exists minted,
    (if supply w (st_pool_mint s) =? 0 then Val (10 ^ 9) else
       curve_deposit_single (st_curve s) n (balance w (st_token_a s)) (balance w (st_token_b s))
         (supply w (st_pool_mint s)) d (st_fees s)) = Val minted /\
    mp <= minted /\ minted <> 0 /\ n <= x /\ balance w (side_vault d s) + n <= u64_max /\
    accepts_new w dest (st_pool_mint s) minted).
Proof.
  intros He R Hp Np Nu Un Um Su Sa T1 Hw M1.
  destruct (loaded_deposit_single e w k s payer user source dest n mp He R Hp Un Um) as (ts & authority & c & Hl & Hpda & Hc & E).
  exists ts, c. split; [exact Hl |]. split; [exact Hc |]. rewrite E.
  apply (deposit_single_live e [payer; user] w k authority s d user source dest [] n mp x); try assumption.
  - intros a [<- | [<- | []]]; assumption.
  - right. left. reflexivity.
  - apply Sa. exact (proj1 (proj1 He _ _ _ Hpda)).
Qed.

Lemma loaded_withdraw_single e w k s payer user dest source n m : env_ok e -> reachable e w -> pool_at w k s ->
  is_u64 n -> is_u64 m ->
  exists ts authority c, load_token_swap e w k PROGRAM_ID = Some ts /\ find_pda e k = Some (authority, st_bump_seed s) /\
    ts_withdraw_single ts dest source user n m = Some c /\
    entry e w (retagged (WithdrawSingle [] 0 0) (call_of payer [] c)) =
    exec e [payer; user] w (WithdrawSingle [k; authority; user; st_pool_mint s; source; st_token_a s; st_token_b s; dest;
      st_pool_fee_account s; TOKEN_PROGRAM_ID] n m).
Proof.
  intros He R Hp Un Um. destruct (loaded_methods e w k s payer R He Hp) as (ts & authority & Hl & Hc & _ & _ & _ & _ & Hs).
  pose proof (reachable_inv _ _ He R) as I. destruct (proj2 I k s Hp) as (au & Ha & _).
  exists ts, authority. unfold is_u64 in Un, Um.
  assert (E : exists c, ts_withdraw_single ts dest source user n m = Some c).
  { unfold ts_withdraw_single, withdraw_single_instruction. rewrite !to_buffer_spec. rewrite !Z.abs_eq by lia.
    assert (N : n <=? u64_max = true) by (apply Z.leb_le; lia). assert (M : m <=? u64_max = true) by (apply Z.leb_le; lia).
    rewrite N, M. cbn [bind_opt]. eexists. reflexivity. }
  destruct E as (c & E). exists c. split; [exact Hl |]. split.
  - destruct (proj1 He _ _ _ Ha) as (Q & _). rewrite Q in Hc. injection Hc as ->. exact Ha.
  - split; [exact E |]. pose proof (Hs _ _ _ _ _ _ E) as X. cbv zeta in X. rewrite !Z.abs_eq in X by lia. exact X.
Qed.

Lemma client_withdraw_single_when e w k s d payer user source dest n mp x :
  env_ok e -> reachable e w -> pool_at w k s -> ~ is_pda e payer -> ~ is_pda e user ->
  is_u64 n -> is_u64 mp -> single_signer w user ->
  (forall authority, create_pda e k (st_bump_seed s) = Some authority -> single_signer w authority) ->
  thawed w (side_vault d s) -> (exists t, token_at w dest t /\ t_mint t = mint_on d s) ->
  wallet w source user (st_pool_mint s) x -> (forall t, token_at w source t -> t_native t = false) ->
  st_pool_mint s <> mint_on d s ->
  exists ts c, load_token_swap e w k PROGRAM_ID = Some ts /\ ts_withdraw_single ts dest source user n mp = Some c /\
  ((exists w', entry e w (retagged (WithdrawSingle [] 0 0) (call_of payer [] c)) = Ok w') <->
  dest <> side_vault d s /\
  exists burnt charge,
    curve_withdraw_single (st_curve s) n (balance w (st_token_a s)) (balance w (st_token_b s))
      (supply w (st_pool_mint s)) d (st_fees s) = Val burnt /\
    (st_pool_fee_account s = source /\ charge = 0 \/
     st_pool_fee_account s <> source /\ owner_withdraw_fee (st_fees s) burnt = Val charge) /\
    burnt + charge <= mp /\ burnt + charge <> 0 /\ burnt + charge <= x /\ burnt <= supply w (st_pool_mint s) /\
    (0 < charge -> accepts w (st_pool_fee_account s) (st_pool_mint s) charge) /\
    n <= balance w (side_vault d s) /\ accepts w dest (mint_on d s) n).
Proof.
  intros He R Hp Np Nu Un Um Su Sa T1 Ht Hw Nn M1.
  destruct (loaded_withdraw_single e w k s payer user dest source n mp He R Hp Un Um) as (ts & authority & c & Hl & Hpda & Hc & E).
  exists ts, c. split; [exact Hl |]. split; [exact Hc |]. rewrite E.
  apply (withdraw_single_live e [payer; user] w k authority s d user source dest [] n mp x); try assumption.
  - intros a [<- | [<- | []]]; assumption.
  - right. left. reflexivity.
  - apply Sa. exact (proj1 (proj1 He _ _ _ Hpda)).
Qed.
