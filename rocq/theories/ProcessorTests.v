(** processor.rs 1056-6771: the tests of the instruction handlers, which are commented out
    in the repository, evaluated on the model.  Every case is included but
    test_token_program_id_error (1828-1855, a test of the harness).  Errors of the token
    program are all [EToken] here, which stands for the InsufficientFunds, MintMismatch and
    OwnerMismatch of the tests. *)
From Verif Require Import Ints Fees SwapCurve Codec Token Processor LedgerExamples.

Definition error_dec (x y : error) : {x = y} + {x <> y}.
Proof. decide equality. decide equality. Defined.

(** Replace an account, let 950 (the one-time transfer authority) spend its tokens, issue
    pool tokens, call a handler, call one that must fail with the given error and change
    nothing, or compare balances and the supply of pool tokens. *)
Inductive act : Type :=
| Put (k : Z) (a : account)
| Approve (k amount : Z)
| Issue (k amount : Z)
| Does (h : world -> result world)
| Fails (h : world -> result world) (e : error)
| Balances (accounts expected : list Z)
| Supply (expected : Z).

Definition run_act (w : world) (a : act) : option world :=
  match a with
  | Put k x => Some (upd w k x)
  | Approve k x =>
      match get_token w k with Ok t => Some (set_token w k (with_delegation t (Some 950) x)) | Err _ => None end
  | Issue k x => match spl_mint_to w [auth 100] 203 k (auth 100) x with Ok w' => Some w' | Err _ => None end
  | Does h => match h w with Ok w' => Some w' | Err _ => None end
  | Fails h e => match h w with Ok _ => None | Err e' => if error_dec e e' then Some w else None end
  | Balances ks xs => if list_eq_dec Z.eq_dec (bals (Ok w) ks) xs then Some w else None
  | Supply x => match get_mint w 203 with Ok m => if m_supply m =? x then Some w else None | Err _ => None end
  end.
Fixpoint run_test (w : world) (l : list act) : bool :=
  match l with
  | [] => true
  | a :: l' => match run_act w a with Some w' => run_test w' l' | None => false end
  end.
Definition sw (e : swap_error) : error := ESwap e.

(** 1157-1230 (SwapAccountInfo::new): pool 100, vaults 101 and 102, pool mint 203, fee
    account 103 and destination 104, both of user 900. *)
Definition start (a b : Z) : world := of_list
  [ (100, zeroed); (101, tok 201 (auth 100) a); (102, tok 202 (auth 100) b); (203, a_mint (auth 100) 0);
    (103, tok 203 900 0); (104, tok 203 900 0); (201, a_mint 900 a); (202, a_mint 900 b) ].
Definition init_keys : list Z := [100; auth 100; 101; 102; 203; 103; 104; TOKEN_PROGRAM_ID].
Definition init (f : fees) (c : curve) (w : world) : result world := process_initialize ex_env [] w f c init_keys.
(** 1261-1301 (setup_token_accounts): accounts 111, 112 and 113 of user 901 *)
Definition setup (a b p : Z) : list act :=
  [ Put 111 (tok 201 901 a); Put 112 (tok 202 901 b); Put 113 (tok 203 901 0); Issue 113 p ].
(** 1324-1398, 1401-1484, 1487-1556, 1559-1618 and 1621-1683: the approvals and the calls.  The
    wrong pool accounts that the tests try are the arguments in the sections below. *)
Definition swap_at (keys : list Z) (x m : Z) (w : world) : result world := process_swap ex_env [950] w x m keys.
Definition swap_keys (source swap_source swap_dest dest : Z) : list Z :=
  [100; auth 100; 950; source; swap_source; swap_dest; dest; 203; 103; TOKEN_PROGRAM_ID].
Definition dep_at (keys : list Z) (n ma mb : Z) (w : world) : result world := process_deposit_all ex_env [950] w n ma mb keys.
Definition dep_keys (a b dest : Z) : list Z := [100; auth 100; 950; a; b; 101; 102; 203; dest; TOKEN_PROGRAM_ID].
Definition wd_at (keys : list Z) (n ma mb : Z) (w : world) : result world := process_withdraw_all ex_env [950] w n ma mb keys.
Definition wd_keys (source a b : Z) : list Z := [100; auth 100; 950; 203; source; 101; 102; a; b; 103; TOKEN_PROGRAM_ID].
Definition dep1_at (keys : list Z) (n m : Z) (w : world) : result world := process_deposit_single ex_env [950] w n m keys.
Definition dep1_keys (source dest : Z) : list Z := [100; auth 100; 950; source; 101; 102; 203; dest; TOKEN_PROGRAM_ID].
Definition wd1_at (keys : list Z) (n m : Z) (w : world) : result world := process_withdraw_single ex_env [950] w n m keys.
Definition wd1_keys (source dest : Z) : list Z := [100; auth 100; 950; 203; source; 101; 102; dest; 103; TOKEN_PROGRAM_ID].
(** Use key [y] instead of the [n]-th one. *)
Fixpoint at_key (n : nat) (y : Z) (l : list Z) : list Z :=
  match n, l with
  | _, [] => []
  | O, _ :: l' => y :: l'
  | S n', x :: l' => x :: at_key n' y l'
  end.
(** The pool account [100] under the token program's ownership; [777] is a key of nobody. *)
Definition stolen (h : world -> result world) (w : world) : result world :=
  h (upd w 100 (mk_account TOKEN_PROGRAM_ID (a_data (w 100)))).

(** 1858-2698 (test_initialize) *)
Definition ti_fees : fees := mk_fees 1 2 1 10 1 5 20 100.
Definition ti : world -> result world := init ti_fees ConstantProduct.
Definition token_empty : account := mk_account TOKEN_PROGRAM_ID (DRaw []).
Definition tok' (mint owner amount : Z) (delegate close : option Z) : account :=
  mk_account TOKEN_PROGRAM_ID (DToken (mk_token mint owner amount delegate 1 false false close)).
Definition other_tok (mint owner amount : Z) : account :=
  mk_account PROGRAM_ID (DToken (mk_token mint owner amount None 0 false false None)).
Definition vault_a : account := tok 201 (auth 100) 1000.
Definition vault_b : account := tok 202 (auth 100) 2000.
Example test_initialize : run_test (start 1000 2000)
  [ Put 101 token_empty; Fails ti (sw ExpectedAccount); Put 101 vault_a;
    Put 102 token_empty; Fails ti (sw ExpectedAccount); Put 102 vault_b;
    Put 203 token_empty; Fails ti (sw ExpectedMint); Put 203 (a_mint (auth 100) 0);
    Put 101 (tok 201 900 1000); Fails ti (sw InvalidOwner); Put 101 vault_a;
    Put 102 (tok 202 900 2000); Fails ti (sw InvalidOwner); Put 102 vault_b;
    Put 104 (tok 203 (auth 100) 0); Fails ti (sw InvalidOutputOwner); Put 104 (tok 203 900 0);
    Put 103 (tok 203 (auth 100) 0); Fails ti (sw InvalidOutputOwner); Put 103 (tok 203 900 0);
    Put 203 (a_mint 900 0); Fails ti (sw InvalidOwner);
    Put 203 (mk_account TOKEN_PROGRAM_ID (DMint (mk_mint (Some (auth 100)) 0 2 (Some 900))));
    Fails ti (sw InvalidFreezeAuthority); Put 203 (a_mint (auth 100) 0);
    Put 101 (other_tok 201 (auth 100) 1000); Fails ti (sw IncorrectTokenProgramId); Put 101 vault_a;
    Put 102 (other_tok 202 (auth 100) 2000); Fails ti (sw IncorrectTokenProgramId); Put 102 vault_b;
    Put 101 (tok 201 (auth 100) 0); Fails ti (sw EmptySupply); Put 101 vault_a;
    Put 102 (tok 202 (auth 100) 0); Fails ti (sw EmptySupply); Put 102 vault_b;
    Put 203 (a_mint (auth 100) 10); Put 104 (tok 203 900 10); Fails ti (sw InvalidSupply);
    Put 104 (tok 203 900 0); Fails ti (sw InvalidSupply); Put 203 (a_mint (auth 100) 0);
    Put 103 (tok 201 900 0); Fails ti (sw IncorrectPoolMint); Put 103 (tok 203 900 0);
    Put 101 (tok' 201 (auth 100) 1000 (Some 900) None); Fails ti (sw InvalidDelegate); Put 101 vault_a;
    Put 102 (tok' 202 (auth 100) 2000 (Some 900) None); Fails ti (sw InvalidDelegate); Put 102 vault_b;
    Put 101 (tok' 201 (auth 100) 1000 None (Some 900)); Fails ti (sw InvalidCloseAuthority); Put 101 vault_a;
    Put 102 (tok' 202 (auth 100) 2000 None (Some 900)); Fails ti (sw InvalidCloseAuthority); Put 102 vault_b;
    Fails (fun w => process_initialize ex_env [] w ti_fees ConstantProduct (at_key 7 777 init_keys)) (sw IncorrectTokenProgramId);
    Put 102 (tok 201 (auth 100) 2000); Fails ti (sw RepeatedMint); Put 102 vault_b;
    Does ti;
    Fails ti (sw AlreadyInUse);
    Balances [101; 102; 103; 104] [1000; 2000; 0; 1000000000]; Supply 1000000000 ] = true.
Proof. vm_compute. reflexivity. Qed.
(** 2368-2668, each on fresh accounts *)
Example test_initialize_price_0 : run_test (start 1000 2000) [ Fails (init ti_fees (ConstantPrice 0)) (sw InvalidCurve) ] = true.
Proof. vm_compute. reflexivity. Qed.
Example test_initialize_price : run_test (start 1000 2000) [ Does (init ti_fees (ConstantPrice 10000)) ] = true.
Proof. vm_compute. reflexivity. Qed.
Example test_initialize_offset_0 : run_test (start 1000 2000) [ Fails (init ti_fees (Offset 0)) (sw InvalidCurve) ] = true.
Proof. vm_compute. reflexivity. Qed.
Example test_initialize_offset : run_test (start 1000 2000) [ Does (init ti_fees (Offset 10)) ] = true.
Proof. vm_compute. reflexivity. Qed.
Definition constr_fees (n : Z) : fees := mk_fees n 10000 5 10000 1 5 20 100.
Definition constr_env (owner : Z) (f : fees) : env :=
  mk_env (find_pda ex_env) (create_pda ex_env) (Some (mk_constraints (Some owner) [0] f)).
Example test_initialize_constraints : run_test (start 1000 2000)
  [ Fails (fun w => process_initialize (constr_env 777 (constr_fees 25)) [] w (constr_fees 25) ConstantProduct init_keys)
          (sw InvalidOwner);
    Fails (fun w => process_initialize (constr_env 900 (constr_fees 25)) [] w (constr_fees 24) ConstantProduct init_keys)
          (sw InvalidFee);
    Does (fun w => process_initialize (constr_env 900 (constr_fees 25)) [] w (constr_fees 25) ConstantProduct init_keys) ] = true.
Proof. vm_compute. reflexivity. Qed.
(** 2677-2689: the stored pool *)
Example test_initialize_state :
  match ti (start 1000 2000) with
  | Ok w => swap_unpack (raw_of (a_data (w 100))) =
            Ok (mk_swap_state true 255 TOKEN_PROGRAM_ID 101 102 203 201 202 103 ti_fees ConstantProduct)
  | Err _ => False
  end.
Proof. vm_compute. reflexivity. Qed.

(** 2701-3311 (test_deposit) *)
Definition dep_ok : list act := Approve 111 100 :: Approve 112 900 :: [].
Definition dep_bad (keys : list Z) (e : error) : list act := dep_ok ++ [Fails (dep_at keys 100000000 100 900) e].
Definition dk : list Z := dep_keys 111 112 113.
Example test_deposit : run_test (start 1000 9000) (
  setup 100 900 0 ++ dep_bad dk EUninitializedAccount ++
  [Does (init ti_fees ConstantProduct)] ++
  setup 100 900 0 ++ dep_ok ++ [Fails (stolen (dep_at dk 100000000 100 900)) EIncorrectProgramId] ++
  dep_bad (at_key 1 777 dk) (sw InvalidProgramAddress) ++
  setup 50 900 0 ++ dep_bad dk EToken ++
  setup 100 450 0 ++ dep_bad dk EToken ++
  setup 100 900 0 ++ dep_bad (dep_keys 112 111 113) EToken ++
  [Put 121 (tok 201 901 100)] ++ dep_bad (dep_keys 111 112 121) EToken ++
  setup 100 900 0 ++ [Fails (dep_at dk 100000000 100 900) EToken] ++
  dep_bad (at_key 9 777 dk) (sw IncorrectTokenProgramId) ++
  dep_bad (at_key 5 111 dk) (sw IncorrectSwapAccount) ++
  dep_bad (at_key 6 112 dk) (sw IncorrectSwapAccount) ++
  [Put 777 (a_mint (auth 100) 0)] ++ dep_bad (at_key 7 777 dk) (sw IncorrectPoolMint) ++
  [ Fails (dep_at dk 1 100 900) (sw ZeroTradingTokens);
    Fails (dep_at dk 100000000 10 900) (sw ExceededSlippage);
    Fails (dep_at dk 100000000 100 90) (sw ExceededSlippage);
    Fails (dep_at (dep_keys 101 102 113) 100000000 100 900) (sw InvalidInput) ] ++
  setup 100 900 0 ++ dep_ok ++
  [ Does (dep_at dk 100000000 100 900); Balances [101; 102; 111; 112; 113; 104] [1100; 9900; 0; 0; 100000000; 1000000000];
    Supply 1100000000 ]) = true.
Proof. vm_compute. reflexivity. Qed.

(** 3314-4118 (test_withdraw): 100000000 pool tokens, a quarter of them taken out *)
Definition tw_fees : fees := mk_fees 1 2 1 10 1 5 7 100.
Definition wk : list Z := wd_keys 113 111 112.
Definition wd_bad (keys : list Z) (e : error) : list act := [Approve 113 25000000; Fails (wd_at keys 25000000 2 5) e].
Example test_withdraw : run_test (start 1000 2000) (
  setup 100 200 0 ++ wd_bad wk EUninitializedAccount ++
  [Does (init tw_fees ConstantProduct)] ++
  setup 100 200 0 ++ [Fails (stolen (wd_at wk 25000000 2 5)) EIncorrectProgramId] ++
  wd_bad (at_key 1 777 wk) (sw InvalidProgramAddress) ++
  setup 100 200 12500000 ++ [Approve 113 25000000; Fails (wd_at wk 25000000 1 2) EToken] ++
  setup 25000000 200 25000000 ++ [Approve 111 25000000; Fails (wd_at (wd_keys 111 113 112) 25000000 2 5) EToken] ++
  setup 100 200 25000000 ++ [Put 121 (tok 203 901 25000000)] ++ wd_bad (at_key 9 121 wk) (sw IncorrectFeeAccount) ++
  setup 100 200 25000000 ++ [Approve 113 25000000; Fails (wd_at (wd_keys 113 112 111) 25000000 2 5) EToken] ++
  setup 0 0 100000000 ++ [Fails (wd_at wk 25000000 2 5) EToken] ++
  setup 100 200 100000000 ++ wd_bad (at_key 10 777 wk) (sw IncorrectTokenProgramId) ++
  wd_bad (at_key 5 111 wk) (sw IncorrectSwapAccount) ++
  wd_bad (at_key 6 112 wk) (sw IncorrectSwapAccount) ++
  [Put 777 (a_mint (auth 100) 0)] ++ wd_bad (at_key 3 777 wk) (sw IncorrectPoolMint) ++
  [ Fails (wd_at wk 1 0 0) (sw ZeroTradingTokens);
    Fails (wd_at wk 25000000 20 5) (sw ExceededSlippage);
    Fails (wd_at wk 25000000 2 50) (sw ExceededSlippage);
    Fails (wd_at (wd_keys 113 101 112) 25000000 2 5) (sw InvalidInput);
    Fails (wd_at (wd_keys 113 111 102) 25000000 2 5) (sw InvalidInput) ]) = true.
Proof. vm_compute. reflexivity. Qed.
(** The last two cases, with the pool tokens issued by the cases before in circulation as
    in the test: the test recomputes the amounts with the curve, for the balances and the
    supply after the withdrawal. *)
Definition converted (w : world) (n : Z) : list Z :=
  match get_mint w 203, bals (Ok w) [101; 102] with
  | Ok m, [a; b] =>
      match pool_tokens_to_trading_tokens ConstantProduct n (m_supply m) a b Floor with
      | Val (x, y) => [x; y]
      | _ => []
      end
  | _, _ => []
  end.
Definition after (w : world) (l : list act) : world :=
  fold_left (fun w a => match run_act w a with Some w' => w' | None => w end) l w.
Definition tw_before : world := after (start 1000 2000)
  ([Does (init tw_fees ConstantProduct); Issue 104 687500000] ++ setup 100 200 100000000 ++ [Approve 113 25000000]).
Definition tw_after : world := after tw_before [Does (wd_at wk 25000000 2 5)].
Example test_withdraw_ok : converted tw_after (25000000 - 5000000) = [11; 22] /\
  bals (Ok tw_after) [101; 102; 111; 112; 113; 103] = [1000 - 11; 2000 - 22; 100 + 11; 200 + 22; 75000000; 5000000].
Proof. vm_compute. split; reflexivity. Qed.
Definition tw_fee : world := after tw_after (setup 0 0 0 ++ [Approve 103 5000000; Does (wd_at (wd_keys 103 111 112) 5000000 0 0)]).
Example test_withdraw_from_fee_account : bals (Ok tw_fee) [103; 111; 112] = 0 :: converted tw_fee 5000000.
Proof. vm_compute. reflexivity. Qed.

(** 4121-4631 (test_deposit_one_exact_in) *)
Definition dk1 : list Z := dep1_keys 111 113.
Definition dep1_bad (keys : list Z) (e : error) : list act := [Approve 111 100; Fails (dep1_at keys 100 10000000) e].
Example test_deposit_one_exact_in : run_test (start 1000 9000) (
  setup 100 900 0 ++ dep1_bad dk1 EUninitializedAccount ++
  [Does (init ti_fees ConstantProduct)] ++
  [Fails (stolen (dep1_at dk1 100 10000000)) EIncorrectProgramId] ++
  dep1_bad (at_key 1 777 dk1) (sw InvalidProgramAddress) ++
  setup 50 450 0 ++
  [ Approve 111 100; Fails (dep1_at dk1 100 0) EToken; Approve 112 900; Fails (dep1_at (dep1_keys 112 113) 900 0) EToken ] ++
  setup 100 900 0 ++ dep1_bad (dep1_keys 111 112) EToken ++
  setup 100 900 0 ++ [Fails (dep1_at dk1 100 10000000) EToken] ++
  dep1_bad (at_key 8 777 dk1) (sw IncorrectTokenProgramId) ++
  dep1_bad (at_key 4 111 dk1) (sw IncorrectSwapAccount) ++
  dep1_bad (at_key 5 112 dk1) (sw IncorrectSwapAccount) ++
  [Put 777 (a_mint (auth 100) 0)] ++ dep1_bad (at_key 6 777 dk1) (sw IncorrectPoolMint) ++
  [ Fails (dep1_at dk1 10 10000000) (sw ExceededSlippage); Fails (dep1_at (dep1_keys 112 113) 90 10000000) (sw ExceededSlippage);
    Fails (dep1_at (dep1_keys 101 113) 100 10000000) (sw InvalidInput);
    Fails (dep1_at (dep1_keys 102 113) 900 10000000) (sw InvalidInput) ] ++
  setup 100 900 0 ++
  [ Approve 111 100; Does (dep1_at dk1 100 10000000); Balances [101; 111] [1100; 0];
    Approve 112 900; Does (dep1_at (dep1_keys 112 113) 900 10000000); Balances [102; 112] [9900; 0];
    Balances [113; 104] [74999999; 1000000000]; Supply (74999999 + 1000000000) ]) = true.
Proof. vm_compute. reflexivity. Qed.

(** 4634-5279 (test_withdraw_one_exact_out): 250 of A or 500 of B for at most 25000000 pool
    tokens; the last two cases with the pool tokens issued before *)
Definition wk1 : list Z := wd1_keys 113 111.
Definition wk1b : list Z := wd1_keys 113 112.
Definition wd1_bad (keys : list Z) (n : Z) (e : error) : list act := [Approve 113 25000000; Fails (wd1_at keys n 25000000) e].
Example test_withdraw_one_exact_out : run_test (start 100000 200000) (
  setup 10000 20000 0 ++ wd1_bad wk1 250 EUninitializedAccount ++
  [Does (init tw_fees ConstantProduct)] ++
  [Fails (stolen (wd1_at wk1 250 25000000)) EIncorrectProgramId] ++
  wd1_bad (at_key 1 777 wk1b) 500 (sw InvalidProgramAddress) ++
  setup 10000 20000 25000 ++ wd1_bad wk1b 500 EToken ++
  setup 25000000 20000 25000000 ++ [Approve 111 25000000; Fails (wd1_at (wd1_keys 111 112) 500 25000000) EToken] ++
  setup 10000 20000 25000000 ++ [Put 121 (tok 203 901 25000000)] ++ wd1_bad (at_key 8 121 wk1) 250 (sw IncorrectFeeAccount) ++
  setup 0 0 25000000 ++ [Fails (wd1_at wk1 250 25000000) EToken] ++
  setup 10000 20000 25000000 ++ wd1_bad (at_key 9 777 wk1) 250 (sw IncorrectTokenProgramId) ++
  setup 10000 20000 100000000 ++ wd1_bad (at_key 5 111 wk1) 250 (sw IncorrectSwapAccount) ++
  wd1_bad (at_key 6 112 wk1b) 500 (sw IncorrectSwapAccount) ++
  [Put 777 (a_mint (auth 100) 0)] ++ wd1_bad (at_key 3 777 wk1) 250 (sw IncorrectPoolMint) ++
  setup 10000 20000 25000000 ++
  [ Approve 113 25000; Fails (wd1_at wk1 250 25000) (sw ExceededSlippage); Fails (wd1_at wk1b 500 25000) (sw ExceededSlippage) ] ++
  wd1_bad (wd1_keys 113 101) 250 (sw InvalidInput) ++ wd1_bad (wd1_keys 113 102) 500 (sw InvalidInput)) = true.
Proof. vm_compute. reflexivity. Qed.
Definition tw1_before : world := after (start 100000 200000)
  ([Does (init tw_fees ConstantProduct); Issue 104 375025000] ++ setup 10000 20000 100000000 ++ [Approve 113 25000000]).
Definition tw1_amount : Z :=
  match curve_withdraw_single ConstantProduct 250 100000 200000 1475025000 AtoB tw_fees with Val n => n | _ => 0 end.
Definition tw1_fee : Z := match owner_withdraw_fee tw_fees tw1_amount with Val n => n | _ => 0 end.
Definition tw1_after : world := after tw1_before [Does (wd1_at wk1 250 25000000)].
Example test_withdraw_one_ok : 0 < tw1_amount /\ 0 < tw1_fee /\
  bals (Ok tw1_after) [101; 111; 113; 103] = [100000 - 250; 10000 + 250; 100000000 - tw1_amount - tw1_fee; tw1_fee].
Proof. vm_compute. repeat split; reflexivity. Qed.
Example test_withdraw_one_from_fee_account : bals (Ok (after tw1_after (setup 10000 20000 0 ++
  [Approve 103 tw1_fee; Does (wd1_at (wd1_keys 103 111) 2 tw1_fee)]))) [101; 111] = [99750 - 2; 10000 + 2].
Proof. vm_compute. reflexivity. Qed.

(** 5281-5459 (check_valid_swap_curve): a tenth of a user's A for B, then a tenth of their B for A *)
Definition swap_values (c : curve) (f : fees) (x s t : Z) (d : trade_direction) : option (Z * Z * Z) :=
  match curve_swap c x s t d f with
  | Val r => Some (source_amount_swapped r, destination_amount_swapped r, owner_fee r)
  | _ => None
  end.
Definition pool_fee_values (c : curve) (f : fees) (fee a b supply : Z) (d : trade_direction) : option Z :=
  match curve_withdraw_single c fee a b supply d f with Val n => Some n | _ => None end.
Definition valid_swap_curve (f : fees) (c : curve) (a b : Z) : bool :=
  let ua := a / 5 in let ub := b / 5 in let x := ua / 10 in let y := ub / 10 in
  match swap_values c f x a b AtoB with
  | Some (sx, dx, ox) =>
      let a1 := a + sx in let b1 := b - dx in
      match swap_values c f y b1 a1 BtoA, pool_fee_values c f ox a1 b1 1000000000 AtoB with
      | Some (sy, dy, oy), Some fee1 =>
          let a2 := a1 - dy in let b2 := b1 + sy in
          match pool_fee_values c f oy a2 b2 (1000000000 + fee1) BtoA with
          | Some fee2 =>
              run_test (start a b) ([Does (init f c)] ++ setup ua ub 0 ++
                [ Approve 111 x; Does (swap_at (swap_keys 111 101 102 112) x 0);
                  Balances [101; 111; 102; 112; 103] [a1; ua - x; b1; ub + dx; fee1];
                  Approve 112 y; Does (swap_at (swap_keys 112 102 101 111) y 0);
                  Balances [101; 111; 102; 112; 103] [a2; ua - x + dy; b2; ub + dx - sy; fee1 + fee2] ])
          | None => false
          end
      | _, _ => false
      end
  | None => false
  end.
(** 5462-5509 and 5512-5558 *)
Definition all_fees : fees := mk_fees 1 10 1 30 1 30 20 100.
Definition trade_fee_only : fees := mk_fees 1 10 0 0 0 0 0 0.
Example test_valid_swap_curves_all_fees :
  valid_swap_curve all_fees ConstantProduct 10000000000 50000000000 &&
  valid_swap_curve all_fees (ConstantPrice 1) 10000000000 50000000000 &&
  valid_swap_curve all_fees (Offset 10000000000) 10000000000 50000000000 = true.
Proof. vm_compute. reflexivity. Qed.
Example test_valid_swap_curves_trade_fee_only :
  valid_swap_curve trade_fee_only ConstantProduct 10000000000 50000000000 &&
  valid_swap_curve trade_fee_only (ConstantPrice 10000) 10000000000 (50000000000 / 10000) &&
  valid_swap_curve trade_fee_only (Offset 1) 10000000000 50000000000 = true.
Proof. vm_compute. reflexivity. Qed.

(** 5561-5706 (test_valid_swap_with_fee_constraints), with a host account.  The user's
    accounts belong to the authority, which signs as the user. *)
Definition host_fees : fees := mk_fees 1 10 1 30 1 30 10 100.
Definition tc_env : env := constr_env 900 host_fees.
Definition tc_after : world := after (start 1000000 5000000)
  [ Does (fun w => process_initialize tc_env [] w host_fees ConstantProduct init_keys);
    Put 111 (tok 201 (auth 100) 1000000); Put 112 (tok 202 (auth 100) 5000000); Put 113 (tok 203 (auth 100) 0);
    Does (fun w => process_swap tc_env [] w 500000 0
            [100; auth 100; auth 100; 111; 101; 102; 112; 203; 103; TOKEN_PROGRAM_ID; 113]) ].
Example test_valid_swap_with_fee_constraints :
  match bals (Ok tc_after) [113; 103; 111] with
  | [host; owner; kept] => 0 < host /\ owner * 100 / (100 - 10) = host + owner /\ kept = 500000
  | _ => False
  end.
Proof. vm_compute. repeat split; reflexivity. Qed.

(** 5709-6366 (test_invalid_swap) *)
Definition is_fees : fees := mk_fees 1 4 1 10 1 5 9 100.
Definition sk : list Z := swap_keys 111 101 102 112.
Definition swap_bad (keys : list Z) (x m : Z) (e : error) : list act := [Approve 111 x; Fails (swap_at keys x m) e].
Definition is_env : env := constr_env 901 is_fees.
Definition auth_keys (rest : list Z) : list Z := [100; auth 100; auth 100; 111; 101; 102; 112; 203; 103; TOKEN_PROGRAM_ID] ++ rest.
Example test_invalid_swap : run_test (start 1000 5000) (
  setup 200 1000 0 ++ swap_bad sk 200 500 EUninitializedAccount ++
  [Does (init is_fees ConstantProduct)] ++
  [Fails (stolen (swap_at sk 200 500)) EIncorrectProgramId] ++
  swap_bad (at_key 1 777 sk) 200 500 (sw InvalidProgramAddress) ++
  swap_bad (at_key 9 777 sk) 200 500 (sw IncorrectTokenProgramId) ++
  swap_bad sk 400 1000 EToken ++
  swap_bad (swap_keys 111 111 112 112) 200 500 (sw IncorrectSwapAccount) ++
  setup 200 1000 0 ++ [Approve 112 200; Fails (swap_at (swap_keys 112 101 102 111) 200 500) EToken] ++
  swap_bad (swap_keys 111 101 101 111) 200 500 (sw InvalidInput) ++
  [Put 777 (a_mint (auth 100) 0)] ++ swap_bad (at_key 7 777 sk) 200 500 (sw IncorrectPoolMint) ++
  swap_bad (at_key 8 113 sk) 200 500 (sw IncorrectFeeAccount) ++
  setup 200 1000 0 ++ [Fails (swap_at sk 200 500) EToken] ++
  [Approve 112 1; Fails (swap_at (swap_keys 112 102 101 111) 1 1) (sw ZeroTradingTokens)] ++
  swap_bad sk 200 1000 (sw ExceededSlippage) ++
  [ Fails (swap_at (swap_keys 101 101 102 112) 200 500) (sw InvalidInput);
    Fails (swap_at (swap_keys 111 101 102 102) 200 500) (sw InvalidInput);
    Put 111 (tok 201 (auth 100) 200); Put 112 (tok 202 (auth 100) 1000);
    Does (fun w => process_swap is_env [] w 200 500 (auth_keys []));
    Put 111 (tok 201 (auth 100) 200); Put 112 (tok 202 (auth 100) 1000); Put 121 (tok 201 (auth 100) 200);
    Fails (fun w => process_swap is_env [] w 200 0 (auth_keys [121])) (sw IncorrectPoolMint) ]) = true.
Proof. vm_compute. reflexivity. Qed.

(** 6369-6516 (test_overdraw_offset_curve) *)
Definition off_fees : fees := mk_fees 1 10 1 30 1 30 10 100.
Definition off_buy : list act := [Approve 111 500000; Fails (swap_at sk 500000 0) (sw ZeroTradingTokens)].
Example test_overdraw_offset_curve : run_test (start 1000000000 0) (
  [Does (init off_fees (Offset 2000000))] ++ setup 500000 1000 0 ++ off_buy ++
  [ Approve 112 1000; Does (swap_at (swap_keys 112 102 101 111) 1000 0); Approve 111 500000; Does (swap_at sk 500000 0) ] ++ off_buy ++
  setup 100 100 0 ++
  [ Approve 111 100; Approve 112 100; Fails (dep_at dk 100 100 100) (sw UnsupportedCurveOperation) ]) = true.
Proof. vm_compute. reflexivity. Qed.

(** 6519-6597 (test_withdraw_all_offset_curve) *)
Definition no_withdraw_fee : fees := mk_fees 1 10 1 30 0 30 10 100.
Example test_withdraw_all_offset_curve : run_test (start 1000000000 10) (
  [Does (init no_withdraw_fee (Offset 2000000))] ++ setup 0 0 0 ++
  [ Approve 104 1000000000; Does (wd_at (wd_keys 104 111 112) 1000000000 0 0);
    Balances [111; 112; 101; 102] [1000000000; 10; 0; 0] ]) = true.
Proof. vm_compute. reflexivity. Qed.

(** 6600-6769 (test_withdraw_all_constant_price_curve) *)
Example test_withdraw_all_constant_price_curve : run_test (start 1000000000 1000) (
  [Does (init no_withdraw_fee (ConstantPrice 2000000))] ++ setup 0 0 0 ++
  [ Approve 104 1000000000; Fails (wd_at (wd_keys 104 111 112) 1000000000 1000000000 1000) (sw ExceededSlippage);
    Does (wd_at (wd_keys 104 111 112) 1000000000 0 0); Balances [111; 112; 101; 102] [1000000000; 750; 0; 250] ] ++
  setup 20000000 10 0 ++
  [ Approve 111 20000000; Approve 112 10; Fails (dep_at dk 1 20000000 10) (sw ExceededSlippage) ] ++
  setup 250000000 125 0 ++
  [ Approve 111 250000000; Approve 112 125; Does (dep_at dk 1 250000000 125) ]) = true.
Proof. vm_compute. reflexivity. Qed.
