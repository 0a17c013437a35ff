(** tests/token-bonding-curve.ts: the end-to-end tests, which run the deployed program
    through the Anchor client, evaluated on the model.  The balances they expect were
    observed on the real program.  At the end, app/cli/token-swap-test.ts: the tests of
    the inherited client library. *)
From Verif Require Import Ints Fees LinearCurve SwapCurve Codec Token Processor Api LedgerExamples.

(** A test: mint tokens to an account (their mints belong to 999), run an instruction
    that must succeed, run one that must fail, let somebody else spend tokens of an
    account, or compare balances. *)
Inductive act : Type :=
| MintTo (mint account amount : Z)
| Call (signer : Z) (i : instr)
| Rejects (signer : Z) (i : instr)
| Approve (account delegate amount : Z)
| Balances (accounts expected : list Z)
| AtLeast (account expected : Z).

Definition run_act (w : world) (a : act) : option world :=
  match a with
  | MintTo m k x => match spl_mint_to w [999] m k 999 x with Ok w' => Some w' | Err _ => None end
  | Call s i => match exec ex_env [s] w i with Ok w' => Some w' | Err _ => None end
  | Rejects s i => match exec ex_env [s] w i with Ok _ => None | Err _ => Some w end
  | Approve k d x => match get_token w k with Ok t => Some (set_token w k (with_delegation t (Some d) x)) | Err _ => None end
  | AtLeast k x => if x <=? nth 0 (bals (Ok w) [k]) (-1) then Some w else None
  | Balances ks xs => if list_eq_dec Z.eq_dec (bals (Ok w) ks) xs then Some w else None
  end.
Fixpoint run_test (w : world) (l : list act) : bool :=
  match l with
  | [] => true
  | a :: l' => match run_act w a with Some w' => run_test w' l' | None => false end
  end.

(** 129-195 and 282-342 generate the accounts: pool 100 with vaults 101 and 102, pool mint 203, fee
    account 103 and destination 104; users 901 (accounts 111 and 112) and 902 (121 and 122)
    with accounts for tokens 201 and 202; 905 owns the destination account. *)
Definition test_w : world := of_list
  [ (100, zeroed); (101, tok 201 (auth 100) 0); (102, tok 202 (auth 100) 0); (203, a_mint (auth 100) 0);
    (103, tok 203 900 0); (104, tok 203 905 0);
    (111, tok 201 901 0); (112, tok 202 901 0); (113, tok 203 901 0);
    (121, tok 201 902 0); (122, tok 202 902 0); (131, tok 201 905 0); (132, tok 202 905 0);
    (201, a_mint 999 0); (202, a_mint 999 0) ].
Definition init_keys : list Z := [100; auth 100; 101; 102; 203; 103; 104; TOKEN_PROGRAM_ID].
(** A swap of user [u] with accounts [a] and [b]: buying token 202 or selling it. *)
Definition buy_keys (u a b : Z) : list Z := [100; auth 100; u; a; 101; 102; b; 203; 103; TOKEN_PROGRAM_ID].
Definition sell_keys (u a b : Z) : list Z := [100; auth 100; u; b; 102; 101; a; 203; 103; TOKEN_PROGRAM_ID].
Definition buy1 (x : Z) : instr := Swap (buy_keys 901 111 112) x 0.
Definition sell1 (x : Z) : instr := Swap (sell_keys 901 111 112) x 0.
Definition buy2 (x : Z) : instr := Swap (buy_keys 902 121 122) x 0.
Definition sell2 (x : Z) : instr := Swap (sell_keys 902 121 122) x 0.
(** The balances compared after a swap: the user's and the pool's collateral, the user's
    and the pool's bonded tokens. *)
Definition user1 : list Z := [111; 101; 112; 102].
Definition user2 : list Z := [121; 101; 122; 102].

(** 129-280: should perform constant price swap! *)
Example e2e_constant_price : run_test test_w
  [ MintTo 201 101 100000000000; MintTo 202 102 200000000000;
    Call 100 (InitConstantPrice init_keys (mk_fees 2 100 3 100 7 100 11 100) 5);
    Balances [103; 104] [0; 1000000000];
    MintTo 201 111 3000000000; MintTo 202 112 20000000000;
    Call 901 (buy1 2000000000);
    Balances user1 [1000000000; 102000000000; 20380000000; 199620000000] ] = true.
Proof. vm_compute. reflexivity. Qed.

(** 344-618: should initialize linear price swap! *)
Definition init_linear : instr := InitLinearPrice init_keys 1 200000000 150 3.
Example e2e_linear : run_test test_w
  [ MintTo 202 102 50000000000; Call 100 init_linear; Balances [103; 104] [0; 1000000000];
    MintTo 201 111 1000000000000; MintTo 202 112 20000000000;
    Call 901 (buy1 240000000000); Balances user1 [760000000000; 240000000000; 24000000000; 46000000000];
    MintTo 201 121 400000000000; MintTo 202 122 10000000000;
    Call 902 (buy2 150000000000); Balances user2 [250000000000; 390000000000; 12000000000; 44000000000];
    Call 901 (sell1 3000000000); Balances user1 [977500000000; 172500000000; 21000000000; 47000000000];
    Call 902 (sell2 5000000000); Balances user2 [422500000000; 0; 9000000000; 50000000000];
    MintTo 201 111 10000000000000;
    Call 901 (buy1 10000000000000); Balances user1 [2227500000000; 8750000000000; 71000000000; 0] ] = true.
Proof. vm_compute. reflexivity. Qed.

(** 620-691: should fail invalid linear price swaps! *)
Example e2e_invalid : run_test test_w
  [ Rejects 100 init_linear; MintTo 202 102 1; MintTo 201 101 1; Rejects 100 init_linear ] = true.
Proof. vm_compute. reflexivity. Qed.

(** 693-854: should disallow linear price swaps deposits/withdrawals! *)
Example e2e_disallow : run_test test_w
  [ MintTo 202 102 50000000000; Call 100 init_linear;
    MintTo 201 111 10000000000; MintTo 202 112 20000000000;
    Rejects 901 (DepositAll [100; auth 100; 901; 111; 112; 101; 102; 203; 113; TOKEN_PROGRAM_ID]
                            1000000000 10000000000 20000000000);
    Rejects 901 (DepositSingle [100; auth 100; 901; 112; 101; 102; 203; 113; TOKEN_PROGRAM_ID] 10000000000 1000000000);
    Rejects 905 (WithdrawAll [100; auth 100; 905; 203; 104; 101; 102; 131; 132; 103; TOKEN_PROGRAM_ID]
                             1000000000 0 10000000000);
    Rejects 905 (WithdrawSingle [100; auth 100; 905; 203; 104; 101; 102; 132; 103; TOKEN_PROGRAM_ID]
                                10000000000 1000000000) ] = true.
Proof. vm_compute. reflexivity. Qed.

(** 856-1442: should handle taki low slope! *)
Example e2e_taki : run_test test_w (
  [ MintTo 202 102 5000000000;
    Call 100 (InitLinearPrice init_keys 37 1400000000000000000 7 2); Balances [103; 104] [0; 1000000000];
    MintTo 201 111 10000000000; MintTo 202 112 1000000000;
    Rejects 901 (buy1 1); Rejects 901 (buy1 1000); Rejects 901 (buy1 1000000); Rejects 901 (buy1 10000000);
    Call 901 (buy1 133000000); Balances user1 [9867000000; 133000000; 1037837837; 4962162163];
    MintTo 201 111 5000000000; MintTo 202 102 5000000000;
    Call 901 (buy1 1000000000); Balances user1 [13867000000; 1133000000; 1264864864; 9735135136];
    MintTo 201 111 5000000000000; MintTo 202 102 5000000000000;
    Call 901 (buy1 1000000000000); Balances user1 [4013867000000; 1001133000000; 286940540539; 4724059459461];
    MintTo 201 111 5000000000000000; MintTo 202 102 5000000000000000;
    Call 901 (buy1 1000000000000000);
    Balances user1 [4004013867000000; 1001001133000000; 285693021621620; 4719317978378380] ] ++
  repeat (MintTo 201 111 5000000000000000) 20 ++ repeat (MintTo 202 102 5000000000000000) 6 ++
  [ Call 901 (buy1 100000000000000000);
    Balances user1 [4004013867000000; 101001001133000000; 26254896686486484; 8750114313513516];
    Call 901 (sell1 26000000000000000);
    Balances user1 [104112020877786866; 892994122213134; 254896686486484; 34750114313513516];
    Call 901 (sell1 254000000000000);
    Balances user1 [105001879405610388; 3135594389612; 896686486484; 35004114313513516];
    Call 901 (sell1 890000000000);
    Balances user1 [105004994397296837; 20602703163; 6686486484; 35005004313513516];
    Call 901 (sell1 5000000000);
    Balances user1 [105005011840540528; 3159459472; 1686486484; 35005009313513516];
    Call 901 (sell1 1686486484);
    Balances user1 [105005015000000000; 0; 778378376; 35005010221621624] ]) = true.
Proof. vm_compute. reflexivity. Qed.

(** app/cli/main.ts 12-33 and app/cli/token-swap-test.ts 220-665, on a constant-product
    pool.  This program cannot create such a pool (C48), so the test starts from its bytes;
    the amounts that the test computes with floating-point numbers (225-231, 288-304,
    489-499) are written out.  900 owns everything, 950 stands for the one-time transfer
    authorities. *)
Definition cli_pool : swap_state :=
  mk_swap_state true 255 TOKEN_PROGRAM_ID 101 102 203 201 202 103 (mk_fees 25 10000 5 10000 1 6 20 100) ConstantProduct.
Definition cli_w : world := of_list
  [ (100, mk_account PROGRAM_ID (DRaw match swap_pack cli_pool (repeat 0 324) with Ok l => l | Err _ => [] end));
    (101, tok 201 (auth 100) 1000000); (102, tok 202 (auth 100) 1000000); (203, a_mint (auth 100) 1000000000);
    (103, tok 203 900 0); (104, tok 203 900 1000000000);
    (111, tok 201 900 0); (112, tok 202 900 0); (113, tok 203 900 0); (121, tok 201 900 0); (122, tok 202 900 0);
    (131, tok 201 900 0); (132, tok 202 900 0); (141, tok 201 900 0); (142, tok 202 900 0);
    (151, tok 201 900 0); (152, tok 202 900 0); (153, tok 203 900 0); (161, tok 201 900 0); (162, tok 202 900 0);
    (201, a_mint 999 1000000); (202, a_mint 999 1000000) ].
Example e2e_client : run_test cli_w
  [ (* 220-280 *)
    MintTo 201 111 10000; Approve 111 950 10000; MintTo 202 112 10000; Approve 112 950 10000;
    Call 950 (DepositAll [100; auth 100; 950; 111; 112; 101; 102; 203; 113; TOKEN_PROGRAM_ID] 10000000 10000 10000);
    Balances [111; 112; 101; 102; 113] [0; 0; 1010000; 1010000; 10000000];
    (* 282-347 *)
    Approve 104 950 10000000;
    Call 950 (WithdrawAll [100; auth 100; 950; 203; 104; 101; 102; 121; 122; 103; TOKEN_PROGRAM_ID] 10000000 8333 8333);
    Balances [104; 101; 102; 121; 122; 103] [990000000; 1001667; 1001667; 8333; 8333; 1666666];
    (* 428-487: 22277 pool tokens of fees *)
    MintTo 201 131 100000; Approve 131 950 100000;
    Call 950 (Swap [100; auth 100; 950; 131; 101; 102; 132; 203; 103; TOKEN_PROGRAM_ID] 100000 90674);
    Balances [131; 132; 101; 102; 104; 103] [0; 90674; 1101667; 910993; 990000000; 1688943];
    (* 349-426 *)
    MintTo 201 141 100000; Approve 141 950 100000;
    Call 950 (Swap [100; auth 100; 950; 141; 101; 102; 142; 203; 103; TOKEN_PROGRAM_ID] 100000 0);
    (* 501-576 *)
    MintTo 201 151 10000; Approve 151 950 10000; MintTo 202 152 10000; Approve 152 950 10000;
    Call 950 (DepositSingle [100; auth 100; 950; 151; 101; 102; 203; 153; TOKEN_PROGRAM_ID] 10000 4154175);
    Balances [151; 101] [0; 1211667];
    Call 950 (DepositSingle [100; auth 100; 950; 152; 101; 102; 203; 153; TOKEN_PROGRAM_ID] 10000 5970166);
    Balances [152; 102] [0; 845391]; AtLeast 153 10124341;
    (* 578-665 *)
    Approve 104 950 61606760;
    Call 950 (WithdrawSingle [100; auth 100; 950; 203; 104; 101; 102; 161; 103; TOKEN_PROGRAM_ID] 50000 25109120);
    Balances [161; 101] [50000; 1161667]; AtLeast 104 964890880;
    Call 950 (WithdrawSingle [100; auth 100; 950; 203; 104; 101; 102; 162; 103; TOKEN_PROGRAM_ID] 50000 36497640);
    Balances [162; 102] [50000; 795391]; AtLeast 104 928393240 ] = true.
Proof. vm_compute. reflexivity. Qed.
