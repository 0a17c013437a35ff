(** The client library in app/src: C85 to C90. *)
From Verif Require Import Tactics Ints Fees SwapCurve Codec Token Processor Api History Entry Client
  Spec LedgerSpec WireSpec ClientSpec.
From Verif Require Import ClientFacts ClientWitness LedgerExamples HistoryExamples.

(** C85.  The program does not understand what the library sends: a swap that goes
    through with the program's tag is rejected with the library's. *)
Theorem C85_understood_refuted : exists e w payer user c i w', env_ok e /\
  swap_instruction 100 (auth 100) user 111 101 102 112 203 103 None PROGRAM_ID TOKEN_PROGRAM_ID 600 2 = Some c /\
  entry e w (retagged i (call_of payer [] c)) = Ok w' /\
  entry e w (call_of payer [] c) = Err ERuntime.
Proof. exact client_swap_refuted. Qed.
Print Assumptions C85_understood_refuted.

(** C85.  None of its instructions is ever accepted: in no state, for no arguments,
    with no accounts and no signatures. *)
Theorem C85_never_accepted : forall c e w signers writable accounts, client_made c ->
  entry e w (mk_transaction signers writable accounts (ci_data c)) = Err ERuntime.
Proof. exact never_accepted. Qed.
Print Assumptions C85_never_accepted.

(** C85.  Nor is the address it sends to by default the one the program declares. *)
Theorem C85_program_refuted : TOKEN_SWAP_PROGRAM_ID <> PROGRAM_ID.
Proof. vm_compute. discriminate. Qed.
Print Assumptions C85_program_refuted.
(** The 17 bytes of a swap of 600 for at least 2. *)
Example C85_case :
  match swap_instruction 100 (auth 100) 901 111 101 102 112 203 103 None PROGRAM_ID TOKEN_PROGRAM_ID 600 2 with
  | Some c => ci_data c = [1; 88; 2; 0; 0; 0; 0; 0; 0; 2; 0; 0; 0; 0; 0; 0; 0] /\
              map pubkey (filter is_writable (ci_keys c)) = [111; 101; 102; 112; 203; 103] /\
              map pubkey (filter is_signer (ci_keys c)) = [901]
  | None => False
  end.
Proof. vm_compute. repeat split; reflexivity. Qed.

(** C86.  But for the tag the instructions are right: arguments, order of the accounts
    and flags are what the program expects. *)
Theorem C86_swap : forall pool authority user src vin vout dst mint fee host sp tp n m c e w payer others,
  swap_instruction pool authority user src vin vout dst mint fee host sp tp n m = Some c ->
  let i := Swap ([pool; authority; user; src; vin; vout; dst; mint; fee; tp] ++
                 match host with Some h => [h] | None => [] end) (Z.abs n) (Z.abs m) in
  entry e w (retagged i (call_of payer others c)) = exec e (payer :: others ++ [user]) w i.
Proof. exact swap_retagged. Qed.
Print Assumptions C86_swap.
Theorem C86_deposit_all : forall pool authority user sa sb va vb mint dest sp tp n a b c e w payer others,
  deposit_all_instruction pool authority user sa sb va vb mint dest sp tp n a b = Some c ->
  let i := DepositAll [pool; authority; user; sa; sb; va; vb; mint; dest; tp] (Z.abs n) (Z.abs a) (Z.abs b) in
  entry e w (retagged i (call_of payer others c)) = exec e (payer :: others ++ [user]) w i.
Proof. exact deposit_all_retagged. Qed.
Print Assumptions C86_deposit_all.
Theorem C86_withdraw_all : forall pool authority user mint fee src va vb da db sp tp n a b c e w payer others,
  withdraw_all_instruction pool authority user mint fee src va vb da db sp tp n a b = Some c ->
  let i := WithdrawAll [pool; authority; user; mint; src; va; vb; da; db; fee; tp] (Z.abs n) (Z.abs a) (Z.abs b) in
  entry e w (retagged i (call_of payer others c)) = exec e (payer :: others ++ [user]) w i.
Proof. exact withdraw_all_retagged. Qed.
Print Assumptions C86_withdraw_all.
Theorem C86_deposit_single : forall pool authority user src va vb mint dest sp tp n m c e w payer others,
  deposit_single_instruction pool authority user src va vb mint dest sp tp n m = Some c ->
  let i := DepositSingle [pool; authority; user; src; va; vb; mint; dest; tp] (Z.abs n) (Z.abs m) in
  entry e w (retagged i (call_of payer others c)) = exec e (payer :: others ++ [user]) w i.
Proof. exact deposit_single_retagged. Qed.
Print Assumptions C86_deposit_single.
Theorem C86_withdraw_single : forall pool authority user mint fee src va vb dst sp tp n m c e w payer others,
  withdraw_single_instruction pool authority user mint fee src va vb dst sp tp n m = Some c ->
  let i := WithdrawSingle [pool; authority; user; mint; src; va; vb; dst; fee; tp] (Z.abs n) (Z.abs m) in
  entry e w (retagged i (call_of payer others c)) = exec e (payer :: others ++ [user]) w i.
Proof. exact withdraw_single_retagged. Qed.
Print Assumptions C86_withdraw_single.

(** C86.  The methods of a pool loaded from the ledger name the authority, vaults,
    mint, fee account and token program of that pool. *)
Theorem C86_methods : forall e w k s payer, reachable e w -> env_ok e -> pool_at w k s ->
  exists ts authority, load_token_swap e w k PROGRAM_ID = Some ts /\ create_pda e k (st_bump_seed s) = Some authority /\
  (forall source vin vout dest host user n m c, ts_swap ts source vin vout dest host user n m = Some c ->
     let i := Swap ([k; authority; user; source; vin; vout; dest; st_pool_mint s; st_pool_fee_account s; TOKEN_PROGRAM_ID] ++
                    match host with Some h => [h] | None => [] end) (Z.abs n) (Z.abs m) in
     entry e w (retagged i (call_of payer [] c)) = exec e [payer; user] w i) /\
  (forall ua ub dest user n a b c, ts_deposit_all ts ua ub dest user n a b = Some c ->
     let i := DepositAll [k; authority; user; ua; ub; st_token_a s; st_token_b s; st_pool_mint s; dest; TOKEN_PROGRAM_ID]
                         (Z.abs n) (Z.abs a) (Z.abs b) in
     entry e w (retagged i (call_of payer [] c)) = exec e [payer; user] w i) /\
  (forall ua ub source user n a b c, ts_withdraw_all ts ua ub source user n a b = Some c ->
     let i := WithdrawAll [k; authority; user; st_pool_mint s; source; st_token_a s; st_token_b s; ua; ub;
                           st_pool_fee_account s; TOKEN_PROGRAM_ID] (Z.abs n) (Z.abs a) (Z.abs b) in
     entry e w (retagged i (call_of payer [] c)) = exec e [payer; user] w i) /\
  (forall source dest user n m c, ts_deposit_single ts source dest user n m = Some c ->
     let i := DepositSingle [k; authority; user; source; st_token_a s; st_token_b s; st_pool_mint s; dest; TOKEN_PROGRAM_ID]
                            (Z.abs n) (Z.abs m) in
     entry e w (retagged i (call_of payer [] c)) = exec e [payer; user] w i) /\
  (forall dest source user n m c, ts_withdraw_single ts dest source user n m = Some c ->
     let i := WithdrawSingle [k; authority; user; st_pool_mint s; source; st_token_a s; st_token_b s; dest;
                              st_pool_fee_account s; TOKEN_PROGRAM_ID] (Z.abs n) (Z.abs m) in
     entry e w (retagged i (call_of payer [] c)) = exec e [payer; user] w i).
Proof. exact loaded_methods. Qed.
Print Assumptions C86_methods.
(** On the example ledger: 600 units of token A against the linear pool, and all the
    pool tokens of user 901 against the constant-price pool. *)
Example C86_case :
  match load_token_swap ex_env ex_w2 100 PROGRAM_ID, load_token_swap ex_env ex_w2 300 PROGRAM_ID with
  | Some ts1, Some ts2 =>
      match ts_swap ts1 111 101 102 112 None 901 600 2, ts_withdraw_all ts2 111 112 304 901 1000000000 1 1 with
      | Some c1, Some c2 =>
          bals (entry ex_env ex_w2 (retagged (Swap [] 0 0) (call_of 902 [] c1))) [111; 101; 102; 112]
            = [99400; 600; 4989; 50011] /\
          bals (entry ex_env ex_w2 (retagged (WithdrawAll [] 0 0 0) (call_of 902 [] c2))) [301; 302; 304; 303]
            = [825; 0; 0; 50000000]
      | _, _ => False
      end
  | _, _ => False
  end.
Proof. vm_compute. repeat split; reflexivity. Qed.

(** C87.  Creation is not right even with the tag: the library writes the type of the
    curve before the parameter, the program expects none. *)
Theorem C87_price_refuted : exists pool authority a b mint fee dest f p c,
  is_u64 p /\ fees_wf f /\
  create_init_swap_instruction pool authority a b mint fee dest TOKEN_PROGRAM_ID PROGRAM_ID f 1 p = Some c /\
  exists i q, decode (map pubkey (ci_keys c)) (tx_data (retagged i (call_of 902 [pool] c))) = Ok i /\
    i = InitConstantPrice [pool; authority; a; b; mint; fee; dest; TOKEN_PROGRAM_ID] f q /\ q <> p.
Proof. exact client_price_refuted. Qed.
Print Assumptions C87_price_refuted.

(** C87.  Accounts and fees are read as meant, and the price is this: *)
Theorem C87_creation : forall pool authority a b mint fee dest tp sp f kind p c e w payer others,
  create_init_swap_instruction pool authority a b mint fee dest tp sp f kind p = Some c ->
  fees_wf f -> is_u8 kind ->
  let i := InitConstantPrice [pool; authority; a; b; mint; fee; dest; tp] f (kind + 256 * (Z.abs p mod 2 ^ 56)) in
  entry e w (retagged i (call_of payer others c)) = exec e (payer :: others) w i.
Proof. exact init_retagged. Qed.
Print Assumptions C87_creation.

(** C87.  For the constant-price curve (type 1) exactly one price survives. *)
Theorem C87_only_price : forall p, is_u64 p -> 1 + 256 * (p mod 2 ^ 56) = p <-> p = 72340172838076673.
Proof. exact init_price_right. Qed.
Print Assumptions C87_only_price.
(** A price of 3 becomes 769. *)
Example C87_case :
  match create_init_swap_instruction 300 (auth 300) 301 302 403 303 304 TOKEN_PROGRAM_ID PROGRAM_ID ex_fees 1 3 with
  | Some c =>
      let t := retagged (InitConstantPrice [] ex_fees 0) (call_of 902 [300] c) in
      decode (tx_accounts t) (tx_data t) =
        Ok (InitConstantPrice [300; auth 300; 301; 302; 403; 303; 304; TOKEN_PROGRAM_ID] ex_fees 769) /\
      bals (entry ex_env ex_w1 t) [304] = [1000000000]
  | None => False
  end.
Proof. vm_compute. repeat split; reflexivity. Qed.

(** C88.  Amounts: the library writes the 8 bytes of the magnitude, and refuses what
    does not fit ... *)
Theorem C88_written : forall x, to_buffer x = if Z.abs x <=? u64_max then Some (le64 (Z.abs x)) else None.
Proof. exact to_buffer_spec. Qed.
Print Assumptions C88_written.
(** ... and reads back what it wrote. *)
Theorem C88_read : forall x b, to_buffer x = Some b -> from_buffer b = Some (Z.abs x).
Proof. exact from_to_buffer. Qed.
Print Assumptions C88_read.
(** C88.  A negative amount is not refused but sent without its sign. *)
Theorem C88_negative_refuted : exists x b, x < 0 /\ to_buffer x = Some b /\ from_buffer b = Some (- x).
Proof. exists (-600). eexists. repeat split; vm_compute; reflexivity. Qed.
Print Assumptions C88_negative_refuted.
Example C88_case :
  to_buffer 0 = Some [0; 0; 0; 0; 0; 0; 0; 0] /\ to_buffer 66051 = Some [3; 2; 1; 0; 0; 0; 0; 0] /\
  to_buffer u64_max = Some [255; 255; 255; 255; 255; 255; 255; 255] /\ to_buffer (u64_max + 1) = None.
Proof. vm_compute. repeat split; reflexivity. Qed.

(** C89.  Every pool is loaded with exactly the keys, fees and type of curve it has,
    and with the authority that the program derives; the account size is the program's. *)
Theorem C89_loaded : forall e w k s, reachable e w -> env_ok e -> pool_at w k s ->
  exists authority, create_pda e k (st_bump_seed s) = Some authority /\
    load_token_swap e w k PROGRAM_ID =
      Some (mk_token_swap k PROGRAM_ID (st_token_program_id s) (st_pool_mint s) (st_pool_fee_account s) authority
              (st_token_a s) (st_token_b s) (st_token_a_mint s) (st_token_b_mint s) (st_fees s) (curve_tag (st_curve s))).
Proof. exact load_pool. Qed.
Print Assumptions C89_loaded.
Theorem C89_size : LAYOUT_SPAN = LATEST_LEN.
Proof. reflexivity. Qed.
Print Assumptions C89_size.
(** The linear pool of the example ledger has a type of curve, 30, that the library has
    no name for. *)
Example C89_case :
  match load_token_swap ex_env ex_w2 100 PROGRAM_ID, load_token_swap ex_env ex_w2 300 PROGRAM_ID with
  | Some ts1, Some ts2 =>
      ts_curve_type ts1 = 30 /\ ~ In 30 CURVE_TYPES /\ ts_curve_type ts2 = 1 /\ ts_fees ts2 = ex_fees /\
      ts_authority ts2 = auth 300 /\ [ts_token_a ts2; ts_token_b ts2; ts_mint_a ts2; ts_mint_b ts2] = [301; 302; 201; 202]
  | _, _ => False
  end.
Proof. vm_compute. repeat split; try reflexivity. intros [H | [H | [H | []]]]; discriminate. Qed.

(** C90.  Not only pools are loaded: the library checks neither the version nor the
    size, so that the account with the interface description that Anchor keeps under
    the program passes for a pool. *)
Theorem C90_only_pools_refuted : exists e w k ts, env_ok e /\ reachable e w /\
  load_token_swap e w k PROGRAM_ID = Some ts /\ forall s, ~ pool_at w k s.
Proof. exact load_only_pools_refuted. Qed.
Print Assumptions C90_only_pools_refuted.

(** C90.  The version byte would tell: an account of the program that starts with 1 is
    always a pool. *)
Theorem C90_version_tells : forall e w k ts, env_ok e -> reachable e w ->
  load_token_swap e w k PROGRAM_ID = Some ts -> nth 0 (raw_of (a_data (w k))) 0 = 1 -> exists s, pool_at w k s.
Proof. exact load_versioned. Qed.
Print Assumptions C90_version_tells.
(** The version byte of the linear pool, and of the account in the counterexample. *)
Example C90_case :
  nth 0 (raw_of (a_data (ex_w2 100))) 0 = 1 /\ nth 0 (raw_of (a_data (idl_world 500))) 0 = 24.
Proof. vm_compute. repeat split; reflexivity. Qed.
