(** When instructions succeed, exactly: C52-C56. *)
From Verif Require Import Tactics Ints Fees SwapCurve Codec Token Processor Api History Spec LedgerSpec CallSpec.
From Verif Require Import CallFacts ExactFacts LedgerExamples.

(** C52.  A swap succeeds exactly when the accounts are the recorded ones, the
    user signed, the curve gives a quote within the caller's minimum and the token
    program accepts the three transfers; its result is what those calls produce. *)
Theorem C52_swap_exactly : forall e signers w accounts ain mout w',
  exec e signers w (Swap accounts ain mout) = Ok w' <-> swap_spec e signers w accounts ain mout w'.
Proof. exact swap_exact. Qed.
Print Assumptions C52_swap_exactly.
(** The caller's minimum and balance are inclusive limits: a minimum equal to the
    quote (2) passes, and so does spending the whole balance. *)
Example C52_case :
  let go ain mout := match exec ex_env [901] ex_w2
      (Swap [100; auth 100; 901; 111; 101; 102; 112; 203; 103; TOKEN_PROGRAM_ID] ain mout) with
    | Ok _ => true | Err _ => false end in
  go 101 2 = true /\ go 101 3 = false /\ go 100000 1 = true /\ go 100001 1 = false.
Proof. vm_compute. repeat split; reflexivity. Qed.

(** C53.  Deposits succeed exactly when the pool takes deposits, the accounts are
    the recorded ones, the price is within the caller's limits and no side is
    nothing, and the token program accepts the transfers and the minting. *)
Theorem C53_deposit_all_exactly : forall e signers w accounts n ma mb w', world_wf w ->
  exec e signers w (DepositAll accounts n ma mb) = Ok w' <-> deposit_all_spec e signers w accounts n ma mb w'.
Proof. exact deposit_all_exact. Qed.
Print Assumptions C53_deposit_all_exactly.
(** Maxima equal to the price (7 and 3) pass. *)
Example C53_case :
  let go n ma mb := match exec ex_env [901] ex_w2
      (DepositAll [300; auth 300; 901; 111; 112; 301; 302; 403; 304; TOKEN_PROGRAM_ID] n ma mb) with
    | Ok _ => true | Err _ => false end in
  go 1000000 7 3 = true /\ go 1000000 6 3 = false /\ go 1000000 7 2 = false /\ go 0 7 3 = false.
Proof. vm_compute. repeat split; reflexivity. Qed.

(** C53, one token. *)
Theorem C53_deposit_single_exactly : forall e signers w accounts n mp w', world_wf w ->
  exec e signers w (DepositSingle accounts n mp) = Ok w' <-> deposit_single_spec e signers w accounts n mp w'.
Proof. exact deposit_single_exact. Qed.
Print Assumptions C53_deposit_single_exactly.
Example C53_case_single :
  let go n mp := match exec ex_env [901] ex_w2
      (DepositSingle [300; auth 300; 901; 112; 301; 302; 403; 304; TOKEN_PROGRAM_ID] n mp) with
    | Ok _ => true | Err _ => false end in
  go 500 114923076 = true /\ go 500 114923077 = false.
Proof. vm_compute. repeat split; reflexivity. Qed.

(** C54.  Withdrawals, in the same way; there is no condition on the curve type. *)
Theorem C54_withdraw_all_exactly : forall e signers w accounts n ma mb w', world_wf w ->
  exec e signers w (WithdrawAll accounts n ma mb) = Ok w' <-> withdraw_all_spec e signers w accounts n ma mb w'.
Proof. exact withdraw_all_exact. Qed.
Print Assumptions C54_withdraw_all_exactly.
Example C54_case :
  let go n ma mb := match exec ex_env [901] ex_w2
      (WithdrawAll [300; auth 300; 901; 403; 304; 301; 302; 111; 112; 303; TOKEN_PROGRAM_ID] n ma mb) with
    | Ok _ => true | Err _ => false end in
  go 100000000 617 205 = true /\ go 100000000 618 205 = false /\ go 100000000 617 206 = false /\
  go 1000000000 0 0 = true /\ go 1000000001 0 0 = false.
Proof. vm_compute. repeat split; reflexivity. Qed.

(** C54, one token. *)
Theorem C54_withdraw_single_exactly : forall e signers w accounts n mp w', world_wf w ->
  exec e signers w (WithdrawSingle accounts n mp) = Ok w' <-> withdraw_single_spec e signers w accounts n mp w'.
Proof. exact withdraw_single_exact. Qed.
Print Assumptions C54_withdraw_single_exactly.
(** 38307693 burnt and 1915384 charged. *)
Example C54_case_single :
  let go n mp := match exec ex_env [901] ex_w2
      (WithdrawSingle [300; auth 300; 901; 403; 304; 301; 302; 111; 303; TOKEN_PROGRAM_ID] n mp) with
    | Ok _ => true | Err _ => false end in
  go 500 40223077 = true /\ go 500 40223076 = false.
Proof. vm_compute. repeat split; reflexivity. Qed.

(** C55.  A pool can be created exactly when the listed conditions hold.  What the
    ledger then looks like is [C35_creation] in Props_Instructions. *)
Theorem C55_creation_exactly : forall e signers w i, env_ok e -> world_wf w -> creates i ->
  (exists w', exec e signers w i = Ok w') <-> create_spec e signers w i.
Proof. exact create_exact. Qed.
Print Assumptions C55_creation_exactly.
(** A linear pool needs empty collateral and some tokens to sell. *)
Example C55_case :
  let go a b := match exec ex_env [100] (upd (upd ex_w0 101 (tok 201 (auth 100) a)) 102 (tok 202 (auth 100) b)) ex_init1 with
    | Ok _ => true | Err _ => false end in
  go 0 1 = true /\ go 1 1 = false /\ go 0 0 = false.
Proof. vm_compute. repeat split; reflexivity. Qed.

(** C56.  The token program, as far as it is relied on: which calls it accepts and
    what they do. *)
Theorem C56_transfer_exactly : forall w signed s d a x w',
  spl_transfer w signed s d a x = Ok w' <-> call_ok signed w (CTransfer s d a x) w'.
Proof. exact transfer_iff. Qed.
Print Assumptions C56_transfer_exactly.
Theorem C56_mint_exactly : forall w signed m d a x w',
  spl_mint_to w signed m d a x = Ok w' <-> call_ok signed w (CMint m d a x) w'.
Proof. exact mint_iff. Qed.
Print Assumptions C56_mint_exactly.
Theorem C56_burn_exactly : forall w signed s m a x w',
  spl_burn w signed s m a x = Ok w' <-> call_ok signed w (CBurn s m a x) w'.
Proof. exact burn_iff. Qed.
Print Assumptions C56_burn_exactly.
(** A delegate (905) spends its allowance of 10 and is gone. *)
Example C56_case :
  let w := upd ex_w0 111 (mk_account TOKEN_PROGRAM_ID (DToken (mk_token 201 901 100 (Some 905) 10 false false None))) in
  let after x := match spl_transfer w [905] 111 101 905 x with
                 | Ok w' => match a_data (w' 111) with
                            | DToken t => Some (t_amount t, t_delegate t, t_delegated_amount t) | _ => None end
                 | Err _ => None end in
  after 4 = Some (96, Some 905, 6) /\ after 10 = Some (90, None, 0) /\ after 11 = None.
Proof. vm_compute. repeat split; reflexivity. Qed.
