(** The host's share of the owner's fee: C97. *)
From Verif Require Import Ints Fees SwapCurve Codec Token Processor Api History Spec LedgerSpec CallSpec QuoteSpec.
From Verif Require Import HostSpec HostFacts LedgerExamples.

(** C97.  The processor's swap, given a host account, succeeds exactly when it would
    without one and the host's account is for pool tokens, and the token program
    accepts the two parts of the fee. *)
Theorem C97_host_exactly : forall e signers w ain mout pool authority user source ssrc sdst dest mint fee tp host rest w',
  world_wf w ->
  process_swap e signers w ain mout
    (pool :: authority :: user :: source :: ssrc :: sdst :: dest :: mint :: fee :: tp :: host :: rest) = Ok w' <->
  host_swap_spec e signers w
    (pool :: authority :: user :: source :: ssrc :: sdst :: dest :: mint :: fee :: tp :: host :: rest) ain mout w'.
Proof. exact swap_with_host. Qed.
Print Assumptions C97_host_exactly.

(** C97.  The host gets the configured fraction of the pool tokens minted for the fee
    (at least one), the owner the rest, and nothing else differs from a swap without
    a host. *)
Theorem C97_host_split : forall e signers w ain mout pool authority user source ssrc sdst dest mint fee tp host rest w',
  world_wf w -> is_u64 ain ->
  process_swap e signers w ain mout
    (pool :: authority :: user :: source :: ssrc :: sdst :: dest :: mint :: fee :: tp :: host :: rest) = Ok w' ->
  exists s r minted share, pool_at w pool s /\
    let d := if ssrc =? st_token_a s then AtoB else BtoA in
    let x := source_amount_swapped r in let y := destination_amount_swapped r in
    curve_swap (st_curve s) ain (balance w ssrc) (balance w sdst) d (st_fees s) = Val r /\
    curve_withdraw_single (st_curve s) (owner_fee r)
      (side_a d (balance w ssrc + x) (balance w sdst - y))
      (side_b d (balance w ssrc + x) (balance w sdst - y)) (supply w mint) d (st_fees s) = Val minted /\
    fee_of minted (host_fee_num (st_fees s)) (host_fee_den (st_fees s)) = Val share /\
    0 <= share <= minted /\
    ledger_change w w'
      (fun k => only_at ssrc k x - only_at source k x + only_at dest k y - only_at sdst k y
                + only_at host k share + only_at fee k (minted - share))
      (fun k => only_at mint k minted)
      [source; ssrc; mint; host; fee; sdst; dest] [source; sdst].
Proof. exact host_swap_effect. Qed.
Print Assumptions C97_host_split.

(** A pool whose host gets a quarter, account 305 of a host and two swaps: with the
    host, and with an account of another token in its place. *)
Definition C97_pool : instr :=
  InitConstantPrice [300; auth 300; 301; 302; 403; 303; 304; TOKEN_PROGRAM_ID] (mk_fees 1 100 1 50 1 20 1 4) 3.
Definition C97_ledger : world :=
  let w := run1 [300] ex_w0 C97_pool in fun k => if k =? 305 then tok 403 902 0 else w k.
Definition C97_swap (more : list Z) : list Z :=
  [300; auth 300; 901; 111; 301; 302; 112; 403; 303; TOKEN_PROGRAM_ID] ++ more.
Example C97_case :
  let go more := bals (process_swap ex_env [901] C97_ledger 3000 1 (C97_swap more)) [111; 112; 301; 302; 403; 303; 305] in
  go [] = [97000; 50970; 10000; 1030; 1004507258; 4507258; 0] /\
  go [305] = [97000; 50970; 10000; 1030; 1004507258; 3380444; 1126814] /\
  go [112] = [].
Proof. vm_compute. repeat split; reflexivity. Qed.

(** C97.  But the program's swap instruction never looks at more than ten accounts ... *)
Theorem C97_no_host : forall e signers w accounts more ain mout, length accounts = 10%nat ->
  exec e signers w (Swap (accounts ++ more) ain mout) = exec e signers w (Swap accounts ain mout).
Proof. exact no_host. Qed.
Print Assumptions C97_no_host.

(** ... so that no host ever gets anything. *)
Theorem C97_instruction_refuted : exists e signers w accounts host ain mout w', length accounts = 10%nat /\
  (exists w1, process_swap e signers w ain mout (accounts ++ [host]) = Ok w1 /\ balance w host < balance w1 host) /\
  exec e signers w (Swap (accounts ++ [host]) ain mout) = Ok w' /\ balance w' host = balance w host.
Proof.
  exists ex_env, [901], C97_ledger, (C97_swap []), 305, 3000, 1.
  eexists. split; [reflexivity |]. split; [| split].
  - eexists. split; [vm_compute; reflexivity | vm_compute; reflexivity].
  - vm_compute. reflexivity.
  - vm_compute. reflexivity.
Qed.
Print Assumptions C97_instruction_refuted.
