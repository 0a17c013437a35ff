(** C99: tokens are neither created nor destroyed. *)
From Verif Require Import Ints Fees LinearCurve SwapCurve Codec Token Processor Api History Spec LedgerSpec CallSpec WireSpec
  TotalSpec HistoryFacts LedgerExamples HistoryExamples TotalFacts.

(** C99.  However many instructions are tried, and whichever of them fail, the accounts [ks] lose
    and gain together exactly what is minted and burnt: for every mint the sum of the balances
    less the supply stays what it was. *)
Theorem C99_totals : forall e w l m ks, env_ok e -> world_wf w -> NoDup ks ->
  Forall (fun x => Forall is_pubkey (instr_accounts (snd x)) /\ incl (must_write (snd x)) ks) l ->
  total (play e w l) m ks - supply (play e w l) m = total w m ks - supply w m.
Proof. intros e w l m ks He W N F. exact (proj2 (play_total e m ks He N l w W F)). Qed.
Print Assumptions C99_totals.

(** A token that no instruction names as the pool's mint (tokens A and B) is neither minted nor burnt. *)
Theorem C99_base : forall e w l m ks, env_ok e -> world_wf w -> NoDup ks ->
  Forall (fun x => Forall is_pubkey (instr_accounts (snd x)) /\ incl (must_write (snd x)) ks /\
                   m <> mint_named (snd x)) l ->
  supply (play e w l) m = supply w m /\ total (play e w l) m ks = total w m ks.
Proof. exact play_base. Qed.
Print Assumptions C99_base.

(** The same for one instruction, for the accounts that it may write. *)
Theorem C99_instruction : forall e signers w i w' m, env_ok e -> world_wf w -> Forall is_pubkey (instr_accounts i) ->
  exec e signers w i = Ok w' ->
  let ks := nodup Z.eq_dec (must_write i) in
  total w' m ks - supply w' m = total w m ks - supply w m /\
  (m <> mint_named i -> supply w' m = supply w m /\ total w' m ks = total w m ks).
Proof. exact exec_base. Qed.
Print Assumptions C99_instruction.

(** A purchase, a deposit, a sale that fails on its limit, a withdrawal of both tokens and one of
    token A alone; the sums of tokens A, B and the pool token, and the supplies. *)
Example C99_case :
  let l := [ ([901], Swap [300; auth 300; 901; 111; 301; 302; 112; 403; 303; TOKEN_PROGRAM_ID] 1000 1);
             ([901], DepositAll [300; auth 300; 901; 111; 112; 301; 302; 403; 304; TOKEN_PROGRAM_ID] 1000000 1000 1000);
             ([901], Swap [300; auth 300; 901; 112; 302; 301; 111; 403; 303; TOKEN_PROGRAM_ID] 10 1000);
             ([901], WithdrawAll [300; auth 300; 901; 403; 304; 301; 302; 111; 112; 303; TOKEN_PROGRAM_ID] 500000 1 1);
             ([901], WithdrawSingle [300; auth 300; 901; 403; 304; 301; 302; 111; 303; TOKEN_PROGRAM_ID] 20 (2 ^ 40)) ] in
  let ks := [111; 112; 301; 302; 303; 304; 403] in
  let w' := play ex_env ex_w2 l in
  (map (fun m => (total ex_w2 m ks, supply ex_w2 m)) [201; 202; 403],
   map (fun m => (total w' m ks, supply w' m)) [201; 202; 403], bals (Ok w') ks)
  = ([(107000, 0); (52000, 0); (1000000000, 1000000000)],
     [(107000, 0); (52000, 0); (1000523229, 1000523229)],
     [99017; 50321; 7983; 1679; 1556171; 998967058; 1000523229]).
Proof. vm_compute. reflexivity. Qed.
